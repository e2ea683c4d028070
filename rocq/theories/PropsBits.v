(** C48-C51: single operands, single bits, opcodes one bit apart, everything that can be returned. *)
From Coq Require Import ZArith String List Bool.
From Verif Require Import Rust Types Decode Spec SpecOps SpecText SpecAsm SpecBits.
From Verif Require Util Text Findings Bits.
Import ListNotations.
Local Open Scope list_scope.
Local Open Scope Z_scope.

(** ** C48 *)

Theorem C48_each_operand_has_its_bits :
  (forall p q isa w w' i i' o, platform_ok p -> platform_ok q -> is_u32 w -> is_u32 w' ->
     decode_u32 p w isa = Ret (Ok i) -> decode_u32 q w' isa = Ret (Ok i') -> opc i = opc i' ->
     (get o i = get o i' <->
      forall k, bit_of table32 isa (opc i) o k -> Z.testbit w k = Z.testbit w' k)) /\
  (forall p q isa w w' i i' o, platform_ok p -> platform_ok q -> is_u16 w -> is_u16 w' ->
     decode_u16 p w isa = Ret (Ok i) -> decode_u16 q w' isa = Ret (Ok i') -> opc i = opc i' ->
     (get o i = get o i' <->
      forall k, bit_of table16 isa (opc i) o k -> Z.testbit w k = Z.testbit w' k)).
Proof. exact (conj Bits.operand32 Bits.operand16). Qed.
Print Assumptions C48_each_operand_has_its_bits.

(** beq a0, a1, 8 and bit 7: a bit of the immediate, not of rs1. *)
Example C48_case : exists i i',
  decode_u32 Text.plat 0x00B50463 Rv32 = Ret (Ok i) /\ decode_u32 Text.plat 0x00B504E3 Rv32 = Ret (Ok i') /\
  opc i = opc i' /\ get ORs1 i = get ORs1 i' /\ get OImm i <> get OImm i' /\
  bit_of table32 Rv32 (OBaseI I_BEQ) OImm 7.
Proof.
  eexists. eexists. split; [vm_compute; reflexivity|]. split; [vm_compute; reflexivity|].
  split; [reflexivity|]. split; [reflexivity|]. split; [discriminate|].
  exists (same (OBaseI I_BEQ) cB (on_both (only ["....... ..... ..... 000 ..... 1100011"%string]))), 11, 11, 7.
  split; [unfold table32, base_i; rewrite in_app_iff; left; do 4 right; left; reflexivity|].
  split; [reflexivity|]. split; [cbn; auto 10|split; discriminate].
Qed.

(** ** C49 *)

(** Inverting a bit of a legal encoding goes unnoticed for exactly the bits of [blind]. *)
Theorem C49_unnoticed_bits :
  (forall p q isa w i k, platform_ok p -> platform_ok q -> is_u32 w -> 0 <= k < 32 ->
     decode_u32 p w isa = Ret (Ok i) -> legal32 isa (opc i) w ->
     (decode_u32 q (flip w k) isa = Ret (Ok i) <-> In k (blind (opc i)))) /\
  (forall p q isa w i k, platform_ok p -> platform_ok q -> is_u16 w -> 0 <= k < 16 ->
     decode_u16 p w isa = Ret (Ok i) -> legal16 isa (opc i) w ->
     (decode_u16 q (flip w k) isa = Ret (Ok i) <-> In k (blind (opc i)))).
Proof. exact (conj Bits.unnoticed32 Bits.unnoticed16). Qed.
Print Assumptions C49_unnoticed_bits.

(** sll a0, a1, a2: bit 25 turns it into mulh, bit 31 goes unnoticed. *)
Example C49_case : exists i j, decode_u32 Text.plat 0x00C59533 Rv64 = Ret (Ok i) /\
  legal32 Rv64 (opc i) 0x00C59533 /\ In 31 (blind (opc i)) /\ ~ In 25 (blind (opc i)) /\
  decode_u32 Text.plat (flip 0x00C59533 31) Rv64 = Ret (Ok i) /\
  decode_u32 Text.plat (flip 0x00C59533 25) Rv64 = Ret (Ok j) /\ opc j = OM M_MULH.
Proof.
  eexists. eexists. split; [vm_compute; reflexivity|].
  split; [apply Findings.legal32_iff; vm_compute; reflexivity|]. split; [vm_compute; auto 10|].
  split; [vm_compute; intuition discriminate|]. split; [vm_compute; reflexivity|].
  split; vm_compute; reflexivity.
Qed.

(** ** C50 *)

(** The format tags of siblings agree too, except for lr.w and lr.d. *)
Theorem C50_siblings :
  (forall p q isa a b k w i, platform_ok p -> platform_ok q -> is_u32 w ->
     In (a, b, k) siblings \/ In (b, a, k) siblings -> available32 isa b ->
     decode_u32 p w isa = Ret (Ok i) -> opc i = a -> legal32 isa a w ->
     legal32 isa b (flip w k) /\
     exists j, decode_u32 q (flip w k) isa = Ret (Ok j) /\ twin i b j /\
       (inst_format j = inst_format i <-> ~ (In (a, b) tagged_apart \/ In (b, a) tagged_apart))) /\
  (forall p q a b w i, platform_ok p -> platform_ok q -> is_u32 w ->
     In (a, b) shift_siblings -> decode_u32 p w Rv64 = Ret (Ok i) -> opc i = a -> legal32 Rv64 a w ->
     (exists s, imm i = Some s /\ s < 32) ->
     legal32 Rv64 b (flip w 3) /\
     exists j, decode_u32 q (flip w 3) Rv64 = Ret (Ok j) /\ twin i b j /\ inst_format j = inst_format i) /\
  (forall p q a b w i, platform_ok p -> platform_ok q -> is_u32 w ->
     In (a, b) shift_siblings -> decode_u32 p w Rv64 = Ret (Ok i) -> opc i = b -> legal32 Rv64 b w ->
     legal32 Rv64 a (flip w 3) /\
     exists j, decode_u32 q (flip w 3) Rv64 = Ret (Ok j) /\ twin i a j /\ inst_format j = inst_format i).
Proof. exact (conj Bits.sibling32 (conj Bits.shift_sibling Bits.shift_sibling_back)). Qed.
Print Assumptions C50_siblings.

(** lr.w a0, (a1) and lr.d a0, (a1). *)
Example C50_lr : exists p isa w i j, platform_ok p /\ is_u32 w /\
  decode_u32 p w isa = Ret (Ok i) /\ opc i = OA A_LR_W /\ legal32 isa (opc i) w /\
  decode_u32 p (flip w 12) isa = Ret (Ok j) /\ twin i (OA A_LR_D) j /\ inst_format j <> inst_format i.
Proof. exact Bits.lr_format_refuted. Qed.

(** amoadd.w.aq a0, a1, (a2) and amoadd.d.aq; slli a0, a1, 3 and slliw. *)
Example C50_case : exists i j i' j',
  decode_u32 Text.plat 0x04B6252F Rv64 = Ret (Ok i) /\ decode_u32 Text.plat 0x04B6352F Rv64 = Ret (Ok j) /\
  flip 0x04B6252F 12 = 0x04B6352F /\ In (opc i, opc j, 12) siblings /\ legal32 Rv64 (opc i) 0x04B6252F /\
  decode_u32 Text.plat 0x00359513 Rv64 = Ret (Ok i') /\ decode_u32 Text.plat 0x0035951B Rv64 = Ret (Ok j') /\
  flip 0x00359513 3 = 0x0035951B /\ In (opc i', opc j') shift_siblings /\ legal32 Rv64 (opc i') 0x00359513 /\
  imm i' = Some 3.
Proof.
  do 4 eexists. split; [vm_compute; reflexivity|]. split; [vm_compute; reflexivity|].
  split; [reflexivity|]. split; [cbn [opc]; unfold siblings; do 44 right; left; reflexivity|].
  split; [apply Findings.legal32_iff; vm_compute; reflexivity|].
  split; [vm_compute; reflexivity|]. split; [vm_compute; reflexivity|]. split; [reflexivity|].
  split; [left; reflexivity|]. split; [apply Findings.legal32_iff; vm_compute; reflexivity|reflexivity].
Qed.

(** ** C51 *)

Theorem C51_everything_returned :
  (forall p isa op, platform_ok p ->
     ((exists w i, is_u32 w /\ decode_u32 p w isa = Ret (Ok i) /\ opc i = op) <->
      op_is_16 op = false /\ ~ In op (unreturned32 isa))) /\
  (forall p isa op, platform_ok p ->
     ((exists w i, is_u16 w /\ decode_u16 p w isa = Ret (Ok i) /\ opc i = op) <->
      op_is_16 op = true /\ ~ In op (unreturned16 isa))) /\
  (forall p isa e, platform_ok p ->
     ((exists w, is_u32 w /\ decode_u32 p w isa = Ret (Err e)) <-> In e (errors_seen32 isa))) /\
  (forall p isa e, platform_ok p ->
     ((exists w, is_u16 w /\ decode_u16 p w isa = Ret (Err e)) <-> In e (errors_seen16 isa))) /\
  (forall p isa f, platform_ok p ->
     ((exists w i, is_u32 w /\ decode_u32 p w isa = Ret (Ok i) /\ inst_format i = f) <-> In f formats32)) /\
  (forall p isa f, platform_ok p ->
     ((exists w i, is_u16 w /\ decode_u16 p w isa = Ret (Ok i) /\ inst_format i = f) <-> In f formats16)).
Proof.
  exact (conj Bits.returned32 (conj Bits.returned16 (conj Bits.erred32 (conj Bits.erred16
    (conj Bits.formatted32 Bits.formatted16))))).
Qed.
Print Assumptions C51_everything_returned.

(** subw is returned on Rv64 only; neither length error is ever returned. *)
Example C51_case : ~ In (OBaseI I_SUBW) (unreturned32 Rv64) /\ In (OBaseI I_SUBW) (unreturned32 Rv32) /\
  ~ In Not16BitInst (errors_seen32 Rv32) /\ ~ In Not32BitInst (errors_seen16 Rv64) /\
  In InvalidFunct6 (errors_seen32 Rv64) /\ In OnlyRs2 formats32 /\ ~ In OnlyRs2 formats16.
Proof.
  repeat match goal with |- _ /\ _ => split end; vm_compute; intuition discriminate.
Qed.
