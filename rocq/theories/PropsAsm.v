(** C35-C38: decoding against the manual's encoder, and the expansion of compressed instructions. *)
From Coq Require Import ZArith List Bool String.
From Verif Require Import Rust Types Decode Spec SpecOps SpecText SpecAsm.
From Verif Require Util Text Findings Asm4 Asm5.
Import ListNotations.
Local Open Scope list_scope.
Local Open Scope Z_scope.

(** Full claim: without [~ In (opc i) unreported], and for words legal as any opcode. *)
Theorem C35_reassemble_partial :
  (forall p isa w i, platform_ok p -> is_u32 w -> decode_u32 p w isa = Ret (Ok i) ->
     legal32 isa (opc i) w -> ~ In (opc i) unreported -> encodes32 isa i w) /\
  (forall p isa w i, platform_ok p -> is_u16 w -> decode_u16 p w isa = Ret (Ok i) ->
     legal16 isa (opc i) w -> encodes16 isa i w) /\
  (forall isa i w w', encodes32 isa i w -> encodes32 isa i w' -> w = w') /\
  (forall isa i w w', encodes16 isa i w -> encodes16 isa i w' -> w = w') /\
  (* of the unreported operands exactly aq and rl are lost *)
  (forall p isa w i w', platform_ok p -> is_u32 w -> decode_u32 p w isa = Ret (Ok i) ->
     legal32 isa (opc i) w -> In (opc i) unreported -> encodes32 isa i w' ->
     forall k, k <> 25 -> k <> 26 -> Z.testbit w k = Z.testbit w' k).
Proof.
  exact (conj Asm4.reassemble32 (conj Asm4.reassemble16 (conj Asm4.encodes32_unique
    (conj Asm4.encodes16_unique Asm4.reassemble_unreported)))).
Qed.
Print Assumptions C35_reassemble_partial.

Theorem C35_aq_rl_lost_refuted : exists p isa w w' i, platform_ok p /\ is_u32 w /\ is_u32 w' /\ w <> w' /\
  legal32 isa (opc i) w /\ legal32 isa (opc i) w' /\
  decode_u32 p w isa = Ret (Ok i) /\ decode_u32 p w' isa = Ret (Ok i).
Proof. exact Asm4.aqrl_refuted. Qed.
Print Assumptions C35_aq_rl_lost_refuted.

Theorem C35_csrrs_of_counter_refuted : exists p isa w i, platform_ok p /\ is_u32 w /\
  legal32 isa (OZicsr Csr_CSRRS) w /\ decode_u32 p w isa = Ret (Ok i) /\ ~ encodes32 isa i w.
Proof. exact Asm5.reassemble_refuted. Qed.
Print Assumptions C35_csrrs_of_counter_refuted.

Example C35_case : let i :=
    {| opc := OBaseI I_BNE; rd := None; rs1 := Some 5; rs2 := Some 6; imm := Some (-12);
       inst_format := BFormat; is_compressed := false |} in
  decode_u32 Text.plat 0xFE629AE3 Rv32 = Ret (Ok i) /\ legal32 Rv32 (opc i) 0xFE629AE3 /\
  encodes32 Rv32 i 0xFE629AE3.
Proof.
  split; [vm_compute; reflexivity|]. split; [apply Findings.legal32_iff|apply Asm5.encodes32_iff];
    vm_compute; reflexivity.
Qed.

(** Full claim: without [~ misread i]. *)
Theorem C36_assemble_partial :
  (forall p isa i w, platform_ok p -> valid32 isa i -> encodes32 isa i w -> ~ misread i ->
     is_u32 w /\ legal32 isa (opc i) w /\ decode_u32 p w isa = Ret (Ok i)) /\
  (forall p isa i w, platform_ok p -> valid16 isa i -> encodes16 isa i w -> ~ misread i ->
     is_u16 w /\ legal16 isa (opc i) w /\ decode_u16 p w isa = Ret (Ok i)) /\
  (forall isa i, valid32 isa i -> exists w, encodes32 isa i w) /\
  (forall isa i, valid16 isa i -> exists w, encodes16 isa i w).
Proof.
  exact (conj Asm4.assemble32 (conj Asm4.assemble16 (conj Asm4.encodes32_exists Asm4.encodes16_exists))).
Qed.
Print Assumptions C36_assemble_partial.

(** Conversely, whatever is decoded from a legal word is valid, so the restrictions of [valid32] and
    [valid16] exclude nothing that matters. *)
Theorem C36_decoded_is_valid :
  (forall p isa w i, platform_ok p -> is_u32 w -> decode_u32 p w isa = Ret (Ok i) ->
     legal32 isa (opc i) w -> valid32 isa i) /\
  (forall p isa w i, platform_ok p -> is_u16 w -> decode_u16 p w isa = Ret (Ok i) ->
     legal16 isa (opc i) w -> valid16 isa i).
Proof. exact (conj Asm4.decoded_valid32 Asm4.decoded_valid16). Qed.
Print Assumptions C36_decoded_is_valid.

Theorem C36_csrrs_of_counter_refuted : exists p isa i w, platform_ok p /\ valid32 isa i /\
  encodes32 isa i w /\ decode_u32 p w isa <> Ret (Ok i).
Proof. exact Asm5.assemble_refuted. Qed.
Print Assumptions C36_csrrs_of_counter_refuted.

Theorem C36_c_add_hint_refuted : exists p isa i w, platform_ok p /\ valid16 isa i /\
  encodes16 isa i w /\ decode_u16 p w isa <> Ret (Ok i).
Proof. exact Asm5.assemble16_refuted. Qed.
Print Assumptions C36_c_add_hint_refuted.

(** beq s0, s1, -4096 is valid, and its encoding is decoded to it. *)
Example C36_case : let i :=
    {| opc := OBaseI I_BEQ; rd := None; rs1 := Some 8; rs2 := Some 9; imm := Some (-4096);
       inst_format := BFormat; is_compressed := false |} in
  valid32 Rv64 i /\ encodes32 Rv64 i 0x80940063 /\ decode_u32 Text.plat 0x80940063 Rv64 = Ret (Ok i).
Proof.
  assert (D : decode_u32 Text.plat 0x80940063 Rv64 = Ret (Ok
    {| opc := OBaseI I_BEQ; rd := None; rs1 := Some 8; rs2 := Some 9; imm := Some (-4096);
       inst_format := BFormat; is_compressed := false |})) by (vm_compute; reflexivity).
  split; [|split; [apply Asm5.encodes32_iff; vm_compute; reflexivity|exact D]].
  apply (Asm4.decoded_valid32 Text.plat Rv64 0x80940063 _ Text.plat_ok); [vm_compute; split; congruence|exact D|].
  apply Findings.legal32_iff. vm_compute. reflexivity.
Qed.

(** Full claim: the last part but one without [~ In op unreported]. *)
Theorem C37_operand_bits_partial :
  (forall p q isa w w' i i', platform_ok p -> platform_ok q -> is_u32 w -> is_u32 w' ->
     decode_u32 p w isa = Ret (Ok i) -> decode_u32 q w' isa = Ret (Ok i') ->
     (i = i' <-> opc i = opc i' /\
        forall k, operand_bit table32 isa (opc i) k -> Z.testbit w k = Z.testbit w' k)) /\
  (forall p q isa w w' i i', platform_ok p -> platform_ok q -> is_u16 w -> is_u16 w' ->
     decode_u16 p w isa = Ret (Ok i) -> decode_u16 q w' isa = Ret (Ok i') ->
     (i = i' <-> opc i = opc i' /\
        forall k, operand_bit table16 isa (opc i) k -> Z.testbit w k = Z.testbit w' k)) /\
  (forall isa op w w', is_u32 w -> is_u32 w' -> legal32 isa op w -> legal32 isa op w' ->
     ~ In op unreported ->
     forall k, Z.testbit w k <> Z.testbit w' k -> operand_bit table32 isa op k) /\
  (forall isa op w w', is_u16 w -> is_u16 w' -> legal16 isa op w -> legal16 isa op w' ->
     forall k, Z.testbit w k <> Z.testbit w' k -> operand_bit table16 isa op k).
Proof.
  exact (conj Asm4.depends32 (conj Asm4.depends16 (conj Asm4.legal_differ32 Asm4.legal_differ16))).
Qed.
Print Assumptions C37_operand_bits_partial.

Theorem C37_aq_rl_refuted : exists p isa w w' i, platform_ok p /\ is_u32 w /\ is_u32 w' /\ w <> w' /\
  legal32 isa (opc i) w /\ legal32 isa (opc i) w' /\
  decode_u32 p w isa = Ret (Ok i) /\ decode_u32 p w' isa = Ret (Ok i).
Proof. exact Asm4.aqrl_refuted. Qed.
Print Assumptions C37_aq_rl_refuted.

(** jalr ra, 4(a0) and the (illegal, but accepted) word with funct3 = 1: bit 12 is no operand bit. *)
Example C37_case : 0x004500E7 <> 0x004510E7 /\
  decode_u32 Text.plat 0x004500E7 Rv64 = decode_u32 Text.plat 0x004510E7 Rv64 /\
  operand_bit table32 Rv64 (OBaseI I_JALR) 20 /\ Z.testbit 0x004500E7 20 <> Z.testbit 0x005500E7 20 /\
  decode_u32 Text.plat 0x004500E7 Rv64 <> decode_u32 Text.plat 0x005500E7 Rv64.
Proof.
  split; [discriminate|]. split; [vm_compute; reflexivity|].
  split; [apply Asm5.operand_bit_iff; vm_compute; reflexivity|]. split; vm_compute; discriminate.
Qed.

(** Full claim: for words legal as any opcode (the HINT c.add x0, rs2 is decoded as c.ebreak). *)
Theorem C38_expansion_partial : forall p q isa w i, platform_ok p -> platform_ok q -> is_u16 w ->
  decode_u16 p w isa = Ret (Ok i) -> legal16 isa (opc i) w ->
  exists j w', expand i = Some j /\ valid32 isa j /\ encodes32 isa j w' /\ is_u32 w' /\
    legal32 isa (opc j) w' /\ decode_u32 q w' isa = Ret (Ok j).
Proof. exact Asm5.expands. Qed.
Print Assumptions C38_expansion_partial.

Theorem C38_c_add_hint_refuted : exists p isa w i j, platform_ok p /\ is_u16 w /\
  legal16 isa (OC C_ADD) w /\ decode_u16 p w isa = Ret (Ok i) /\ expand i = Some j /\
  opc j <> OBaseI I_ADD.
Proof. exact Asm5.expand_refuted. Qed.
Print Assumptions C38_c_add_hint_refuted.

(** c.lui a5, -0x1F000 is lui a5, 0xFFFE1. *)
Example C38_case : exists i j, decode_u16 Text.plat 0x7785 Rv32 = Ret (Ok i) /\ expand i = Some j /\
  encodes32 Rv32 j 0xFFFE17B7 /\ decode_u32 Text.plat 0xFFFE17B7 Rv32 = Ret (Ok j) /\
  rd j = Some 15 /\ imm j = Some 0xFFFE1.
Proof.
  do 2 eexists. split; [vm_compute; reflexivity|]. split; [reflexivity|].
  split; [apply Asm5.encodes32_iff; vm_compute; reflexivity|].
  split; [vm_compute; reflexivity|]. split; reflexivity.
Qed.
