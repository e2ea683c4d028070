(** C45-C47: the text of any value, the Debug text, streams of instructions. *)
From Coq Require Import ZArith List Bool String.
From Verif Require Import Rust Types Decode Fmt Debug Spec SpecOps SpecText SpecDisplay SpecDebug SpecAsm SpecStream.
From Verif Require Util Text Findings Disp DebugOk Asm4 Asm5 Stream.
Import ListNotations.
Local Open Scope list_scope.
Local Open Scope Z_scope.

(** ** C45 *)

(** [i] need not be decoded: the fields of [Instruction] are public. *)
Theorem C45_display_of_any_value :
  (forall i s, unsigned_registers i ->
     (Instruction_display i = Ret s <->
      exists t rest, layout (inst_format i) (opc i) t /\
        s = (OpcodeKind_display (opc i) ++ rest)%string /\ reads_as t i rest)) /\
  (forall i, unsigned_registers i ->
     ((exists why, Instruction_display i = Panic why) <->
      (forall t, ~ layout (inst_format i) (opc i) t) \/
      exists t, layout (inst_format i) (opc i) t /\ lacks t i)) /\
  (forall i, unsigned_registers i ->
     (Instruction_display i = Panic PUnreachable <-> forall t, ~ layout (inst_format i) (opc i) t)) /\
  (forall f op t t', layout f op t -> layout f op t' -> t = t') /\
  (forall op t, printed op = Some t -> layout (get_format op) op t).
Proof.
  exact (conj Disp.display_layout (conj Disp.display_panic_iff (conj Disp.display_unreachable
    (conj Disp.layout_one Disp.layout_printed)))).
Qed.
Print Assumptions C45_display_of_any_value.

(** An add without rs2, and one with rs2 = x32. *)
Example C45_case : let i t :=
    {| opc := OBaseI I_ADD; rd := Some 1; rs1 := Some 2; rs2 := t; imm := None;
       inst_format := RFormat; is_compressed := true |} in
  unsigned_registers (i (Some 32)) /\ layout RFormat (OBaseI I_ADD) rrr /\ lacks rrr (i None) /\
  Instruction_display (i None) = Panic PUnwrap /\ Instruction_display (i (Some 32)) = Panic PUnknownReg /\
  Instruction_display (i (Some 31)) = Ret "add ra, sp, t6"%string.
Proof.
  split; [intros [] v N E; cbn in E; try congruence; injection E as <-; discriminate|].
  split; [apply (L_rrr RFormat); [cbn; auto|discriminate]|].
  split; [|repeat split].
  exists ORs2. split; [exists (Reg ORs2); cbn; auto 10|]. left. reflexivity.
Qed.

(** ** C46 *)

Theorem C46_debug :
  (forall r r', compact (decode_debug r) = compact (decode_debug r') -> r = r') /\
  (forall r r', pretty 0 (decode_debug r) = pretty 0 (decode_debug r') -> r = r') /\
  (forall i j, compact (Instruction_debug i) = compact (Instruction_debug j) -> i = j) /\
  (forall i j, pretty 0 (Instruction_debug i) = pretty 0 (Instruction_debug j) -> i = j) /\
  (forall i, exists l, fields i l /\ compact (Instruction_debug i) = on_one_line l /\
     compact (decode_debug (Ok i)) = ("Ok(" ++ on_one_line l ++ ")")%string) /\
  (forall i, exists l, fields i l /\ pretty 0 (Instruction_debug i) = text_of_lines (on_lines l) /\
     pretty 0 (decode_debug (Ok i)) =
       text_of_lines ("Ok("%string :: further (comma (on_lines l)) ++ [")"%string])) /\
  (forall e, compact (decode_debug (Err e)) = ("Err(" ++ error_name e ++ ")")%string /\
     pretty 0 (decode_debug (Err e)) = text_of_lines ["Err("; "    " ++ error_name e ++ ","; ")"]%string) /\
  (forall i l l', fields i l -> fields i l' -> l = l').
Proof.
  exact (conj DebugOk.debug_inj (conj DebugOk.debug_pretty_inj (conj DebugOk.compact_inj
    (conj DebugOk.pretty_inj (conj DebugOk.debug_one_line (conj DebugOk.debug_lines
    (conj DebugOk.debug_error DebugOk.fields_one))))))).
Qed.
Print Assumptions C46_debug.

Example C46_case : exists i, decode_u32 Text.plat 0xEEC28293 Rv64 = Ret (Ok i) /\
  compact (decode_debug (Ok i)) = ("Ok(Instruction { opc: BaseI(ADDI), rd: Some(5), rs1: Some(5), rs2: None, "
    ++ "imm: Some(-276), inst_format: IFormat, is_compressed: false })")%string /\
  compact (decode_debug (Err OnlyRv64Inst)) = "Err(OnlyRv64Inst)"%string /\
  pretty 0 (decode_debug (Ok i)) = text_of_lines
    ["Ok("; "    Instruction {"; "        opc: BaseI("; "            ADDI,"; "        ),";
     "        rd: Some("; "            5,"; "        ),"; "        rs1: Some("; "            5,"; "        ),";
     "        rs2: None,"; "        imm: Some("; "            -276,"; "        ),";
     "        inst_format: IFormat,"; "        is_compressed: false,"; "    },"; ")"]%string.
Proof. eexists. split; [vm_compute; reflexivity|]. repeat split; vm_compute; reflexivity. Qed.

(** ** C47 *)

Theorem C47_stream :
  (forall p isa is l, platform_ok p -> Forall (fun i => ~ misread i) is -> program isa is l ->
     walk (fun h => decode_u16 p h isa) (fun w => decode_u32 p w isa) l = map (fun i => Ret (Ok i)) is /\
     Forall is_u16 l) /\
  (forall p is l, platform_ok p -> Forall (fun i => ~ misread i) is -> program Rv64 is l ->
     walk (try_from_usize p) (try_from_usize p) l = map (fun i => Ret (Ok i)) is) /\
  (forall p isa l, platform_ok p -> Forall is_u16 l ->
     Forall (fun o => exists r, o = Ret r) (walk (fun h => decode_u16 p h isa) (fun w => decode_u32 p w isa) l)) /\
  (forall p l, platform_ok p -> Forall is_u16 l ->
     Forall (fun o => exists r, o = Ret r) (walk (try_from_usize p) (try_from_usize p) l)) /\
  (forall isa is is' l, Forall (fun i => ~ misread i) is -> Forall (fun i => ~ misread i) is' ->
     program isa is l -> program isa is' l -> is = is').
Proof.
  exact (conj Stream.walk_program (conj Stream.walk_try_from (conj Stream.walk_total
    (conj Stream.walk_try_from_total Stream.program_unique)))).
Qed.
Print Assumptions C47_stream.

(** addi t0, t0, -276; c.addi a0, -1; beq s0, s1, -4096. *)
Example C47_case : exists a b c,
  program Rv64 [a; b; c] [0x8293; 0xEEC2; 0x157D; 0x0063; 0x8094] /\ Forall (fun i => ~ misread i) [a; b; c] /\
  opc a = OBaseI I_ADDI /\ opc b = OC C_ADDI /\ opc c = OBaseI I_BEQ.
Proof.
  exists {| opc := OBaseI I_ADDI; rd := Some 5; rs1 := Some 5; rs2 := None; imm := Some (-276);
       inst_format := IFormat; is_compressed := false |},
    {| opc := OC C_ADDI; rd := Some 10; rs1 := Some 10; rs2 := None; imm := Some (-1);
       inst_format := CiFormat; is_compressed := true |},
    {| opc := OBaseI I_BEQ; rd := None; rs1 := Some 8; rs2 := Some 9; imm := Some (-4096);
       inst_format := BFormat; is_compressed := false |}.
  split; [|split; [repeat constructor; intros [[H _]|[H _]]; discriminate H|repeat split]].
  refine (Next Rv64 _ _ [0x8293; 0xEEC2] _ _ (Next Rv64 _ _ [0x157D] _ _ (Next Rv64 _ _ [0x0063; 0x8094] [] _ (Done Rv64)))).
  - refine (Two Rv64 _ 0xEEC28293 _ _).
    + apply (Asm4.decoded_valid32 Text.plat Rv64 0xEEC28293 _ Text.plat_ok);
        [vm_compute; split; congruence|vm_compute; reflexivity|].
      apply Findings.legal32_iff. vm_compute. reflexivity.
    + apply Asm5.encodes32_iff. vm_compute. reflexivity.
  - refine (One Rv64 _ 0x157D _ _).
    + apply (Asm4.decoded_valid16 Text.plat Rv64 0x157D _ Text.plat_ok);
        [vm_compute; split; congruence|vm_compute; reflexivity|].
      apply Findings.legal16_iff. vm_compute. reflexivity.
    + apply Asm5.encodes16_iff. vm_compute. reflexivity.
  - refine (Two Rv64 _ 0x80940063 _ _).
    + apply (Asm4.decoded_valid32 Text.plat Rv64 0x80940063 _ Text.plat_ok);
        [vm_compute; split; congruence|vm_compute; reflexivity|].
      apply Findings.legal32_iff. vm_compute. reflexivity.
    + apply Asm5.encodes32_iff. vm_compute. reflexivity.
Qed.
