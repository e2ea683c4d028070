(** C52, C53: what the format tag says about the operands, and where their bits come from. *)
From Coq Require Import ZArith String List Bool.
From Verif Require Import Rust Types Decode Spec SpecOps SpecText SpecApi SpecFormat.
From Verif Require Util Text Formats.
Import ListNotations.
Local Open Scope list_scope.
Local Open Scope Z_scope.

(** ** C52 *)

(** An instruction has the operands its tag names and no others, with exactly these exceptions. *)
Theorem C52_tag_names_the_operands_partial : forall i o, decoded i ->
  (In o (named (inst_format i)) /\ get o i = None <-> In (opc i, o) lacking) /\
  (get o i <> None /\ ~ In o (named (inst_format i)) <-> In (opc i, o) unnamed).
Proof. exact Formats.tag. Qed.
Print Assumptions C52_tag_names_the_operands_partial.

(** lr.d is tagged "sc.w rd, rs2, (rs1)" and has no rs2; slli is tagged "srai rd, rs1" and has a shift
    amount. *)
Theorem C52_tag_names_the_operands_refuted :
  (exists i, decoded i /\ In ORs2 (named (inst_format i)) /\ get ORs2 i = None) /\
  (exists i, decoded i /\ ~ In OImm (named (inst_format i)) /\ get OImm i = Some 40).
Proof. exact Formats.tag_refuted. Qed.
Print Assumptions C52_tag_names_the_operands_refuted.

(** sd a0, 8(sp) has the operands of its tag. *)
Example C52_case : exists i, decode_u32 Text.plat 0x00A13423 Rv64 = Ret (Ok i) /\ decoded i /\
  inst_format i = SFormat /\ named SFormat = [ORs1; ORs2; OImm] /\
  (get ORd i, get ORs1 i, get ORs2 i, get OImm i) = (None, Some 2, Some 10, Some 8).
Proof.
  eexists. split; [vm_compute; reflexivity|]. split; [|vm_compute; auto].
  exact (Text.dec_decoded (Text.W32 0x00A13423) _ eq_refl eq_refl).
Qed.

(** ** C53 *)

Theorem C53_where_the_bits_come_from :
  (forall p isa w i o v, platform_ok p -> is_u32 w -> decode_u32 p w isa = Ret (Ok i) ->
     get o i = Some v -> exists s, sources32 isa (opc i) (inst_format i) o = Some s /\ drawn s w v) /\
  (forall p isa w i o v, platform_ok p -> is_u16 w -> decode_u16 p w isa = Ret (Ok i) ->
     get o i = Some v -> exists s, sources16 (opc i) (inst_format i) o = Some s /\ drawn s w v).
Proof. exact (conj Formats.drawn32 Formats.drawn16). Qed.
Print Assumptions C53_where_the_bits_come_from.

(** beq a0, a1, -4096 + 2048: bit 11 of the offset is bit 7 of the word; c.j -2048 + 1024: bit 10 is
    bit 8. *)
Example C53_case : exists i j,
  decode_u32 Text.plat 0x80B500E3 Rv32 = Ret (Ok i) /\ get OImm i = Some (-2048) /\
  (exists l, sources32 Rv32 (opc i) (inst_format i) OImm = Some (l, At 31) /\ nth 11 l Zero = At 7) /\
  decode_u16 Text.plat 0xB101 Rv32 = Ret (Ok j) /\ get OImm j = Some (-1024) /\
  (exists l, sources16 (opc j) (inst_format j) OImm = Some (l, At 12) /\ nth 10 l Zero = At 8).
Proof.
  eexists. eexists. split; [vm_compute; reflexivity|]. split; [reflexivity|].
  split; [eexists; split; reflexivity|]. split; [vm_compute; reflexivity|]. split; [reflexivity|].
  eexists; split; reflexivity.
Qed.
