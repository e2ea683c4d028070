(** C59: src/instruction/opcode.rs, which is not compiled, against the compiled code.
    [compiled]: the opcode of the same name; [today]: the format of the same name; see SpecOpcode.v. *)
From Coq Require Import ZArith List String.
From Verif Require Import Rust Types Fmt SpecHelp SpecText OpcodeRs SpecOpcode.
From Verif Require OldOpcode.

(** The flat opcodes are the compiled ones without Zicboz, Zicfiss and Zicntr.  All have the same format; all but
    fence the same extension; all but fence and mulhsu the same text, and the old text is the manual's for all. *)
Theorem C59_old_opcode_table_partial :
  (forall f g, compiled f = compiled g -> f = g) /\
  (forall op, ~ newer op <-> exists f, compiled f = op) /\
  (forall f, today (flat_get_format f) = get_format (compiled f)) /\
  (forall f, flat_get_extension f = extension_of (compiled f) <-> f <> F_FENCE) /\
  (forall f, flat_to_string f = OpcodeKind_display (compiled f) <-> f <> F_FENCE /\ f <> F_MULHSU) /\
  (forall f, lower (flat_to_string f) = mnemonic (compiled f)).
Proof. exact OldOpcode.agreement. Qed.
Print Assumptions C59_old_opcode_table_partial.

Theorem C59_old_opcode_table_refuted : exists f g,
  flat_get_extension f <> extension_of (compiled f) /\
  flat_to_string g <> OpcodeKind_display (compiled g) /\ f = F_FENCE /\ g = F_MULHSU.
Proof. exact OldOpcode.disagreement. Qed.
Print Assumptions C59_old_opcode_table_refuted.

Example C59_case : today (flat_get_format F_LR_D) = AFormat /\ flat_get_extension F_SFENCE_VMA = EPriv /\
  flat_to_string F_MULHSU = "mulhsu"%string /\ OpcodeKind_display (OM M_MULHSU) = "mulhsu,"%string.
Proof. repeat split. Qed.
