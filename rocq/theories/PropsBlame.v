(** C58: the error names the field that is wrong.
    [named e]: the bits of the field; [looked_up e]: these and the bits that select the table it is looked up
    in; [hopeless]: no word with the same bits there is decoded; [curable]: another value there is decoded;
    [misplaced], [incurable]: the exceptions.  See SpecBlame.v. *)
From Coq Require Import ZArith List.
From Verif Require Import Rust Types Decode Spec SpecBlame.
From Verif Require Util Plat Text Blame.
Import ListNotations.
Local Open Scope Z_scope.

(** If decoding fails with the name of a field, the field's value is not used by any instruction (with the same
    opcode etc.), except for the words in [misplaced], where it is; and another value of that field alone makes a
    valid instruction, except on RV32 in the 64-bit major opcodes. *)
Theorem C58_error_names_the_field_partial : forall p isa w e, platform_ok p -> is_u32 w -> In e blamable ->
  decode_u32 p w isa = Ret (Err e) ->
  (hopeless p isa (looked_up e) w <-> ~ misplaced isa e w) /\
  (curable p isa (named e) w <-> ~ incurable isa w).
Proof. exact Blame.blame. Qed.
Print Assumptions C58_error_names_the_field_partial.

(** Half-words: InvalidOpcode means that no half-word with the same bits 15..13 and 1..0 is decoded, but for the
    C.SUB group. *)
Theorem C58_error_names_the_field_u16_partial : forall p isa w, platform_ok p -> is_u16 w ->
  decode_u16 p w isa = Ret (Err InvalidOpcode) ->
  (hopeless16 p isa looked_up16 w <-> ~ misplaced16 w).
Proof. exact Blame.blame16. Qed.
Print Assumptions C58_error_names_the_field_u16_partial.

(** cbo.zero with another number: InvalidOpcode, with the opcode of cbo.zero and fence. *)
Theorem C58_error_names_the_field_refuted : exists isa e w w' i, In e blamable /\ is_u32 w /\ is_u32 w' /\
  opcode_is w 0x0F /\ opcode_is w' 0x0F /\ e = InvalidOpcode /\
  forall p, platform_ok p -> decode_u32 p w isa = Ret (Err e) /\ decode_u32 p w' isa = Ret (Ok i).
Proof. exact Blame.misplaced_witness. Qed.
Print Assumptions C58_error_names_the_field_refuted.

(** addiw with funct3 = 2 on RV32: InvalidFunct3, but no funct3 is right. *)
Theorem C58_another_value_is_right_refuted : exists e w, In e blamable /\ is_u32 w /\ e = InvalidFunct3 /\
  forall p, platform_ok p -> decode_u32 p w Rv32 = Ret (Err e) /\ ~ curable p Rv32 (named e) w.
Proof. exact Blame.incurable_witness. Qed.
Print Assumptions C58_another_value_is_right_refuted.

Theorem C58_error_names_the_field_u16_refuted : exists w w' i, is_u16 w /\ is_u16 w' /\
  same_in looked_up16 w w' /\
  forall p, platform_ok p ->
    decode_u16 p w Rv64 = Ret (Err InvalidOpcode) /\ decode_u16 p w' Rv64 = Ret (Ok i).
Proof. exact Blame.misplaced16_witness. Qed.
Print Assumptions C58_error_names_the_field_u16_refuted.

(** add with funct7 = 2: no value of the other fields helps, another funct7 does. *)
Example C58_case : decode_u32 Text.plat 0x04000033 Rv32 = Ret (Err InvalidFunct7) /\
  hopeless Text.plat Rv32 0xFE00707F 0x04000033 /\ curable Text.plat Rv32 0xFE000000 0x04000033.
Proof. exact Blame.blame_case. Qed.
