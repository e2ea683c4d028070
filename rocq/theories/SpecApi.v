(** Vocabulary of the statements about the API: results of the decoders, which operands they
    have, conformance of their text. *)
From Coq Require Import ZArith List Bool String.
From Verif Require Import Rust Types Decode Fmt Spec SpecOps SpecText.
Local Open Scope Z_scope.

(** A decoded instruction: the result of either decoder on some input. *)
Definition decoded (i : Instruction) : Prop :=
  exists p isa w, platform_ok p /\
    (is_u32 w /\ decode_u32 p w isa = Ret (Ok i) \/ is_u16 w /\ decode_u16 p w isa = Ret (Ok i)).

(** Which operands are present. *)
Definition has {A} (o : option A) : bool := match o with Some _ => true | None => false end.
Definition inst_shape (i : Instruction) := (has (rd i), has (rs1 i), has (rs2 i), has (imm i)).

(** The text of [i] is the opcode's text followed by the documented operands. *)
Definition conforms (i : Instruction) : Prop :=
  exists rest, Instruction_display i = Ret (OpcodeKind_display (opc i) ++ rest)%string /\
    reads_as (documented (opc i)) i rest.
