(** C60: how many words are decoded as an instruction of each extension, and how many give each error.
    The numbers are in SpecCount.v. *)
From Coq Require Import ZArith List.
From Verif Require Import Rust Types Decode Spec SpecHelp SpecCount.
From Verif Require Count.
Import ListNotations.
Local Open Scope Z_scope.

Theorem C60_how_many : forall p isa, platform_ok p ->
  (forall x, exactly (words_of isa x)
     (fun w => is_u32 w /\ exists i, decode_u32 p w isa = Ret (Ok i) /\ extension_of (opc i) = x)) /\
  (forall e, exactly (rejected isa e) (fun w => is_u32 w /\ decode_u32 p w isa = Ret (Err e))) /\
  (forall x, exactly (half_words_of isa x)
     (fun w => is_u16 w /\ exists i, decode_u16 p w isa = Ret (Ok i) /\ extension_of (opc i) = x)) /\
  (forall e, exactly (half_rejected isa e) (fun w => is_u16 w /\ decode_u16 p w isa = Ret (Err e))).
Proof. exact Count.counts. Qed.
Print Assumptions C60_how_many.

(** Together these are all words: 297604131 of them are decoded on RV64, and 38783 half-words. *)
Example C60_case :
  fold_right Z.add 0 (map (words_of Rv64) [EBaseI; EM; EA; EC; EZifencei; EZicboz; EZicsr; EZicfiss; EZicntr; EPriv])
    = 297604131 /\
  297604131 + fold_right Z.add 0 (map (rejected Rv64) [InvalidFunct3; InvalidFunct5; InvalidFunct6; InvalidFunct7;
    InvalidOpcode; UnknownExtension; IllegalInstruction; OnlyRv64Inst]) = 2 ^ 32 /\
  half_words_of Rv64 EC + half_words_of Rv64 EZicfiss = 38783 /\
  38783 + half_rejected Rv64 InvalidOpcode + half_rejected Rv64 IllegalInstruction = 2 ^ 16.
Proof. vm_compute. auto. Qed.
