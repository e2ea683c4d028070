(** C76: what the tests written in /repo/src come to; see SpecTested.v.
    [P] is the crate as other crates see it and [T] the crate as it is built for its tests. *)
From Coq Require Import ZArith List Bool String.
From Verif Require Import Rust Types SrcText SrcLink SrcSem SrcEmbed SpecNames SpecMeaning SpecReach SpecTested.
From Verif Require SrcTested SrcTested2 Text.
Import ListNotations.
Local Open Scope Z_scope.
Local Open Scope string_scope.

(** Of the 832 branches, 331 are listed as tested, and 501 are not. *)
Theorem C76_list : forall P T, stands_for false false source P -> stands_for true true source T ->
  List.length (p_tests T) = 13%nat /\ List.length tested = 331%nat /\ List.length (untested P) = 501%nat /\ NoDup tested /\
  List.incl tested (branches P) /\ List.incl (branches P) (branches T).
Proof. exact SrcTested2.the_tested. Qed.
Print Assumptions C76_list.

(** The list has exactly the branches that some test comes to, on a 64-bit machine with overflow
    checks ([Text.plat]). *)
Theorem C76_exactly : forall P T b, stands_for false false source P -> stands_for true true source T -> In b (branches P) ->
  (In b tested <-> exists t, In t (p_tests T) /\ Calls (trapped [b] T) Text.plat t [] "" (Dies (Says "reached"))).
Proof. exact SrcTested2.exactly_tested. Qed.
Print Assumptions C76_exactly.

(** With all the others replaced at once, every test still passes. *)
Theorem C76_not_entered : forall P T p t, stands_for false false source P -> stands_for true true source T ->
  (usize_bits p = 32 \/ usize_bits p = 64) -> In t (p_tests T) ->
  forall r, Calls (trapped (untested P) T) p t [] "" r <-> r = Gives VUnit "".
Proof. exact SrcTested.not_entered. Qed.
Print Assumptions C76_not_entered.

(** So the tests say nothing about them: whatever else a program has there, it passes them all. *)
Theorem C76_blind : forall P T Q l p t, stands_for false false source P -> stands_for true true source T ->
  List.incl l (untested P) -> without_closures l T -> without_closures l Q -> differ_in l T Q ->
  (usize_bits p = 32 \/ usize_bits p = 64) -> In t (p_tests T) ->
  forall r, Calls Q p t [] "" r <-> r = Gives VUnit "".
Proof. exact SrcTested2.blind. Qed.
Print Assumptions C76_blind.

(** A crate whose [only_rv64] refuses nothing passes them, and decodes the 64-bit load [ld a0, 0(ra)] for a 32-bit
    machine. *)
Example C76_case : exists P T, stands_for false false source P /\ stands_for true true source T /\
  let l := [("decode::only_rv64", 1%nat)] in let Q := put_body "decode::only_rv64" lets_pass T in
  List.incl l (untested P) /\ without_closures l T /\ without_closures l Q /\ differ_in l T Q /\
  (forall p t, (usize_bits p = 32 \/ usize_bits p = 64) -> In t (p_tests T) ->
    forall r, Calls Q p t [] "" r <-> r = Gives VUnit "") /\
  (forall r, Calls T Text.plat "u32.decode" [VInt U32 0xB503; VEnum "Isa" "Rv32" []] "" r <->
    r = Gives (VEnum "Result" "Err" [VEnum "DecodingError" "OnlyRv64Inst" []]) "") /\
  (exists i, forall r, Calls Q Text.plat "u32.decode" [VInt U32 0xB503; VEnum "Isa" "Rv32" []] "" r <->
    r = Gives (VEnum "Result" "Ok" [i]) "").
Proof. exact SrcTested2.blind_case. Qed.
