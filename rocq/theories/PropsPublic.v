(** C75: the branches of the text of /repo/src that no other crate can come to; see SpecPublic.v and SpecReach.v.
    [branches P], [trapped l P], [unreached] are as in C74.  [public] are the functions another crate can call;
    [well_typed p key vs]: the arguments are of the types of the parameters. *)
From Coq Require Import ZArith List Bool String.
From Verif Require Import Rust Types SrcText SrcLink SrcSem SrcEmbed SpecSource SpecNames SpecMeaning SpecReach SpecPublic.
From Verif Require SrcPublic SrcPublic2 Text.
Import ListNotations.
Local Open Scope Z_scope.
Local Open Scope string_scope.

(** 26 functions are public; 29 of the 45 branches that decoding does not come to are listed as dead. *)
Theorem C75_lists : forall P, stands_for false false source P ->
  (forall key, In key public -> exists f, In (key, f) (p_fns P)) /\
  List.length public = 26%nat /\ NoDup public /\
  List.length dead = 29%nat /\ NoDup dead /\ List.incl dead unreached.
Proof. exact SrcPublic2.the_dead. Qed.
Print Assumptions C75_lists.

(** With any of them replaced, each call of a public function ends as before. *)
Theorem C75_dead : forall P p key vs o l, stands_for false false source P -> platform_ok p ->
  In key public -> well_typed p key vs -> List.incl l dead ->
  (exists r, Calls P p key vs o r) /\
  (forall r, Calls (trapped l P) p key vs o r <-> Calls P p key vs o r) /\
  ~ Calls (trapped l P) p key vs o (Dies (Says "reached")).
Proof. exact SrcPublic.not_dead. Qed.
Print Assumptions C75_dead.

(** And they are all: some call of a public function comes to each of the others. *)
Theorem C75_exactly : forall P b, stands_for false false source P -> In b (branches P) ->
  (In b dead <-> forall p key vs o, platform_ok p -> In key public -> well_typed p key vs ->
    ~ Calls (trapped [b] P) p key vs o (Dies (Says "reached"))).
Proof. exact SrcPublic2.exactly_dead. Qed.
Print Assumptions C75_exactly.

(** [parse_rd] of a [u32] and c.sspush: decoding does not come to the last arm there, another crate can. *)
Example C75_case : exists P, stands_for false false source P /\
  let b := ("decode::zicfiss_extension::bit_32::parse_rd", 3%nat) in
  In b (branches P) /\ In b unreached /\ ~ In b dead /\
  well_typed Text.plat "u32.parse_rd" [VInt U32 0xFFFFFFFF; of_op (OZicfiss Ss_C_SSPUSH)] /\
  Calls (trapped [b] P) Text.plat "u32.parse_rd" [VInt U32 0xFFFFFFFF; of_op (OZicfiss Ss_C_SSPUSH)] ""
    (Dies (Says "reached")).
Proof. exact SrcPublic2.dead_case. Qed.
