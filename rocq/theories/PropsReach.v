(** C74: which branches of the text of /repo/src are of any use; see SpecReach.v.
    A branch is the body of a function, closure or loop, a side of an [if] or an arm of a [match]; [branches P]
    are those of the program [P].  [trapped l P] is [P] with [panic!("reached")] in the place of the branches [l].
    [use P p key vs]: a call of [decode] or [try_from], or of [fmt] for a decoded instruction or its opcode. *)
From Coq Require Import ZArith List Bool String.
From Verif Require Import Rust Types SrcText SrcLink SrcSem SrcEmbed SpecNames SpecMeaning SpecReach.
From Verif Require SrcReach SrcReached Text.
Import ListNotations.
Local Open Scope Z_scope.
Local Open Scope string_scope.

(** 45 of the 832 branches are listed as unreached. *)
Theorem C74_branches : forall P, stands_for false false source P ->
  List.length (branches P) = 832%nat /\ List.length unreached = 45%nat /\ NoDup unreached /\
  List.incl unreached (branches P) /\ trapped [] P = P.
Proof. exact SrcReached.the_branches. Qed.
Print Assumptions C74_branches.

(** No use comes to one of them: with any of them replaced, each use ends as before. *)
Theorem C74_unreached : forall P p key vs o l, stands_for false false source P -> platform_ok p -> use P p key vs ->
  List.incl l unreached ->
  (exists r, Calls P p key vs o r) /\
  (forall r, Calls (trapped l P) p key vs o r <-> Calls P p key vs o r) /\
  ~ Calls (trapped l P) p key vs o (Dies (Says "reached")).
Proof. exact SrcReach.not_reached. Qed.
Print Assumptions C74_unreached.

(** Some use comes to each of the others. *)
Theorem C74_reached : forall P b, stands_for false false source P -> In b (branches P) -> ~ In b unreached ->
  exists p key vs, platform_ok p /\ use P p key vs /\ Calls (trapped [b] P) p key vs "" (Dies (Says "reached")).
Proof. exact SrcReached.others_reached. Qed.
Print Assumptions C74_reached.

(** So the list has exactly the branches that no use comes to. *)
Theorem C74_exactly : forall P b, stands_for false false source P -> In b (branches P) ->
  (In b unreached <-> forall p key vs o, platform_ok p -> use P p key vs ->
    ~ Calls (trapped [b] P) p key vs o (Dies (Says "reached"))).
Proof. exact SrcReached.exactly. Qed.
Print Assumptions C74_exactly.

(** The arm [_ => unreachable!()] for instructions without operands in [Display for Instruction] is reached: c.sspush
    is written there. *)
Example C74_case : exists P i, stands_for false false source P /\
  In ("Instruction.fmt", 28%nat) (branches P) /\ ~ In ("Instruction.fmt", 28%nat) unreached /\
  opc i = OZicfiss Ss_C_SSPUSH /\ use P Text.plat "Instruction.fmt" [of_inst i; VFmt] /\
  Calls (trapped [("Instruction.fmt", 28%nat)] P) Text.plat "Instruction.fmt" [of_inst i; VFmt] ""
    (Dies (Says "reached")) /\
  (forall r, Calls P Text.plat "Instruction.fmt" [of_inst i; VFmt] "" r <-> r = Dies (Why PUnreachable)).
Proof. exact SrcReached.case. Qed.
