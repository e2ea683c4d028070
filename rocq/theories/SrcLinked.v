(** The names of the crate of /repo/src, resolved. *)
From Coq Require Import ZArith List Bool String.
From Verif Require Import SrcLine SrcText SrcLex SrcAst SrcParse SrcNames SpecNames SrcLink SrcSem SrcProg SpecGrammar SrcRead SrcTie4.
Import ListNotations.

Lemma linked_iff std test files P : link_with std test files = Some P -> forall P', Linked std test files P' <-> P' = P.
Proof.
  intros H P'. split; [exact (link_unique std test files P P' H)|]. intros ->. exact (link_ok std test files P H).
Qed.

Lemma stands_iff std test src files P : reads src files -> link_with std test files = Some P ->
  forall P', stands_for std test src P' <-> P' = P.
Proof.
  intros R H P'. split.
  - intros (files' & R' & L). rewrite (source_unique _ _ _ R R') in L. exact (proj1 (linked_iff _ _ _ _ H P') L).
  - intros ->. exists files. split; [exact R|exact (link_ok _ _ _ _ H)].
Qed.

Lemma load_stands test src P : load test src = Some P -> forall P', stands_for true test src P' <-> P' = P.
Proof. intros H. destruct (load_ok _ _ _ H) as (files & R & L). exact (stands_iff true test src files P R L). Qed.

(** Without [std]. *)
Definition load_core (src : list (line * list line)) : option program :=
  match parse_source src with Some files => link_with false false files | None => None end.
Lemma crate_loads_core : load_core source = Some crate.
Proof. vm_cast_no_check (eq_refl (Some crate)). Qed.

Lemma crate_stands :
  (forall P, stands_for false false source P <-> P = crate) /\
  (forall P, stands_for true false source P <-> P = crate) /\
  (forall P, stands_for true true source P <-> P = test_crate).
Proof.
  split; [|split; [exact (load_stands _ _ _ crate_loads)|exact (load_stands _ _ _ test_crate_loads)]].
  pose proof crate_loads_core as L. unfold load_core in L. destruct (parse_source source) as [files|] eqn:E; [|discriminate L].
  exact (stands_iff false false source files crate (source_ok _ _ E) L).
Qed.

Lemma accepted std test files P : link_with std test files = Some P ->
  Linked std test files P /\ forall P', Linked std test files P' -> P' = P.
Proof. intros H. split; [exact (link_ok _ _ _ _ H)|]. intros P'. exact (link_unique _ _ _ _ _ H). Qed.
Lemma load_core_stands src P : load_core src = Some P -> forall P', stands_for false false src P' <-> P' = P.
Proof.
  unfold load_core. destruct (parse_source src) as [files|] eqn:E; [|discriminate]. exact (stands_iff false false src files P (source_ok _ _ E)).
Qed.
