(** The linker finds what SpecNames.v says, and only that: expressions, functions, the crate. *)
From Coq Require Import ZArith List Bool String Ascii Lia.
From Verif Require Import SrcLex SrcAst SrcNames SpecNames SrcLink SrcTie SrcTie2.
Import ListNotations.
Local Open Scope string_scope.

Ltac got H := match type of H with
  | match ?a with Some _ => _ | None => None end = Some _ =>
      let E := fresh "E" in destruct a eqn:E; [|discriminate H]
  | (if ?a then _ else None) = Some _ => let E := fresh "E" in destruct a eqn:E; [|discriminate H]
  end.

(** ** Expressions *)

Section Body.
  Context (go : scope -> expr -> option expr)
    (OK : forall s e e', Good s -> go s e = Some e' -> Ties s e e')
    (UQ : forall s e e' e'', Good s -> go s e = Some e' -> Ties s e e'' -> e'' = e').

  Lemma link_param_ok s x y : link_param s x = Some y -> Ties_param s x y.
  Proof.
    unfold link_param. intros H. got H. injection H as <-. split; [reflexivity|]. cbn [snd].
    exact (opto_ok _ _ _ _ (link_ty_ok s) E).
  Qed.
  Lemma link_param_unique s x y y' : Good s -> link_param s x = Some y -> Ties_param s x y' -> y' = y.
  Proof.
    unfold link_param. intros G H [K L]. got H. injection H as <-. destruct y' as [z t]. cbn [fst snd] in *. subst. f_equal.
    exact (opto_unique _ _ _ _ _ (fun t => link_ty_unique s t G) E L).
  Qed.

  Lemma link_arm_ok s x y : Good s -> link_arm go s x = Some y ->
    Ties_pat s (fst x) (fst y) /\ Ties (with_vars s (pat_vars (fst y))) (snd x) (snd y).
  Proof.
    unfold link_arm. intros G H. got H. got H. injection H as <-. cbn [fst snd]. split; [exact (link_pat_ok s _ G _ E)|].
    apply OK; [exact G|exact E0].
  Qed.
  Lemma link_arm_unique s x y y' : Good s -> link_arm go s x = Some y ->
    Ties_pat s (fst x) (fst y') /\ Ties (with_vars s (pat_vars (fst y'))) (snd x) (snd y') -> y' = y.
  Proof.
    unfold link_arm. intros G H [P T]. got H. got H. injection H as <-. destruct y' as [q b]. cbn [fst snd] in *.
    rewrite (link_pat_unique s _ G _ _ E P) in *. f_equal. exact (UQ _ _ _ _ (good_vars _ _ G) E0 T).
  Qed.

  Lemma link_field_ok s x y : Good s -> link_field (go s) x = Some y -> fst x = fst y /\ Ties s (snd x) (snd y).
  Proof. unfold link_field. intros G H. got H. injection H as <-. cbn [fst snd]. split; [reflexivity|exact (OK _ _ _ G E)]. Qed.
  Lemma link_field_unique s x y y' : Good s -> link_field (go s) x = Some y -> fst x = fst y' /\ Ties s (snd x) (snd y') -> y' = y.
  Proof.
    unfold link_field. intros G H [K T]. got H. injection H as <-. destruct y' as [z b]. cbn [fst snd] in *. subst. f_equal.
    exact (UQ _ _ _ _ G E T).
  Qed.

  Lemma link_stmts_ok ss : forall s r s', Good s -> link_stmts go s ss = Some (r, s') -> Ties_stmts s ss r s' /\ Good s'.
  Proof.
    induction ss as [|[x t a|a|us] ss IH]; intros s r s' G H; cbn [link_stmts] in H.
    - injection H as <- <-. split; [constructor|exact G].
    - got H. got H. got H. destruct p as [r' s0]. injection H as <- <-. destruct (IH _ _ _ (good_vars s [x] G) E1) as [T G'].
      split; [|exact G']. apply XS_let; [exact (opto_ok _ _ _ _ (link_ty_ok s) E)|exact (OK _ _ _ G E0)|exact T].
    - got H. got H. destruct p as [r' s0]. injection H as <- <-. destruct (IH _ _ _ G E0) as [T G'].
      split; [|exact G']. apply XS_expr; [exact (OK _ _ _ G E)|exact T].
    - destruct (IH _ _ _ G H) as [T G']. split; [|exact G']. apply XS_use. exact T.
  Qed.
  Lemma link_stmts_unique ss : forall s r s' r2 s2, Good s -> link_stmts go s ss = Some (r, s') -> Ties_stmts s ss r2 s2 -> r2 = r /\ s2 = s'.
  Proof.
    induction ss as [|[x t a|a|us] ss IH]; intros s r s' r2 s2 G H T; cbn [link_stmts] in H; inversion T; subst.
    - injection H as <- <-. split; reflexivity.
    - got H. got H. got H. destruct p as [r' s0]. injection H as <- <-.
      match goal with K : Ties_stmts _ _ _ _ |- _ => destruct (IH _ _ _ _ _ (good_vars s [x] G) E1 K) as [-> ->] end.
      split; [|reflexivity]. f_equal. f_equal.
      + eapply opto_unique; [exact (fun t => link_ty_unique s t G)|exact E|assumption].
      + eapply UQ; [exact G|exact E0|assumption].
    - got H. got H. destruct p as [r' s0]. injection H as <- <-.
      match goal with K : Ties_stmts s ss _ _ |- _ => destruct (IH _ _ _ _ _ G E0 K) as [-> ->] end.
      split; [|reflexivity]. f_equal. f_equal. eapply UQ; [exact G|exact E|assumption].
    - eapply IH; eassumption.
  Qed.

  Lemma link_macro_ok s m es e : Good s -> link_macro (go s) s m es = Some e -> Ties s (EMac m es) e.
  Proof.
    intros G H. unfold link_macro in H. destruct (mem m macros) eqn:M.
    - got H. injection H as <-. apply X_macro; [apply mem_true; exact M|exact (mapo_sound _ _ _ _ (fun a b => OK s a b G) E)].
    - destruct (m =? "write") eqn:W.
      + apply String.eqb_eq in W. subst. destruct es as [|f [|[] args]]; try discriminate H. got H. got H. got H. injection H as <-.
        apply X_write; [exact (OK _ _ _ G E)|exact (link_pieces_ok _ _ _ E0)|exact (mapo_sound _ _ _ _ (fun a b => OK s a b G) E1)].
      + destruct (m =? "println") eqn:L; [|discriminate H]. apply String.eqb_eq in L. subst. got H.
        destruct es as [|[] args]; try discriminate H. got H. got H. injection H as <-.
        apply X_println; [exact E|exact (link_pieces_ok _ _ _ E0)|exact (mapo_sound _ _ _ _ (fun a b => OK s a b G) E1)].
  Qed.
  Lemma link_macro_unique s m es e e' : Good s -> link_macro (go s) s m es = Some e -> Ties s (EMac m es) e' -> e' = e.
  Proof.
    intros G H T. unfold link_macro in H. inversion T; subst.
    - cbn [mem macros existsb String.eqb Ascii.eqb Bool.eqb orb] in H. got H. got H. got H. injection H as <-. f_equal.
      + eapply UQ; eassumption.
      + eapply link_pieces_unique; eassumption.
      + eapply mapo_unique; [exact (fun a b b' => UQ s a b b' G)|exact E1|assumption].
    - cbn [mem macros existsb String.eqb Ascii.eqb Bool.eqb orb] in H. got H. got H. got H. injection H as <-. f_equal.
      + f_equal. eapply link_pieces_unique; eassumption.
      + eapply mapo_unique; [exact (fun a b b' => UQ s a b b' G)|exact E1|assumption].
    - match goal with K : In m macros |- _ => rewrite (proj2 (mem_true _ _) K) in H end. got H. injection H as <-. f_equal.
      eapply mapo_unique; [exact (fun a b b' => UQ s a b b' G)|exact E|assumption].
  Qed.
End Body.

Theorem link_expr_ok n : forall s e e', Good s -> link_expr n s e = Some e' -> Ties s e e'.
Proof.
  induction n as [|n IH]; intros s e e' G H; [discriminate H|].
  assert (L : forall l m, mapo (link_expr n s) l = Some m -> Forall2 (Ties s) l m)
    by (intros l m; apply mapo_sound; intros a b; exact (IH s a b G)).
  cbn [link_expr] in H. destruct e; try discriminate H.
  - injection H as <-. apply X_lit.
  - injection H as <-. apply X_bool.
  - injection H as <-. apply X_str.
  - apply X_path. exact (link_path_ok _ _ _ H).
  - got H. got H. injection H as <-. apply X_call; auto.
  - got H. got H. injection H as <-. apply X_meth; auto.
  - got H. injection H as <-. apply X_field; auto.
  - got H. injection H as <-. apply X_try; auto.
  - got H. injection H as <-. apply X_deref; auto.
  - got H. injection H as <-. apply X_ref; auto.
  - got H. injection H as <-. apply X_neg; auto.
  - got H. got H. injection H as <-. apply X_bin; auto.
  - got H. got H. injection H as <-. apply X_as; [auto|exact (link_ty_ok s t _ E0)].
  - got H. got H. injection H as <-. apply X_clos; [exact (mapo_sound _ _ _ _ (link_param_ok s) E)|]. apply IH; [exact G|exact E0].
  - got H. got H. got H. injection H as <-. destruct e3 as [f|]; cbn [opto] in E1.
    + got E1. injection E1 as <-. apply X_if_else; auto.
    + injection E1 as <-. apply X_if; auto.
  - got H. got H. injection H as <-. apply X_match; [auto|].
    exact (mapo_sound _ _ _ _ (fun x y => link_arm_ok _ (IH) s x y G) E0).
  - got H. got H. destruct p as [ss' s']. got H. injection H as <-.
    destruct (link_stmts_ok _ IH _ _ _ _ (good_uses s _ G E) E0) as [T G']. destruct tail as [a|]; cbn [opto] in E1.
    + got E1. injection E1 as <-. eapply X_block_value; [exact T|auto].
    + injection E1 as <-. eapply X_block. exact T.
  - got H. injection H as <-. apply X_arr; auto.
  - destruct (look s segs) as [[]|] eqn:K; try discriminate H. got H. injection H as <-. apply X_struct; [exact (look_ok _ _ _ K)|].
    exact (mapo_sound _ _ _ _ (fun x y => link_field_ok _ IH s x y G) E).
  - exact (link_macro_ok _ IH s _ _ _ G H).
  - got H. got H. injection H as <-. apply X_matches; [auto|exact (link_pat_ok s _ G _ E0)].
  - got H. injection H as <-. destruct e as [a|]; cbn [opto] in E.
    + got E. injection E as <-. apply X_return_value; auto.
    + injection E as <-. apply X_return.
  - got H. got H. injection H as <-. apply X_assign; [apply mem_true; exact E|auto].
  - got H. got H. got H. injection H as <-. apply X_for; [exact (link_pat_ok s _ G _ E)|auto|]. apply IH; [exact G|exact E1].
Qed.

Theorem link_expr_unique n : forall s e e' e'', Good s -> link_expr n s e = Some e' -> Ties s e e'' -> e'' = e'.
Proof.
  induction n as [|n IH]; intros s e e' e'' G H T; [discriminate H|].
  assert (L : forall l m m', mapo (link_expr n s) l = Some m -> Forall2 (Ties s) l m' -> m' = m)
    by (intros l m m'; apply mapo_unique; intros a b b'; exact (IH s a b b' G)).
  assert (IH' : forall e e' e'', link_expr n s e = Some e' -> Ties s e e'' -> e'' = e') by (intros a b c; exact (IH s a b c G)).
  cbn [link_expr] in H. destruct e; try discriminate H;
    try (inversion T; subst; congruence);
    try (exact (link_macro_unique _ IH s _ _ _ _ G H T));
    inversion T; subst; clear T;
    try (repeat got H; injection H as <-; f_equal; eauto; fail).
  - eapply link_path_unique; eassumption.
  - repeat got H. injection H as <-. f_equal; [eauto|]. eapply link_ty_unique; eassumption.
  - repeat got H. injection H as <-. f_equal.
    + eapply mapo_unique; [exact (fun x y y' => link_param_unique s x y y' G)|exact E|assumption].
    + eapply IH; [exact (good_vars s (map fst params) G)|exact E0|assumption].
  - repeat got H. injection H as <-. cbn [opto] in E1. injection E1 as <-. f_equal; eauto.
  - repeat got H. injection H as <-. cbn [opto] in E1. got E1. injection E1 as <-. f_equal; eauto. f_equal. eauto.
  - repeat got H. injection H as <-. f_equal; [eauto|].
    eapply mapo_unique; [exact (fun x y y' => link_arm_unique _ IH s x y y' G)|exact E0|assumption].
  - got H. got H. destruct p as [r s1]. got H. injection H as <-. cbn [opto] in E1. injection E1 as <-.
    match goal with K : Ties_stmts _ _ _ _ |- _ =>
      destruct (link_stmts_unique _ IH _ _ _ _ _ _ (good_uses s _ G E) E0 K) as [-> ->] end. reflexivity.
  - got H. got H. destruct p as [r s1]. got H. injection H as <-. cbn [opto] in E1. got E1. injection E1 as <-.
    match goal with K : Ties_stmts _ _ _ _ |- _ =>
      destruct (link_stmts_unique _ IH _ _ _ _ _ _ (good_uses s _ G E) E0 K) as [-> ->] end.
    f_equal. f_equal. eapply IH; [|exact E2|assumption].
    exact (proj2 (link_stmts_ok _ (link_expr_ok n) _ _ _ _ (good_uses s _ G E) E0)).
  - destruct (look s segs) as [[]|] eqn:K; try discriminate H. got H. injection H as <-.
    match goal with Q : Means _ _ _ |- _ => pose proof (look_unique _ _ _ _ (proj1 G) K Q) as W; injection W as -> end.
    f_equal. eapply mapo_unique; [exact (fun x y y' => link_field_unique _ IH s x y y' G)|exact E|assumption].
  - repeat got H. injection H as <-. f_equal; [eauto|]. eapply link_pat_unique; eassumption.
  - repeat got H. injection H as <-. cbn [opto] in E. injection E as <-. reflexivity.
  - repeat got H. injection H as <-. cbn [opto] in E. got E. injection E as <-. f_equal. f_equal. eauto.
  - repeat got H. injection H as <-.
    match goal with K : Ties_pat _ _ _ |- _ => rewrite (link_pat_unique s _ G _ _ E K) in * end.
    f_equal; [eauto|]. eapply IH; [|exact E1|eassumption]. exact G.
Qed.
