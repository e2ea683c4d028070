(** The parser reads what the grammar says: all of it. *)
From Coq Require Import ZArith List Bool String Lia.
From Verif Require Import SrcLex SrcAst SrcParse SpecGrammar SrcGram SrcGram2.
Import ListNotations.
Local Open Scope string_scope.
Local Open Scope list_scope.

Section next.
Variable n : nat.
Hypothesis G : all_good n.

Let Ex : forall ok, sound (expr_ n ok) (Expr ok) := proj1 G.
Let Bi : good_binary n := proj1 (proj2 G).
Let Ca : good_cast n := proj1 (proj2 (proj2 G)).
Let Un : good_unary n := proj1 (proj2 (proj2 (proj2 G))).
Let Po : good_postfix n := proj1 (proj2 (proj2 (proj2 (proj2 G)))).
Let Pr : forall ok, sound (primary n ok) (Primary ok) := proj1 (proj2 (proj2 (proj2 (proj2 (proj2 G))))).
Let Bl : sound (block n) Block := proj2 (proj2 (proj2 (proj2 (proj2 (proj2 G))))).

Lemma expr_next ok : sound (expr_ (S n) ok) (Expr ok).
Proof.
  intros ts a r. cbn [expr_].
  assert (D : binary n ok 0 ts = Got a r -> took (Expr ok a) ts r).
  { intros H. apply Bi in H; [|lia]. destruct H as (c & H & _). revert H. apply took_imp. intros u U. eapply expr_operand. exact U. }
  destruct ts as [|[|[]| | | |[]] ts]; try exact D; clear D.
  - destruct (ok && stops ts) eqn:B.
    + step. apply andb_true_iff in B. destruct B as [-> _]. apply glue_one, glue_end. apply expr_return0.
    + step. step. apply Ex in E. apply glue_one. revert E. apply took_imp. intros u U. apply expr_return. exact U.
  - step. step. step. apply (sep_ok _ _ _ (closure_param_ok n)) in E. apply Ex in E0.
    apply glue_one. eapply glue; [exact E|]. intros w (v & -> & V). revert E0. apply took_imp. intros u U.
    rewrite <- app_assoc. apply expr_closure; assumption.
  - step. step. apply Ex in E. apply glue_one. revert E. apply took_imp. intros u U. apply expr_closure0. exact U.
Qed.

Lemma binary_next : good_binary (S n).
Proof.
  intros ok l L ts a r. cbn [binary].
  match goal with |- (match ?q with Got _ _ => _ | Bad _ => _ end) = _ -> _ => destruct q as [x r1|] eqn:Q; [|discriminate] end.
  assert (K : read (fun c u => Operand ok (S l) c x u \/ l <> 2%nat /\ Operand ok l c x u) ts r1).
  { destruct (Nat.leb 9 l) eqn:N.
    - apply Nat.leb_le in N. assert (l = 9%nat) by lia. subst l. apply Ca in Q. revert Q. apply read_imp.
      intros c u U. right. split; [discriminate|exact U].
    - apply Nat.leb_gt in N. apply Bi in Q; [|lia]. revert Q. apply read_imp. intros c u U. left. exact U. }
  destruct K as (c & K & N). intros H. eapply read_glue; [exact K|]. intros u U.
  exact (more_ok n ok l L Bi _ _ _ _ _ u c H U N).
Qed.

Lemma cast_next : good_cast (S n).
Proof.
  intros ok ts a r. cbn [cast]. step. apply Un in E. destruct E as (c & K & N). intros H. eapply read_glue; [exact K|].
  intros u U. exact (cast_more_ok n ok _ _ _ _ _ u c H (operand_up _ _ _ _ _ U) N).
Qed.

Lemma unary_next : good_unary (S n).
Proof.
  intros ok ts a r. cbn [unary].
  assert (D : (do (e, r0) <- primary n ok ts; postfix n e r0) = Got a r -> read (fun c => Operand ok 10 c a) ts r).
  { step. apply Pr in E. intros H. eapply read_glue; [exact E|]. intros u U.
    eapply took_read; [eapply (Po ok); [exact H| |]|].
    - apply operand_up, operand_primary. exact U.
    - intros _. eapply primary_no_field. exact U.
    - intros v V. apply operand_up. exact V. }
  destruct ts as [|[| | | | |[]] ts]; try exact D; clear D; step; step; apply Un in E; apply read_one;
    revert E; apply read_imp; intros c u U;
    solve [apply operand_deref; exact U|apply operand_ref; exact U|apply operand_neg; exact U].
Qed.

Lemma postfix_next : good_postfix (S n).
Proof.
  intros ok e ts a r u. cbn [postfix]. intros H O F.
  assert (D : Got e ts = Got a r -> took (fun v => Operand ok 11 false a (u ++ v)) ts r).
  { step. apply glue_end. rewrite app_nil_r. exact O. }
  destruct ts as [|[| | | | |[]] ts]; try (exact (D H)).
  - clear D. revert H. step. apply (sep_ok _ _ _ (Ex true)) in E. intros H.
    apply glue_one. eapply glue; [exact E|]. intros w (v & -> & V).
    eapply (Po ok _ _ _ _ (u ++ TP LParen :: v ++ [TP RParen])) in H.
    + revert H. apply took_imp. intros x X. rewrite <- app_assoc in X. exact X.
    + apply operand_call; [exact O|apply F; reflexivity|exact V].
    + intros _. change (u ++ TP LParen :: v ++ [TP RParen]) with (u ++ (TP LParen :: v) ++ [TP RParen]).
      rewrite app_assoc. apply ends_other. discriminate.
  - clear D. apply glue_one. eapply (Po ok _ _ _ _ (u ++ [TP Quest])) in H.
    + revert H. apply took_imp. intros x X. rewrite <- app_assoc in X. exact X.
    + apply operand_try. exact O.
    + intros _. apply ends_other. discriminate.
  - destruct ts as [|[f| | | | |] ts]; try (exact (D H)). clear D.
    assert (Fi : next_is LParen ts = false -> postfix n (EField e f) ts = Got a r ->
      took (fun v => Operand ok 11 false a (u ++ v)) (TP Dot :: TId f :: ts) r).
    { intros N Q. apply glue_one, glue_one. eapply (Po ok _ _ _ _ (u ++ [TP Dot; TId f])) in Q.
      - revert Q. apply took_imp. intros x X. rewrite <- app_assoc in X. exact X.
      - apply operand_field. exact O.
      - intros Z. rewrite Z in N. discriminate N. }
    destruct ts as [|[| | | | |[]] ts]; try (exact (Fi eq_refl H)). clear Fi.
    revert H. step. apply (sep_ok _ _ _ (Ex true)) in E. intros H.
    do 3 apply glue_one. eapply glue; [exact E|]. intros w (v & -> & V).
    eapply (Po ok _ _ _ _ (u ++ TP Dot :: TId f :: TP LParen :: v ++ [TP RParen])) in H.
    + revert H. apply took_imp. intros x X. rewrite <- app_assoc in X. exact X.
    + apply operand_method; assumption.
    + intros _. change (u ++ TP Dot :: TId f :: TP LParen :: v ++ [TP RParen]) with
        (u ++ (TP Dot :: TId f :: TP LParen :: v) ++ [TP RParen]).
      rewrite app_assoc. apply ends_other. discriminate.
Qed.

Lemma block_next : sound (block (S n)) Block.
Proof.
  intros ts a r. cbn [block]. step. tidy. intros H. apply (stmts_ok n Ex Pr) in H.
  destruct H as (ss & tail & -> & H). apply glue_one. revert H. apply took_imp. intros w (v & -> & V).
  cbn [app]. constructor. exact V.
Qed.

Lemma field_ok : sound (fun ts =>
                 do (x, r) <- ident ts;
                 do (u, r1) <- eat Colon r;
                 do (e, r2) <- expr_ n true r1;
                 Got (x, e) r2) Field.
Proof.
  intros ts a r. step. tidy. step. tidy. step. step. apply Ex in E. do 2 apply glue_one.
  revert E. apply took_imp. intros u U. constructor. exact U.
Qed.

Lemma primary_next ok : sound (primary (S n) ok) (Primary ok).
Proof.
  intros ts a r. cbn [primary].
  assert (D : forall s ts', ts = TId s :: ts' -> (do (p, r0) <- path n ts;
          if ok && next_is LBrace r0 then
            do (fs, r') <- sep_until n (fun ts =>
                 do (x, r) <- ident ts;
                 do (u, r1) <- eat Colon r;
                 do (e, r2) <- expr_ n true r1;
                 Got (x, e) r2) RBrace (List.tl r0);
            Got (EStruct p fs) r'
          else Got (EPath p) r0) = Got a r -> took (Primary ok a) ts r).
  { intros s ts' _. step. apply path_ok in E. destruct (ok && next_is LBrace rest) eqn:B.
    - apply andb_true_iff in B. destruct B as [B1 B]. subst ok. tidy. step. step.
      apply (sep_ok _ _ _ field_ok) in E0. eapply glue; [exact E|]. intros u U. apply glue_one.
      revert E0. apply took_imp. intros w (v & -> & V). apply primary_struct; assumption.
    - step. revert E. apply took_imp. intros u U. constructor. exact U. }
  destruct ts as [|[m|[]|z s|s| |[]] ts]; try discriminate.
  - specialize (D m ts eq_refl).
    destruct ts as [|[| | | | |[]] ts]; try exact D. destruct ts as [|[| | | | |[]] ts]; try exact D. clear D.
    destruct (m =? "matches") eqn:M.
    + apply String.eqb_eq in M. subst m. step. step. tidy. step. step. tidy. step.
      apply Ex in E. apply pattern_ok in E0. do 3 apply glue_one. eapply glue; [exact E|]. intros u U.
      apply glue_one. eapply glue; [exact E0|]. intros v V. apply glue_one, glue_end.
      apply primary_matches; assumption.
    + apply String.eqb_neq in M. step. step. apply (sep_ok _ _ _ (Ex true)) in E.
      do 3 apply glue_one. revert E. apply took_imp. intros w (v & -> & V). apply primary_macro; assumption.
  - step. apply glue_one, glue_end. constructor.
  - step. apply pattern_ok in E. step. tidy. step. apply Ex in E0. step. apply Bl in E1. step.
    apply glue_one. eapply glue; [exact E|]. intros u U. apply glue_one. eapply glue; [exact E0|]. intros v V.
    revert E1. apply took_imp. intros w W. apply primary_for; assumption.
  - assert (I : (do (c, r1) <- expr_ n false ts;
          do (t, r2) <- block n r1;
          if next_word Kelse r2 then
            do (e, r3) <- (if next_word Kif (List.tl r2) then primary n true (List.tl r2)
                           else block n (List.tl r2));
            Got (EIf c t (Some e)) r3
          else Got (EIf c t None) r2) = Got a r -> took (Primary ok a) (TK Kif :: ts) r).
    { step. apply Ex in E. step. apply Bl in E0. step.
      - tidy. match goal with |- context [next_word Kif ?l] => destruct (next_word Kif l) eqn:N end.
        + step. step. apply Pr in E1. tidy. apply glue_one. eapply glue; [exact E|]. intros u U.
          eapply glue; [exact E0|]. intros v V. apply glue_one. destruct E1 as (w & S & W). exists w.
          split; [exact S|]. apply primary_else_if; try assumption.
          eapply splits_start; [exact S|eapply primary_nonempty; exact W|eexists; reflexivity|discriminate].
        + step. step. apply Bl in E1. apply glue_one. eapply glue; [exact E|]. intros u U.
          eapply glue; [exact E0|]. intros v V. apply glue_one. revert E1. apply took_imp. intros w W.
          apply primary_else; assumption.
      - step. apply glue_one. eapply glue; [exact E|]. intros u U. revert E0. apply took_imp. intros w W.
        apply primary_if; assumption. }
    destruct ts as [|[|[]| | | |] ts]; try exact I. clear I.
    step. apply pattern_ok in E. step. tidy. step. apply Ex in E0. step. apply Bl in E1. step.
    do 2 apply glue_one. eapply glue; [exact E|]. intros u U. apply glue_one. eapply glue; [exact E0|]. intros v V.
    revert E1. apply took_imp. intros w W. apply primary_if_let; assumption.
  - step. apply Ex in E. step. tidy. intros H. apply (arms_ok n _ Ex Pr) in H. destruct H as (l & -> & H).
    apply glue_one. eapply glue; [exact E|]. intros u U. apply glue_one. revert H. apply took_imp.
    intros w (v & -> & V). cbn [app]. apply primary_match; assumption.
  - step. apply glue_one, glue_end. constructor.
  - step. apply glue_one, glue_end. constructor.
  - step. apply glue_one, glue_end. constructor.
  - step. apply Ex in E. step. tidy. step. apply glue_one. eapply glue; [exact E|]. intros u U. apply glue_one, glue_end.
    constructor. exact U.
  - step. step. apply (sep_ok _ _ _ (Ex true)) in E. apply glue_one. revert E. apply took_imp.
    intros w (v & -> & V). constructor. exact V.
  - intros H. apply Bl in H. revert H. apply took_imp. intros u U. constructor. exact U.
Qed.

Lemma next_good : all_good (S n).
Proof.
  exact (conj expr_next (conj binary_next (conj cast_next (conj unary_next (conj postfix_next
    (conj primary_next block_next)))))).
Qed.
End next.

Lemma all_good_ok n : all_good n.
Proof.
  induction n as [|n IH]; [|exact (next_good n IH)].
  split; [intros ok ts a r H; discriminate H|]. split; [intros ok l L ts a r H; discriminate H|].
  split; [intros ok ts a r H; discriminate H|]. split; [intros ok ts a r H; discriminate H|].
  split; [intros ok e ts a r u H; discriminate H|]. split; [intros ok ts a r H; discriminate H|].
  intros ts a r H. discriminate H.
Qed.

Lemma block_ok n : sound (block n) Block.
Proof. exact (proj2 (proj2 (proj2 (proj2 (proj2 (proj2 (all_good_ok n))))))). Qed.

(** ** Items *)

(** Up to the bracket that closes [depth] more than were opened. *)
Inductive closes : nat -> list string -> list tok -> Prop :=
| closes_last a ts : Bracketed a ts -> closes 0 a (ts ++ [TP RBrack])
| closes_more d a ts b us : Bracketed a ts -> closes d b us -> closes (S d) (a ++ b) (ts ++ TP RBrack :: us).

Lemma closes_name d x a ts : closes d a ts -> closes d (x :: a) (TId x :: ts).
Proof.
  intros [b us B|e b us c vs B C]; rewrite !app_comm_cons; constructor; try assumption; constructor; exact B.
Qed.
Lemma closes_other d t a ts : (forall x, t <> TId x) -> t <> TP LBrack -> t <> TP RBrack ->
  closes d a ts -> closes d a (t :: ts).
Proof.
  intros N1 N2 N3 [b us B|e b us c vs B C]; rewrite !app_comm_cons; constructor; try assumption; constructor; assumption.
Qed.
Lemma closes_open d a ts : closes (S d) a ts -> closes d a (TP LBrack :: ts).
Proof.
  intros H. inversion H as [|e b us c vs B C]; subst. destruct C as [f ws F|e f ws g xs F C].
  - rewrite !app_comm_cons, app_assoc.
    change ((TP LBrack :: us) ++ TP RBrack :: ws) with (TP LBrack :: us ++ TP RBrack :: ws).
    assert (K : Bracketed (b ++ f) (TP LBrack :: us ++ TP RBrack :: ws)) by (constructor; assumption).
    apply closes_last in K. exact K.
  - rewrite !app_assoc. assert (K : Bracketed (b ++ f) (TP LBrack :: us ++ TP RBrack :: ws)) by (constructor; assumption).
    pose proof (closes_more e _ _ _ _ K C) as Q. cbn [app] in Q |- *. rewrite <- ?app_assoc in Q. rewrite <- ?app_assoc. exact Q.
Qed.

Lemma attr_ok ts : forall d a r, attr_words d ts = Got a r -> took (closes d a) ts r.
Proof.
  induction ts as [|t ts IH]; intros d a r; [discriminate|]. cbn [attr_words].
  assert (D : (forall x, t <> TId x) -> t <> TP LBrack -> t <> TP RBrack -> attr_words d ts = Got a r ->
    took (closes d a) (t :: ts) r).
  { intros N1 N2 N3 H. apply IH in H. apply glue_one. revert H. apply took_imp. intros u U. apply closes_other; assumption. }
  destruct t as [x| | | | |[]]; try (apply D; discriminate); clear D.
  - step. step. apply IH in E. apply glue_one. revert E. apply took_imp. intros u U. apply closes_name. exact U.
  - step. step. apply IH in E. apply glue_one. revert E. apply took_imp. intros u U. apply closes_open. exact U.
  - destruct d as [|d].
    + step. apply glue_one, glue_end. apply (closes_last [] []). constructor.
    + step. step. apply IH in E. apply glue_one. revert E. apply took_imp. intros u U.
      apply (closes_more d [] []); [constructor|exact U].
Qed.

Lemma attr0_ok ts a r : attr_words 0 ts = Got a r -> took (fun u => exists v, u = v ++ [TP RBrack] /\ Bracketed a v) ts r.
Proof. intros H. apply attr_ok in H. revert H. apply took_imp. intros u U. inversion U; subst. eauto. Qed.

Lemma attrs_ok n : sound (attrs n) Attributes.
Proof.
  induction n as [|n IH]; intros ts a r; [discriminate|]. cbn [attrs].
  assert (D : Got [] ts = Got a r -> took (Attributes a) ts r) by (step; apply glue_end; constructor).
  destruct ts as [|[| | | | |[]] ts]; try exact D. destruct ts as [|[| | | | |[]] ts]; try exact D.
  - clear D. step. step. step. apply attr0_ok in E. apply IH in E0. do 2 apply glue_one.
    eapply glue; [exact E|]. intros w (v & -> & V). revert E0. apply took_imp. intros u U.
    rewrite <- app_assoc. constructor; assumption.
  - destruct ts as [|[| | | | |[]] ts]; try exact D. clear D. step. intros H. apply attr0_ok in E. apply IH in H.
    do 3 apply glue_one. eapply glue; [exact E|]. intros w (v & -> & V). revert H. apply took_imp. intros u U.
    rewrite <- app_assoc. econstructor; eassumption.
Qed.

Lemma skip_pub_ok ts : took (optional (TK Kpub)) ts (skip_pub ts).
Proof.
  unfold skip_pub. destruct (next_word Kpub ts) eqn:N.
  - tidy. apply glue_one, glue_end. right. reflexivity.
  - apply glue_end. left. reflexivity.
Qed.

Lemma generics_ok n : sound (generics n) Generics.
Proof.
  intros ts a r. unfold generics. step.
  - tidy. intros H. eapply (sep_ok _ Bound) in H.
    + apply glue_one. revert H. apply took_imp. intros w (v & -> & V). right. exists v. auto.
    + clear. intros ts a r. step. tidy. step. tidy. step. step. apply path_ok in E. do 2 apply glue_one.
      revert E. apply took_imp. intros u U. eexists; eexists; split; [reflexivity|exact U].
  - step. apply glue_end. left. auto.
Qed.

Lemma typed_name_ok n : sound (typed_name n) Typed.
Proof.
  intros ts a r. unfold typed_name. step. tidy. step. tidy. step. step. apply type_ok in E. do 2 apply glue_one.
  revert E. apply took_imp. intros u U. exists u. auto.
Qed.

Lemma is_self_ok ts : is_self ts = true -> exists r, ts = TId "self" :: r.
Proof. destruct ts as [|[x| | | | |] r]; try discriminate. cbn. intros H. apply String.eqb_eq in H. subst x. eauto. Qed.

Lemma param_ok n : sound (param n) Param.
Proof.
  intros ts a r. unfold param. destruct (is_self ts) eqn:S.
  { apply is_self_ok in S. destruct S as (r' & ->). cbn [List.tl]. step. apply glue_one, glue_end. left. auto. }
  destruct (next_is Amp ts && is_self (List.tl ts)) eqn:B.
  { apply andb_true_iff in B. destruct B as [B1 B2]. tidy. apply is_self_ok in B2. destruct B2 as (r' & ->).
    cbn [List.tl]. step. apply glue_one, glue_one, glue_end. left. auto. }
  intros H. pose proof H as K. apply typed_name_ok in H. revert H. apply took_imp. intros u U. right. split; [|exact U].
  unfold typed_name in K. revert K. step. tidy. step. step. step. cbn [fst]. intros ->. discriminate S.
Qed.

Lemma function_ok n x r1 : forall f r, function n (TId x :: r1) = Got f r -> took (fun u => Item1 (IFn f) (TK Kfn :: TId x :: u)) r1 r.
Proof.
  intros f r. unfold function. cbn [ident]. step. apply generics_ok in E. step. tidy. step.
  apply (sep_ok _ _ _ (param_ok n)) in E0.
  match goal with |- (match ?q with Got _ _ => _ | Bad _ => _ end) = _ -> _ => destruct q as [t r2|] eqn:Q; [|discriminate] end.
  match type of E0 with took _ _ ?R => assert (A : took (Result_ t) R r2) end.
  { revert Q. step.
    - tidy. step. step. apply type_ok in E1. apply glue_one. revert E1. apply took_imp. intros u U. exists u. auto.
    - step. apply glue_end. reflexivity. }
  clear Q. intros H.
  assert (B : exists b, f = {| f_name := x; f_generics := a; f_params := a1; f_ret := t; f_body := b |} /\ took (Fn_body b) r2 r).
  { revert H. step.
    - tidy. step. eexists. split; [reflexivity|]. apply glue_one, glue_end. reflexivity.
    - step. step. eexists. split; [reflexivity|]. apply block_ok in E1. exact E1. }
  destruct B as (b & -> & B).
  eapply glue; [exact E|]. intros u U. apply glue_one. eapply glue; [exact E0|]. intros w (v & -> & V).
  eapply glue; [exact A|]. intros y Y. revert B. apply took_imp. intros z Z.
  rewrite <- app_assoc. cbn [app]. apply item_fn; assumption.
Qed.

Lemma variant_ok n : sound (variant n) Variant.
Proof.
  intros ts a r. unfold variant. step. apply attrs_ok in E. step. tidy. step.
  - tidy. step. step. apply (sep_ok _ _ _ (type_ok n)) in E0. eapply glue; [exact E|]. intros u U. do 2 apply glue_one.
    revert E0. apply took_imp. intros w (v & -> & V). eexists; eexists; eexists. split; [reflexivity|].
    split; [exact U|]. right. exists v. auto.
  - step. eapply glue; [exact E|]. intros u U. apply glue_one, glue_end.
    eexists; eexists; eexists. split; [reflexivity|]. split; [exact U|]. left. auto.
Qed.

Lemma struct_field_ok n : sound (field n) Struct_field.
Proof.
  intros ts a r. unfold field. step. apply attrs_ok in E. intros H. apply typed_name_ok in H.
  eapply glue; [exact E|]. intros u U. eapply glue; [apply skip_pub_ok|]. intros m M. revert H. apply took_imp.
  intros v V. exists a0, u, m, v. auto.
Qed.

Lemma items_loop (item : parser (list attr * SrcAst.item)) : sound item Item ->
  forall m acc ts x r,
  (fix more (m : nat) (acc : list (list attr * SrcAst.item)) (ts : list tok) :=
         match m with
         | O => Bad ts
         | S m =>
             match ts with
             | [] => Got acc []
             | TP RBrace :: _ => Got acc ts
             | _ => do (i, r) <- item ts; more m (acc ++ [i])%list r
             end
         end) m acc ts = Got x r ->
  exists l, x = acc ++ l /\ took (Items l) ts r.
Proof.
  intros I. induction m as [|m IH]; intros acc ts x r; [discriminate|].
  assert (D : (do (i, r) <- item ts; 
     (fix more (m : nat) (acc : list (list attr * SrcAst.item)) (ts : list tok) :=
         match m with
         | O => Bad ts
         | S m =>
             match ts with
             | [] => Got acc []
             | TP RBrace :: _ => Got acc ts
             | _ => do (i, r) <- item ts; more m (acc ++ [i])%list r
             end
         end) m (acc ++ [i])%list r) = Got x r -> exists l, x = acc ++ l /\ took (Items l) ts r).
  { step. apply I in E. intros H. apply IH in H. destruct H as (l & -> & H). rewrite <- app_assoc.
    eexists. split; [reflexivity|]. eapply glue; [exact E|]. intros u U. revert H. apply took_imp. intros v V.
    constructor; assumption. }
  destruct ts as [|[| | | | |[]] ts]; try exact D; step; exists []; rewrite app_nil_r; (split; [reflexivity|]);
    apply glue_end; constructor.
Qed.

Lemma item_items_ok n : sound (item_ n) Item /\ sound (items n) Items.
Proof.
  induction n as [|n [IH1 IH2]]; [split; intros ? ? ?; discriminate|]. split.
  - intros ts x r. cbn [item_]. step. apply attrs_ok in E. intros H.
    assert (K : exists i, x = (a, i) /\ took (Item1 i) (skip_pub rest) r).
    { clear E. revert H. generalize (skip_pub rest). intros us.
      destruct us as [|[|[]| | | |] us]; try discriminate.
      - step. tidy. step. tidy. step. step. eexists. split; [reflexivity|].
        apply (sep_ok _ _ _ (variant_ok n)) in E. do 3 apply glue_one. revert E. apply took_imp.
        intros w (v & -> & V). constructor. exact V.
      - step. step. eexists. split; [reflexivity|]. destruct us as [|[y| | | | |] us]; try discriminate E.
        apply function_ok in E. do 2 apply glue_one. exact E.
      - step. apply type_ok in E.
        match goal with |- (match ?q with Got _ _ => _ | Bad _ => _ end) = _ -> _ => destruct q as [[h s] r2|] eqn:Q; [|discriminate] end.
        cbn [fst snd]. step. tidy. step. apply IH2 in E0. step. tidy. step. eexists. split; [reflexivity|].
        revert Q. step.
        + tidy. step. apply type_ok in E1. destruct a0 as [p args| |]; try discriminate. step.
          apply glue_one. eapply glue; [exact E|]. intros u U. apply glue_one. eapply glue; [exact E1|]. intros v V.
          apply glue_one. eapply glue; [exact E0|]. intros w W. apply glue_one, glue_end.
          eapply item_impl_for; eassumption.
        + step. apply glue_one. eapply glue; [exact E|]. intros u U.
          apply glue_one. eapply glue; [exact E0|]. intros w W. apply glue_one, glue_end.
          apply item_impl; assumption.
      - step. tidy. step.
        + tidy. step. eexists. split; [reflexivity|]. do 3 apply glue_one. apply glue_end. constructor.
        + step. tidy. step. apply IH2 in E. step. tidy. step. eexists. split; [reflexivity|]. do 3 apply glue_one.
          eapply glue; [exact E|]. intros w W. apply glue_one, glue_end. constructor. exact W.
      - step. tidy. step. tidy. step. step. eexists. split; [reflexivity|].
        apply (sep_ok _ _ _ (struct_field_ok n)) in E. do 3 apply glue_one. revert E. apply took_imp.
        intros w (v & -> & V). constructor. exact V.
      - step. tidy. step. tidy. step. apply IH2 in E. step. tidy. step. eexists. split; [reflexivity|]. do 3 apply glue_one.
        eapply glue; [exact E|]. intros w W. apply glue_one, glue_end. constructor. exact W.
      - step. tidy. step. tidy. step. apply type_ok in E. step. tidy. step. eexists. split; [reflexivity|].
        do 3 apply glue_one. eapply glue; [exact E|]. intros w W. apply glue_one, glue_end. constructor. exact W.
      - step. apply use_ok in E. step. tidy. step. eexists. split; [reflexivity|].
        apply glue_one. eapply glue; [exact E|]. intros w W. apply glue_one, glue_end. constructor. exact W. }
    destruct K as (i & -> & K). eapply glue; [exact E|]. intros u U. eapply glue; [apply skip_pub_ok|]. intros m M.
    revert K. apply took_imp. intros v V. constructor; assumption.
  - intros ts x r. cbn [items]. intros H. apply (items_loop _ IH1) in H. destruct H as (l & -> & H). exact H.
Qed.

Theorem parse_ok ts l : parse_file ts = Some l -> exists ts', splits ts ts' /\ Items l ts'.
Proof.
  unfold parse_file. destruct (items depth ts) as [l' [|t r]|] eqn:E; try discriminate.
  intros H. injection H as <-. apply (proj2 (item_items_ok depth)) in E. destruct E as (u & S & U).
  rewrite app_nil_r in S. exists u. auto.
Qed.
