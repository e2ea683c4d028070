(** The parser reads what the grammar says. *)
From Coq Require Import ZArith List Bool String Lia.
From Verif Require Import SrcLex SrcAst SrcParse SpecGrammar.
Import ListNotations.
Local Open Scope string_scope.
Local Open Scope list_scope.

(** ** Tokens taken from the front *)

Lemma splits_refl ts : splits ts ts.
Proof. induction ts; constructor; assumption. Qed.

Lemma splits_trans a b c : splits a b -> splits b c -> splits a c.
Proof.
  intros H. revert c. induction H as [|t a b _ IH|a b _ IH]; intros c K.
  - exact K.
  - inversion K; subst; constructor; apply IH; assumption.
  - inversion K; subst. match goal with H : splits (TP Gt :: b) _ |- _ => inversion H; subst end.
    constructor. apply IH. assumption.
Qed.

Lemma splits_app u a b : splits a b -> splits (u ++ a) (u ++ b).
Proof. intros H. induction u; [exact H|]. cbn. constructor. assumption. Qed.

(** [took G ts r]: what is before [r] in [ts] is a [G]. *)
Definition took (G : list tok -> Prop) (ts r : list tok) : Prop :=
  exists u, splits ts (u ++ r) /\ G u.

Lemma took_one t r : took (fun u => u = [t]) (t :: r) r.
Proof. exists [t]. split; [apply splits_refl|reflexivity]. Qed.

Lemma took_none r : took (fun u => u = []) r r.
Proof. exists []. split; [apply splits_refl|reflexivity]. Qed.

Lemma took_then (G H : list tok -> Prop) ts r1 r2 : took G ts r1 -> took H r1 r2 ->
  took (fun u => exists a b, u = a ++ b /\ G a /\ H b) ts r2.
Proof.
  intros (a & S & A) (b & T & B). exists (a ++ b). split; [|exists a, b; auto].
  eapply splits_trans; [exact S|]. rewrite <- app_assoc. apply splits_app. exact T.
Qed.

Lemma took_imp (G H : list tok -> Prop) ts r : (forall u, G u -> H u) -> took G ts r -> took H ts r.
Proof. intros I (u & S & A). exists u. split; [exact S|apply I; exact A]. Qed.

Lemma took_cons (H : list tok -> Prop) t r1 r2 : took H r1 r2 -> took (fun u => exists b, u = t :: b /\ H b) (t :: r1) r2.
Proof. intros (u & S & A). exists (t :: u). split; [constructor; exact S|exists u; auto]. Qed.

(** Glue: take pieces in order, then show what they make. *)
Lemma glue_one t (G : list tok -> Prop) ts r : took (fun u => G (t :: u)) ts r -> took G (t :: ts) r.
Proof. intros (u & S & A). exists (t :: u). split; [constructor; exact S|exact A]. Qed.

Lemma glue (F G : list tok -> Prop) ts r1 r : took F ts r1 -> (forall a, F a -> took (fun b => G (a ++ b)) r1 r) -> took G ts r.
Proof.
  intros (a & S & A) K. destruct (K a A) as (b & T & B). exists (a ++ b). split; [|exact B].
  eapply splits_trans; [exact S|]. rewrite <- app_assoc. apply splits_app. exact T.
Qed.

Lemma glue_end (G : list tok -> Prop) r : G [] -> took G r r.
Proof. intros H. exists []. split; [apply splits_refl|exact H]. Qed.

Lemma next_is_ok s ts : next_is s ts = true -> exists r, ts = TP s :: r.
Proof.
  destruct ts as [|[] r]; try discriminate. cbn. intros H. unfold sign_eqb in H.
  apply internal_sign_dec_bl in H. subst. exists r. reflexivity.
Qed.
Lemma next_word_ok s ts : next_word s ts = true -> exists r, ts = TK s :: r.
Proof.
  destruct ts as [|[] r]; try discriminate. cbn. intros H. unfold keyword_eqb in H.
  apply internal_keyword_dec_bl in H. subst. exists r. reflexivity.
Qed.
Lemma eat_ok s ts u r : eat s ts = Got u r -> ts = TP s :: r.
Proof.
  unfold eat. destruct (next_is s ts) eqn:E; [|discriminate]. apply next_is_ok in E. destruct E as (x & ->).
  intros H. injection H as _ ->. reflexivity.
Qed.
Lemma eat_word_ok s ts u r : eat_word s ts = Got u r -> ts = TK s :: r.
Proof.
  unfold eat_word. destruct (next_word s ts) eqn:E; [|discriminate]. apply next_word_ok in E. destruct E as (x & ->).
  intros H. injection H as _ ->. reflexivity.
Qed.
Lemma ident_ok ts x r : ident ts = Got x r -> ts = TId x :: r.
Proof. destruct ts as [|[] ?]; try discriminate. cbn. intros H. injection H as <- <-. reflexivity. Qed.

Definition sound {A} (p : parser A) (G : A -> list tok -> Prop) : Prop :=
  forall ts a r, p ts = Got a r -> took (G a) ts r.

Lemma path_ok n : sound (path n) Path.
Proof.
  induction n as [|n IH]; intros ts p r; [discriminate|]. cbn [path].
  destruct (ident ts) as [x r1|] eqn:I; [|discriminate]. apply ident_ok in I. subst ts.
  assert (E : Got [x] r1 = Got p r -> took (Path p) (TId x :: r1) r).
  { intros H. injection H as <- <-. apply glue_one, glue_end. constructor. }
  destruct r1 as [|[y| | | | |[]] r1]; try exact E. destruct r1 as [|[y| | | | |] r1]; try exact E.
  cbn [List.tl]. destruct (path n (TId y :: r1)) as [p' r2|] eqn:R; [|discriminate].
  intros H. injection H as <- <-. apply IH in R. apply glue_one, glue_one.
  revert R. apply took_imp. intros u U. constructor. exact U.
Qed.

Lemma sep_ok {A} (p : parser A) G close : sound p G ->
  forall n ts l r, sep_until n p close ts = Got l r ->
    took (fun u => exists v, u = v ++ [TP close] /\ commas G l v) ts r.
Proof.
  intros P. induction n as [|n IH]; intros ts l r; [discriminate|]. cbn [sep_until].
  destruct (next_is close ts) eqn:C.
  { apply next_is_ok in C. destruct C as (r' & ->). cbn [List.tl]. intros H. injection H as <- <-.
    apply glue_one, glue_end. exists []. split; [reflexivity|constructor]. }
  destruct (p ts) as [x r1|] eqn:X; [|discriminate]. apply P in X.
  destruct (next_is Comma r1) eqn:K.
  - apply next_is_ok in K. destruct K as (r2 & ->). cbn [List.tl].
    destruct (sep_until n p close r2) as [xs r3|] eqn:S; [|discriminate].
    intros H. injection H as <- <-. apply IH in S.
    eapply glue; [exact X|]. intros a Ha. apply glue_one. revert S. apply took_imp.
    intros u (v & -> & V). exists (a ++ TP Comma :: v). rewrite <- app_assoc. split; [reflexivity|].
    constructor; assumption.
  - destruct (eat close r1) as [u r2|] eqn:E; [|discriminate]. apply eat_ok in E. subst r1.
    intros H. injection H as <- <-. eapply glue; [exact X|]. intros a Ha. apply glue_one, glue_end.
    exists a. split; [reflexivity|]. constructor. exact Ha.
Qed.

(** The error case, and the next step. *)
Ltac step := match goal with
  | |- Bad _ = Got _ _ -> _ => discriminate
  | |- Got _ _ = Got _ _ -> _ => let H := fresh in intros H; injection H; clear H; intros; subst
  | |- (match ?m with Got _ _ => _ | Bad _ => _ end) = _ -> _ => let E := fresh "E" in destruct m eqn:E; [|discriminate]
  | |- (if ?b then _ else _) = _ -> _ => let B := fresh "B" in destruct b eqn:B
  end.
Ltac tidy := repeat match goal with
  | H : eat _ _ = Got _ _ |- _ => apply eat_ok in H; subst
  | H : eat_word _ _ = Got _ _ |- _ => apply eat_word_ok in H; subst
  | H : ident _ = Got _ _ |- _ => apply ident_ok in H; subst
  | H : next_is _ ?r = true |- _ => apply next_is_ok in H; destruct H; subst; cbn [List.tl] in *
  | H : next_word _ ?r = true |- _ => apply next_word_ok in H; destruct H; subst; cbn [List.tl] in *
  end.

Lemma skip_mut_ok ts : took (optional (TK Kmut)) ts (skip_mut ts).
Proof.
  unfold skip_mut. destruct (next_word Kmut ts) eqn:B.
  - tidy. apply glue_one, glue_end. right. reflexivity.
  - apply glue_end. left. reflexivity.
Qed.

(** ** Types *)

Lemma type_args_ok (t : parser ty) p : sound t Type_ ->
  forall m acc ts a r,
  (fix args (m : nat) (acc : list ty) (ts : list tok) : res ty :=
     match m with
     | O => Bad ts
     | S m =>
         do (x, r) <- t ts;
         if next_is Comma r then
           match close_angle (List.tl r) with
           | Got _ r' => Got (TyPath p (acc ++ [x])%list) r'
           | Bad _ => args m (acc ++ [x])%list (List.tl r)
           end
         else do (u, r') <- close_angle r; Got (TyPath p (acc ++ [x])%list) r'
     end) m acc ts = Got a r ->
  exists l, a = TyPath p (acc ++ l) /\ l <> [] /\ took (fun u => exists v, u = v ++ [TP Gt] /\ commas Type_ l v) ts r.
Proof.
  intros T. induction m as [|m IH]; intros acc ts a r; [discriminate|].
  assert (K : forall rest u r', close_angle rest = Got u r' -> took (fun u => u = [TP Gt]) rest r').
  { intros rest u r' E. destruct rest as [|[| | | | |[]] rest]; try discriminate E; injection E; intros; subst.
    - apply took_one.
    - exists [TP Gt]. split; [apply split_shr, splits_refl|reflexivity]. }
  step. apply T in E. step.
  - tidy. match goal with |- match close_angle ?q with _ => _ end = _ -> _ => destruct (close_angle q) as [c r'|] eqn:C end.
    + apply K in C. step. exists [a0]. split; [reflexivity|]. split; [discriminate|].
      eapply glue; [exact E|]. intros w W. apply glue_one. revert C. apply took_imp. intros u ->.
      exists (w ++ [TP Comma]). rewrite <- app_assoc. split; [reflexivity|]. constructor; [exact W|constructor].
    + clear C. intros H. apply IH in H. destruct H as (l & -> & N & H). rewrite <- app_assoc.
      eexists. split; [reflexivity|]. split; [discriminate|].
      eapply glue; [exact E|]. intros w W. apply glue_one. revert H. apply took_imp.
      intros u (v & -> & V). exists (w ++ TP Comma :: v). rewrite <- app_assoc. split; [reflexivity|].
      constructor; assumption.
  - step. step. exists [a0]. split; [reflexivity|]. split; [discriminate|].
    eapply glue; [exact E|]. intros w W. apply K in E0.
    revert E0. apply took_imp. intros u ->. exists w. split; [reflexivity|]. constructor. exact W.
Qed.

Lemma type_ok n : sound (type n) Type_.
Proof.
  induction n as [|n IH]; intros ts a r; [discriminate|]. cbn [type].
  assert (P : (do (p, r0) <- path n ts;
     if next_is Lt r0 then
       (fix args (m : nat) (acc : list ty) (ts : list tok) : res ty :=
               match m with
               | O => Bad ts
               | S m =>
                   do (t, r) <- type n ts;
                   if next_is Comma r then
                     match close_angle (List.tl r) with
                     | Got _ r' => Got (TyPath p (acc ++ [t])%list) r'
                     | Bad _ => args m (acc ++ [t])%list (List.tl r)
                     end
                   else do (u, r') <- close_angle r; Got (TyPath p (acc ++ [t])%list) r'
               end) n [] (List.tl r0)
     else Got (TyPath p []) r0) = Got a r -> took (Type_ a) ts r).
  { step. apply path_ok in E. step.
    - tidy. intros H. apply (type_args_ok _ _ IH) in H. destruct H as (l & -> & N & H).
      eapply glue; [exact E|]. intros u U. apply glue_one. revert H. apply took_imp.
      intros w (v & -> & V). apply type_args; assumption.
    - step. eapply took_imp; [|exact E]. intros u U. constructor. exact U. }
  destruct ts as [|[| | | | |[]] ts]; try exact P; clear P.
  - step. step. tidy. step. apply IH in E. apply glue_one. eapply glue; [exact E|]. intros u U. apply glue_one, glue_end.
    constructor. exact U.
  - step. step. apply IH in E. apply glue_one.
    assert (L : took (fun u => u = [] \/ exists x, u = [TLife x]) ts (skip_life ts)).
    { unfold skip_life. destruct ts as [|[] ts]; try (apply glue_end; auto; fail). apply glue_one, glue_end. eauto. }
    assert (M : took (optional (TK Kmut)) (skip_life ts) (skip_mut (skip_life ts))) by apply skip_mut_ok.
    eapply glue; [exact L|]. intros u U. eapply glue; [exact M|]. intros v V. revert E. apply took_imp. intros w W.
    apply type_ref; assumption.
Qed.

(** ** Patterns *)

Lemma pattern_alts_ok (one : parser pat) : sound one Pattern1 ->
  forall m acc ts a r,
  (fix alts (m : nat) (acc : list pat) (ts : list tok) : res pat :=
     match m with
     | O => Bad ts
     | S m =>
         if next_is Bar ts then
           do (q, r') <- one (List.tl ts); alts m (acc ++ [q])%list r'
         else Got (POr acc) ts
     end) m acc ts = Got a r ->
  exists l, a = POr (acc ++ l) /\
    ((l = [] /\ r = ts /\ next_is Bar ts = false) \/
     forall x u, Pattern1 x u -> took (fun v => bars Pattern1 (x :: l) (u ++ v)) ts r).
Proof.
  intros O. induction m as [|m IH]; intros acc ts a r; [discriminate|]. step.
  - tidy. step. apply O in E. intros H. apply IH in H. destruct H as (l & -> & H).
    rewrite <- app_assoc. eexists. split; [reflexivity|]. right. intros y u U.
    apply glue_one. eapply glue; [exact E|]. intros w W. destruct H as [(-> & -> & _)|H].
    + apply glue_end. cbn [app]. rewrite ?app_nil_r. apply bars_two; assumption.
    + specialize (H _ _ W). revert H. apply took_imp. intros v V. apply bars_more; assumption.
  - step. exists []. rewrite app_nil_r. split; [reflexivity|]. left. repeat split; assumption.
Qed.

Lemma pattern_ok n : sound (pattern n) Pattern.
Proof.
  induction n as [|n IH]; intros ts a r; [discriminate|]. cbn [pattern].
  assert (O : sound (pattern1 n (pattern n)) Pattern1).
  { clear ts a r. intros ts a r. unfold pattern1.
    assert (P : (do (p, r0) <- path n ts;
       if next_is LParen r0 then
         do (ps, r') <- sep_until n (pattern n) RParen (List.tl r0); Got (PApp p ps) r'
       else match p with [x] => Got (if x =? "_" then PWild else PBind x) r0 | _ => Got (PPath p) r0 end) = Got a r ->
       took (Pattern1 a) ts r).
    { step. apply path_ok in E. step.
      - tidy. step. step. apply (sep_ok _ _ _ IH) in E0. eapply glue; [exact E|]. intros u U. apply glue_one.
        revert E0. apply took_imp. intros w (v & -> & V). constructor; assumption.
      - destruct E as (u & S & U). destruct U as [x|x p u U].
        + step. exists [TId x]. split; [exact S|]. destruct (x =? "_") eqn:X.
          * apply String.eqb_eq in X. subst x. constructor.
          * apply String.eqb_neq in X. constructor. exact X.
        + destruct p as [|y p]; [inversion U|]. step. exists (TId x :: TP ColonColon :: u).
          split; [exact S|]. constructor. constructor. exact U. }
    destruct ts as [|[| |z s| | |[]] ts]; try exact P; clear P.
    - assert (L : Got (PLit z) ts = Got a r -> took (Pattern1 a) (TNum z s :: ts) r).
      { step. apply glue_one, glue_end. constructor. }
      destruct ts as [|[| | | | |[]] ts]; try exact L. destruct ts as [|[| |z' s'| | |] ts]; try exact L.
      step. apply glue_one, glue_one, glue_one, glue_end. constructor.
    - step. apply (sep_ok _ _ _ IH) in E. intros H.
      assert (K : List.length a0 <> 1%nat /\ PTuple a0 = a /\ rest = r).
      { destruct a0 as [|x [|y l]]; try discriminate H; injection H; intros; subst; repeat split; discriminate. }
      destruct K as (N & <- & <-). apply glue_one. revert E. apply took_imp. intros w (v & -> & V).
      constructor; assumption. }
  assert (L : exists b ts1, ts = b ++ ts1 /\ optional (TP Bar) b /\ (if next_is Bar ts then List.tl ts else ts) = ts1).
  { destruct (next_is Bar ts) eqn:B.
    - tidy. exists [TP Bar], x. repeat split. right. reflexivity.
    - exists [], ts. repeat split. left. reflexivity. }
  destruct L as (b & ts1 & -> & Ob & ->). intros H.
  assert (K : took (fun u => Pattern a (b ++ u)) ts1 r).
  { revert H. step. apply O in E. step.
    - tidy. intros H. apply (pattern_alts_ok _ O) in H. destruct H as (l & -> & [(_ & _ & F)|H]).
      + discriminate F.
      + eapply glue; [exact E|]. intros u U. specialize (H _ _ U). revert H. apply took_imp.
        intros v V. constructor; assumption.
    - step. revert E. apply took_imp. intros u U. constructor; assumption. }
  destruct K as (u & S & U). exists (b ++ u). split; [|exact U]. rewrite <- app_assoc. apply splits_app. exact S.
Qed.

(** ** Use declarations *)

Lemma use_ok n : forall pre, sound (use_tree n pre) (Use pre).
Proof.
  induction n as [|n IH]; intros pre ts a r; [discriminate|]. cbn [use_tree].
  destruct ts as [|[x| | | | |[]] ts]; try discriminate.
  - assert (L : (if x =? "self" then Got [(List.last pre "", pre)] ts else Got [(x, pre ++ [x])] ts) = Got a r ->
      took (Use pre a) (TId x :: ts) r).
    { destruct (x =? "self") eqn:X; step; apply glue_one, glue_end.
      - apply String.eqb_eq in X. subst x. constructor.
      - apply String.eqb_neq in X. constructor. exact X. }
    destruct ts as [|[| | | | |[]] ts]; try exact L. intros H. apply IH in H. apply glue_one, glue_one.
    revert H. apply took_imp. intros u U. constructor. exact U.
  - step. step. apply (sep_ok _ _ _ (IH pre)) in E. apply glue_one. revert E. apply took_imp.
    intros w (v & -> & V). constructor. exact V.
Qed.

(** ** Expressions *)

Lemma closure_param_ok n : sound (closure_param n) Closure_param.
Proof.
  intros ts a r. unfold closure_param. step. tidy. step.
  - tidy. step. step. apply type_ok in E. apply glue_one, glue_one. revert E. apply took_imp.
    intros u U. exists u. split; [reflexivity|exact U].
  - step. apply glue_one, glue_end. reflexivity.
Qed.

Lemma level_ok op : level op = precedence op.
Proof. destruct op; reflexivity. Qed.

Lemma block_start_ok ts : block_start ts = true -> starts_block ts.
Proof.
  destruct ts as [|[|[]| | | |[]] ts]; try discriminate; intros _; eexists; eexists; split; try reflexivity; tauto.
Qed.
Lemma block_start_no ts : block_start ts = false -> ~ starts_block ts.
Proof. intros H (t & ts' & -> & [->|[->|[->| ->]]]); discriminate H. Qed.

Lemma operand_down ok c e ts n k : (n <= k)%nat -> Operand ok k c e ts -> Operand ok n c e ts.
Proof. intros H. induction H as [|k _ IH]; [exact (fun x => x)|]. intros O. apply IH. constructor. exact O. Qed.

(** What is first in what was taken. *)
Lemma splits_start ts u r t : splits ts (u ++ r) -> u <> [] -> (exists ts', ts = t :: ts') -> t <> TP Shr ->
  exists u', u = t :: u'.
Proof.
  intros S N (ts' & ->) T. destruct u as [|x u]; [congruence|]. cbn in S. inversion S; subst; [eexists; reflexivity|congruence].
Qed.
