(** The parser finds what the grammar allows; with enough fuel.  Blocks and what is left of the expressions. *)
From Coq Require Import ZArith List Bool String Lia.
From Verif Require Import SrcLex SrcAst SrcParse SpecGrammar SrcGram SrcGram2 SrcFull SrcFull2 SrcFull3.
Import ListNotations.
Local Open Scope string_scope.
Local Open Scope list_scope.

Lemma starts_block_ok u : starts_block u <-> block_start u = true.
Proof.
  split.
  - intros (t & u' & -> & [->|[->|[->| ->]]]); reflexivity.
  - destruct u as [|t u]; [discriminate|]. intros H. exists t, u. split; [reflexivity|].
    destruct t as [|[]| | | |[]]; try discriminate H; tauto.
Qed.
Lemma block_start_split ts r : splits ts r -> block_start ts = block_start r.
Proof. intros S. destruct S as [|t a b S|a b S]; reflexivity. Qed.
Lemma block_start_app u r : u <> [] -> block_start (u ++ r) = block_start u.
Proof. destruct u as [|[|[]| | | |[]] u]; try reflexivity; congruence. Qed.

Lemma body_starts e u : Body e u -> starts begins u.
Proof.
  destruct 1 as [e u B P|e u B E].
  - eapply starts_imp; [exact primary_begins|]. eapply primary_starts. exact P.
  - eapply expr_starts. exact E.
Qed.
Lemma body_no_assign e u : Body e u -> no_assign u.
Proof. destruct 1 as [e u B P|e u B E]; [eapply primary_no_assign; exact P|eapply expr_no_assign; exact E]. Qed.
Lemma starts_cons P u : starts P u -> u <> [].
Proof. intros (a & u' & -> & _). discriminate. Qed.
Lemma starts_not P s u r : starts P u -> ~ P (TP s) -> next_is s (u ++ r) = false.
Proof. intros (a & u' & -> & B) N. cbn [app]. apply next_other. intros ->. exact (N B). Qed.
Lemma starts_not_word P s u r : starts P u -> ~ P (TK s) -> next_word s (u ++ r) = false.
Proof. intros (a & u' & -> & B) N. cbn [app]. apply word_other. intros ->. exact (N B). Qed.

Lemma body_full N e u : expr_full N -> primary_full N -> Body e u -> (len u <= N)%nat ->
  forall n ts r, fuel_for 20 u n -> splits ts (u ++ r) ->
  (block_start u = true -> next_word Kelse r = false) -> (block_start u = false -> stops r = true) ->
  block_start ts = block_start u /\ gets (if block_start ts then primary n true else expr_ n true) ts e r.
Proof.
  intros EF PF B LEN n ts r FU S FB FE.
  assert (Q : block_start ts = block_start u).
  { rewrite (block_start_split _ _ S). apply block_start_app. eapply starts_cons, body_starts. exact B. }
  split; [exact Q|]. rewrite Q. unfold fuel_for in FU. destruct B as [e u SB P|e u SB E].
  - pose proof SB as SB'. apply starts_block_ok in SB'. rewrite SB'. apply (PF true e u P LEN); [unfold fuel_for; lia|exact S|].
    split; [exact (FB SB')|left; exact SB].
  - assert (NB : block_start u = false) by (destruct (block_start u) eqn:D; [apply starts_block_ok in D; contradiction|reflexivity]).
    rewrite NB. apply (EF true e u E LEN); [unfold fuel_for; lia|exact S|exact (FE NB)].
Qed.

(** ** Statements *)

Definition stmts_loop (n : nat) := fix stmts (m : nat) (acc : list stmt) (ts : list tok) : res expr :=
         match m with
         | O => Bad ts
         | S m =>
             match ts with
             | TP RBrace :: r => Got (EBlock acc None) r
             | TK Klet :: r =>
                 do (x, r1) <- ident (skip_mut r);
                 do (t, r2) <- (if next_is Colon r1 then
                                  do (t, r') <- type n (List.tl r1); Got (Some t) r'
                                else Got None r1);
                 do (u, r3) <- eat Eq r2;
                 do (e, r4) <- expr_ n true r3;
                 do (u, r5) <- eat Semi r4;
                 stmts m (acc ++ [SLet x t e])%list r5
             | TK Kuse :: r =>
                 do (us, r1) <- use_tree n [] r;
                 do (u, r2) <- eat Semi r1;
                 stmts m (acc ++ [SUse us])%list r2
             | TId x :: TP BarEq :: r =>
                 do (e, r1) <- expr_ n true r;
                 do (u, r2) <- eat Semi r1;
                 stmts m (acc ++ [SExpr (EAssign Bar x e)])%list r2
             | _ =>
                 if block_start ts then
                   do (e, r) <- primary n true ts;
                   if next_is RBrace r then Got (EBlock acc (Some e)) (List.tl r)
                   else if next_is Semi r then stmts m (acc ++ [SExpr e])%list (List.tl r)
                   else stmts m (acc ++ [SExpr e])%list r
                 else
                   do (e, r) <- expr_ n true ts;
                   if next_is Semi r then stmts m (acc ++ [SExpr e])%list (List.tl r)
                   else do (u, r') <- eat RBrace r; Got (EBlock acc (Some e)) r'
             end
         end.

(** At an expression the loop reads an expression. *)
Lemma stmts_body n m acc e u ts r : Body e u -> splits ts (u ++ r) -> (block_start u = false -> next_is BarEq r = false) ->
  stmts_loop n (S m) acc ts =
                 if block_start ts then
                   do (e, r) <- primary n true ts;
                   if next_is RBrace r then Got (EBlock acc (Some e)) (List.tl r)
                   else if next_is Semi r then stmts_loop n m (acc ++ [SExpr e])%list (List.tl r)
                   else stmts_loop n m (acc ++ [SExpr e])%list r
                 else
                   do (e, r) <- expr_ n true ts;
                   if next_is Semi r then stmts_loop n m (acc ++ [SExpr e])%list (List.tl r)
                   else do (u, r') <- eat RBrace r; Got (EBlock acc (Some e)) r'.
Proof.
  intros B S F. pose proof (body_no_assign _ _ B) as NB. destruct (body_starts _ _ B) as (a & u' & -> & BE).
  assert (NA : forall x w, ts <> TId x :: TP BarEq :: w).
  { intros x w ->. cbn [app] in S. inversion S as [|t1 a1 b1 S1 Q1 Q2|]. subst a t1 a1 b1. inversion S1 as [|t2 a2 b2 S2 Q1 Q3|]. subst t2 a2.
    destruct u' as [|b u'].
    - cbn [app] in Q3. rewrite <- Q3 in F. specialize (F eq_refl). rewrite next_refl in F. discriminate F.
    - cbn [app] in Q3. injection Q3 as <- _. exact (NB x u' eq_refl). }
  cbn [app] in S. assert (a <> TP Gt) by (intros ->; cbn in BE; intuition discriminate).
  apply pop in S; [|assumption]. destruct S as (ts0 & -> & S).
  destruct a as [x|[]| | | |[]]; try reflexivity; try (cbn in BE; intuition discriminate).
  destruct ts0 as [|[| | | | |[]] ts0]; try reflexivity. exfalso. exact (NA _ _ eq_refl).
Qed.

Lemma statements_first ss tail u : Statements ss tail u -> u <> [] -> starts (fun a => begins a \/ a = TK Klet \/ a = TK Kuse) u.
Proof.
  destruct 1; intros NE; try (eexists; eexists; (split; [reflexivity|]); tauto; fail).
  - congruence.
  - eapply starts_imp; [|eapply body_starts; eassumption]. tauto.
  - eexists; eexists; (split; [reflexivity|]). left. exact I.
  - apply starts_app. eapply starts_imp; [|eapply body_starts; eassumption]. tauto.
  - apply starts_app. eapply starts_imp; [|eapply body_starts; eassumption]. tauto.
Qed.

Lemma stmts_full N n : expr_full N -> primary_full N -> forall ss tail u, Statements ss tail u -> (len u <= N)%nat -> fuel_for 20 u n ->
  forall m acc ts r, (len u < m)%nat -> splits ts (u ++ TP RBrace :: r) -> gets (stmts_loop n m acc) ts (EBlock (acc ++ ss) tail) r.
Proof.
  intros EF PF ss tail u ST. unfold fuel_for.
  induction ST as [|e u B|mu x t v e w ss tail u MU AN E ST IH|l v ss tail u U ST IH|x e v ss tail u E ST IH|e v ss tail u B ST IH|e v ss tail u SB B ST IH NE];
    intros LEN FU m acc ts r M S; (destruct m as [|m]; [lia|]).
  - cbn [app] in S. pop S as ts0. exists ts0. split; [|exact S]. rewrite app_nil_r. reflexivity.
  - destruct (body_full N e u EF PF B LEN n ts (TP RBrace :: r)) as (Q & r' & E' & S'); [unfold fuel_for; lia|exact S|reflexivity|reflexivity|].
    pop S' as r1. exists r1. split; [|exact S'].
    rewrite (stmts_body n m acc e u ts _ B S) by reflexivity. rewrite app_nil_r. destruct (block_start ts); rewrite E'.
    + rewrite next_refl. reflexivity.
    + rewrite next_other by discriminate. rewrite eat_refl. reflexivity.
  - cbn [app len] in *. rewrite !app_length in LEN, FU, M. cbn [len] in LEN, FU, M. rewrite !app_length in LEN, FU, M. cbn [len] in LEN, FU, M.
    rewrite !app_length in LEN, FU, M. cbn [len] in LEN, FU, M.
    pop S as ts0. rewrite <- app_assoc in S. cbn [app] in S. rewrite <- app_assoc in S. cbn [app] in S. rewrite <- app_assoc in S. cbn [app] in S.
    assert (SK : exists ts1, skip_mut ts0 = TId x :: ts1 /\ splits ts1 (v ++ TP Eq :: w ++ TP Semi :: u ++ TP RBrace :: r)).
    { unfold skip_mut. rewrite (word_split _ _ _ S). destruct MU as [->| ->]; cbn [app] in S |- *.
      - rewrite word_other by discriminate. pop S as ts1. eauto.
      - rewrite word_refl. pop S as ts1. pop S as ts2. cbn [List.tl]. eauto. }
    destruct SK as (ts1 & E1 & S1).
    assert (TY : exists ts2, (if next_is Colon ts1 then do (t, r') <- type n (List.tl ts1); Got (Some t) r' else Got None ts1) = Got t ts2 /\
      splits ts2 (TP Eq :: w ++ TP Semi :: u ++ TP RBrace :: r)).
    { destruct t as [t|]; cbn [Annotation] in AN.
      - destruct AN as (v' & -> & T). cbn [app len] in *. pop S1 as ts2. rewrite next_refl. cbn [List.tl].
        destruct (type_full (len v') t v' T) with (n := n) (ts := ts2) (r := TP Eq :: w ++ TP Semi :: u ++ TP RBrace :: r) as (r' & E2 & S2);
          [lia|lia|exact S1|split; reflexivity|]. rewrite E2. eauto.
      - subst v. cbn [app] in S1. rewrite (next_split Colon ts1 _ ltac:(discriminate) ltac:(discriminate) S1), next_other by discriminate. eauto. }
    destruct TY as (ts2 & E2 & S2). pop S2 as ts3.
    destruct (EF true e w E) with (n := n) (ts := ts3) (r := TP Semi :: u ++ TP RBrace :: r) as (r4 & E4 & S4); [lia|unfold fuel_for; lia|exact S2|reflexivity|].
    pop S4 as r5. destruct (IH ltac:(lia) ltac:(lia) m (acc ++ [SLet x t e]) r5 r ltac:(lia) S4) as (r6 & E6 & S6).
    exists r6. split; [|exact S6]. cbn [stmts_loop]. rewrite E1. cbn [ident]. rewrite E2, eat_refl, E4, eat_refl. rewrite <- app_assoc in E6. exact E6.
  - cbn [app len] in *. rewrite app_length in LEN, FU, M. cbn [len] in LEN, FU, M. pop S as ts0. rewrite <- app_assoc in S. cbn [app] in S.
    destruct (use_full (len v) [] l v U) with (n := n) (ts := ts0) (r := TP Semi :: u ++ TP RBrace :: r) as (r1 & E1 & S1); [lia|lia|exact S|reflexivity|].
    pop S1 as r2. destruct (IH ltac:(lia) ltac:(lia) m (acc ++ [SUse l]) r2 r ltac:(lia) S1) as (r6 & E6 & S6).
    exists r6. split; [|exact S6]. cbn [stmts_loop]. rewrite E1, eat_refl. rewrite <- app_assoc in E6. exact E6.
  - cbn [app len] in *. rewrite app_length in LEN, FU, M. cbn [len] in LEN, FU, M. pop S as ts0. pop S as ts1. rewrite <- app_assoc in S. cbn [app] in S.
    destruct (EF true e v E) with (n := n) (ts := ts1) (r := TP Semi :: u ++ TP RBrace :: r) as (r4 & E4 & S4); [lia|unfold fuel_for; lia|exact S|reflexivity|].
    pop S4 as r5. destruct (IH ltac:(lia) ltac:(lia) m (acc ++ [SExpr (EAssign Bar x e)]) r5 r ltac:(lia) S4) as (r6 & E6 & S6).
    exists r6. split; [|exact S6]. cbn [stmts_loop]. rewrite E4, eat_refl. rewrite <- app_assoc in E6. exact E6.
  - rewrite app_length in LEN, FU, M. cbn [len] in LEN, FU, M. rewrite <- app_assoc in S. cbn [app] in S.
    destruct (body_full N e v EF PF B) with (n := n) (ts := ts) (r := TP Semi :: u ++ TP RBrace :: r) as (Q & r' & E' & S');
      [lia|unfold fuel_for; lia|exact S|reflexivity|reflexivity|].
    pop S' as r1. destruct (IH ltac:(lia) ltac:(lia) m (acc ++ [SExpr e]) r1 r ltac:(lia) S') as (r6 & E6 & S6).
    exists r6. split; [|exact S6]. rewrite (stmts_body n m acc e v ts _ B S) by reflexivity. rewrite <- app_assoc in E6.
    destruct (block_start ts); rewrite E'.
    + rewrite next_other by discriminate. rewrite next_refl. exact E6.
    + rewrite next_refl. exact E6.
  - rewrite app_length in LEN, FU, M. rewrite <- app_assoc in S. apply starts_block_ok in SB.
    pose proof (starts_len _ _ (body_starts _ _ B)) as LV. pose proof (statements_first _ _ _ ST NE) as FI.
    destruct (body_full N e v EF PF B) with (n := n) (ts := ts) (r := u ++ TP RBrace :: r) as (Q & r' & E' & S');
      [lia|unfold fuel_for; lia|exact S| |congruence|].
    { intros _. eapply starts_not_word; [exact FI|]. cbn. intuition discriminate. }
    destruct (IH ltac:(lia) ltac:(lia) m (acc ++ [SExpr e]) r' r ltac:(lia) S') as (r6 & E6 & S6).
    exists r6. split; [|exact S6]. rewrite (stmts_body n m acc e v ts _ B S) by congruence. rewrite <- app_assoc in E6.
    rewrite Q, SB in *. rewrite E'. rewrite !(fun s N1 N2 => next_split s r' _ N1 N2 S') by discriminate.
    rewrite !(fun s => starts_not _ s u (TP RBrace :: r) FI) by (cbn; intuition discriminate). exact E6.
Qed.

Lemma block_all N : expr_full N -> primary_full N -> block_full (S N).
Proof.
  intros EF PF e u B LEN n ts r FU S. destruct B as [ss tail u ST]. unfold fuel_for in FU. destruct n as [|n]; [lia|].
  cbn [app len] in *. rewrite app_length in LEN, FU. cbn [len] in LEN, FU. pop S as ts0. rewrite <- app_assoc in S. cbn [app] in S.
  destruct (stmts_full N n EF PF ss tail u ST) with (m := n) (acc := @nil stmt) (ts := ts0) (r := r) as (r' & E & S'); [lia|unfold fuel_for; lia|lia|exact S|].
  exists r'. split; [|exact S']. cbn [block]. rewrite eat_refl. exact E.
Qed.

(** ** Arms *)

Definition arms_loop (n : nat) (e : expr) := fix arms (m : nat) (acc : list (pat * expr)) (ts : list tok) : res expr :=
             match m with
             | O => Bad ts
             | S m =>
                 if next_is RBrace ts then Got (EMatch e acc) (List.tl ts)
                 else
                   do (p, r) <- pattern n ts;
                   do (u, r1) <- eat FatArrow r;
                   do (b, r2) <- (if block_start r1 then primary n true r1 else expr_ n true r1);
                   if next_is Comma r2 then arms m (acc ++ [(p, b)])%list (List.tl r2)
                   else if block_start r1 then arms m (acc ++ [(p, b)])%list r2
                   else if next_is RBrace r2 then arms m (acc ++ [(p, b)])%list r2
                   else Bad r2
             end.

Lemma pattern_starts p u : Pattern p u -> starts (fun a => (exists x, a = TId x) \/ (exists z s, a = TNum z s) \/ a = TP LParen \/ a = TP Bar) u.
Proof. exact (pattern_first p u). Qed.
Lemma pattern_next p u s r : Pattern p u -> ~ In s [LParen; Bar] -> next_is s (u ++ r) = false.
Proof.
  intros P N. apply (starts_not _ s u r (pattern_starts _ _ P)). intros [(x & Q)|[(z & w & Q)|[Q|Q]]]; try discriminate Q; injection Q as ->; apply N; cbn; tauto.
Qed.
Lemma pattern_word p u s r : Pattern p u -> next_word s (u ++ r) = false.
Proof. intros P. apply (starts_not_word _ s u r (pattern_starts _ _ P)). intros [(x & Q)|[(z & w & Q)|[Q|Q]]]; discriminate Q. Qed.
Lemma arms_first l u r : Arms l u -> next_word Kelse (u ++ TP RBrace :: r) = false /\ next_is Comma (u ++ TP RBrace :: r) = false.
Proof.
  destruct 1 as [|p u e v P B|p u e v l w P B A|p u e v l w P SB B A]; [split; reflexivity| | |]; rewrite <- app_assoc;
    (split; [eapply pattern_word; exact P|eapply pattern_next; [exact P|cbn; intuition discriminate]]).
Qed.

Lemma arms_full N n e0 : expr_full N -> primary_full N -> forall l u, Arms l u -> (len u <= N)%nat -> fuel_for 20 u n ->
  forall m acc ts r, (len u < m)%nat -> splits ts (u ++ TP RBrace :: r) -> gets (arms_loop n e0 m acc) ts (EMatch e0 (acc ++ l)) r.
Proof.
  intros EF PF l u A. unfold fuel_for.
  assert (END : forall m acc ts r, splits ts (TP RBrace :: r) -> gets (arms_loop n e0 (S m) acc) ts (EMatch e0 acc) r).
  { intros m acc ts r S. pop S as ts0. exists ts0. split; [|exact S]. cbn [arms_loop]. rewrite next_refl. reflexivity. }
  induction A as [|p u e v P B|p u e v l w P B A IH|p u e v l w P SB B A IH]; intros LEN FU m acc ts r M S; (destruct m as [|m]; [lia|]).
  - cbn [app] in S. rewrite app_nil_r. apply END. exact S.
  - rewrite app_length in LEN, FU, M. cbn [len] in LEN, FU, M. rewrite <- app_assoc in S. cbn [app] in S.
    pose proof (pattern_next p u RBrace (TP FatArrow :: v ++ TP RBrace :: r) P ltac:(cbn; intuition discriminate)) as NR.
    rewrite <- (next_split RBrace ts _ ltac:(discriminate) ltac:(discriminate) S) in NR.
    destruct (pattern_full (len u) p u P) with (n := n) (ts := ts) (r := TP FatArrow :: v ++ TP RBrace :: r) as (r1 & E1 & S1);
      [lia|lia|exact S|repeat split; reflexivity|]. pop S1 as r2.
    destruct (body_full N e v EF PF B) with (n := n) (ts := r2) (r := TP RBrace :: r) as (Q & r3 & E3 & S3);
      [lia|unfold fuel_for; lia|exact S1|reflexivity|reflexivity|].
    destruct m as [|m]; [lia|]. destruct (END m (acc ++ [(p, e)]) r3 r S3) as (r4 & E4 & S4). exists r4. split; [|exact S4].
    rewrite <- E4. clear E4. set (k := Datatypes.S m). cbn [arms_loop]. rewrite NR, E1, eat_refl.
    assert (W : (if block_start r2 then primary n true r2 else expr_ n true r2) = Got e r3) by (destruct (block_start r2); exact E3).
    rewrite W. rewrite !(fun s N1 N2 => next_split s r3 _ N1 N2 S3) by discriminate. rewrite next_refl, next_other by discriminate.
    destruct (block_start r2); reflexivity.
  - rewrite app_length in LEN, FU, M. cbn [len] in LEN, FU, M. rewrite app_length in LEN, FU, M. cbn [len] in LEN, FU, M.
    rewrite <- app_assoc in S. cbn [app] in S. rewrite <- app_assoc in S. cbn [app] in S.
    pose proof (pattern_next p u RBrace (TP FatArrow :: v ++ TP Comma :: w ++ TP RBrace :: r) P ltac:(cbn; intuition discriminate)) as NR.
    rewrite <- (next_split RBrace ts _ ltac:(discriminate) ltac:(discriminate) S) in NR.
    destruct (pattern_full (len u) p u P) with (n := n) (ts := ts) (r := TP FatArrow :: v ++ TP Comma :: w ++ TP RBrace :: r) as (r1 & E1 & S1);
      [lia|lia|exact S|repeat split; reflexivity|]. pop S1 as r2.
    destruct (body_full N e v EF PF B) with (n := n) (ts := r2) (r := TP Comma :: w ++ TP RBrace :: r) as (Q & r3 & E3 & S3);
      [lia|unfold fuel_for; lia|exact S1|reflexivity|reflexivity|]. pop S3 as r5.
    destruct (IH ltac:(lia) ltac:(lia) m (acc ++ [(p, e)]) r5 r ltac:(lia) S3) as (r4 & E4 & S4). exists r4. split; [|exact S4].
    rewrite <- app_assoc in E4. cbn [arms_loop]. rewrite NR, E1, eat_refl.
    assert (W : (if block_start r2 then primary n true r2 else expr_ n true r2) = Got e (TP Comma :: r5)) by (destruct (block_start r2); exact E3).
    rewrite W. rewrite next_refl. exact E4.
  - rewrite app_length in LEN, FU, M. cbn [len] in LEN, FU, M. rewrite app_length in LEN, FU, M.
    rewrite <- app_assoc in S. cbn [app] in S. rewrite <- app_assoc in S. apply starts_block_ok in SB.
    pose proof (pattern_next p u RBrace (TP FatArrow :: v ++ w ++ TP RBrace :: r) P ltac:(cbn; intuition discriminate)) as NR.
    rewrite <- (next_split RBrace ts _ ltac:(discriminate) ltac:(discriminate) S) in NR. destruct (arms_first _ _ r A) as [NE NC].
    destruct (pattern_full (len u) p u P) with (n := n) (ts := ts) (r := TP FatArrow :: v ++ w ++ TP RBrace :: r) as (r1 & E1 & S1);
      [lia|lia|exact S|repeat split; reflexivity|]. pop S1 as r2.
    destruct (body_full N e v EF PF B) with (n := n) (ts := r2) (r := w ++ TP RBrace :: r) as (Q & r3 & E3 & S3);
      [lia|unfold fuel_for; lia|exact S1|intros _; exact NE|congruence|].
    destruct (IH ltac:(lia) ltac:(lia) m (acc ++ [(p, e)]) r3 r ltac:(lia) S3) as (r4 & E4 & S4). exists r4. split; [|exact S4].
    rewrite <- app_assoc in E4. cbn [arms_loop]. rewrite NR, E1, eat_refl. rewrite Q, SB in *. rewrite E3.
    rewrite (next_split Comma r3 _ ltac:(discriminate) ltac:(discriminate) S3), NC. exact E4.
Qed.

(** ** The rest *)

Lemma field_first x u : Field x u -> exists y u', u = TId y :: u'.
Proof. destruct 1. eauto. Qed.

Lemma primary_all N : expr_full N -> primary_full N -> block_full (S N) -> primary_full (S N).
Proof.
  intros EF PF BF.
  assert (BN : block_full N) by (intros e u B L; apply (BF e u B); lia).
  intros ok e u P LEN n ts r FU S F. unfold fuel_for in FU. destruct n as [|n]; [lia|].
  destruct P as [ok z s|ok s|ok|ok|ok p u P|ok e u E|ok l u C|p u fs v P C|ok m l u NM C|ok e u p v E P|ok e u B|ok c u t v E B|ok c u t v e w E B B2
    |ok c u t v e w E B P SI|ok p u e v b w P E B|ok e u l v E A|ok p u e v b w P E B]; cbn [app len] in *.
  - pop S as ts0. exists ts0. split; [reflexivity|exact S].
  - pop S as ts0. exists ts0. split; [reflexivity|exact S].
  - pop S as ts0. exists ts0. split; [reflexivity|exact S].
  - pop S as ts0. exists ts0. split; [reflexivity|exact S].
  - destruct F as (_ & [SB|(F1 & F2 & F3)]).
    { apply starts_block_ok in SB. destruct P; discriminate SB. }
    destruct (path_full p u P n ts r) as (r1 & E1 & S1); [lia|exact S|exact F1|]. exists r1. split; [|exact S1].
    assert (Q : primary (Datatypes.S n) ok ts = do (p, r) <- path n ts;
          if ok && next_is LBrace r then
            do (fs, r') <- sep_until n (fun ts =>
                 do (x, r) <- ident ts;
                 do (u, r1) <- eat Colon r;
                 do (e, r2) <- expr_ n true r1;
                 Got (x, e) r2) RBrace (List.tl r);
            Got (EStruct p fs) r'
          else Got (EPath p) r).
    { destruct P as [x|x p u P]; cbn [app] in S; pop S as ts0.
      - rewrite <- (next_split Bang ts0 r) in F2 by (discriminate || exact S). destruct ts0 as [|[| | | | |[]] ts0]; try reflexivity. discriminate F2.
      - pop S as ts1. reflexivity. }
    rewrite Q, E1. rewrite (next_split LBrace r1 r) by (discriminate || exact S1). destruct ok; [rewrite (F3 eq_refl)|]; reflexivity.
  - rewrite app_length in LEN, FU. cbn [len] in LEN, FU. pop S as ts0. rewrite <- app_assoc in S. cbn [app] in S.
    destruct (EF true e u E) with (n := n) (ts := ts0) (r := TP RParen :: r) as (r1 & E1 & S1); [lia|unfold fuel_for; lia|exact S|reflexivity|]. pop S1 as r2.
    exists r2. split; [|exact S1]. cbn [primary]. rewrite E1, eat_refl. reflexivity.
  - rewrite app_length in LEN, FU. cbn [len] in LEN, FU. pop S as ts0. rewrite <- app_assoc in S. cbn [app] in S.
    destruct (exprs_full N EF l u RBrack C ltac:(lia) ltac:(cbn; tauto) n n ts0 r) as (r1 & E1 & S1); [unfold fuel_for; lia|lia|exact S|].
    exists r1. split; [|exact S1]. cbn [primary]. rewrite E1. reflexivity.
  - rewrite app_length in LEN, FU. cbn [len] in LEN, FU. rewrite app_length in LEN, FU. cbn [len] in LEN, FU.
    rewrite <- app_assoc in S. cbn [app] in S. rewrite <- app_assoc in S. cbn [app] in S.
    destruct (path_full p u P n ts (TP LBrace :: v ++ TP RBrace :: r)) as (r1 & E1 & S1); [lia|exact S|reflexivity|]. pop S1 as r2.
    set (fp := fun ts => do (x, r) <- ident ts; do (u, r1) <- eat Colon r; do (e, r2) <- expr_ n true r1; Got (x, e) r2).
    assert (K : gets (sep_until n fp RBrace) r2 fs r).
    { apply (commas_full fp Field RBrace fs v C); try discriminate.
      - cbn. intuition discriminate.
      - intros x t X _. destruct (field_first _ _ X) as (y & t' & ->). eexists; eexists; split; [reflexivity|]. split; [intros s Q; discriminate Q|discriminate].
      - intros x t X LX ts3 r3 S3 Q. destruct X as [x e t X]. cbn [app len] in *. pop S3 as ts4. pop S3 as ts5.
        destruct (EF true e t X) with (n := n) (ts := ts5) (r := r3) as (r4 & E4 & S4); [lia|unfold fuel_for; lia|exact S3|destruct Q as (r' & [->| ->]); reflexivity|].
        exists r4. split; [|exact S4]. unfold fp. cbn [ident]. rewrite eat_refl, E4. reflexivity.
      - lia.
      - exact S1. }
    destruct K as (r3 & E3 & S3). exists r3. split; [|exact S3].
    assert (Q : primary (Datatypes.S n) true ts = do (p, r) <- path n ts;
          if true && next_is LBrace r then do (fs, r') <- sep_until n fp RBrace (List.tl r); Got (EStruct p fs) r' else Got (EPath p) r).
    { destruct P as [x|x p u P]; cbn [app] in S; pop S as ts0; pop S as ts1; reflexivity. }
    rewrite Q, E1. rewrite next_refl. cbn [andb List.tl]. rewrite E3. reflexivity.
  - rewrite app_length in LEN, FU. cbn [len] in LEN, FU. pop S as ts0. pop S as ts1. pop S as ts2. rewrite <- app_assoc in S. cbn [app] in S.
    destruct (exprs_full N EF l u RParen C ltac:(lia) ltac:(cbn; tauto) n n ts2 r) as (r1 & E1 & S1); [unfold fuel_for; lia|lia|exact S|].
    exists r1. split; [|exact S1]. cbn [primary]. apply String.eqb_neq in NM. rewrite NM, E1. reflexivity.
  - rewrite app_length in LEN, FU. cbn [len] in LEN, FU. rewrite app_length in LEN, FU. cbn [len] in LEN, FU.
    pop S as ts0. pop S as ts1. pop S as ts2. rewrite <- app_assoc in S. cbn [app] in S. rewrite <- app_assoc in S. cbn [app] in S.
    destruct (EF true e u E) with (n := n) (ts := ts2) (r := TP Comma :: v ++ TP RParen :: r) as (r1 & E1 & S1); [lia|unfold fuel_for; lia|exact S|reflexivity|].
    pop S1 as r2. destruct (pattern_full (len v) p v P) with (n := n) (ts := r2) (r := TP RParen :: r) as (r3 & E3 & S3);
      [lia|lia|exact S1|repeat split; reflexivity|]. pop S3 as r4.
    exists r4. split; [|exact S3]. cbn [primary]. rewrite String.eqb_refl, E1, eat_refl, E3, eat_refl. reflexivity.
  - destruct (BF e u B LEN n ts r) as (r1 & E1 & S1); [unfold fuel_for; lia|exact S|]. exists r1. split; [|exact S1].
    rewrite <- E1. destruct B as [ss tail v ST]. cbn [app] in S. pop S as ts0. reflexivity.
  - rewrite app_length in LEN, FU. pop S as ts0. rewrite <- app_assoc in S. destruct F as (F & _).
    destruct (block_starts _ _ B) as (b0 & v' & EV & _). assert (HB : next_is LBrace (v ++ r) = true) by (destruct B; reflexivity).
    destruct (EF false c u E) with (n := n) (ts := ts0) (r := v ++ r) as (r1 & E1 & S1); [lia|unfold fuel_for; lia|exact S|exact HB|].
    destruct (BN t v B) with (n := n) (ts := r1) (r := r) as (r2 & E2 & S2); [lia|unfold fuel_for; lia|exact S1|].
    exists r2. split; [|exact S2].
    assert (NL : next_word Klet ts0 = false).
    { rewrite (word_split _ _ _ S). eapply starts_not_word; [eapply expr_starts; exact E|]. cbn. intuition discriminate. }
    assert (Q : primary (Datatypes.S n) ok (TK Kif :: ts0) = do (c, r1) <- expr_ n false ts0;
          do (t, r2) <- block n r1;
          if next_word Kelse r2 then
            do (e, r3) <- (if next_word Kif (List.tl r2) then primary n true (List.tl r2)
                           else block n (List.tl r2));
            Got (EIf c t (Some e)) r3
          else Got (EIf c t None) r2).
    { destruct ts0 as [|[|[]| | | |] ts0]; try reflexivity. discriminate NL. }
    rewrite Q, E1, E2. rewrite (word_split _ _ _ S2), F. reflexivity.
  - rewrite app_length in LEN, FU. rewrite app_length in LEN, FU. cbn [len] in LEN, FU. pop S as ts0.
    rewrite <- app_assoc in S. rewrite <- app_assoc in S. cbn [app] in S.
    assert (HB : next_is LBrace (v ++ TK Kelse :: w ++ r) = true) by (destruct B; reflexivity).
    destruct (EF false c u E) with (n := n) (ts := ts0) (r := v ++ TK Kelse :: w ++ r) as (r1 & E1 & S1); [lia|unfold fuel_for; lia|exact S|exact HB|].
    destruct (BN t v B) with (n := n) (ts := r1) (r := TK Kelse :: w ++ r) as (r2 & E2 & S2); [lia|unfold fuel_for; lia|exact S1|]. pop S2 as r3.
    destruct (BN e w B2) with (n := n) (ts := r3) (r := r) as (r4 & E4 & S4); [lia|unfold fuel_for; lia|exact S2|].
    exists r4. split; [|exact S4].
    assert (NL : next_word Klet ts0 = false).
    { rewrite (word_split _ _ _ S). eapply starts_not_word; [eapply expr_starts; exact E|]. cbn. intuition discriminate. }
    assert (Q : primary (Datatypes.S n) ok (TK Kif :: ts0) = do (c, r1) <- expr_ n false ts0;
          do (t, r2) <- block n r1;
          if next_word Kelse r2 then
            do (e, r3) <- (if next_word Kif (List.tl r2) then primary n true (List.tl r2)
                           else block n (List.tl r2));
            Got (EIf c t (Some e)) r3
          else Got (EIf c t None) r2).
    { destruct ts0 as [|[|[]| | | |] ts0]; try reflexivity. discriminate NL. }
    rewrite Q, E1, E2, word_refl. cbn [List.tl]. rewrite (word_split _ _ _ S2).
    assert (NI : next_word Kif (w ++ r) = false) by (destruct B2; reflexivity). rewrite NI, E4. reflexivity.
  - rewrite app_length in LEN, FU. rewrite app_length in LEN, FU. cbn [len] in LEN, FU. pop S as ts0.
    rewrite <- app_assoc in S. rewrite <- app_assoc in S. cbn [app] in S.
    assert (HB : next_is LBrace (v ++ TK Kelse :: w ++ r) = true) by (destruct B; reflexivity).
    destruct (EF false c u E) with (n := n) (ts := ts0) (r := v ++ TK Kelse :: w ++ r) as (r1 & E1 & S1); [lia|unfold fuel_for; lia|exact S|exact HB|].
    destruct (BN t v B) with (n := n) (ts := r1) (r := TK Kelse :: w ++ r) as (r2 & E2 & S2); [lia|unfold fuel_for; lia|exact S1|]. pop S2 as r3.
    destruct (PF true e w P) with (n := n) (ts := r3) (r := r) as (r4 & E4 & S4); [lia|unfold fuel_for; lia|exact S2| |].
    { split; [exact (proj1 F)|left]. destruct SI as (w' & ->). apply starts_block_ok. reflexivity. }
    exists r4. split; [|exact S4].
    assert (NL : next_word Klet ts0 = false).
    { rewrite (word_split _ _ _ S). eapply starts_not_word; [eapply expr_starts; exact E|]. cbn. intuition discriminate. }
    assert (Q : primary (Datatypes.S n) ok (TK Kif :: ts0) = do (c, r1) <- expr_ n false ts0;
          do (t, r2) <- block n r1;
          if next_word Kelse r2 then
            do (e, r3) <- (if next_word Kif (List.tl r2) then primary n true (List.tl r2)
                           else block n (List.tl r2));
            Got (EIf c t (Some e)) r3
          else Got (EIf c t None) r2).
    { destruct ts0 as [|[|[]| | | |] ts0]; try reflexivity. discriminate NL. }
    rewrite Q, E1, E2, word_refl. cbn [List.tl]. rewrite (word_split _ _ _ S2).
    assert (NI : next_word Kif (w ++ r) = true) by (destruct SI as (w' & ->); reflexivity). rewrite NI, E4. reflexivity.
  - rewrite app_length in LEN, FU. cbn [len] in LEN, FU. rewrite app_length in LEN, FU. pop S as ts0. pop S as ts1.
    rewrite <- app_assoc in S. cbn [app] in S. rewrite <- app_assoc in S.
    destruct (pattern_full (len u) p u P) with (n := n) (ts := ts1) (r := TP Eq :: v ++ w ++ r) as (r1 & E1 & S1);
      [lia|lia|exact S|repeat split; reflexivity|]. pop S1 as r2.
    assert (HB : next_is LBrace (w ++ r) = true) by (destruct B; reflexivity).
    destruct (EF false e v E) with (n := n) (ts := r2) (r := w ++ r) as (r3 & E3 & S3); [lia|unfold fuel_for; lia|exact S1|exact HB|].
    destruct (BN b w B) with (n := n) (ts := r3) (r := r) as (r4 & E4 & S4); [lia|unfold fuel_for; lia|exact S3|].
    exists r4. split; [|exact S4]. cbn [primary]. rewrite E1, eat_refl, E3, E4. reflexivity.
  - rewrite app_length in LEN, FU. cbn [len] in LEN, FU. rewrite app_length in LEN, FU. cbn [len] in LEN, FU. pop S as ts0.
    rewrite <- app_assoc in S. cbn [app] in S. rewrite <- app_assoc in S. cbn [app] in S.
    destruct (EF false e u E) with (n := n) (ts := ts0) (r := TP LBrace :: v ++ TP RBrace :: r) as (r1 & E1 & S1); [lia|unfold fuel_for; lia|exact S|reflexivity|].
    pop S1 as r2. destruct (arms_full N n e EF PF l v A) with (m := n) (acc := @nil (pat * expr)) (ts := r2) (r := r) as (r3 & E3 & S3);
      [lia|unfold fuel_for; lia|lia|exact S1|].
    exists r3. split; [|exact S3]. cbn [primary]. rewrite E1, eat_refl. exact E3.
  - rewrite app_length in LEN, FU. cbn [len] in LEN, FU. rewrite app_length in LEN, FU. pop S as ts0.
    rewrite <- app_assoc in S. cbn [app] in S. rewrite <- app_assoc in S.
    destruct (pattern_full (len u) p u P) with (n := n) (ts := ts0) (r := TK Kin :: v ++ w ++ r) as (r1 & E1 & S1);
      [lia|lia|exact S|repeat split; reflexivity|]. pop S1 as r2.
    assert (HB : next_is LBrace (w ++ r) = true) by (destruct B; reflexivity).
    destruct (EF false e v E) with (n := n) (ts := r2) (r := w ++ r) as (r3 & E3 & S3); [lia|unfold fuel_for; lia|exact S1|exact HB|].
    destruct (BN b w B) with (n := n) (ts := r3) (r := r) as (r4 & E4 & S4); [lia|unfold fuel_for; lia|exact S3|].
    exists r4. split; [|exact S4]. cbn [primary]. rewrite E1, eat_word_refl, E3, E4. reflexivity.
Qed.

Theorem all_full N : expr_full N /\ primary_full N /\ block_full N.
Proof.
  induction N as [|N (EF & PF & BF)].
  - repeat split.
    + intros ok e u E L. pose proof (starts_len _ _ (expr_starts _ _ _ E)). lia.
    + intros ok e u E L. pose proof (starts_len _ _ (primary_starts _ _ _ E)). lia.
    + intros e u E L. pose proof (starts_len _ _ (block_starts _ _ E)). lia.
  - pose proof (block_all N EF PF) as B. pose proof (primary_all N EF PF B) as P. pose proof (expr_all N EF P) as E. auto.
Qed.
