(** The parser finds what the grammar allows; with enough fuel.  What follows an expression, prefix operators. *)
From Coq Require Import ZArith List Bool String Lia.
From Verif Require Import SrcLex SrcAst SrcParse SpecGrammar SrcGram SrcGram2 SrcFull SrcFull2.
Import ListNotations.
Local Open Scope string_scope.
Local Open Scope list_scope.

Definition expr_full (N : nat) : Prop := forall ok e u, Expr ok e u -> (len u <= N)%nat ->
  forall n ts r, fuel_for 20 u n -> splits ts (u ++ r) -> after_expr ok r -> gets (expr_ n ok) ts e r.
Definition primary_full (N : nat) : Prop := forall ok e u, Primary ok e u -> (len u <= N)%nat ->
  forall n ts r, fuel_for 2 u n -> splits ts (u ++ r) -> after_primary ok u r -> gets (primary n ok) ts e r.
Definition block_full (N : nat) : Prop := forall e u, Block e u -> (len u <= N)%nat ->
  forall n ts r, fuel_for 1 u n -> splits ts (u ++ r) -> gets (block n) ts e r.

Lemma exprs_full N : expr_full N -> forall l v close, commas (Expr true) l v -> (len v <= N)%nat -> In close [RParen; RBrack] ->
  forall n m ts r, fuel_for 20 v n -> (len v < m)%nat -> splits ts (v ++ TP close :: r) -> gets (sep_until m (expr_ n true) close) ts l r.
Proof.
  intros FULL l v close C LEN CL n m ts r FU M S. apply (commas_full (expr_ n true) (Expr true) close l v C); try assumption.
  - cbn in CL |- *. intuition (subst; discriminate).
  - intros x t X _. apply (expr_element true) with (e := x); [|exact X]. cbn in CL |- *. intuition (subst; discriminate).
  - intros x t X LX ts1 r1 S1 Q. unfold fuel_for in FU. apply (FULL true x t X); [lia|unfold fuel_for; lia|exact S1|].
    destruct Q as (r2 & [->| ->]); cbn in CL |- *; [reflexivity|]. destruct CL as [<-|[<-|[]]]; reflexivity.
  - intros ->. cbn in CL. intuition discriminate.
Qed.

(** ** What follows an expression *)

Lemma postfix_end n e ts : plain ts -> postfix (S n) e ts = Got e ts.
Proof.
  intros (A & B & C & _). destruct ts as [|[| | | | |[]] ts]; try reflexivity; try discriminate A; try discriminate B; try discriminate C.
Qed.

Definition after_primary0 (ok : bool) (r : list tok) : Prop :=
  next_word Kelse r = false /\ next_is ColonColon r = false /\ next_is Bang r = false /\ (ok = true -> next_is LBrace r = false).
Lemma after_primary_of ok u r : after_primary0 ok r -> after_primary ok u r.
Proof. intros (A & B & C & D). split; [exact A|]. right. auto. Qed.
Lemma plain_primary ok r : plain r -> (ok = true -> next_is LBrace r = false) -> after_primary0 ok r.
Proof. intros (A & B & C & D & E & F) G. repeat split; assumption. Qed.

Lemma postfix_chain N : expr_full N -> forall ok c e u, Operand ok 11 c e u -> (len u <= S N)%nat ->
  exists a ta vs k, u = ta ++ vs /\ Primary ok a ta /\ (k <= len vs)%nat /\
    (forall r, after_primary0 ok r -> after_primary0 ok (vs ++ r)) /\
    forall n ts r, fuel_for 20 vs n -> splits ts (vs ++ r) -> (ends_in_field u -> next_is LParen r = false) ->
      exists ts', postfix n a ts = postfix (n - k) e ts' /\ splits ts' r.
Proof.
  intros FULL ok c e u O. remember 11%nat as l0 eqn:EL in O. revert EL.
  induction O as [ok n c e ts O IH|ok n op c a ta d b tb P N2 AC OA IHA OB IHB|ok op c a ta d b tb P AC OA IHA OB IHB|ok c a ta t tt O IH T
    |ok c e ts O IH|ok c e ts O IH|ok c e ts O IH|ok c e ts O IH|ok c f ts l' us O IH NF C|ok c e ts m l' us O IH C|ok c e ts f O IH|ok e ts P];
    intros EL LEN; try lia; try subst n.
  - assert (P : Primary ok e ts).
    { remember 12%nat as l1 eqn:E1 in O. clear IH. revert E1.
      assert (H : forall ok n c e u, Operand ok n c e u -> (n <= 12)%nat).
      { clear. induction 1; lia. }
      destruct O; intros E1; try lia.
      - apply H in O. lia.
      - destruct op; try discriminate; match goal with H : precedence _ = _ |- _ => cbn in H; injection H; intros; subst end; try lia; discriminate.
      - assumption. }
    exists e, ts, [], 0%nat. repeat split.
    + rewrite app_nil_r. reflexivity.
    + exact P.
    + lia.
    + destruct H; assumption.
    + destruct H as (_ & H & _); assumption.
    + destruct H as (_ & _ & H & _); assumption.
    + destruct H as (_ & _ & _ & H); assumption.
    + intros n ts0 r _ S _. exists ts0. rewrite Nat.sub_0_r. auto.
  - destruct op; discriminate P.
  - rewrite app_length in LEN. cbn [len] in LEN.
    destruct (IH eq_refl ltac:(lia)) as (a0 & ta0 & vs & k & -> & P0 & K & FOLLOW & RUN). clear IH.
    exists a0, ta0, (vs ++ [TP Quest]), (k + 1)%nat. split; [rewrite <- app_assoc; reflexivity|]. split; [exact P0|].
    split; [rewrite app_length; cbn [len]; lia|]. split; [intros r _; rewrite <- app_assoc; apply FOLLOW; repeat split; reflexivity|].
    unfold fuel_for. intros n ts r FU S F. rewrite app_length in FU. cbn [len] in FU. rewrite <- app_assoc in S. cbn [app] in S.
    destruct (RUN n ts (TP Quest :: r)) as (ts1 & E1 & S1); [unfold fuel_for; lia|exact S|reflexivity|]. pop S1 as ts2.
    exists ts2. split; [|exact S1]. rewrite E1. replace (n - k)%nat with (Datatypes.S (n - (k + 1))) by lia. reflexivity.
  - rewrite app_length in LEN. cbn [len] in LEN. rewrite app_length in LEN. cbn [len] in LEN.
    destruct (IH eq_refl ltac:(lia)) as (a0 & ta0 & vs & k & -> & P0 & K & FOLLOW & RUN). clear IH.
    exists a0, ta0, (vs ++ TP LParen :: us ++ [TP RParen]), (k + 1)%nat. split; [rewrite <- app_assoc; reflexivity|]. split; [exact P0|].
    split; [rewrite app_length; cbn [len]; lia|]. split; [intros r _; rewrite <- app_assoc; apply FOLLOW; repeat split; reflexivity|].
    unfold fuel_for. intros n ts r FU S F. rewrite app_length in FU. cbn [len] in FU. rewrite app_length in FU. cbn [len] in FU.
    rewrite <- app_assoc in S. cbn [app] in S. rewrite <- app_assoc in S. cbn [app] in S.
    destruct (RUN n ts (TP LParen :: us ++ TP RParen :: r)) as (ts1 & E1 & S1); [unfold fuel_for; lia|exact S|intros Q; contradiction|]. pop S1 as ts2.
    destruct (exprs_full N FULL l' us RParen C ltac:(lia) ltac:(cbn; tauto) (n - (k + 1)) (n - (k + 1)) ts2 r) as (ts3 & E3 & S3);
      [unfold fuel_for; lia|lia|exact S1|].
    exists ts3. split; [|exact S3]. rewrite E1. replace (n - k)%nat with (Datatypes.S (n - (k + 1))) by lia. cbn [postfix]. rewrite E3. reflexivity.
  - rewrite app_length in LEN. cbn [len] in LEN. rewrite app_length in LEN. cbn [len] in LEN.
    destruct (IH eq_refl ltac:(lia)) as (a0 & ta0 & vs & k & -> & P0 & K & FOLLOW & RUN). clear IH.
    exists a0, ta0, (vs ++ TP Dot :: TId m :: TP LParen :: us ++ [TP RParen]), (k + 1)%nat. split; [rewrite <- app_assoc; reflexivity|]. split; [exact P0|].
    split; [rewrite app_length; cbn [len]; lia|]. split; [intros r _; rewrite <- app_assoc; apply FOLLOW; repeat split; reflexivity|].
    unfold fuel_for. intros n ts r FU S F. rewrite app_length in FU. cbn [len] in FU. rewrite app_length in FU. cbn [len] in FU.
    rewrite <- app_assoc in S. cbn [app] in S. rewrite <- app_assoc in S. cbn [app] in S.
    destruct (RUN n ts (TP Dot :: TId m :: TP LParen :: us ++ TP RParen :: r)) as (ts1 & E1 & S1); [unfold fuel_for; lia|exact S|reflexivity|].
    pop S1 as ts2. pop S1 as ts4. pop S1 as ts5.
    destruct (exprs_full N FULL l' us RParen C ltac:(lia) ltac:(cbn; tauto) (n - (k + 1)) (n - (k + 1)) ts5 r) as (ts3 & E3 & S3);
      [unfold fuel_for; lia|lia|exact S1|].
    exists ts3. split; [|exact S3]. rewrite E1. replace (n - k)%nat with (Datatypes.S (n - (k + 1))) by lia. cbn [postfix]. rewrite E3. reflexivity.
  - rewrite app_length in LEN. cbn [len] in LEN.
    destruct (IH eq_refl ltac:(lia)) as (a0 & ta0 & vs & k & -> & P0 & K & FOLLOW & RUN). clear IH.
    exists a0, ta0, (vs ++ [TP Dot; TId f]), (k + 1)%nat. split; [rewrite <- app_assoc; reflexivity|]. split; [exact P0|].
    split; [rewrite app_length; cbn [len]; lia|]. split; [intros r _; rewrite <- app_assoc; apply FOLLOW; repeat split; reflexivity|].
    unfold fuel_for. intros n ts r FU S F. rewrite app_length in FU. cbn [len] in FU. rewrite <- app_assoc in S. cbn [app] in S.
    destruct (RUN n ts (TP Dot :: TId f :: r)) as (ts1 & E1 & S1); [unfold fuel_for; lia|exact S|reflexivity|]. pop S1 as ts2. pop S1 as ts3.
    exists ts3. split; [|exact S1]. rewrite E1. replace (n - k)%nat with (Datatypes.S (n - (k + 1))) by lia. cbn [postfix].
    assert (NP : next_is LParen ts3 = false).
    { rewrite (next_split LParen ts3 r) by (discriminate || exact S1). apply F. exists (ta0 ++ vs), f. reflexivity. }
    destruct ts3 as [|[| | | | |[]] ts3]; try reflexivity. discriminate NP.
Qed.

(** ** Prefix operators *)

Lemma unary_all N : expr_full N -> primary_full (S N) -> unary_full (S N).
Proof.
  intros FULL PFULL ok c e u O. remember 10%nat as l0 eqn:EL in O. revert EL.
  induction O as [ok n c e ts O IH|ok n op c a ta d b tb P N2 AC OA IHA OB IHB|ok op c a ta d b tb P AC OA IHA OB IHB|ok c a ta t tt O IH T
    |ok c e ts O IH|ok c e ts O IH|ok c e ts O IH|ok c e ts O IH|ok c f ts l' us O IH NF C|ok c e ts m l' us O IH C|ok c e ts f O IH|ok e ts P];
    intros EL LEN n' ts0 r FU S F; try lia; try subst n; unfold fuel_for in FU; (destruct n' as [|n]; [lia|]).
  - clear IH. destruct (postfix_chain N FULL ok c e ts O LEN) as (a & ta & vs & k & -> & P & K & FOLLOW & RUN).
    destruct (after_operand_plain _ _ _ _ F) as (PL & LB). rewrite app_length in LEN, FU. rewrite <- app_assoc in S.
    pose proof (primary_starts _ _ _ P) as PS. pose proof (starts_len _ _ PS) as L1.
    destruct (PFULL ok a ta P) with (n := n) (ts := ts0) (r := vs ++ r) as (ts1 & E1 & S1); [lia|unfold fuel_for; lia|exact S|
      apply after_primary_of, FOLLOW, plain_primary; assumption|].
    destruct (RUN n ts1 r) as (ts2 & E2 & S2); [unfold fuel_for; lia|exact S1|intros _; apply PL|].
    exists ts2. split; [|exact S2].
    assert (Q : unary (Datatypes.S n) ok ts0 = do (e, r) <- primary n ok ts0; postfix n e r).
    { destruct PS as (t & u' & -> & B). cbn [app] in S. assert (t <> TP Gt) by (intros ->; cbn in B; intuition discriminate).
      apply pop in S; [|assumption]. destruct S as (ts3 & -> & S). destruct t as [| | | | |[]]; try reflexivity; cbn in B; intuition discriminate. }
    rewrite Q, E1, E2. replace (n - k)%nat with (Datatypes.S (n - k - 1)) by lia. apply postfix_end. apply (plain_split _ _ S2 PL).
  - destruct op; discriminate P.
  - cbn [app len] in *. pop S as ts1. destruct (IH eq_refl ltac:(lia) n ts1 r) as (ts2 & E & S2); [unfold fuel_for; lia|exact S|exact F|].
    exists ts2. split; [|exact S2]. cbn [unary]. rewrite E. reflexivity.
  - cbn [app len] in *. pop S as ts1. destruct (IH eq_refl ltac:(lia) n ts1 r) as (ts2 & E & S2); [unfold fuel_for; lia|exact S|exact F|].
    exists ts2. split; [|exact S2]. cbn [unary]. rewrite E. reflexivity.
  - cbn [app len] in *. pop S as ts1. destruct (IH eq_refl ltac:(lia) n ts1 r) as (ts2 & E & S2); [unfold fuel_for; lia|exact S|exact F|].
    exists ts2. split; [|exact S2]. cbn [unary]. rewrite E. reflexivity.
Qed.

(** ** Expressions *)

Lemma closure_param_full x u : Closure_param x u -> forall n ts r, (2 * len u <= n)%nat -> splits ts (u ++ r) ->
  (exists r', r = TP Comma :: r' \/ r = TP Bar :: r') -> gets (closure_param n) ts x r.
Proof.
  destruct x as [x [t|]]; unfold Closure_param; cbn [fst snd].
  - intros (v & -> & T) n ts r L S Q. cbn [app len] in *. pop S as ts0. pop S as ts1.
    destruct (type_full (len v) t v T) with (n := n) (ts := ts1) (r := r) as (r' & E & S'); [lia|lia|exact S|destruct Q as (r' & [->| ->]); split; reflexivity|].
    exists r'. split; [|exact S']. unfold closure_param. cbn [ident]. rewrite next_refl. cbn [List.tl]. rewrite E. reflexivity.
  - intros -> n ts r L S Q. cbn [app] in S. pop S as ts0. exists ts0. split; [|exact S]. unfold closure_param. cbn [ident].
    rewrite (next_split Colon ts0 r) by (discriminate || exact S). destruct Q as (r' & [->| ->]); reflexivity.
Qed.
Lemma closure_param_first x u : Closure_param x u -> exists y u', u = TId y :: u'.
Proof. destruct x as [x [t|]]; unfold Closure_param; cbn [fst snd]; [intros (v & -> & _)|intros ->]; eauto. Qed.

Lemma expr_all N : expr_full N -> primary_full (S N) -> expr_full (S N).
Proof.
  intros FULL PFULL. pose proof (unary_all N FULL PFULL) as U. pose proof (all_operands (S N) U 0 ltac:(lia)) as OP. clear U PFULL.
  intros ok e u E LEN n ts r FU S F. unfold fuel_for in FU. destruct n as [|n]; [lia|].
  destruct E as [ok c e u O|ok e u E|ok ps v e u C E| |ok e u E].
  - destruct (OP ok c e u O LEN n ts r) as (r' & E & S'); [unfold fuel_for; lia|exact S|left; exact F|].
    exists r'. split; [|exact S']. rewrite <- E. clear E S'.
    assert (B : starts (fun a => begins a /\ a <> TP Bar /\ a <> TP BarBar /\ a <> TK Kreturn) u).
    { clear - O. induction O; try assumption; try (apply starts_app; assumption);
        try (eexists; eexists; (split; [reflexivity|]); (split; [cbn; tauto|repeat split; discriminate])).
      eapply starts_imp; [|eapply primary_starts; eassumption]. intros a B. split; [apply primary_begins; exact B|].
      repeat split; intros ->; cbn in B; intuition discriminate. }
    destruct B as (t & u' & -> & B & N1 & N2 & N3). cbn [app] in S.
    assert (t <> TP Gt) by (intros ->; cbn in B; intuition discriminate). apply pop in S; [|assumption]. destruct S as (ts3 & -> & S).
    destruct t as [|[]| | | |[]]; try reflexivity; congruence.
  - cbn [app len] in *. pop S as ts1. destruct (FULL ok e u E) with (n := n) (ts := ts1) (r := r) as (r' & E1 & S'); [lia|unfold fuel_for; lia|exact S|exact F|].
    exists r'. split; [|exact S']. cbn [expr_]. rewrite E1. reflexivity.
  - cbn [app len] in *. rewrite app_length in LEN, FU. cbn [len] in LEN, FU. pop S as ts1. rewrite <- app_assoc in S. cbn [app] in S.
    destruct (commas_full (closure_param n) Closure_param Bar ps v C) with (m := n) (ts := ts1) (r := u ++ r) as (ts2 & E2 & S2).
    + cbn. intuition discriminate.
    + intros x t X _. destruct (closure_param_first _ _ X) as (y & t' & ->). eexists; eexists; split; [reflexivity|]. split; [intros s Q; discriminate Q|discriminate].
    + intros x t X LX ts3 r3 S3 Q. apply (closure_param_full x t X); [lia|exact S3|exact Q].
    + lia.
    + discriminate.
    + exact S.
    + destruct (FULL ok e u E) with (n := n) (ts := ts2) (r := r) as (r' & E1 & S'); [lia|unfold fuel_for; lia|exact S2|exact F|].
      exists r'. split; [|exact S']. cbn [expr_]. rewrite E2, E1. reflexivity.
  - cbn [app] in S. pop S as ts1. exists ts1. split; [|exact S]. cbn [expr_ andb]. cbn in F. rewrite (stops_split _ _ S), F. reflexivity.
  - cbn [app len] in *. pop S as ts1. destruct (FULL ok e u E) with (n := n) (ts := ts1) (r := r) as (r' & E1 & S'); [lia|unfold fuel_for; lia|exact S|exact F|].
    exists r'. split; [|exact S']. cbn [expr_].
    assert (ST : stops ts1 = false).
    { rewrite (stops_split _ _ S). destruct (expr_starts _ _ _ E) as (a & u' & -> & B). cbn [app].
      destruct a as [| | | | |[]]; try reflexivity; cbn in B; intuition discriminate. }
    rewrite ST, andb_false_r, E1. reflexivity.
Qed.
