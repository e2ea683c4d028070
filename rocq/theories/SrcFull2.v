(** The parser finds what the grammar allows; with enough fuel.  Expressions. *)
From Coq Require Import ZArith List Bool String Lia.
From Verif Require Import SrcLex SrcAst SrcParse SpecGrammar SrcGram SrcGram2 SrcFull.
Import ListNotations.
Local Open Scope string_scope.
Local Open Scope list_scope.
Notation len := List.length.

(** ** What an expression starts with *)

Definition begins (t : tok) : Prop :=
  match t with
  | TId _ | TNum _ _ | TStr _ => True
  | TK k => In k [Ktrue; Kfalse; Kif; Kmatch; Kfor; Kreturn]
  | TP s => In s [LParen; LBrack; LBrace; Star; Amp; Minus; Bar; BarBar]
  | TLife _ => False
  end.
Definition starts (P : tok -> Prop) (u : list tok) : Prop := exists a u', u = a :: u' /\ P a.
Lemma starts_app P u v : starts P u -> starts P (u ++ v).
Proof. intros (a & u' & -> & B). exists a, (u' ++ v). auto. Qed.
Lemma starts_imp (P Q : tok -> Prop) u : (forall a, P a -> Q a) -> starts P u -> starts Q u.
Proof. intros I (a & u' & -> & B). exists a, u'. auto. Qed.
Lemma starts_len P u : starts P u -> (1 <= len u)%nat.
Proof. intros (a & u' & -> & _). cbn. lia. Qed.

Definition begins_primary (t : tok) : Prop :=
  match t with
  | TId _ | TNum _ _ | TStr _ => True
  | TK k => In k [Ktrue; Kfalse; Kif; Kmatch; Kfor]
  | TP s => In s [LParen; LBrack; LBrace]
  | TLife _ => False
  end.
Lemma block_starts e u : Block e u -> starts begins_primary u.
Proof. intros [ss tail v _]. eexists; eexists; (split; [reflexivity|cbn; tauto]). Qed.
Lemma path_starts p u : Path p u -> starts begins_primary u.
Proof. intros P. destruct (path_begin _ _ P) as (x & u' & ->). eexists; eexists; (split; [reflexivity|exact I]). Qed.
Lemma primary_starts ok e u : Primary ok e u -> starts begins_primary u.
Proof.
  destruct 1; try (eexists; eexists; (split; [reflexivity|cbn; tauto]); fail).
  - eapply path_starts. eassumption.
  - apply starts_app. eapply path_starts. eassumption.
  - eapply block_starts. eassumption.
Qed.
Lemma primary_begins a : begins_primary a -> begins a.
Proof. destruct a as [|k| | | |s]; cbn; tauto. Qed.
Lemma operand_starts ok n c e u : Operand ok n c e u -> starts begins u.
Proof.
  induction 1; try assumption; try (apply starts_app; assumption); try (eexists; eexists; (split; [reflexivity|cbn; tauto]); fail).
  eapply starts_imp; [exact primary_begins|]. eapply primary_starts. eassumption.
Qed.
Lemma expr_starts ok e u : Expr ok e u -> starts begins u.
Proof.
  destruct 1; try (eexists; eexists; (split; [reflexivity|cbn; tauto]); fail).
  eapply operand_starts. eassumption.
Qed.
Lemma begins_opens a : begins a -> opens a.
Proof. intros B s ->. cbn in B |- *. tauto. Qed.
Lemma begins_not a s : begins a -> ~ In s [LParen; LBrack; LBrace; Star; Amp; Minus; Bar; BarBar] -> a <> TP s.
Proof. intros B N ->. exact (N B). Qed.
Lemma expr_element ok close e u : ~ In close [LParen; LBrack; LBrace; Star; Amp; Minus; Bar; BarBar] -> Expr ok e u ->
  exists a t', u = a :: t' /\ opens a /\ a <> TP close.
Proof.
  intros N E. destruct (expr_starts _ _ _ E) as (a & u' & -> & B). exists a, u'. split; [reflexivity|].
  split; [exact (begins_opens _ B)|exact (begins_not _ _ B N)].
Qed.

(** No expression is a name and [|=]. *)
Definition no_assign (u : list tok) : Prop := forall x v, u <> TId x :: TP BarEq :: v.
Lemma no_assign_app u t v : no_assign u -> u <> [] -> t <> TP BarEq -> no_assign (u ++ t :: v).
Proof.
  intros A N T x w E. destruct u as [|a [|b u]]; [congruence| |].
  - cbn in E. injection E as _ E _. exact (T E).
  - cbn in E. injection E as -> -> _. exact (A x u eq_refl).
Qed.
Lemma no_assign_first a u : (forall x, a <> TId x) -> no_assign (a :: u).
Proof. intros N x v E. injection E as -> _. exact (N x eq_refl). Qed.
Lemma path_no_assign p u : Path p u -> no_assign u.
Proof. destruct 1; intros y v E; discriminate E. Qed.
Lemma path_nonempty p u : Path p u -> u <> [].
Proof. destruct 1; discriminate. Qed.
Lemma primary_no_assign ok e u : Primary ok e u -> no_assign u.
Proof.
  destruct 1; try (apply no_assign_first; discriminate); try (intros y v EE; discriminate EE).
  - eapply path_no_assign. eassumption.
  - apply no_assign_app; [eapply path_no_assign; eassumption|eapply path_nonempty; eassumption|discriminate].
  - match goal with H : Block _ _ |- _ => destruct H end. apply no_assign_first. discriminate.
Qed.
Lemma operand_nonempty ok n c e u : Operand ok n c e u -> u <> [].
Proof. intros O. destruct (operand_starts _ _ _ _ _ O) as (a & u' & -> & _). discriminate. Qed.
Lemma operand_no_assign ok n c e u : Operand ok n c e u -> no_assign u.
Proof.
  induction 1; try assumption; try (apply no_assign_first; discriminate);
    try (eapply primary_no_assign; eassumption);
    (apply no_assign_app; [assumption|eapply operand_nonempty; eassumption|]); try discriminate;
    intros Q; injection Q as ->; match goal with H : precedence BarEq = _ |- _ => discriminate H end.
Qed.
Lemma expr_no_assign ok e u : Expr ok e u -> no_assign u.
Proof. destruct 1; try (apply no_assign_first; discriminate). eapply operand_no_assign; eassumption. Qed.

(** ** What may follow *)

Definition after_expr (ok : bool) (r : list tok) : Prop := if ok then stops r = true else next_is LBrace r = true.
Definition operator_of (n : nat) (c : bool) (r : list tok) : Prop :=
  exists op r' m, r = TP op :: r' /\ precedence op = Some m /\ (m < n)%nat /\ after_cast c op /\ (op = Gt -> next_is Gt r' = false).
Definition after_operand (ok : bool) (n : nat) (c : bool) (r : list tok) : Prop :=
  after_expr ok r \/ operator_of n c r \/ (10 <= n)%nat /\ next_word Kas r = true.
Definition after_primary (ok : bool) (u r : list tok) : Prop :=
  next_word Kelse r = false /\
  (starts_block u \/ next_is ColonColon r = false /\ next_is Bang r = false /\ (ok = true -> next_is LBrace r = false)).

Lemma stops_split ts r : splits ts r -> stops ts = stops r.
Proof. intros S. destruct S as [|t a b S|a b S]; reflexivity. Qed.
Lemma after_expr_split ok ts r : splits ts r -> after_expr ok r -> after_expr ok ts.
Proof.
  intros S. unfold after_expr. destruct ok; [rewrite (stops_split _ _ S)|rewrite (next_split LBrace ts r) by (discriminate || exact S)]; auto.
Qed.

(** What such a follow-up is not. *)
Definition plain (r : list tok) : Prop :=
  next_is Quest r = false /\ next_is Dot r = false /\ next_is LParen r = false /\ next_is ColonColon r = false /\ next_is Bang r = false /\
  next_word Kelse r = false.
Lemma stops_cases r : stops r = true -> r = [] \/ exists s r', r = TP s :: r' /\ In s [Semi; Comma; RParen; RBrack; RBrace].
Proof. destruct r as [|[| | | | |[]] r]; try discriminate; intros _; auto; right; eexists; eexists; (split; [reflexivity|cbn; tauto]). Qed.
Lemma after_expr_plain ok r : after_expr ok r -> plain r /\ (ok = true -> next_is LBrace r = false) /\ next_word Kas r = false /\
  (forall op r' , r = TP op :: r' -> precedence op = None).
Proof.
  unfold after_expr. destruct ok; intros H.
  - apply stops_cases in H. destruct H as [->|(s & r' & -> & I)]; [repeat split; discriminate|].
    cbn in I. repeat (destruct I as [<-|I]; [repeat split; intros op r2 E; injection E as <- _; reflexivity|]). destruct I.
  - apply next_is_ok in H. destruct H as (r' & ->). repeat split; try discriminate. intros op r2 E. injection E as <- _. reflexivity.
Qed.
Lemma precedence_plain op m r : precedence op = Some m -> plain (TP op :: r) /\ next_is LBrace (TP op :: r) = false /\ next_word Kas (TP op :: r) = false /\
  (m <= 8)%nat.
Proof. intros H. destruct op; try discriminate H; injection H as <-; repeat split; lia. Qed.
Lemma after_operand_plain ok n c r : after_operand ok n c r -> plain r /\ (ok = true -> next_is LBrace r = false).
Proof.
  intros [H|[(op & r' & m & -> & P & _)|[_ H]]].
  - destruct (after_expr_plain _ _ H) as (A & B & _). auto.
  - destruct (precedence_plain _ _ r' P) as (A & B & _). auto.
  - apply next_word_ok in H. destruct H as (r' & ->). repeat split; reflexivity.
Qed.
Lemma plain_split ts r : splits ts r -> plain r -> plain ts.
Proof.
  intros S (A & B & C & D & E & F). unfold plain.
  rewrite !(fun s N1 N2 => next_split s ts r N1 N2 S) by discriminate. rewrite (word_split _ _ _ S). repeat split; assumption.
Qed.

(** The operator at the front, as the parser sees it. *)
Definition op_level (ts : list tok) : option nat := match ts with TP op :: _ => level op | _ => None end.
Lemma after_operand_level ok n c ts r : splits ts r -> after_operand ok n c r -> forall l, op_level ts = Some l -> (l < n)%nat.
Proof.
  intros S [H|[(op & r' & m & -> & P & M & _ & G)|[_ H]]] l E.
  - apply (after_expr_split _ _ _ S) in H. apply after_expr_plain in H. destruct H as (_ & _ & _ & H).
    destruct ts as [|[| | | | |op] ts]; try discriminate E. specialize (H op ts eq_refl). cbn in E. rewrite level_ok in E. congruence.
  - inversion S; subst.
    + cbn in E. rewrite level_ok in E. congruence.
    + specialize (G eq_refl). discriminate G.
  - apply next_word_ok in H. destruct H as (r' & ->). pop S as ts0. discriminate E.
Qed.

(** ** The chain of operators of one level *)

Definition more_loop (n : nat) (ok : bool) (lvl : nat) := fix more (m : nat) (a : expr) (ts : list tok) : res expr :=
         match m with
         | O => Bad ts
         | S m =>
             match ts with
             | TP op :: r =>
                 match level op with
                 | Some l =>
                     if Nat.eqb l lvl then
                       do (b, r') <- binary n ok (S lvl) r;
                       if Nat.eqb lvl 2 then Got (EBin op a b) r' else more m (EBin op a b) r'
                     else Got a ts
                 | None => Got a ts
                 end
             | _ => Got a ts
             end
         end.
Lemma more_stop n ok lvl m a ts : op_level ts <> Some lvl -> more_loop n ok lvl (S m) a ts = Got a ts.
Proof.
  intros N. destruct ts as [|[| | | | |op] ts]; try reflexivity. cbn in N |- *. destruct (level op) as [l|]; [|reflexivity].
  destruct (Nat.eqb l lvl) eqn:E; [|reflexivity]. apply Nat.eqb_eq in E. congruence.
Qed.

(** Enough fuel for what is that long. *)
Definition fuel_for (k : nat) (u : list tok) (n : nat) : Prop := (40 * len u + k <= n)%nat.

Definition operand_full (N l : nat) : Prop := forall ok c e u, Operand ok l c e u -> (len u <= N)%nat ->
  forall n ts r, fuel_for (16 - l) u n -> splits ts (u ++ r) -> after_operand ok l c r -> gets (binary n ok l) ts e r.

Lemma operator_pop op ts tb r : (op = Gt -> next_is Gt (tb ++ r) = false) -> splits ts (TP op :: tb ++ r) ->
  exists ts', ts = TP op :: ts' /\ splits ts' (tb ++ r).
Proof.
  intros G S. remember (tb ++ r) as v eqn:E. clear E. inversion S; subst; [eauto|]. specialize (G eq_refl). discriminate G.
Qed.
Lemma starts_no_gt u r : starts begins u -> next_is Gt (u ++ r) = false.
Proof. intros (a & u' & -> & B). cbn [app]. apply next_other. apply (begins_not _ _ B). cbn. intuition discriminate. Qed.

Lemma after_weaken ok l c r : after_operand ok l c r -> after_operand ok (S l) c r.
Proof.
  intros [F|[(op & r' & m & -> & P & M & A & G)|[T F]]]; [left; exact F| |right; right; split; [lia|exact F]].
  right. left. exists op, r', m. repeat split; try assumption; try lia; apply A; assumption.
Qed.

Lemma chain_full N l : (l <= 8)%nat -> l <> 2%nat -> operand_full N (S l) ->
  forall ok c e u, Operand ok l c e u -> (len u <= N)%nat ->
  exists a ta d vs k, u = ta ++ vs /\ Operand ok (S l) d a ta /\ (k <= len vs)%nat /\
    (forall r, after_operand ok (S l) c r -> after_operand ok (S l) d (vs ++ r)) /\
    forall n m ts r, fuel_for (16 - S l) vs n -> splits ts (vs ++ r) -> after_operand ok (S l) c r ->
      exists ts', more_loop n ok l (k + m) a ts = more_loop n ok l m e ts' /\ splits ts' r.
Proof.
  intros L8 L2 FULL ok c e u O. remember l as l0 eqn:EL in O. revert EL.
  induction O as [ok n c e ts O IH|ok n op c a ta d b tb P N2 AC OA IHA OB IHB|ok op c a ta d b tb P AC OA IHA OB IHB|ok c a ta t tt O IH T
    |ok c e ts O IH|ok c e ts O IH|ok c e ts O IH|ok c e ts O IH|ok c f ts l' us O IH NF C|ok c e ts m l' us O IH C|ok c e ts f O IH|ok e ts P];
    intros EL LEN; try lia; subst n.
  - exists e, ts, c, [], 0%nat. repeat split.
    + rewrite app_nil_r. reflexivity.
    + exact O.
    + lia.
    + intros r F. exact F.
    + intros n m ts0 r _ S _. exists ts0. split; [reflexivity|exact S].
  - rewrite app_length in LEN. cbn [len] in LEN.
    destruct (IHA eq_refl ltac:(lia)) as (a0 & ta0 & d0 & vs & k & -> & O0 & K & FOLLOW & RUN). clear IHA IHB.
    assert (GT : forall r, op = Gt -> next_is Gt (tb ++ r) = false).
    { intros r _. apply starts_no_gt. eapply operand_starts. exact OB. }
    assert (OPF : forall r, after_operand ok (S l) c (TP op :: tb ++ r)).
    { intros r. right. left. exists op, (tb ++ r), l. repeat split; try assumption; try lia; try (apply AC; assumption). exact (GT r). }
    exists a0, ta0, d0, (vs ++ TP op :: tb), (k + 1)%nat. repeat split.
    + rewrite <- app_assoc. reflexivity.
    + exact O0.
    + rewrite app_length. cbn [len]. lia.
    + intros r _. rewrite <- app_assoc. apply FOLLOW. apply OPF.
    + unfold fuel_for. intros n m ts r FU S F. rewrite app_length in FU. cbn [len] in FU. rewrite <- app_assoc in S. cbn [app] in S.
      destruct (RUN n (1 + m)%nat ts (TP op :: tb ++ r)) as (ts1 & E1 & S1); [unfold fuel_for; lia|exact S|apply OPF|].
      apply operator_pop in S1; [|exact (GT r)]. destruct S1 as (ts2 & -> & S2).
      destruct (FULL ok d b tb OB) with (n := n) (ts := ts2) (r := r) as (r' & E2 & S3); [lia|unfold fuel_for; lia|exact S2|exact F|].
      exists r'. split; [|exact S3]. rewrite <- Nat.add_assoc, E1. cbn [Nat.add more_loop].
      rewrite level_ok, P, Nat.eqb_refl, E2. apply Nat.eqb_neq in L2. rewrite L2. reflexivity.
Qed.

Lemma binary_full N l : (l <= 8)%nat -> operand_full N (S l) -> operand_full N l.
Proof.
  intros L8 FULL ok c e u O LEN n ts r FU S F. unfold fuel_for in FU. destruct n as [|n]; [lia|].
  assert (LB : Nat.leb 9 l = false) by (apply Nat.leb_gt; lia).
  assert (STEP : forall a x, gets (binary n ok (Datatypes.S l)) ts a x -> forall y v, (forall ts1, splits ts1 x -> gets (more_loop n ok l n a) ts1 y v) ->
    gets (binary (Datatypes.S n) ok l) ts y v).
  { intros a x (r1 & E1 & S1) y v K. destruct (K r1 S1) as (r2 & E2 & S2). exists r2. split; [|exact S2].
    cbn [binary]. rewrite LB, E1. exact E2. }
  destruct (Nat.eq_dec l 2) as [->|L2].
  - inversion O; subst; try congruence.
    + eapply STEP; [eapply FULL; try eassumption; [unfold fuel_for; lia|apply after_weaken; exact F]|].
      intros ts1 S1. exists ts1. split; [|exact S1]. destruct n as [|n]; [lia|]. apply more_stop.
      intros Q. pose proof (after_operand_level _ _ _ _ _ S1 F _ Q). lia.
    + rewrite app_length in LEN, FU. cbn [len] in LEN, FU. rewrite <- app_assoc in S. cbn [app] in S.
      match goal with HP : precedence op = _, HA : after_cast _ op, OA : Operand _ 3 _ _ ta, OB : Operand _ 3 _ _ tb |- _ =>
        rename HP into P, HA into AC; rename OA into A; rename OB into B end.
      assert (GT : op = Gt -> next_is Gt (tb ++ r) = false).
      { intros _. apply starts_no_gt. eapply operand_starts. exact B. }
      eapply STEP; [eapply (FULL _ _ _ _ A); try eassumption; [lia|unfold fuel_for; lia|]|].
      { right. left. exists op, (tb ++ r), 2%nat. repeat split; try assumption; try lia; apply AC; assumption. }
      intros ts1 S1. apply operator_pop in S1; [|exact GT]. destruct S1 as (ts2 & -> & S2).
      destruct (FULL _ _ _ _ B) with (n := n) (ts := ts2) (r := r) as (r' & E2 & S3); [lia|unfold fuel_for; lia|exact S2|apply after_weaken; exact F|].
      exists r'. split; [|exact S3]. destruct n as [|n]; [lia|]. cbn [more_loop]. rewrite level_ok, P, Nat.eqb_refl, E2. reflexivity.
  - destruct (chain_full N l L8 L2 FULL ok c e u O LEN) as (a & ta & d & vs & k & -> & O0 & K & FOLLOW & RUN).
    rewrite app_length in LEN, FU. rewrite <- app_assoc in S.
    eapply STEP; [eapply (FULL _ _ _ _ O0); try eassumption; [lia|unfold fuel_for; lia|apply FOLLOW, after_weaken; exact F]|].
    intros ts1 S1. destruct (RUN n (n - k)%nat ts1 r) as (ts2 & E2 & S2); [unfold fuel_for; lia|exact S1|apply after_weaken; exact F|].
    exists ts2. split; [|exact S2]. replace n with (k + (n - k))%nat at 2 by lia. rewrite E2.
    destruct (n - k)%nat as [|j] eqn:J; [lia|]. apply more_stop.
    intros Q. pose proof (after_operand_level _ _ _ _ _ S2 F _ Q). lia.
Qed.

(** ** Casts *)

Definition cast_loop (n : nat) := fix more (m : nat) (a : expr) (ts : list tok) : res expr :=
         match m with
         | O => Bad ts
         | S m =>
             if next_word Kas ts then
               do (t, r') <- type n (List.tl ts);
               if next_is Lt r' || next_is Shl r' then Bad r' else more m (EAs a t) r'
             else Got a ts
         end.

Definition unary_full (N : nat) : Prop := forall ok c e u, Operand ok 10 c e u -> (len u <= N)%nat ->
  forall n ts r, fuel_for 4 u n -> splits ts (u ++ r) -> after_operand ok 10 c r -> gets (unary n ok) ts e r.

Lemma after_cast_angle ok r : after_operand ok 10 true r -> next_is Lt r = false /\ next_is Shl r = false /\ next_is ColonColon r = false.
Proof.
  intros F. destruct (after_operand_plain _ _ _ _ F) as ((_ & _ & _ & CC & _) & _). 
  destruct F as [H|[(op & r' & m & -> & P & M & A & G)|[T F]]].
  - apply after_expr_plain in H. destruct H as (_ & _ & _ & H).
    destruct r as [|[| | | | |op] r]; try (repeat split; reflexivity). specialize (H op r eq_refl).
    repeat split; try exact CC; apply next_other; intros E; injection E as ->; discriminate H.
  - destruct (A eq_refl) as [A1 A2]. repeat split; try exact CC; apply next_other; congruence.
  - apply next_word_ok in F. destruct F as (r' & ->). repeat split; reflexivity.
Qed.

Lemma cast_chain N : unary_full N -> forall ok c e u, Operand ok 9 c e u -> (len u <= N)%nat ->
  exists a ta d vs k, u = ta ++ vs /\ Operand ok 10 d a ta /\ (k <= len vs)%nat /\
    (forall r, after_operand ok 10 c r -> after_operand ok 10 d (vs ++ r)) /\
    forall n m ts r, fuel_for 1 vs n -> splits ts (vs ++ r) -> after_operand ok 10 c r ->
      exists ts', cast_loop n (k + m) a ts = cast_loop n m e ts' /\ splits ts' r.
Proof.
  intros FULL ok c e u O. remember 9%nat as l0 eqn:EL in O. revert EL.
  induction O as [ok n c e ts O IH|ok n op c a ta d b tb P N2 AC OA IHA OB IHB|ok op c a ta d b tb P AC OA IHA OB IHB|ok c a ta t tt O IH T
    |ok c e ts O IH|ok c e ts O IH|ok c e ts O IH|ok c e ts O IH|ok c f ts l' us O IH NF C|ok c e ts m l' us O IH C|ok c e ts f O IH|ok e ts P];
    intros EL LEN; try lia; try subst n.
  - exists e, ts, c, [], 0%nat. repeat split.
    + rewrite app_nil_r. reflexivity.
    + exact O.
    + lia.
    + intros r F. exact F.
    + intros n m ts0 r _ S _. exists ts0. split; [reflexivity|exact S].
  - destruct op; discriminate P.
  - rewrite app_length in LEN. cbn [len] in LEN.
    destruct (IH eq_refl ltac:(lia)) as (a0 & ta0 & d0 & vs & k & -> & O0 & K & FOLLOW & RUN). clear IH.
    assert (AS : forall r, after_operand ok 10 c (TK Kas :: tt ++ r)) by (intros r; right; right; split; [lia|reflexivity]).
    exists a0, ta0, d0, (vs ++ TK Kas :: tt), (k + 1)%nat. repeat split.
    + rewrite <- app_assoc. reflexivity.
    + exact O0.
    + rewrite app_length. cbn [len]. lia.
    + intros r _. rewrite <- app_assoc. apply FOLLOW. apply AS.
    + unfold fuel_for. intros n m ts r FU S F. rewrite app_length in FU. cbn [len] in FU. rewrite <- app_assoc in S. cbn [app] in S.
      destruct (RUN n (1 + m)%nat ts (TK Kas :: tt ++ r)) as (ts1 & E1 & S1); [unfold fuel_for; lia|exact S|apply AS|].
      pop S1 as ts2. destruct (after_cast_angle _ _ F) as (F1 & F2 & F3).
      destruct (type_full (len tt) t tt T) with (n := n) (ts := ts2) (r := r) as (r' & E2 & S3); [lia|lia|exact S1|split; assumption|].
      exists r'. split; [|exact S3]. rewrite <- Nat.add_assoc, E1. cbn [Nat.add cast_loop]. rewrite word_refl. cbn [List.tl]. rewrite E2.
      rewrite !(fun s N1 N2 => next_split s r' r N1 N2 S3) by discriminate. rewrite F1, F2. reflexivity.
Qed.

Lemma cast_full N : unary_full N -> forall ok c e u, Operand ok 9 c e u -> (len u <= N)%nat ->
  forall n ts r, fuel_for 5 u n -> splits ts (u ++ r) -> after_operand ok 9 c r -> gets (cast n ok) ts e r.
Proof.
  intros FULL ok c e u O LEN n ts r FU S F. unfold fuel_for in FU. destruct n as [|n]; [lia|].
  destruct (cast_chain N FULL ok c e u O LEN) as (a & ta & d & vs & k & -> & O0 & K & FOLLOW & RUN).
  rewrite app_length in LEN, FU. rewrite <- app_assoc in S.
  destruct (FULL _ _ _ _ O0) with (n := n) (ts := ts) (r := vs ++ r) as (ts1 & E1 & S1);
    [lia|unfold fuel_for; lia|exact S|apply FOLLOW, after_weaken; exact F|].
  destruct (RUN n (n - k)%nat ts1 r) as (ts2 & E2 & S2); [unfold fuel_for; lia|exact S1|apply after_weaken; exact F|].
  exists ts2. split; [|exact S2]. cbn [cast]. rewrite E1. change (cast_loop n n a ts1 = Got e ts2).
  replace n with (k + (n - k))%nat at 2 by lia. rewrite E2. destruct (n - k)%nat as [|j] eqn:J; [lia|].
  cbn [cast_loop]. rewrite (word_split _ _ _ S2).
  assert (NA : next_word Kas r = false).
  { destruct F as [H|[(op & r' & m & -> & P & _)|[T _]]]; [|exact (proj1 (proj2 (proj2 (precedence_plain _ _ r' P))))|lia].
    apply after_expr_plain in H. tauto. }
  rewrite NA. reflexivity.
Qed.

Lemma binary9_full N : unary_full N -> operand_full N 9.
Proof.
  intros FULL ok c e u O LEN n ts r FU S F. unfold fuel_for in FU. destruct n as [|n]; [lia|].
  destruct (cast_full N FULL ok c e u O LEN n ts r) as (ts1 & E1 & S1); [unfold fuel_for; lia|exact S|exact F|].
  exists ts1. split; [|exact S1]. cbn [binary]. change (Nat.leb 9 9) with true. cbv iota. rewrite E1.
  change (more_loop n ok 9 n e ts1 = Got e ts1). destruct n as [|n]; [lia|]. apply more_stop.
  intros Q. pose proof (after_operand_level _ _ _ _ _ S1 F _ Q). lia.
Qed.

Lemma all_operands N : unary_full N -> forall l, (l <= 9)%nat -> operand_full N l.
Proof.
  intros U l L. replace l with (9 - (9 - l))%nat by lia. generalize (9 - l)%nat (Nat.le_sub_l 9 l). clear l L. intros k K.
  induction k as [|k IH]; [exact (binary9_full N U)|]. apply binary_full; [lia|].
  replace (S (9 - S k)) with (9 - k)%nat by lia. apply IH. lia.
Qed.
