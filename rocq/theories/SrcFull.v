(** The parser finds what the grammar allows; with enough fuel.  Paths, lists, types, patterns, use. *)
From Coq Require Import ZArith List Bool String Lia.
From Verif Require Import SrcLex SrcAst SrcParse SpecGrammar SrcGram.
Import ListNotations.
Local Open Scope string_scope.
Local Open Scope list_scope.

(** [gets p ts x r]: reading [ts], [p] finds [x] and leaves [r] but for the [>>] still to be split. *)
Definition gets {A} (p : parser A) (ts : list tok) (x : A) (r : list tok) : Prop :=
  exists r', p ts = Got x r' /\ splits r' r.

Lemma pop ts t v : splits ts (t :: v) -> t <> TP Gt -> exists ts', ts = t :: ts' /\ splits ts' v.
Proof. intros S N. inversion S; subst; [eauto|congruence]. Qed.
Lemma pop_gt ts v : splits ts (TP Gt :: v) ->
  (exists ts', ts = TP Gt :: ts' /\ splits ts' v) \/ exists ts' v', ts = TP Shr :: ts' /\ v = TP Gt :: v' /\ splits ts' v'.
Proof. intros S. inversion S; subst; eauto 6. Qed.
Lemma pop_nil ts : splits ts [] -> ts = [].
Proof. intros S. inversion S. reflexivity. Qed.
Tactic Notation "pop" hyp(S) "as" ident(x) := let E := fresh in
  apply pop in S; [destruct S as (x & E & S); subst|discriminate].

Lemma next_split s ts r : s <> Gt -> s <> Shr -> splits ts r -> next_is s ts = next_is s r.
Proof.
  intros N1 N2 S. destruct S as [|t a b S|a b S]; [reflexivity|reflexivity|]. cbn. destruct s; try reflexivity; congruence.
Qed.
Lemma word_split s ts r : splits ts r -> next_word s ts = next_word s r.
Proof. intros S. destruct S as [|t a b S|a b S]; reflexivity. Qed.

Lemma next_refl s r : next_is s (TP s :: r) = true.
Proof. cbn. unfold sign_eqb. destruct s; reflexivity. Qed.
Lemma next_other s t r : t <> TP s -> next_is s (t :: r) = false.
Proof. intros N. destruct t as [| | | | |p]; try reflexivity. cbn. unfold sign_eqb. destruct p, s; try reflexivity; congruence. Qed.
Lemma word_refl s r : next_word s (TK s :: r) = true.
Proof. cbn. unfold keyword_eqb. destruct s; reflexivity. Qed.
Lemma word_other s t r : t <> TK s -> next_word s (t :: r) = false.
Proof. intros N. destruct t as [|p| | | |]; try reflexivity. cbn. unfold keyword_eqb. destruct p, s; try reflexivity; congruence. Qed.
Lemma eat_refl s r : eat s (TP s :: r) = Got tt r.
Proof. unfold eat. rewrite next_refl. reflexivity. Qed.
Lemma eat_word_refl s r : eat_word s (TK s :: r) = Got tt r.
Proof. unfold eat_word. rewrite word_refl. reflexivity. Qed.

(** ** Paths *)

Lemma path_full p u : Path p u -> forall n ts r, (List.length u <= n)%nat -> splits ts (u ++ r) ->
  next_is ColonColon r = false -> gets (path n) ts p r.
Proof.
  induction 1 as [x|x p u P IH]; intros n ts r L S F.
  - cbn [app] in S. pop S as ts0. destruct n as [|n]; [cbn in L; lia|]. cbn [path ident].
    exists ts0. split; [|exact S]. rewrite <- (next_split ColonColon ts0 r) in F by (discriminate || exact S).
    destruct ts0 as [|[| | | | |[]] ts0]; try reflexivity. discriminate F.
  - cbn [app] in S. pop S as ts0. pop S as ts1. destruct n as [|n]; [cbn in L; lia|]. cbn [List.length] in L.
    destruct (IH n ts1 r ltac:(lia) S F) as (r' & E & S'). exists r'. split; [|exact S']. cbn [path ident].
    destruct P; cbn [app] in S; pop S as ts2; cbn [List.tl]; rewrite E; reflexivity.
Qed.
Lemma path_begin p u : Path p u -> exists x u', u = TId x :: u'.
Proof. destruct 1; eauto. Qed.

(** ** Lists *)

(** An element can be told from the end of the list. *)
Definition opens (a : tok) : Prop := forall s, a = TP s -> In s [LParen; LBrack; LBrace; Amp; Star; Minus; Bar; BarBar; Hash].

Lemma commas_full {A} (p : parser A) (G : A -> list tok -> Prop) close (xs : list A) u : commas G xs u ->
  ~ In close [LParen; LBrack; LBrace; Amp; Star; Minus; BarBar; Hash; Comma; Shr] ->
  (forall x t, G x t -> (List.length t <= List.length u)%nat -> exists a t', t = a :: t' /\ opens a /\ a <> TP close) ->
  (forall x t, G x t -> (List.length t <= List.length u)%nat -> forall ts r, splits ts (t ++ r) ->
     (exists r', r = TP Comma :: r' \/ r = TP close :: r') -> gets p ts x r) ->
  forall m ts r, (List.length u < m)%nat -> (close = Gt -> next_is Gt r = false) -> splits ts (u ++ TP close :: r) ->
  gets (sep_until m p close) ts xs r.
Proof.
  intros C NC. 
  assert (K : forall ts r, (close = Gt -> next_is Gt r = false) -> splits ts (TP close :: r) -> exists ts', ts = TP close :: ts' /\ splits ts' r).
  { intros ts r NG S. inversion S; subst; [eauto|]. specialize (NG eq_refl). discriminate NG. }
  induction C as [|x t X|x t xs v X C IH]; intros B P m ts r M NG S; (destruct m as [|m]; [lia|]).
  - cbn [app] in S. destruct (K _ _ NG S) as (ts' & -> & S'). exists ts'. split; [|exact S']. cbn [sep_until]. rewrite next_refl. reflexivity.
  - destruct (P x t X (le_n _) ts (TP close :: r) S) as (r1 & E & S1); [eauto|].
    destruct (K _ _ NG S1) as (r2 & -> & S2). exists r2. split; [|exact S2]. cbn [sep_until].
    assert (N : next_is close ts = false).
    { destruct (B x t X (le_n _)) as (a & t' & -> & O & NE). cbn [app] in S. inversion S; subst.
      - apply next_other. exact NE.
      - specialize (O Gt eq_refl). cbn in O. intuition discriminate. }
    rewrite N, E. rewrite next_other by (intros Q; injection Q as ->; apply NC; cbn; tauto). rewrite eat_refl. reflexivity.
  - rewrite <- app_assoc in S. cbn [app] in S.
    destruct (P x t X ltac:(rewrite app_length; lia) ts (TP Comma :: v ++ TP close :: r) S) as (r1 & E & S1); [eauto|].
    pop S1 as ts0. rewrite app_length in M. cbn [List.length] in M.
    destruct (IH ltac:(intros y w Y L; apply (B y w Y); rewrite app_length; cbn [List.length]; lia)
                 ltac:(intros y w Y L; apply (P y w Y); rewrite app_length; cbn [List.length]; lia) m ts0 r ltac:(lia) NG S1) as (r2 & E2 & S2).
    exists r2. split; [|exact S2]. cbn [sep_until].
    assert (N : next_is close ts = false).
    { destruct (B x t X ltac:(rewrite app_length; lia)) as (a & t' & -> & O & NE). cbn [app] in S. inversion S; subst.
      - apply next_other. exact NE.
      - specialize (O Gt eq_refl). cbn in O. intuition discriminate. }
    rewrite N, E, next_refl. cbn [List.tl]. rewrite E2. reflexivity.
Qed.

(** ** Types *)

Definition after_type (r : list tok) : Prop := next_is ColonColon r = false /\ next_is Lt r = false.

Lemma type_begin t u : Type_ t u -> exists a u', u = a :: u' /\ opens a /\ (exists x, a = TId x) \/ exists u', u = TP Amp :: u' \/ u = TP LBrack :: u'.
Proof.
  destruct 1 as [p u P|p u l v P|t u life m T|t u T].
  - destruct (path_begin _ _ P) as (x & u' & ->). exists (TId x), u'. left. split; [reflexivity|]. split; [discriminate|eauto].
  - destruct (path_begin _ _ P) as (x & u' & ->). exists (TId x), (u' ++ TP Lt :: v ++ [TP Gt]). left. split; [reflexivity|]. split; [discriminate|eauto].
  - exists (TP Amp), []. right. eauto.
  - exists (TP Amp), []. right. eauto.
Qed.
Lemma type_first t u : Type_ t u -> exists a u', u = a :: u' /\ ((exists x, a = TId x) \/ a = TP Amp \/ a = TP LBrack).
Proof. intros T. destruct (type_begin _ _ T) as (a & u' & [(-> & _ & x & ->)|(v & [->| ->])]); eauto 8. Qed.

Definition args_loop (n : nat) (p : list string) := fix args (m : nat) (acc : list ty) (ts : list tok) : res ty :=
               match m with
               | O => Bad ts
               | S m =>
                   do (t, r) <- type n ts;
                   if next_is Comma r then
                     match close_angle (List.tl r) with
                     | Got _ r' => Got (TyPath p (acc ++ [t])%list) r'
                     | Bad _ => args m (acc ++ [t])%list (List.tl r)
                     end
                   else do (u, r') <- close_angle r; Got (TyPath p (acc ++ [t])%list) r'
               end.

Lemma close_gets ts r : splits ts (TP Gt :: r) -> gets close_angle ts tt r.
Proof.
  intros S. apply pop_gt in S. destruct S as [(ts' & -> & S)|(ts' & v' & -> & -> & S)].
  - exists ts'. auto.
  - exists (TP Gt :: ts'). split; [reflexivity|]. constructor. exact S.
Qed.

Lemma args_full n p l u : commas Type_ l u -> l <> [] ->
  (forall x t, Type_ x t -> (List.length t <= List.length u)%nat -> forall ts r, splits ts (t ++ r) -> after_type r -> gets (type n) ts x r) ->
  forall m acc ts r, (List.length u < m)%nat -> splits ts (u ++ TP Gt :: r) -> gets (args_loop n p m acc) ts (TyPath p (acc ++ l)) r.
Proof.
  intros C. induction C as [|x t X|x t xs v X C IH]; intros NE P m acc ts r M S; [congruence| |]; (destruct m as [|m]; [lia|]).
  - destruct (P x t X (le_n _) ts (TP Gt :: r) S) as (r1 & E & S1); [split; reflexivity|].
    destruct (close_gets _ _ S1) as (r2 & E2 & S2). exists r2. split; [|exact S2]. cbn [args_loop]. rewrite E.
    rewrite (next_split Comma r1 (TP Gt :: r)) by (discriminate || exact S1). cbn [next_is]. change (sign_eqb Gt Comma) with false. cbv iota.
    rewrite E2. reflexivity.
  - rewrite <- app_assoc in S. cbn [app] in S. rewrite app_length in M. cbn [List.length] in M.
    destruct (P x t X ltac:(rewrite app_length; lia) ts _ S) as (r1 & E & S1); [split; reflexivity|]. pop S1 as ts0.
    unfold gets. cbn [args_loop]. rewrite E, next_refl. cbn [List.tl]. destruct xs as [|y xs].
    + inversion C; subst. cbn [app] in S1. destruct (close_gets _ _ S1) as (r2 & E2 & S2). rewrite E2. exists r2. auto.
    + assert (N : close_angle ts0 = Bad ts0).
      { assert (B : exists a u', v = a :: u' /\ ((exists x, a = TId x) \/ a = TP Amp \/ a = TP LBrack)).
        { inversion C; subst; match goal with H : Type_ _ _ |- _ => destruct (type_first _ _ H) as (a & u' & -> & Q) end;
            [eauto|exists a; eexists; split; [reflexivity|exact Q]]. }
        destruct B as (a & u' & -> & B). cbn [app] in S1.
        assert (a <> TP Gt) by (destruct B as [(z & ->)|[->| ->]]; discriminate). apply pop in S1; [|assumption].
        destruct S1 as (ts' & -> & _). destruct B as [(z & ->)|[->| ->]]; reflexivity. }
      rewrite N. destruct (IH ltac:(discriminate) ltac:(intros z w Z L; apply (P z w Z); rewrite app_length; cbn [List.length]; lia)
        m (acc ++ [x]) ts0 r ltac:(lia) S1) as (r2 & E2 & S2). exists r2. rewrite <- app_assoc in E2. split; [exact E2|exact S2].
Qed.

Lemma type_full k : forall t u, Type_ t u -> (List.length u <= k)%nat -> forall n ts r, (2 * List.length u <= n)%nat ->
  splits ts (u ++ r) -> after_type r -> gets (type n) ts t r.
Proof.
  induction k as [|k IH]; intros t u T L n ts r N S F.
  { destruct (type_first _ _ T) as (a & u' & -> & _). cbn in L. lia. }
  destruct n as [|n]. { destruct (type_first _ _ T) as (a & u' & -> & _). cbn in N. lia. }
  destruct T as [p u P|p u l v P NE C|t u life m T LI MU|t u T].
  - assert (1 <= List.length u)%nat by (destruct (path_begin _ _ P) as (x & u' & ->); cbn; lia).
    destruct (path_full p u P n ts r) as (r' & E & S'); [lia|exact S|exact (proj1 F)|].
    exists r'. split; [|exact S']. destruct (path_begin _ _ P) as (x & u' & ->). cbn [app] in S. pop S as ts0.
    cbn [type]. rewrite E. rewrite (next_split Lt r' r) by (discriminate || exact S'). rewrite (proj2 F). reflexivity.
  - rewrite app_length in L, N. cbn [List.length] in L, N. rewrite app_length in L, N. cbn [List.length] in L, N.
    rewrite <- app_assoc in S. cbn [app] in S. rewrite <- app_assoc in S. cbn [app] in S.
    destruct (path_full p u P n ts (TP Lt :: v ++ TP Gt :: r)) as (r' & E & S'); [lia|exact S|reflexivity|].
    pop S' as r1.
    assert (K : gets (args_loop n p n []) r1 (TyPath p ([] ++ l)) r).
    { apply (args_full n p l v C NE); [|lia|exact S']. intros x t X LX ts0 r0 S0 F0. apply (IH x t X); [lia|lia|exact S0|exact F0]. }
    destruct K as (r2 & E2 & S2). exists r2. split; [|exact S2].
    destruct (path_begin _ _ P) as (x & u' & ->). cbn [app] in S. pop S as ts0. cbn [type]. rewrite E, next_refl. exact E2.
  - cbn [app List.length] in *. rewrite !app_length in L, N. cbn [List.length] in L, N. pop S as ts0.
    rewrite <- !app_assoc in S.
    assert (A : exists ts1, skip_mut (skip_life ts0) = ts1 /\ splits ts1 (u ++ r)).
    { destruct (type_first _ _ T) as (a & u' & -> & B).
      assert (NG : a <> TP Gt) by (destruct B as [(z & ->)|[->| ->]]; discriminate).
      assert (D : forall ts2, splits ts2 (m ++ (a :: u') ++ r) -> exists ts1, skip_mut ts2 = ts1 /\ splits ts1 ((a :: u') ++ r)).
      { intros ts2 S2. unfold skip_mut. rewrite (word_split _ _ _ S2). destruct MU as [->| ->]; cbn [app] in *.
        - rewrite word_other by (destruct B as [(z & ->)|[->| ->]]; discriminate). eauto.
        - rewrite word_refl. pop S2 as ts3. cbn [List.tl]. eauto. }
      destruct LI as [->|(z & ->)]; cbn [app] in S.
      - assert (Q : skip_life ts0 = ts0).
        { unfold skip_life. destruct ts0 as [|[] ts0]; try reflexivity. exfalso.
          destruct MU as [->| ->]; cbn [app] in S; inversion S; subst. destruct B as [(z & B)|[B|B]]; discriminate B. }
        rewrite Q. apply D. exact S.
      - pop S as ts3. cbn [skip_life]. apply D. exact S. }
    destruct A as (ts1 & EQ & S1). destruct (IH t u T) with (n := n) (ts := ts1) (r := r) as (r' & E & S'); [lia|lia|exact S1|exact F|].
    exists r'. split; [|exact S']. cbn [type]. rewrite EQ, E. reflexivity.
  - cbn [app List.length] in *. rewrite app_length in L, N. cbn [List.length] in L, N. pop S as ts0.
    rewrite <- app_assoc in S. cbn [app] in S.
    destruct (IH t u T) with (n := n) (ts := ts0) (r := TP RBrack :: r) as (r' & E & S'); [lia|lia|exact S|split; reflexivity|].
    pop S' as r1. exists r1. split; [|exact S']. cbn [type]. rewrite E, eat_refl. reflexivity.
Qed.

(** ** Patterns *)

Definition after_pattern1 (r : list tok) : Prop :=
  next_is ColonColon r = false /\ next_is LParen r = false /\ next_is DotDotEq r = false.
Definition after_pattern (r : list tok) : Prop := after_pattern1 r /\ next_is Bar r = false.

Lemma pattern1_first p u : Pattern1 p u -> exists a u', u = a :: u' /\ ((exists x, a = TId x) \/ (exists z s, a = TNum z s) \/ a = TP LParen).
Proof.
  destruct 1 as [|x|z s|a s b s'|x y p u P|p u l v P|l v]; try (eexists; eexists; split; [reflexivity|eauto 6]; fail);
    destruct (path_begin _ _ P) as (z & u' & ->); eexists; eexists; (split; [reflexivity|eauto]).
Qed.
Lemma bars_first l u : bars Pattern1 l u -> exists a u', u = a :: u' /\ ((exists x, a = TId x) \/ (exists z s, a = TNum z s) \/ a = TP LParen).
Proof.
  destruct 1 as [x t y v X Y|x t xs v X]; destruct (pattern1_first _ _ X) as (a & u' & -> & Q);
    eexists; eexists; (split; [reflexivity|exact Q]).
Qed.
Lemma pattern_first p u : Pattern p u -> exists a u', u = a :: u' /\ ((exists x, a = TId x) \/ (exists z s, a = TNum z s) \/ a = TP LParen \/ a = TP Bar).
Proof.
  destruct 1 as [p b u P [->| ->]|l b u B [->| ->]]; cbn [app]; try (eexists; eexists; split; [reflexivity|auto]; fail).
  - destruct (pattern1_first _ _ P) as (a & u' & -> & Q). eexists; eexists; split; [reflexivity|tauto].
  - destruct (bars_first _ _ B) as (a & u' & -> & Q). eexists; eexists; split; [reflexivity|tauto].
Qed.

Lemma pattern_element close x t : close <> Bar -> close <> LParen -> Pattern x t -> exists a t', t = a :: t' /\ opens a /\ a <> TP close.
Proof.
  intros N1 N2 P. destruct (pattern_first _ _ P) as (a & t' & -> & Q). exists a, t'. split; [reflexivity|].
  destruct Q as [(z & ->)|[(z & w & ->)|[->| ->]]]; (split; [intros s E; try discriminate E; injection E as <-; cbn; tauto|try discriminate; congruence]).
Qed.

Lemma pattern1_full k n (sub : parser pat) :
  (forall x t, Pattern x t -> (List.length t < k)%nat -> forall ts r, splits ts (t ++ r) -> after_pattern r -> gets sub ts x r) ->
  forall p u, Pattern1 p u -> (List.length u <= k)%nat -> (List.length u <= n)%nat -> forall ts r, splits ts (u ++ r) -> after_pattern1 r ->
  gets (pattern1 n sub) ts p r.
Proof.
  intros SUB p u P L N ts r S (F1 & F2 & F3).
  assert (LIST : forall l v ts r, commas Pattern l v -> (List.length v < k)%nat -> (List.length v < n)%nat -> splits ts (v ++ TP RParen :: r) ->
    gets (sep_until n sub RParen) ts l r).
  { intros l v ts0 r0 C LV NV S0. apply (commas_full sub Pattern RParen l v C); try assumption; try discriminate.
    - cbn. intuition discriminate.
    - intros x t X _. apply pattern_element with (x := x); [discriminate|discriminate|exact X].
    - intros x t X LX ts1 r1 S1 Q. apply (SUB x t X); [lia|exact S1|].
      destruct Q as (r' & [->| ->]); repeat split; reflexivity. }
  destruct P as [|x NU|z s|a s b s'|x y p u P|p u l v P C|l v NL C].
  - cbn [app] in S. pop S as ts0. destruct (path_full ["_"] _ (path_end "_") n (TId "_" :: ts0) r) as (r' & E & S');
      [exact N|constructor; exact S|exact F1|].
    exists r'. split; [|exact S']. cbn [pattern1]. rewrite E, (next_split LParen r' r), F2 by (discriminate || exact S'). reflexivity.
  - cbn [app] in S. pop S as ts0. destruct (path_full [x] _ (path_end x) n (TId x :: ts0) r) as (r' & E & S');
      [exact N|constructor; exact S|exact F1|].
    exists r'. split; [|exact S']. cbn [pattern1]. rewrite E, (next_split LParen r' r), F2 by (discriminate || exact S').
    apply String.eqb_neq in NU. rewrite NU. reflexivity.
  - cbn [app] in S. pop S as ts0. exists ts0. split; [|exact S]. cbn [pattern1].
    rewrite <- (next_split DotDotEq ts0 r) in F3 by (discriminate || exact S).
    destruct ts0 as [|[| | | | |[]] ts0]; try reflexivity. discriminate F3.
  - cbn [app] in S. pop S as ts0. pop S as ts1. pop S as ts2. exists ts2. split; [reflexivity|exact S].
  - destruct (path_full _ _ P n ts r) as (r' & E & S'); [exact N|exact S|exact F1|].
    exists r'. split; [|exact S']. destruct (path_begin _ _ P) as (z & u' & ->). cbn [app] in S. pop S as ts0.
    cbn [pattern1]. rewrite E, (next_split LParen r' r), F2 by (discriminate || exact S'). reflexivity.
  - rewrite app_length in L, N. cbn [List.length] in L, N. rewrite app_length in L, N. cbn [List.length] in L, N.
    rewrite <- app_assoc in S. cbn [app] in S. rewrite <- app_assoc in S. cbn [app] in S.
    destruct (path_full p u P n ts (TP LParen :: v ++ TP RParen :: r)) as (r' & E & S'); [lia|exact S|reflexivity|].
    pop S' as r1. destruct (LIST l v r1 r C ltac:(lia) ltac:(lia) S') as (r2 & E2 & S2). exists r2. split; [|exact S2].
    destruct (path_begin _ _ P) as (x & u' & ->). cbn [app] in S. pop S as ts0. cbn [pattern1]. rewrite E, next_refl. cbn [List.tl].
    rewrite E2. reflexivity.
  - cbn [app List.length] in *. rewrite app_length in L, N. cbn [List.length] in L, N. pop S as ts0.
    rewrite <- app_assoc in S. cbn [app] in S. destruct (LIST l v ts0 r C ltac:(lia) ltac:(lia) S) as (r2 & E2 & S2).
    exists r2. split; [|exact S2]. cbn [pattern1]. rewrite E2. destruct l as [|x [|y l]]; try reflexivity. cbn in NL. congruence.
Qed.

Definition alts_loop (n : nat) := fix alts (m : nat) (acc : list pat) (ts : list tok) : res pat :=
           match m with
           | O => Bad ts
           | S m =>
               if next_is Bar ts then
                 do (q, r') <- pattern1 n (pattern n) (List.tl ts); alts m (acc ++ [q])%list r'
               else Got (POr acc) ts
           end.

(** What comes after the first of several. *)
Lemma bars_split {A} (G : A -> list tok -> Prop) l u : bars G l u -> exists x t l' v, l = x :: l' /\ u = t ++ TP Bar :: v /\ G x t /\
  (bars G l' v \/ exists y, l' = [y] /\ G y v).
Proof.
  destruct 1 as [x t y v X Y|x t xs v X B].
  - exists x, t, [y], v. repeat split; [exact X|]. right. eauto.
  - exists x, t, xs, v. auto.
Qed.

Lemma alts_full k n :
  (forall p u, Pattern1 p u -> (List.length u <= k)%nat -> forall ts r, splits ts (u ++ r) -> after_pattern1 r -> gets (pattern1 n (pattern n)) ts p r) ->
  forall l u, bars Pattern1 l u \/ (exists y, l = [y] /\ Pattern1 y u) -> (List.length u <= k)%nat -> forall m acc ts r, (S (List.length u) < m)%nat ->
  splits ts (TP Bar :: u ++ r) -> after_pattern r -> gets (alts_loop n m acc) ts (POr (acc ++ l)) r.
Proof.
  intros P1. 
  assert (LAST : forall y u m acc ts r, Pattern1 y u -> (List.length u <= k)%nat -> (1 < m)%nat -> splits ts (TP Bar :: u ++ r) ->
    after_pattern r -> gets (alts_loop n m acc) ts (POr (acc ++ [y])) r).
  { intros y u m acc ts r Y L M S (F & FB). destruct m as [|[|m]]; try lia. pop S as ts0.
    destruct (P1 y u Y L ts0 r S F) as (r' & E & S'). exists r'. split; [|exact S'].
    cbn [alts_loop]. rewrite next_refl. cbn [List.tl]. rewrite E. rewrite (next_split Bar r' r), FB by (discriminate || exact S'). reflexivity. }
  intros l u [B|(y & -> & Y)] L m acc ts r M S F; [|apply (LAST y u); try assumption; lia].
  revert m acc ts M S. induction B as [x t y v X Y|x t xs v X B IH]; intros m acc ts M S.
  - destruct m as [|m]; [lia|]. rewrite app_length in L, M. cbn [List.length] in L, M. pop S as ts0.
    rewrite <- app_assoc in S. cbn [app] in S.
    destruct (P1 x t X ltac:(lia) ts0 _ S) as (r1 & E & S1); [repeat split; reflexivity|].
    destruct (LAST y v m (acc ++ [x]) r1 r Y ltac:(lia) ltac:(lia) S1 F) as (r2 & E2 & S2). exists r2. split; [|exact S2].
    cbn [alts_loop]. rewrite next_refl. cbn [List.tl]. rewrite E. rewrite <- app_assoc in E2. exact E2.
  - destruct m as [|m]; [lia|]. rewrite app_length in L, M. cbn [List.length] in L, M. pop S as ts0.
    rewrite <- app_assoc in S. cbn [app] in S.
    destruct (P1 x t X ltac:(lia) ts0 _ S) as (r1 & E & S1); [repeat split; reflexivity|].
    destruct (IH ltac:(lia) m (acc ++ [x]) r1 ltac:(lia) S1) as (r2 & E2 & S2). exists r2. split; [|exact S2].
    cbn [alts_loop]. rewrite next_refl. cbn [List.tl]. rewrite E. rewrite <- app_assoc in E2. exact E2.
Qed.

Lemma pattern_full k : forall p u, Pattern p u -> (List.length u <= k)%nat -> forall n ts r, (2 * List.length u + 1 <= n)%nat -> splits ts (u ++ r) ->
  after_pattern r -> gets (pattern n) ts p r.
Proof.
  induction k as [|k IH]; intros p u P L n ts r N S F.
  { destruct (pattern_first _ _ P) as (a & u' & -> & _). cbn in L. lia. }
  destruct n as [|n]; [lia|].
  assert (P1 : forall p v, Pattern1 p v -> (List.length v <= List.length u)%nat -> forall ts r, splits ts (v ++ r) -> after_pattern1 r -> gets (pattern1 n (pattern n)) ts p r).
  { intros q v Q LV ts0 r0 S0 F0. apply (pattern1_full (List.length u) n (pattern n)) with (u := v); try assumption; [|lia].
    intros x t X LX ts1 r1 S1 F1. apply (IH x t X); [lia|lia|exact S1|exact F1]. }
  assert (SKIP : forall b v, optional (TP Bar) b -> (exists a u', v = a :: u' /\ ((exists x, a = TId x) \/ (exists z s, a = TNum z s) \/ a = TP LParen)) ->
    splits ts (b ++ v) -> exists ts1, (if next_is Bar ts then List.tl ts else ts) = ts1 /\ splits ts1 v).
  { intros b v [->| ->] (a & v' & -> & Q) SS; cbn [app] in SS.
    - rewrite (next_split Bar ts _) by (discriminate || exact SS). rewrite next_other by (destruct Q as [(z & ->)|[(z & w & ->)| ->]]; discriminate). eauto.
    - pop SS as ts0. rewrite next_refl. cbn [List.tl]. eauto. }
  destruct P as [p b u P O|l b u B O].
  - rewrite <- app_assoc in S. rewrite app_length in P1.
    destruct (SKIP b (u ++ r) O) as (ts1 & E1 & S1); [|exact S|].
    { destruct (pattern1_first _ _ P) as (a & u' & -> & Q). eexists; eexists; split; [reflexivity|exact Q]. }
    destruct (P1 p u P ltac:(lia) ts1 r S1 (proj1 F)) as (r' & E & S'). exists r'. split; [|exact S'].
    cbn [pattern]. rewrite E1, E, (next_split Bar r' r), (proj2 F) by (discriminate || exact S'). reflexivity.
  - rewrite <- app_assoc in S. rewrite app_length in P1, N, L.
    destruct (SKIP b (u ++ r) O) as (ts1 & E1 & S1); [|exact S|].
    { destruct (bars_first _ _ B) as (a & u' & -> & Q). eexists; eexists; split; [reflexivity|exact Q]. }
    destruct (bars_split _ _ _ B) as (x & t & l' & v & -> & -> & X & R). rewrite app_length in P1, N, L. cbn [List.length] in P1, N, L.
    rewrite <- app_assoc in S1. cbn [app] in S1.
    destruct (P1 x t X ltac:(lia) ts1 _ S1) as (r1 & E & S2); [repeat split; reflexivity|].
    destruct (alts_full (List.length v) n) with (l := l') (u := v) (m := n) (acc := [x]) (ts := r1) (r := r) as (r2 & E2 & S3);
      [intros q w Q LW; apply (P1 q w Q); lia|exact R|lia|lia|exact S2|exact F|].
    exists r2. split; [|exact S3]. cbn [pattern]. rewrite E1, E. rewrite (next_split Bar r1 _ ltac:(discriminate) ltac:(discriminate) S2), next_refl. exact E2.
Qed.

(** ** Use *)

Lemma use_first pre l u : Use pre l u -> exists a u', u = a :: u' /\ ((exists x, a = TId x) \/ a = TP LBrace).
Proof. destruct 1; eexists; eexists; (split; [reflexivity|eauto]). Qed.

Lemma use_full k : forall pre l u, Use pre l u -> (List.length u <= k)%nat -> forall n ts r, (List.length u + 1 <= n)%nat -> splits ts (u ++ r) ->
  next_is ColonColon r = false -> gets (use_tree n pre) ts l r.
Proof.
  induction k as [|k IH]; intros pre l u U L n ts r N S F.
  { destruct (use_first _ _ _ U) as (a & u' & -> & _). cbn in L. lia. }
  destruct n as [|n]; [lia|].
  assert (END : forall x ts0, splits ts0 r -> use_tree (Datatypes.S n) pre (TId x :: ts0) =
    if x =? "self" then Got [(List.last pre "", pre)] ts0 else Got [(x, pre ++ [x])] ts0).
  { intros x ts0 S0. rewrite <- (next_split ColonColon ts0 r) in F by (discriminate || exact S0).
    destruct ts0 as [|[| | | | |[]] ts0]; try reflexivity. discriminate F. }
  destruct U as [pre x NS|pre|pre x us v U|pre l v C].
  - cbn [app] in S. pop S as ts0. exists ts0. rewrite (END _ _ S). apply String.eqb_neq in NS. rewrite NS. auto.
  - cbn [app] in S. pop S as ts0. exists ts0. rewrite (END _ _ S). auto.
  - cbn [app List.length] in *. pop S as ts0. pop S as ts1.
    destruct (IH _ _ _ U) with (n := n) (ts := ts1) (r := r) as (r' & E & S'); [lia|lia|exact S|exact F|]. exists r'. auto.
  - cbn [app List.length] in *. rewrite app_length in L, N. cbn [List.length] in L, N. pop S as ts0. rewrite <- app_assoc in S. cbn [app] in S.
    destruct (commas_full (use_tree n pre) (Use pre) RBrace l v C) with (m := n) (ts := ts0) (r := r) as (r' & E & S').
    + cbn. intuition discriminate.
    + intros x t X _. destruct (use_first _ _ _ X) as (a & t' & -> & [(z & ->)| ->]); eexists; eexists; (split; [reflexivity|]);
        (split; [intros s E; try discriminate E; injection E as <-; cbn; tauto|discriminate]).
    + intros x t X LX ts1 r1 S1 (r2 & [->| ->]); apply (IH _ _ _ X); try lia; try exact S1; reflexivity.
    + lia.
    + discriminate.
    + exact S.
    + exists r'. split; [|exact S']. cbn [use_tree]. rewrite E. reflexivity.
Qed.
