(** The parser finds what the grammar allows; with enough fuel.  Items. *)
From Coq Require Import ZArith List Bool String Lia.
From Verif Require Import SrcLex SrcAst SrcParse SpecGrammar SrcGram SrcGram2 SrcGram3 SrcFull SrcFull2 SrcFull3 SrcFull4.
Import ListNotations.
Local Open Scope string_scope.
Local Open Scope list_scope.

(** ** Attributes *)

Lemma attr_words_split ts v : splits ts v -> forall d a r, attr_words d v = Got a r -> exists r', attr_words d ts = Got a r' /\ splits r' r.
Proof.
  induction 1 as [|t ts v S IH|ts v S IH]; intros d a r E.
  - discriminate E.
  - destruct t as [x| | | | |[]]; cbn [attr_words] in E |- *; try (apply IH; exact E; fail).
    + destruct (attr_words d v) as [b r1|] eqn:E1; [|discriminate E]. injection E as <- <-.
      destruct (IH _ _ _ E1) as (r' & -> & S'). eauto.
    + destruct (attr_words (Datatypes.S d) v) as [b r1|] eqn:E1; [|discriminate E]. injection E as <- <-.
      destruct (IH _ _ _ E1) as (r' & -> & S'). eauto.
    + destruct d as [|d]; [injection E as <- <-; eauto|].
      destruct (attr_words d v) as [b r1|] eqn:E1; [|discriminate E]. injection E as <- <-.
      destruct (IH _ _ _ E1) as (r' & -> & S'). eauto.
  - cbn [attr_words] in E |- *. apply IH. exact E.
Qed.

Lemma bracketed_words a u : Bracketed a u -> forall d w, attr_words d (u ++ w) = do (b, r) <- attr_words d w; Got (a ++ b) r.
Proof.
  induction 1 as [|x l u B IH|t l u N1 N2 N3 B IH|a u b v A IHA B IHB]; intros d w.
  - cbn [app]. destruct (attr_words d w); reflexivity.
  - cbn [app attr_words]. rewrite IH. destruct (attr_words d w); reflexivity.
  - cbn [app]. rewrite <- IH. destruct t as [x| | | | |[]]; try reflexivity; congruence.
  - cbn [app]. rewrite <- app_assoc. cbn [app attr_words]. rewrite IHA. cbn [attr_words]. rewrite IHB.
    destruct (attr_words d w) as [c r|]; [|reflexivity]. rewrite app_assoc. reflexivity.
Qed.

Lemma attribute_full a u : Bracketed a u -> forall ts r, splits ts (u ++ TP RBrack :: r) -> gets (attr_words 0) ts a r.
Proof.
  intros B ts r S. apply (attr_words_split _ _ S). rewrite (bracketed_words _ _ B). cbn [attr_words]. rewrite app_nil_r. reflexivity.
Qed.

Lemma attrs_full l u : Attributes l u -> forall n ts r, (len u < n)%nat -> splits ts (u ++ r) -> next_is Hash r = false -> gets (attrs n) ts l r.
Proof.
  induction 1 as [|a u l v B A IH|a u l v B A IH]; intros n ts r L S F; (destruct n as [|n]; [lia|]).
  - exists ts. split; [|exact S]. cbn [app] in S. rewrite <- (next_split Hash ts r) in F by (discriminate || exact S).
    destruct ts as [|[| | | | |[]] ts]; try reflexivity. discriminate F.
  - cbn [app len] in *. rewrite app_length in L. cbn [len] in L. pop S as ts0. pop S as ts1. rewrite <- app_assoc in S. cbn [app] in S.
    destruct (attribute_full a u B ts1 (v ++ r) S) as (r1 & E1 & S1). destruct (IH n r1 r ltac:(lia) S1 F) as (r2 & E2 & S2).
    exists r2. split; [|exact S2]. cbn [attrs]. rewrite E1, E2. reflexivity.
  - cbn [app len] in *. rewrite app_length in L. cbn [len] in L. pop S as ts0. pop S as ts1. pop S as ts2. rewrite <- app_assoc in S. cbn [app] in S.
    destruct (attribute_full a u B ts2 (v ++ r) S) as (r1 & E1 & S1). destruct (IH n r1 r ltac:(lia) S1 F) as (r2 & E2 & S2).
    exists r2. split; [|exact S2]. cbn [attrs]. rewrite E1. exact E2.
Qed.

(** ** Functions, variants, fields *)

Lemma generics_full l u : Generics l u -> forall n ts r, (len u < n)%nat -> splits ts (u ++ TP LParen :: r) -> gets (generics n) ts l (TP LParen :: r).
Proof.
  intros [(-> & ->)|(v & -> & C)] n ts r L S.
  - cbn [app] in S. exists ts. split; [|exact S]. unfold generics. rewrite (next_split Lt ts _ ltac:(discriminate) ltac:(discriminate) S). reflexivity.
  - cbn [app len] in *. rewrite app_length in L. cbn [len] in L. pop S as ts0. rewrite <- app_assoc in S. cbn [app] in S.
    unfold gets, generics. rewrite next_refl. cbn [List.tl].
    apply (commas_full _ Bound Gt l v C) with (m := n).
    + cbn. intuition discriminate.
    + intros x t (p & us & -> & _) _. eexists; eexists; split; [reflexivity|]. split; [intros s Q; discriminate Q|discriminate].
    + intros x t (p & us & -> & P) LX ts1 r1 S1 Q. cbn [app len] in *. pop S1 as ts2. pop S1 as ts3.
      destruct (path_full p us P n ts3 r1) as (r2 & E2 & S2); [lia|exact S1|destruct Q as (r' & [->| ->]); reflexivity|].
      exists r2. split; [|exact S2]. cbn [ident]. rewrite eat_refl, E2. reflexivity.
    + lia.
    + reflexivity.
    + exact S.
Qed.

Lemma typed_full x u : Typed x u -> forall n ts r, (2 * len u <= n)%nat -> splits ts (u ++ r) -> after_type r -> gets (typed_name n) ts x r.
Proof.
  destruct x as [x t]. intros (v & -> & T) n ts r L S F. cbn [fst snd app len] in *. pop S as ts0. pop S as ts1.
  destruct (type_full (len v) t v T) with (n := n) (ts := ts1) (r := r) as (r1 & E1 & S1); [lia|lia|exact S|exact F|].
  exists r1. split; [|exact S1]. unfold typed_name. cbn [ident]. rewrite eat_refl, E1. reflexivity.
Qed.

Lemma param_full x u : Param x u -> forall n ts r, (2 * len u <= n)%nat -> splits ts (u ++ r) -> after_type r -> gets (param n) ts x r.
Proof.
  intros [(-> & [->| ->])|(NS & T)] n ts r L S F.
  - cbn [app] in S. pop S as ts0. exists ts0. split; [reflexivity|exact S].
  - cbn [app] in S. pop S as ts0. pop S as ts1. exists ts1. split; [reflexivity|exact S].
  - destruct (typed_full x u T n ts r L S F) as (r1 & E1 & S1). exists r1. split; [|exact S1]. rewrite <- E1.
    destruct x as [x t]. destruct T as (v & -> & T). cbn [fst app] in *. pop S as ts0. unfold param. cbn [is_self].
    apply String.eqb_neq in NS. rewrite NS. reflexivity.
Qed.
Lemma param_first x u : Param x u -> exists a u', u = a :: u' /\ ((exists y, a = TId y) \/ a = TP Amp).
Proof. intros [(-> & [->| ->])|(NS & (v & -> & T))]; eauto 8. Qed.

Lemma follow_type close r : (exists r', r = TP Comma :: r' \/ r = TP close :: r') -> ~ In close [ColonColon; Lt] -> after_type r.
Proof.
  intros (r' & [->| ->]) N; [split; reflexivity|]. split; apply next_other; intros Q; injection Q as ->; apply N; cbn; tauto.
Qed.

Lemma function_full x l u ps v t w b z : Generics l u -> commas Param ps v -> Result_ t w -> Fn_body b z ->
  forall n ts r, (40 * (len u + len v + len w + len z) + 5 <= n)%nat -> splits ts (TId x :: u ++ TP LParen :: v ++ TP RParen :: w ++ z ++ r) ->
  gets (function n) ts {| f_name := x; f_generics := l; f_params := ps; f_ret := t; f_body := b |} r.
Proof.
  intros G C R B n ts r L S. pop S as ts0.
  destruct (generics_full l u G n ts0 (v ++ TP RParen :: w ++ z ++ r)) as (r1 & E1 & S1); [lia|exact S|]. pop S1 as r2.
  destruct (commas_full (param n) Param RParen ps v C) with (m := n) (ts := r2) (r := w ++ z ++ r) as (r3 & E3 & S3).
  { cbn. intuition discriminate. }
  { intros y s Y _. destruct (param_first _ _ Y) as (a & s' & -> & [(q & ->)| ->]); eexists; eexists; (split; [reflexivity|]);
      (split; [intros c Q; try discriminate Q; injection Q as <-; cbn; tauto|discriminate]). }
  { intros y s Y LY ts4 r4 S4 Q. apply (param_full y s Y); [lia|exact S4|]. apply (follow_type RParen); [exact Q|cbn; intuition discriminate]. }
  { lia. }
  { discriminate. }
  { exact S1. }
  assert (BZ : exists k z', z = TP k :: z' /\ (k = Semi \/ k = LBrace)).
  { destruct b as [b|]; cbn [Fn_body] in B; [destruct B|subst z]; eauto. }
  destruct BZ as (k & z' & -> & K).
  assert (TY : exists r5, (if next_is Arrow r3 then do (t, r') <- type n (List.tl r3); Got (Some t) r' else Got None r3) = Got t r5 /\ splits r5 ((TP k :: z') ++ r)).
  { destruct t as [t|]; cbn [Result_] in R.
    - destruct R as (w' & -> & T). cbn [app len] in *. pop S3 as ts4. rewrite next_refl. cbn [List.tl].
      destruct (type_full (len w') t w' T) with (n := n) (ts := ts4) (r := TP k :: z' ++ r) as (r' & E2 & S2);
        [lia|lia|exact S3|destruct K as [->| ->]; split; reflexivity|]. rewrite E2. eauto.
    - subst w. cbn [app] in S3 |- *. exists r3. split; [|exact S3]. rewrite (next_split Arrow r3 _ ltac:(discriminate) ltac:(discriminate) S3).
      destruct K as [->| ->]; reflexivity. }
  destruct TY as (r5 & E5 & S5). unfold gets, function. cbn [ident]. rewrite E1, eat_refl, E3, E5.
  rewrite (next_split Semi r5 _ ltac:(discriminate) ltac:(discriminate) S5). destruct b as [b|]; cbn [Fn_body] in B.
  - destruct (proj2 (proj2 (all_full (len (TP k :: z')))) b _ B (le_n _) n r5 r) as (r6 & E6 & S6); [unfold fuel_for; lia|exact S5|].
    assert (k = LBrace) by (inversion B; reflexivity). subst k. cbn [app]. rewrite next_other by discriminate. rewrite E6. eauto.
  - injection B as -> ->. cbn [app] in S5 |- *. rewrite next_refl. pop S5 as r6. cbn [List.tl]. eauto.
Qed.

Lemma attributes_first l u : Attributes l u -> u = [] \/ exists u', u = TP Hash :: u'.
Proof. destruct 1; eauto. Qed.

Lemma variant_full x u : Variant x u -> forall n ts r, (2 * len u + 2 <= n)%nat -> splits ts (u ++ r) -> (exists r', r = TP Comma :: r' \/ r = TP RBrace :: r') ->
  gets (variant n) ts x r.
Proof.
  destruct x as [x ty]. intros (l & v & w & -> & A & V) n ts r L S Q. cbn [fst snd] in *. rewrite app_length in L. cbn [len] in L.
  rewrite <- app_assoc in S. cbn [app] in S.
  destruct (attrs_full l v A n ts (TId x :: w ++ r)) as (r1 & E1 & S1); [lia|exact S|reflexivity|]. pop S1 as r2.
  unfold gets, variant. rewrite E1. cbn [ident]. destruct V as [(-> & ->)|(z & -> & C)].
  - cbn [app] in S1. rewrite (next_split LParen r2 r) by (discriminate || exact S1).
    assert (N : next_is LParen r = false) by (destruct Q as (r' & [->| ->]); reflexivity). rewrite N. eauto.
  - cbn [app len] in *. rewrite app_length in L. cbn [len] in L. rewrite <- app_assoc in S1. cbn [app] in S1. pop S1 as r3. rewrite next_refl. cbn [List.tl].
    destruct (commas_full (type n) Type_ RParen ty z C) with (m := n) (ts := r3) (r := r) as (r4 & E4 & S4).
    + cbn. intuition discriminate.
    + intros y s Y _. destruct (type_first _ _ Y) as (a & s' & -> & [(q & ->)|[->| ->]]); eexists; eexists; (split; [reflexivity|]);
      (split; [intros c K; try discriminate K; injection K as <-; cbn; tauto|discriminate]).
    + intros y s Y LY ts4 r4 S4 K. apply (type_full (len s) y s Y); [lia|lia|exact S4|]. apply (follow_type RParen); [exact K|cbn; intuition discriminate].
    + lia.
    + discriminate.
    + exact S1.
    + rewrite E4. eauto.
Qed.
Lemma variant_first x u : Variant x u -> exists a u', u = a :: u' /\ ((exists y, a = TId y) \/ a = TP Hash).
Proof. intros (l & v & w & -> & A & _). destruct (attributes_first _ _ A) as [->|(v' & ->)]; cbn [app]; eauto 8. Qed.

Lemma skip_pub_full m ts a v : optional (TK Kpub) m -> a <> TK Kpub -> splits ts (m ++ a :: v) -> splits (skip_pub ts) (a :: v).
Proof.
  intros O N S. unfold skip_pub. rewrite (word_split _ _ _ S). destruct O as [->| ->]; cbn [app] in *.
  - rewrite word_other by exact N. exact S.
  - rewrite word_refl. pop S as ts0. exact S.
Qed.
Lemma optional_hash m a v : optional (TK Kpub) m -> a <> TP Hash -> next_is Hash (m ++ a :: v) = false.
Proof. intros [->| ->] N; cbn [app]; apply next_other; [exact N|discriminate]. Qed.
Lemma optional_len t m : optional t m -> (len m <= 1)%nat.
Proof. intros [->| ->]; cbn; lia. Qed.

Lemma field_full x u : Struct_field x u -> forall n ts r, (2 * len u + 2 <= n)%nat -> splits ts (u ++ r) -> (exists r', r = TP Comma :: r' \/ r = TP RBrace :: r') ->
  gets (field n) ts x r.
Proof.
  intros (l & v & m & w & -> & A & O & T) n ts r L S Q. rewrite !app_length in L. rewrite <- !app_assoc in S.
  assert (W : exists a w', w = a :: w' /\ a <> TK Kpub /\ a <> TP Hash) by (destruct T as (w' & -> & _); eexists; eexists; repeat split; discriminate).
  destruct W as (a & w' & EW & N1 & N2).
  destruct (attrs_full l v A n ts (m ++ w ++ r)) as (r1 & E1 & S1); [lia|exact S|subst w; apply optional_hash; assumption|].
  assert (S2 : splits (skip_pub r1) (w ++ r)) by (subst w; cbn [app] in *; apply (skip_pub_full m); assumption).
  destruct (typed_full x w T n (skip_pub r1) r) as (r3 & E3 & S3); [lia|exact S2|apply (follow_type RBrace); [exact Q|cbn; intuition discriminate]|].
  exists r3. split; [|exact S3]. unfold field. rewrite E1. exact E3.
Qed.
Lemma field_first x u : Struct_field x u -> exists a u', u = a :: u' /\ ((exists y, a = TId y) \/ a = TP Hash \/ a = TK Kpub).
Proof.
  intros (l & v & m & w & -> & A & O & T). destruct (attributes_first _ _ A) as [->|(v' & ->)]; cbn [app]; [|eauto 8].
  destruct O as [->| ->]; cbn [app]; [|eauto 8]. destruct T as (w' & -> & _). eauto 8.
Qed.

(** ** Items *)

Definition items_full (N : nat) : Prop := forall l u, Items l u -> (len u <= N)%nat ->
  forall n ts r, (40 * len u + 30 <= n)%nat -> splits ts (u ++ r) -> r = [] \/ next_is RBrace r = true -> gets (items n) ts l r.
Definition item_full (N : nat) : Prop := forall i u, Item i u -> (len u <= N)%nat ->
  forall n ts r, (40 * len u + 20 <= n)%nat -> splits ts (u ++ r) -> gets (item_ n) ts i r.

Definition begins_item (a : tok) : Prop := In a [TK Kfn; TK Kmod; TK Kuse; TK Kimpl; TK Ktrait; TK Kenum; TK Kstruct; TK Ktype].
Lemma item1_first i u : Item1 i u -> starts begins_item u.
Proof. destruct 1; eexists; eexists; (split; [reflexivity|cbn; tauto]). Qed.
Lemma item_first i u : Item i u -> starts (fun a => a = TP Hash \/ a = TK Kpub \/ begins_item a) u.
Proof.
  destruct 1 as [a v m i w A O I]. destruct (attributes_first _ _ A) as [->|(v' & ->)]; cbn [app]; [|eexists; eexists; eauto].
  destruct O as [->| ->]; cbn [app]; [|eexists; eexists; eauto]. eapply starts_imp; [|eapply item1_first; exact I]. cbn. tauto.
Qed.

Ltac lens H := repeat (rewrite app_length in H || (progress cbn [len app] in H)).
Ltac apps S := repeat (rewrite <- app_assoc in S || (progress cbn [app] in S)).

Lemma item_all N : items_full N -> item_full (S N).
Proof.
  intros IF i u I LEN n ts r FU S. destruct n as [|n]; [lia|]. destruct I as [a v m i w A O I1].
  rewrite !app_length in LEN, FU. rewrite <- !app_assoc in S.
  assert (FIRST : exists t w', w = t :: w' /\ t <> TK Kpub /\ t <> TP Hash /\ t <> TP Gt).
  { destruct (item1_first _ _ I1) as (t & w' & -> & B). exists t, w'. split; [reflexivity|]. repeat split; intros ->; cbn in B; intuition discriminate. }
  assert (AT : exists r1, attrs n ts = Got a r1 /\ splits (skip_pub r1) (w ++ r)).
  { destruct FIRST as (t & w' & -> & N1 & N2 & _).
    destruct (attrs_full a v A n ts (m ++ (t :: w') ++ r)) as (r1 & E1 & S1); [lia|exact S|apply optional_hash; assumption|].
    exists r1. split; [exact E1|]. cbn [app] in *. apply (skip_pub_full m); assumption. }
  destruct AT as (r1 & EA & S1). clear S A O FIRST.
  assert (EQ : exists q, splits q (w ++ r) /\ (q = skip_pub r1 /\ True)) by eauto. clear S1. destruct EQ as (q & S1 & EQ).
  destruct I1 as [x l u ps z t y b k G C R B|x|x l z I|l z U|t y l z T I|p args y t k l z T1 T2 I|x l z I|x l z C|x l z C|x t z T]; cbn [app] in S1; pop S1 as s0; destruct EQ as (EQ & _).
  - lens LEN. lens FU. apps S1.
    destruct (function_full x l u ps z t y b k G C R B n s0 r) as (r2 & E2 & S2); [lia|exact S1|].
    exists r2. split; [|exact S2]. cbn [item_]. rewrite EA, <- EQ, E2. reflexivity.
  - pop S1 as s1. pop S1 as s2. exists s2. split; [|exact S1]. cbn [item_]. rewrite EA, <- EQ. cbn [ident]. rewrite next_refl. reflexivity.
  - lens LEN. lens FU. apps S1. pop S1 as s1. pop S1 as s2.
    destruct (IF l z I) with (n := n) (ts := s2) (r := TP RBrace :: r) as (r2 & E2 & S2); [lia|lia|exact S1|right; reflexivity|]. pop S2 as r3.
    exists r3. split; [|exact S2]. cbn [item_]. rewrite EA, <- EQ. cbn [ident]. rewrite next_other by discriminate. rewrite eat_refl, E2, eat_refl. reflexivity.
  - lens LEN. lens FU. apps S1.
    destruct (use_full (len z) [] l z U) with (n := n) (ts := s0) (r := TP Semi :: r) as (r2 & E2 & S2); [lia|lia|exact S1|reflexivity|]. pop S2 as r3.
    exists r3. split; [|exact S2]. cbn [item_]. rewrite EA, <- EQ, E2, eat_refl. reflexivity.
  - lens LEN. lens FU. apps S1.
    destruct (type_full (len y) t y T) with (n := n) (ts := s0) (r := TP LBrace :: z ++ TP RBrace :: r) as (r2 & E2 & S2); [lia|lia|exact S1|split; reflexivity|]. pop S2 as r3.
    destruct (IF l z I) with (n := n) (ts := r3) (r := TP RBrace :: r) as (r4 & E4 & S4); [lia|lia|exact S2|right; reflexivity|]. pop S4 as r5.
    exists r5. split; [|exact S4]. cbn [item_]. rewrite EA, <- EQ, E2. cbn [next_word]. rewrite eat_refl, E4, eat_refl. reflexivity.
  - lens LEN. lens FU. apps S1.
    destruct (type_full (len y) (TyPath p args) y T1) with (n := n) (ts := s0) (r := TK Kfor :: k ++ TP LBrace :: z ++ TP RBrace :: r) as (r2 & E2 & S2);
      [lia|lia|exact S1|split; reflexivity|]. pop S2 as r3.
    destruct (type_full (len k) t k T2) with (n := n) (ts := r3) (r := TP LBrace :: z ++ TP RBrace :: r) as (r6 & E6 & S6); [lia|lia|exact S2|split; reflexivity|]. pop S6 as r7.
    destruct (IF l z I) with (n := n) (ts := r7) (r := TP RBrace :: r) as (r4 & E4 & S4); [lia|lia|exact S6|right; reflexivity|]. pop S4 as r5.
    exists r5. split; [|exact S4]. cbn [item_]. rewrite EA, <- EQ, E2, word_refl. cbn [List.tl]. rewrite E6, eat_refl, E4, eat_refl. reflexivity.
  - lens LEN. lens FU. apps S1. pop S1 as s1. pop S1 as s2.
    destruct (IF l z I) with (n := n) (ts := s2) (r := TP RBrace :: r) as (r2 & E2 & S2); [lia|lia|exact S1|right; reflexivity|]. pop S2 as r3.
    exists r3. split; [|exact S2]. cbn [item_]. rewrite EA, <- EQ. cbn [ident]. rewrite eat_refl, E2, eat_refl. reflexivity.
  - lens LEN. lens FU. apps S1. pop S1 as s1. pop S1 as s2.
    destruct (commas_full (variant n) Variant RBrace l z C) with (m := n) (ts := s2) (r := r) as (r4 & E4 & S4).
    + cbn. intuition discriminate.
    + intros g s Y _. destruct (variant_first _ _ Y) as (h & s' & -> & [(j & ->)| ->]); eexists; eexists; (split; [reflexivity|]);
      (split; [intros c K; try discriminate K; injection K as <-; cbn; tauto|discriminate]).
    + intros g s Y LY ts4 r4 S4 K. apply (variant_full g s Y); [lia|exact S4|exact K].
    + lia.
    + discriminate.
    + exact S1.
    + exists r4. split; [|exact S4]. cbn [item_]. rewrite EA, <- EQ. cbn [ident]. rewrite eat_refl, E4. reflexivity.
  - lens LEN. lens FU. apps S1. pop S1 as s1. pop S1 as s2.
    destruct (commas_full (field n) Struct_field RBrace l z C) with (m := n) (ts := s2) (r := r) as (r4 & E4 & S4).
    + cbn. intuition discriminate.
    + intros g s Y _. destruct (field_first _ _ Y) as (h & s' & -> & [(j & ->)|[->| ->]]); eexists; eexists; (split; [reflexivity|]);
      (split; [intros c K; try discriminate K; injection K as <-; cbn; tauto|discriminate]).
    + intros g s Y LY ts4 r4 S4 K. apply (field_full g s Y); [lia|exact S4|exact K].
    + lia.
    + discriminate.
    + exact S1.
    + exists r4. split; [|exact S4]. cbn [item_]. rewrite EA, <- EQ. cbn [ident]. rewrite eat_refl, E4. reflexivity.
  - lens LEN. lens FU. apps S1. pop S1 as s1. pop S1 as s2.
    destruct (type_full (len z) t z T) with (n := n) (ts := s2) (r := TP Semi :: r) as (r2 & E2 & S2); [lia|lia|exact S1|split; reflexivity|]. pop S2 as r3.
    exists r3. split; [|exact S2]. cbn [item_]. rewrite EA, <- EQ. cbn [ident]. rewrite eat_refl, E2, eat_refl. reflexivity.
Qed.

Definition items_loop (n : nat) := fix more (m : nat) (acc : list (list attr * item)) (ts : list tok) :=
         match m with
         | O => Bad ts
         | S m =>
             match ts with
             | [] => Got acc []
             | TP RBrace :: _ => Got acc ts
             | _ => do (i, r) <- item_ n ts; more m (acc ++ [i])%list r
             end
         end.

Lemma items_all N : item_full N -> items_full N.
Proof.
  intros IF l u I LEN n ts r FU S F. destruct n as [|n]; [lia|].
  assert (K : forall l u, Items l u -> (len u <= N)%nat -> (40 * len u + 20 <= n)%nat -> forall m acc ts, (len u < m)%nat -> splits ts (u ++ r) ->
    gets (items_loop n m acc) ts (acc ++ l) r).
  { clear I LEN FU S l u ts. induction 1 as [|i u l v I1 I2 IH]; intros LEN FU m acc ts M S; (destruct m as [|m]; [lia|]).
    - cbn [app] in S. exists ts. split; [|exact S]. rewrite app_nil_r. destruct F as [->|F].
      + apply pop_nil in S. subst ts. reflexivity.
      + rewrite <- (next_split RBrace ts r) in F by (discriminate || exact S). apply next_is_ok in F. destruct F as (r' & ->). reflexivity.
    - rewrite app_length in LEN, FU, M. rewrite <- app_assoc in S. destruct (item_first _ _ I1) as (a & u' & EU & B).
      assert (LU : (1 <= len u)%nat) by (subst u; cbn; lia).
      destruct (IF i u I1 ltac:(lia) n ts (v ++ r)) as (r1 & E1 & S1); [lia|exact S|].
      destruct (IH ltac:(lia) ltac:(lia) m (acc ++ [i]) r1 ltac:(lia) S1) as (r2 & E2 & S2). exists r2. split; [|exact S2].
      rewrite <- app_assoc in E2. cbn [app] in E2. rewrite <- E2. subst u. cbn [app] in S.
      assert (a <> TP Gt) by (intros ->; cbn in B; intuition discriminate). apply pop in S; [|assumption]. destruct S as (ts0 & -> & S).
      cbn [items_loop]. rewrite E1. destruct a as [| | | | |[]]; try reflexivity; cbn in B; intuition discriminate. }
  destruct (K l u I LEN ltac:(lia) n [] ts ltac:(lia) S) as (r' & E & S'). exists r'. split; [exact E|exact S'].
Qed.

Lemma item_len i u : Item i u -> (1 <= len u)%nat.
Proof. intros I. exact (starts_len _ _ (item_first _ _ I)). Qed.

Theorem all_items N : items_full N.
Proof.
  induction N as [|N IH].
  - apply items_all. intros i u I L. pose proof (item_len _ _ I). lia.
  - apply items_all, item_all, IH.
Qed.

(** The parser finds the reading of a file if there is one. *)
Theorem parse_all ts l u : splits ts u -> Items l u -> exists n0, forall n, (n0 <= n)%nat -> items n ts = Got l [].
Proof.
  intros S I. exists (40 * len u + 30)%nat. intros n L.
  destruct (all_items (len u) l u I (le_n _) n ts [] L) as (r & E & S'); [rewrite app_nil_r; exact S|left; reflexivity|].
  apply pop_nil in S'. subst r. exact E.
Qed.

(** Hence there is at most one. *)
Theorem reading_unique ts l u l' u' : splits ts u -> Items l u -> splits ts u' -> Items l' u' -> l' = l.
Proof.
  intros S I S' I'. destruct (parse_all _ _ _ S I) as (n & K). destruct (parse_all _ _ _ S' I') as (n' & K').
  specialize (K (n + n')%nat ltac:(lia)). specialize (K' (n + n')%nat ltac:(lia)). rewrite K in K'. injection K' as ->. reflexivity.
Qed.
