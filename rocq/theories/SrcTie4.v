(** The linker finds what SpecNames.v says, and only that: the crate. *)
From Coq Require Import ZArith List Bool String Ascii Lia.
From Verif Require Import SrcLex SrcAst SrcNames SpecNames SrcLink SrcTie SrcTie2 SrcTie3.
Import ListNotations.
Local Open Scope string_scope.

Lemma link_typed_ok s x y : link_typed s x = Some y -> fst x = fst y /\ Ties_ty s (snd x) (snd y).
Proof. unfold link_typed. intros H. got H. injection H as <-. cbn [fst snd]. split; [reflexivity|exact (link_ty_ok s _ _ E)]. Qed.
Lemma link_typed_unique s x y y' : Good s -> link_typed s x = Some y -> fst x = fst y' /\ Ties_ty s (snd x) (snd y') -> y' = y.
Proof.
  unfold link_typed. intros G H [K T]. got H. injection H as <-. destruct y' as [z b]. cbn [fst snd] in *. subst. f_equal.
  exact (link_ty_unique s _ G _ _ E T).
Qed.

Lemma link_fn_ok s f g : Good s -> link_fn s f = Some g -> Ties_fn s f g.
Proof.
  intros G H. unfold link_fn in H. got H. got H. got H. injection H as <-.
  assert (G' : Good (fn_scope s f)) by exact G. apply TF.
  - exact (mapo_sound _ _ _ _ (link_typed_ok _) E).
  - exact (opto_ok _ _ _ _ (link_ty_ok _) E0).
  - exact (opto_ok _ _ _ _ (fun a b => link_expr_ok 200 _ a b G') E1).
Qed.
Lemma link_fn_unique s f g g' : Good s -> link_fn s f = Some g -> Ties_fn s f g' -> g' = g.
Proof.
  intros G H T. unfold link_fn in H. got H. got H. got H. injection H as <-.
  assert (G' : Good (fn_scope s f)) by exact G. destruct T as [ps t b P Q R]. f_equal.
  - eapply mapo_unique; [exact (fun x y y' => link_typed_unique _ x y y' G')|exact E|exact P].
  - eapply opto_unique; [exact (fun t => link_ty_unique _ t G')|exact E0|exact Q].
  - eapply opto_unique; [exact (fun a b b' => link_expr_unique 200 _ a b b' G')|exact E1|exact R].
Qed.

Lemma link_methods_ok s t fs kgs : Good s -> link_methods s t fs = Some kgs -> Ties_methods s t fs kgs.
Proof.
  intros G. apply mapo_sound. intros f kg H. got H. injection H as <-. cbn [fst snd]. split; [reflexivity|exact (link_fn_ok s f _ G E)].
Qed.
Lemma link_methods_unique s t fs kgs kgs' : Good s -> link_methods s t fs = Some kgs -> Ties_methods s t fs kgs' -> kgs' = kgs.
Proof.
  intros G. apply mapo_unique. intros f kg [k g] H [K T]. got H. injection H as <-. cbn [fst snd] in *. subst. f_equal.
  exact (link_fn_unique s f _ _ G E T).
Qed.

Lemma taken_over_iff own fs gs : Taken_over own fs gs <-> gs = taken_over own fs.
Proof.
  assert (D : forall f, (is_some (f_body f) && negb (existsb (fun g => f_name g =? f_name f) own)) = true <->
    f_body f <> None /\ (forall g, In g own -> f_name g <> f_name f)).
  { intros f. rewrite andb_true_iff, negb_true_iff. split.
    - intros [A B]. split; [destruct (f_body f); [discriminate|discriminate A]|]. intros g I E.
      rewrite (proj2 (existsb_exists _ _) (ex_intro _ g (conj I (proj2 (String.eqb_eq _ _) E)))) in B. discriminate B.
    - intros [A B]. split; [destruct (f_body f); [reflexivity|congruence]|].
      destruct (existsb _ own) eqn:X; [|reflexivity]. apply existsb_exists in X. destruct X as (g & I & E).
      apply String.eqb_eq in E. exfalso. exact (B g I E). }
  split.
  - induction 1; [reflexivity| |]; cbn [taken_over filter].
    + rewrite (proj2 (D f) (conj H H0)). f_equal. exact IHTaken_over.
    + destruct (is_some (f_body f) && _) eqn:X; [|exact IHTaken_over]. apply D in X. destruct X as [A B].
      exfalso. destruct H as [H|(g & I & E)]; [exact (A H)|exact (B g I E)].
  - intros ->. induction fs as [|f fs IH]; [constructor|]. cbn [taken_over filter].
    destruct (is_some (f_body f) && _) eqn:X.
    + apply D in X. destruct X as [A B]. apply TD_yes; [exact A|exact B|exact IH].
    + apply TD_no; [|exact IH]. destruct (f_body f) as [b|] eqn:Y; [|left; reflexivity]. right. cbn [is_some andb] in X.
      apply negb_false_iff, existsb_exists in X. destruct X as (g & I & E). exists g. split; [exact I|]. apply String.eqb_eq. exact E.
Qed.

Lemma words_eqb_true a b : words_eqb a b = true -> a = b.
Proof. apply words_eqb_eq. Qed.
Lemma ty_eqb_eq t : forall u, ty_eqb t u = true -> t = u.
Proof.
  induction t as [q ts IH|t IH|t IH] using ty_ind'; intros [p us|u|u] H; cbn [ty_eqb] in H; try discriminate H.
  - apply andb_true_iff in H. destruct H as [A B]. apply words_eqb_true in A. subst. f_equal.
    revert us B. induction IH as [|t ts K F IHF]; intros [|u us] B; try discriminate B; [reflexivity|].
    apply andb_true_iff in B. destruct B as [B1 B2]. f_equal; [exact (K u B1)|exact (IHF us B2)].
  - f_equal. exact (IH u H).
  - f_equal. exact (IH u H).
Qed.
Lemma tied_ok s t : tied s t = true -> Ties_ty s t t.
Proof.
  unfold tied. destruct (link_ty s t) as [u|] eqn:E; [|discriminate]. intros H. apply ty_eqb_eq in H. subst. exact (link_ty_ok s _ _ E).
Qed.
Lemma same_type_eq o e : same_type o e = true -> o = Some e.
Proof. destruct o as [[]|], e; cbn [same_type]; intros H; try discriminate H; apply String.eqb_eq in H; subst; reflexivity. Qed.
Lemma type_named_name ms t t' e : Type_named ms t e -> Type_named ms t' e -> t' = t.
Proof. intros H K. destruct H; inversion K; reflexivity. Qed.

Section Crate.
  Context (std : bool) (ms : modules) (C : Clean ms).

  Lemma good_module m : Good (module_scope std ms m).
  Proof. split; [exact (clear_module std ms m C)|constructor]. Qed.
  Lemma good_impl m t types : NoDup (map fst types) -> Good (impl_scope std ms m t types).
  Proof. intros N. split; [exact (clear_impl std ms m t types C)|exact N]. Qed.

  Lemma trait_fns_in d x fs : trait_fns ms d x = Some fs -> exists a body, item_of ms d a (ITrait x body) /\ fs = fns_of body.
  Proof.
    unfold trait_fns. intros H. got H. apply find_module_in in E. destruct (first_some_in _ _ _ H) as ([a j] & I & K).
    cbn [snd] in K. destruct j; try discriminate K. destruct (name =? x) eqn:X; [|discriminate K]. injection K as <-.
    apply String.eqb_eq in X. subst. eexists a, _. split; [eexists; split; [exact E|exact I]|reflexivity].
  Qed.
  Lemma trait_once d x a body a' body' : item_of ms d a (ITrait x body) -> item_of ms d a' (ITrait x body') -> body' = body.
  Proof.
    intros I J. pose proof (declared_once ms C _ _ _ _ _ x I J (or_introl eq_refl) (or_introl eq_refl)) as Q. congruence.
  Qed.

  Lemma methods_ok m tr T its fs : methods std ms m tr T its = Some fs -> Brings std ms m (IImpl tr T its) fs.
  Proof.
    unfold methods. intros H. destruct T as [q ts|T|T]; try discriminate H.
    got H. got H. got H. got H. got H. got H. apply same_type_eq in E1. apply type_named_in in E1.
    assert (N : NoDup (map fst l)) by exact (distinct_nodup _ E3).
    assert (X : exists over, fs = (l0 ++ over)%list /\
      match tr with
      | None => over = []
      | Some q' =>
          (exists p, Means (module_scope std ms m) q' (NExt p) /\ over = []) \/
          (exists d x a body fs, Means (module_scope std ms m) q' (NTrait d x) /\ item_of ms d a (ITrait x body) /\
             Taken_over (fns_of its) (fns_of body) fs /\ Ties_methods (impl_scope std ms d (self_name (TyPath q ts)) l) (self_name (TyPath q ts)) fs over)
      end).
    { destruct tr as [q'|]; [|exists []; split; [rewrite app_nil_r; congruence|reflexivity]].
      destruct (look (module_scope std ms m) q') as [[]|] eqn:L; try discriminate H.
      - got H. got H. injection H as <-. exists l2. split; [reflexivity|]. right. destruct (trait_fns_in _ _ _ E5) as (a & body & I & ->).
        eexists m0, x, a, body, _. split; [exact (look_ok _ _ _ L)|]. split; [exact I|].
        split; [apply taken_over_iff; reflexivity|]. exact (link_methods_ok _ _ _ _ (good_impl _ _ _ N) E6).
      - exists []. split; [rewrite app_nil_r; congruence|]. left. exists p. split; [exact (look_ok _ _ _ L)|reflexivity]. }
    destruct X as (over & -> & X). eapply B_impl.
    - exact (tied_ok _ _ E).
    - exact E1.
    - exists q, ts. split; [reflexivity|exact (look_ok _ _ _ E0)].
    - exact (mapo_sound _ _ _ _ (link_typed_ok _) E2).
    - exact (link_methods_ok _ _ _ _ (good_impl _ _ _ N) E4).
    - exact X.
  Qed.

  Lemma methods_unique m tr T its fs fs' : methods std ms m tr T its = Some fs -> Brings std ms m (IImpl tr T its) fs' -> fs' = fs.
  Proof.
    unfold methods. intros H B. destruct T as [q ts|T|T]; try discriminate H.
    got H. got H. got H. got H. got H. got H. apply same_type_eq in E1. apply type_named_in in E1.
    assert (N : NoDup (map fst l)) by exact (distinct_nodup _ E3).
    inversion B as [|tr' T' e' t its' types own over _ TN (q0 & ts0 & EQ & M) TY OWN OVER|i Q]; subst; [|destruct Q].
    injection EQ as <- <-. rewrite (look_unique _ _ _ _ (proj1 (good_module m)) E0 M) in TN.
    rewrite (type_named_name _ _ _ _ E1 TN) in *. clear TN.
    assert (types = l).
    { eapply mapo_unique; [|exact E2|exact TY]. intros x y y'. apply link_typed_unique. apply good_impl. constructor. }
    subst types.
    rewrite (link_methods_unique _ _ _ _ _ (good_impl m _ _ N) E4 OWN). 
    destruct tr as [q'|]; [|subst; rewrite app_nil_r; congruence].
    destruct (look (module_scope std ms m) q') as [[]|] eqn:L; try discriminate H.
    - got H. got H. injection H as <-. f_equal. destruct OVER as [(p & P & _)|(d & x' & a & body & fs0 & P & I & TK & TM)].
      + pose proof (look_unique _ _ _ _ (proj1 (good_module m)) L P) as W. discriminate W.
      + pose proof (look_unique _ _ _ _ (proj1 (good_module m)) L P) as W. injection W as -> ->.
        destruct (trait_fns_in _ _ _ E5) as (a' & body' & I' & ->). rewrite (trait_once _ _ _ _ _ _ I' I) in *.
        apply taken_over_iff in TK. subst fs0. exact (link_methods_unique _ _ _ _ _ (good_impl _ _ _ N) E6 TM).
    - destruct OVER as [(p' & P & ->)|(d & x' & a & body & fs0 & P & _)].
      + rewrite app_nil_r. congruence.
      + pose proof (look_unique _ _ _ _ (proj1 (good_module m)) L P) as W. discriminate W.
  Qed.

  Lemma item_fns_ok m i fs : item_fns std ms m i = Some fs -> Brings std ms m (snd i) fs.
  Proof.
    unfold item_fns. intros H. destruct (snd i); try (injection H as <-; apply B_none; exact I).
    - got H. injection H as <-. apply B_fn. exact (link_fn_ok _ _ _ (good_module m) E).
    - exact (methods_ok _ _ _ _ _ H).
  Qed.
  Lemma item_fns_unique m i fs fs' : item_fns std ms m i = Some fs -> Brings std ms m (snd i) fs' -> fs' = fs.
  Proof.
    unfold item_fns. intros H B. destruct (snd i); try (inversion B; congruence).
    - got H. injection H as <-. inversion B as [f' g T| |i' Q]; subst; [|destruct Q].
      rewrite (link_fn_unique _ _ _ _ (good_module m) E T). reflexivity.
    - exact (methods_unique _ _ _ _ _ _ H B).
  Qed.

  Lemma module_fns_ok m its : forall fs, module_fns std ms (m, its) = Some fs -> Brings_all std ms m its fs.
  Proof.
    unfold module_fns. cbn [fst snd]. induction its as [|[a i] its IH]; intros fs H; cbn [mapo option_map] in H.
    - injection H as <-. constructor.
    - destruct (item_fns std ms m (a, i)) as [f1|] eqn:E; [|discriminate H].
      destruct (mapo (item_fns std ms m) its) as [l|] eqn:M; [|discriminate H]. injection H as <-.
      cbn [List.concat]. apply BA_item; [exact (item_fns_ok m _ _ E)|apply IH; reflexivity].
  Qed.
  Lemma module_fns_unique m its : forall fs fs', module_fns std ms (m, its) = Some fs -> Brings_all std ms m its fs' -> fs' = fs.
  Proof.
    unfold module_fns. cbn [fst snd]. induction its as [|[a i] its IH]; intros fs fs' H B; cbn [mapo option_map] in H; inversion B; subst.
    - injection H as <-. reflexivity.
    - destruct (item_fns std ms m (a, i)) as [f1|] eqn:E; [|discriminate H].
      destruct (mapo (item_fns std ms m) its) as [l|] eqn:M; [|discriminate H]. injection H as <-. cbn [List.concat].
      f_equal; [eapply (item_fns_unique m (a, i)); [exact E|assumption]|]. eapply IH; [reflexivity|assumption].
  Qed.
  Lemma modules_fns_ok l : forall fss, mapo (module_fns std ms) l = Some fss -> Brings_modules std ms l (List.concat fss).
  Proof.
    induction l as [|[m its] l IH]; intros fss H; cbn [mapo] in H; [injection H as <-; constructor|].
    destruct (module_fns std ms (m, its)) as [f1|] eqn:E; [|discriminate H].
    destruct (mapo (module_fns std ms) l) as [r|]; [|discriminate H]. injection H as <-. cbn [List.concat].
    apply BM_module; [exact (module_fns_ok _ _ _ E)|apply IH; reflexivity].
  Qed.
  Lemma modules_fns_unique l : forall fss fs', mapo (module_fns std ms) l = Some fss -> Brings_modules std ms l fs' -> fs' = List.concat fss.
  Proof.
    induction l as [|[m its] l IH]; intros fss fs' H B; cbn [mapo] in H; inversion B; subst; [injection H as <-; reflexivity|].
    destruct (module_fns std ms (m, its)) as [f1|] eqn:E; [|discriminate H].
    destruct (mapo (module_fns std ms) l) as [r|]; [|discriminate H]. injection H as <-. cbn [List.concat].
    f_equal; [eapply module_fns_unique; eassumption|eapply IH; [reflexivity|assumption]].
  Qed.
End Crate.

(** ** Modules *)

Lemma unconditional_ok a : unconditional a = true <-> Unconditional a.
Proof.
  unfold unconditional, Unconditional. rewrite negb_true_iff. split.
  - intros H ws I E. rewrite (proj2 (existsb_exists _ _)) in H; [discriminate H|]. exists ws. split; [exact I|]. apply String.eqb_eq. exact E.
  - intros H. destruct (existsb is_cfg a) eqn:E; [|reflexivity]. apply existsb_exists in E. destruct E as (ws & I & K).
    apply String.eqb_eq in K. exfalso. exact (H ws I K).
Qed.
Lemma only_tests_ok a : only_tests a = true <-> Only_tests a.
Proof.
  unfold only_tests, Only_tests. rewrite andb_true_iff, forallb_forall, existsb_exists. split.
  - intros [(ws & I & K) F]. assert (G : forall ws, In ws a -> hd "" ws = "cfg" -> ws = ["cfg"; "test"]).
    { intros v J L. specialize (F v J). apply orb_true_iff in F. destruct F as [F|F].
      - apply negb_true_iff, String.eqb_neq in F. congruence.
      - apply words_eqb_eq in F. congruence. }
    split; [|exact G]. apply String.eqb_eq in K. rewrite (G ws I K) in I. exact I.
  - intros [I F]. split; [exists ["cfg"; "test"]; split; [exact I|reflexivity]|]. intros ws J. apply orb_true_iff.
    destruct (is_cfg ws) eqn:E; [right|left; reflexivity]. apply String.eqb_eq in E. rewrite (F ws J E). reflexivity.
Qed.
Lemma not_both a : Unconditional a -> Only_tests a -> False.
Proof. intros U [I _]. exact (U _ I eq_refl). Qed.

Lemma enabled_ok test its : forall r, enabled test its = Some r -> Enabled test its r.
Proof.
  induction its as [|[a i] its IH]; intros r H; cbn [enabled fst] in H; [injection H as <-; constructor|]. got H.
  destruct (unconditional a) eqn:U.
  - injection H as <-. apply E_item; [apply unconditional_ok; exact U|exact (IH _ eq_refl)].
  - got H. apply only_tests_ok in E0. injection H as <-. destruct test.
    + apply E_test; [reflexivity|exact E0|exact (IH _ eq_refl)].
    + apply E_not; [reflexivity|exact E0|exact (IH _ eq_refl)].
Qed.
Lemma enabled_unique test its : forall r r', Enabled test its r -> Enabled test its r' -> r' = r.
Proof.
  induction its as [|[a i] its IH]; intros r r' H K; inversion H; subst; inversion K; subst; try reflexivity;
    try (f_equal; eauto; fail); try (exfalso; eapply not_both; eassumption); try discriminate; eauto.
Qed.

Section Files.
  Context (test : bool) (files : list (string * items)) (NF : NoDup (map fst files)).

  Lemma collect_ok n : forall m its ms, collect n test files m its = Some ms -> Modules test files m its ms.
  Proof.
    induction n as [|n IH]; intros m its ms H; [discriminate H|]. cbn [collect] in H. got H. got H. injection H as <-.
    rename i into its', l into mss. apply MS with (its' := its'); [exact (enabled_ok _ _ _ E)|]. clear E. revert mss E0.
    induction its' as [|[a i] l IHl]; intros mss M; cbn [mapo snd] in M; [injection M as <-; constructor|].
    match type of M with (match ?Q with _ => _ end = _) => destruct Q as [m1|] eqn:X end; [|discriminate M].
    match type of M with (match ?Q with _ => _ end = _) => destruct Q as [r|] eqn:Y end; [|discriminate M].
    injection M as <-. specialize (IHl r eq_refl). cbn [List.concat].
    destruct i as [f|x [sub|]|us|tr T its2|x its2|x vs|x fs|x T]; try (injection X as <-; apply SM_other; [discriminate|exact IHl]).
    - apply SM_block; [exact (IH _ _ _ X)|exact IHl].
    - got X. eapply SM_file; [exact (assoc_in _ _ _ E)|exact (IH _ _ _ X)|exact IHl].
  Qed.

  Scheme modules_ind' := Induction for Modules Sort Prop with submodules_ind' := Induction for Submodules Sort Prop.
  Combined Scheme modules_mutind from modules_ind', submodules_ind'.

  Lemma modules_unique :
    (forall m its ms, Modules test files m its ms -> forall ms', Modules test files m its ms' -> ms' = ms) /\
    (forall m its ms, Submodules test files m its ms -> forall ms', Submodules test files m its ms' -> ms' = ms).
  Proof.
    apply (modules_mutind test files
      (fun m its ms _ => forall ms', Modules test files m its ms' -> ms' = ms)
      (fun m its ms _ => forall ms', Submodules test files m its ms' -> ms' = ms)).
    - intros m its its' ms E S IH ms' H. inversion H as [m0 its0 its1 ms0 E' S']; subst.
      rewrite (enabled_unique _ _ _ _ E E') in *. f_equal. exact (IH _ S').
    - intros m ms' H. inversion H; reflexivity.
    - intros m a x sub its ms ms0 M IHM S IHS ms' H. inversion H; subst; [|exfalso; match goal with K : forall y o, _ <> _ |- _ => eapply K; reflexivity end]. f_equal; auto.
    - intros m a x sub its ms ms0 I M IHM S IHS ms' H. inversion H; subst; [|exfalso; match goal with K : forall y o, _ <> _ |- _ => eapply K; reflexivity end].
      match goal with J : In (file_of _, _) files |- _ => rewrite (nodup_assoc _ _ _ _ NF J I) in * end. f_equal; auto.
    - intros m a i its ms N S IH ms' H. inversion H; subst; try (exfalso; eapply N; reflexivity). auto.
  Qed.
End Files.

(** ** The crate *)

Theorem link_ok std test files P : link_with std test files = Some P -> Linked std test files P.
Proof.
  unfold link_with. intros H. got H. got H. got H. got H. got H. got H. got H. injection H as <-.
  apply clean_ok in E2. rewrite forallb_forall in E3. exists i, m. split; [exact (assoc_in _ _ _ E0)|].
  split; [exact (collect_ok _ _ _ _ _ _ E1)|]. split; [|split; [|split]].
  - intros q a j its b k (its' & M & I) K J. specialize (E3 _ M). cbn [fst snd] in E3. apply andb_true_iff in E3.
    destruct E3 as [E3 _]. rewrite forallb_forall in E3. specialize (E3 _ I). unfold inner_unconditional in E3. cbn [snd] in E3.
    assert (F : forallb (fun j => unconditional (fst j)) its = true)
      by (destruct K as [(x & ->)|(tr & T & ->)]; exact E3).
    rewrite forallb_forall in F. apply unconditional_ok. exact (F _ J).
  - intros q a j t (its' & M & I) K. specialize (E3 _ M). cbn [fst snd] in E3. apply andb_true_iff in E3.
    destruct E3 as [_ E3]. rewrite forallb_forall in E3. specialize (E3 _ I). unfold fields_tied in E3. cbn [snd] in E3.
    apply tied_ok. destruct K as [(x & vs & v & ts & -> & J & L)|(x & fs & y & -> & J)]; rewrite forallb_forall in E3.
    + specialize (E3 _ J). cbn [snd] in E3. rewrite forallb_forall in E3. exact (E3 _ L).
    + exact (E3 _ J).
  - exact (modules_fns_ok std m E2 _ _ E4).
  - repeat split.
Qed.

Theorem link_unique std test files P P' : link_with std test files = Some P -> Linked std test files P' -> P' = P.
Proof.
  unfold link_with. intros H (root & ms & R & M & _ & _ & F & A & B & D & G). got H. got H. got H. got H. got H. got H. got H. injection H as <-.
  apply clean_ok in E2. apply distinct_nodup in E. rewrite (nodup_assoc _ _ _ _ E R (assoc_in _ _ _ E0)) in *.
  rewrite (proj1 (modules_unique test files E) _ _ _ (collect_ok _ _ _ _ _ _ E1) _ M) in *.
  apply (modules_fns_unique std m E2 _ _ _ E4) in F. destruct P'. cbn in F, A, B, D, G.
  subst. reflexivity.
Qed.
