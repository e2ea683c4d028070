(** The linker finds what SpecNames.v says, and refuses a crate in which a name could have two
    meanings: paths. *)
From Coq Require Import ZArith List Bool String Ascii Lia.
From Verif Require Import SrcLex SrcAst SrcNames SpecNames SrcLink.
Import ListNotations.
Local Open Scope string_scope.

(** ** Lists *)

Lemma mem_true x l : mem x l = true <-> In x l.
Proof.
  unfold mem. rewrite existsb_exists. split.
  - intros (y & I & E). apply String.eqb_eq in E. subst. exact I.
  - intros I. exists x. split; [exact I|apply String.eqb_refl].
Qed.
Lemma mem_false x l : mem x l = false <-> ~ In x l.
Proof. rewrite <- mem_true. destruct (mem x l); split; intros; congruence. Qed.

Lemma distinct_nodup l : distinct l = true -> NoDup l.
Proof.
  induction l as [|x l IH]; cbn [distinct]; intros H; [constructor|].
  apply andb_true_iff in H. destruct H as [A B]. apply negb_true_iff, mem_false in A.
  constructor; [exact A|exact (IH B)].
Qed.

Lemma words_eqb_eq a b : words_eqb a b = true <-> a = b.
Proof.
  revert b. induction a as [|x a IH]; intros [|y b]; cbn [words_eqb]; split; intros H; try discriminate H; try reflexivity.
  - apply andb_true_iff in H. destruct H as [E F]. apply String.eqb_eq in E. apply IH in F. subst. reflexivity.
  - injection H as -> ->. rewrite String.eqb_refl. apply IH. reflexivity.
Qed.
Lemma words_eqb_refl a : words_eqb a a = true.
Proof. apply words_eqb_eq. reflexivity. Qed.

Lemma distinct_paths_nodup l : distinct_paths l = true -> NoDup l.
Proof.
  induction l as [|x l IH]; cbn [distinct_paths]; intros H; [constructor|].
  apply andb_true_iff in H. destruct H as [A B]. apply negb_true_iff in A.
  constructor; [|exact (IH B)]. intros I.
  rewrite (proj2 (existsb_exists _ _) (ex_intro _ x (conj I (words_eqb_refl x)))) in A. discriminate A.
Qed.

Lemma assoc_in {A} x (l : list (string * A)) a : assoc x l = Some a -> In (x, a) l.
Proof.
  induction l as [|[y b] l IH]; cbn [assoc]; intros H; [discriminate H|].
  destruct (x =? y) eqn:E; [|right; exact (IH H)]. apply String.eqb_eq in E. injection H as ->. subst. left. reflexivity.
Qed.
Lemma in_assoc {A} x (l : list (string * A)) a : NoDup (map fst l) -> In (x, a) l -> assoc x l = Some a.
Proof.
  induction l as [|[y b] l IH]; intros N I; [destruct I|]. cbn [assoc map fst] in *. inversion N; subst.
  destruct I as [E|I].
  - injection E as -> ->. rewrite String.eqb_refl. reflexivity.
  - destruct (x =? y) eqn:E; [|exact (IH ltac:(assumption) I)]. apply String.eqb_eq in E. subst.
    exfalso. apply H1. change y with (fst (y, a)). apply in_map. exact I.
Qed.
Lemma nodup_assoc {A} x (l : list (string * A)) a b : NoDup (map fst l) -> In (x, a) l -> In (x, b) l -> a = b.
Proof. intros N I J. apply (in_assoc x l a N) in I. apply (in_assoc x l b N) in J. congruence. Qed.
Lemma assoc_some {A} x (l : list (string * A)) : is_some (assoc x l) = true <-> In x (map fst l).
Proof.
  induction l as [|[y b] l IH]; cbn [assoc map fst In]; [split; [discriminate|intros []]|].
  destruct (x =? y) eqn:E.
  - apply String.eqb_eq in E. subst. split; [left; reflexivity|reflexivity].
  - apply String.eqb_neq in E. rewrite IH. split; [right; assumption|intros [F|F]; [congruence|exact F]].
Qed.

Lemma first_some_in {A B} (f : A -> option B) l b : first_some f l = Some b -> exists a, In a l /\ f a = Some b.
Proof.
  induction l as [|a l IH]; cbn [first_some]; intros H; [discriminate H|]. destruct (f a) eqn:E.
  - injection H as ->. exists a. split; [left; reflexivity|exact E].
  - destruct (IH H) as (a' & I & F). exists a'. split; [right; exact I|exact F].
Qed.
Lemma first_some_none {A B} (f : A -> option B) l a : first_some f l = None -> In a l -> f a = None.
Proof.
  induction l as [|x l IH]; cbn [first_some]; intros H I; [destruct I|]. destruct (f x) eqn:E; [discriminate H|].
  destruct I as [->|I]; [exact E|exact (IH H I)].
Qed.

Lemma nodup_app {A} (l m : list A) : NoDup (l ++ m) -> NoDup l /\ NoDup m /\ forall a, In a l -> ~ In a m.
Proof.
  induction l as [|x l IH]; cbn [app]; intros H; [split; [constructor|split; [exact H|intros a []]]|].
  inversion H; subst. destruct (IH H3) as (A1 & B1 & C). split; [|split; [exact B1|]].
  - constructor; [|exact A1]. intros I. apply H2. apply in_or_app. left. exact I.
  - intros a [->|I] J; [apply H2; apply in_or_app; right; exact J|exact (C a I J)].
Qed.

Lemma nodup_flat {A B} (f : A -> list B) l a b x : NoDup (flat_map f l) -> In a l -> In b l -> In x (f a) -> In x (f b) -> a = b.
Proof.
  induction l as [|y l IH]; cbn [flat_map]; intros N I J X Y; [destruct I|].
  apply nodup_app in N. destruct N as (_ & N & D).
  assert (forall c, In c l -> In x (f c) -> In x (flat_map f l)) by (intros c C Z; apply in_flat_map; exists c; auto).
  destruct I as [->|I], J as [->|J].
  - reflexivity.
  - exfalso. exact (D x X (H b J Y)).
  - exfalso. exact (D x Y (H a I X)).
  - exact (IH N I J X Y).
Qed.
Lemma nodup_flat_one {A B} (f : A -> list B) l a : NoDup (flat_map f l) -> In a l -> NoDup (f a).
Proof.
  induction l as [|y l IH]; cbn [flat_map]; intros N I; [destruct I|].
  apply nodup_app in N. destruct N as (N1 & N & _). destruct I as [->|I]; [exact N1|exact (IH N I)].
Qed.

Lemma mapo_forall {A B} (f : A -> option B) l m : mapo f l = Some m <-> Forall2 (fun a b => f a = Some b) l m.
Proof.
  revert m. induction l as [|a l IH]; intros m; cbn [mapo].
  - split; intros H; [injection H as <-; constructor|inversion H; reflexivity].
  - split.
    + destruct (f a) eqn:E; [|discriminate]. destruct (mapo f l); [|discriminate]. intros H. injection H as <-.
      constructor; [exact E|apply IH; reflexivity].
    + intros H. inversion H; subst. rewrite H2, (proj2 (IH l') H4). reflexivity.
Qed.
Lemma mapo_sound {A B} (f : A -> option B) (R : A -> B -> Prop) l m :
  (forall a b, f a = Some b -> R a b) -> mapo f l = Some m -> Forall2 R l m.
Proof. intros H M. apply mapo_forall in M. induction M; constructor; auto. Qed.
(** If [f] agrees with [R] where it is defined, the lists are the same. *)
Lemma mapo_unique {A B} (f : A -> option B) (R : A -> B -> Prop) l m m' :
  (forall a b b', f a = Some b -> R a b' -> b' = b) -> mapo f l = Some m -> Forall2 R l m' -> m' = m.
Proof.
  intros H M F. apply mapo_forall in M. revert m' F. induction M; intros m' F; inversion F; subst; [reflexivity|].
  f_equal; [eapply H; eassumption|auto].
Qed.

(** ** Modules *)

Lemma find_module_in ms m its : find_module ms m = Some its -> In (m, its) ms.
Proof.
  unfold find_module. induction ms as [|[m' its'] ms IH]; cbn [find fst]; [discriminate|].
  destruct (words_eqb m' m) eqn:E.
  - intros H. injection H as ->. apply words_eqb_eq in E. subst. left. reflexivity.
  - intros H. right. exact (IH H).
Qed.
Lemma in_find_module ms m its : NoDup (map fst ms) -> In (m, its) ms -> find_module ms m = Some its.
Proof.
  unfold find_module. induction ms as [|[m' its'] ms IH]; intros N I; [destruct I|]. cbn [find fst map] in *.
  inversion N; subst. destruct I as [E|I].
  - injection E as -> ->. rewrite words_eqb_refl. reflexivity.
  - destruct (words_eqb m' m) eqn:E; [|exact (IH ltac:(assumption) I)]. apply words_eqb_eq in E. subst.
    exfalso. apply H1. change m with (fst (m, its)). apply in_map. exact I.
Qed.

(** What [clean] says. *)
Record Clean (ms : modules) : Prop := {
  c_modules : NoDup (map fst ms);
  c_names : forall m its, In (m, its) ms -> NoDup (names its);
  c_free : forall m its x, In (m, its) ms -> In x (names its) -> ~ In x reserved;
  c_types : NoDup (flat_map (fun m => map fst (module_derives m)) ms);
  c_prims : forall x, In x (flat_map (fun m => map fst (module_derives m)) ms) -> ~ In x (prims ++ ["Option"; "Result"])%list;
  c_variants : forall t vs v, In (t, vs) (flat_map module_enums ms) -> In v (map fst vs) -> has_method ms t v = false
}.
Lemma clean_ok ms : clean ms = true -> Clean ms.
Proof.
  unfold clean. intros H. repeat (apply andb_true_iff in H; destruct H as [H ?]).
  rewrite forallb_forall in H0, H1, H3. constructor.
  - exact (distinct_paths_nodup _ H).
  - intros m its I. specialize (H3 _ I). apply andb_true_iff in H3. exact (distinct_nodup _ (proj1 H3)).
  - intros m its x I J. specialize (H3 _ I). apply andb_true_iff in H3. destruct H3 as [_ H3]. rewrite forallb_forall in H3.
    specialize (H3 x J). apply negb_true_iff, mem_false in H3. exact H3.
  - exact (distinct_nodup _ H2).
  - intros x I. specialize (H1 x I). apply negb_true_iff, mem_false in H1. exact H1.
  - intros t vs v I J. specialize (H0 _ I). cbn [fst snd] in H0. rewrite forallb_forall in H0.
    apply in_map_iff in J. destruct J as ([v' fs] & <- & J). specialize (H0 _ J). apply negb_true_iff in H0. exact H0.
Qed.

Lemma own_item_declares m x i e : own_item m x i = Some e <-> Declares m (snd i) x e.
Proof.
  unfold own_item. destruct i as [a i]. cbn [snd]. split.
  - destruct i; try discriminate;
      match goal with |- context [if ?b then _ else _] => destruct b eqn:E; [|discriminate] end;
      intros H; injection H as <-; apply String.eqb_eq in E; subst; constructor.
  - intros D. destruct D; rewrite String.eqb_refl; reflexivity.
Qed.
Lemma declares_declared m a i x e : Declares m i x e -> In x (declared (a, i)).
Proof. intros D. destruct D; left; reflexivity. Qed.
Lemma declares_unique m i x e e' : Declares m i x e -> Declares m i x e' -> e' = e.
Proof. intros D D'. apply (own_item_declares m x ([], i)) in D, D'. congruence. Qed.

Section Paths.
  Context (std : bool) (ms : modules) (C : Clean ms).

  Lemma module_unique m its its' : In (m, its) ms -> In (m, its') ms -> its' = its.
  Proof. intros I J. apply in_find_module in I, J; try exact (c_modules _ C). congruence. Qed.

  (** A name is declared by one item. *)
  Lemma declared_once m a i a' i' x : item_of ms m a i -> item_of ms m a' i' ->
    In x (declared (a, i)) -> In x (declared (a', i')) -> (a', i') = (a, i).
  Proof.
    intros (its & M & I) (its' & M' & I') D D'. rewrite (module_unique _ _ _ M M') in I'.
    eapply nodup_flat; [exact (c_names _ C _ _ M)|exact I'|exact I|exact D'|exact D].
  Qed.
  Lemma use_once m a us x q q' : item_of ms m a (IUse us) -> In (x, q) us -> In (x, q') us -> q' = q.
  Proof.
    intros (its & M & I) D D'. pose proof (nodup_flat_one _ _ _ (c_names _ C _ _ M) I) as N. cbn [declared snd] in N.
    eapply nodup_assoc; [exact N|exact D'|exact D].
  Qed.
  Lemma declared_free m a i x : item_of ms m a i -> In x (declared (a, i)) -> ~ In x reserved.
  Proof.
    intros (its & M & I) D. apply (c_free _ C _ _ _ M). apply in_flat_map. exists (a, i). split; [exact I|exact D].
  Qed.
  Lemma use_declared m a us x (q : list string) : item_of ms m a (IUse us) -> In (x, q) us -> In x (declared (a, IUse us)).
  Proof. intros _ I. cbn [declared snd]. change x with (fst (x, q)). apply in_map. exact I. Qed.

  Lemma in_module_free m x e : In_module std ms m x e -> ~ In x reserved /\ In x (names_in ms m).
  Proof.
    intros H. assert (K : exists a i, item_of ms m a i /\ In x (declared (a, i))).
    { inversion H; subst.
      - exists a, i. split; [assumption|]. eapply declares_declared. eassumption.
      - exists a, (IUse us). split; [assumption|]. eapply use_declared; eassumption. }
    destruct K as (a & i & M & D). split; [exact (declared_free _ _ _ _ M D)|].
    destruct M as (its & M & I). unfold names_in. rewrite (in_find_module _ _ _ (c_modules _ C) M).
    apply in_flat_map. exists (a, i). auto.
  Qed.

  Lemma type_item m a i x : item_of ms m a i -> (exists vs, i = IEnum x vs) \/ (exists fs, i = IStruct x fs) ->
    In x (flat_map (fun m => map fst (module_derives m)) ms).
  Proof.
    intros (its & M & I) K. apply in_flat_map. exists (m, its). split; [exact M|]. apply in_map_iff.
    exists (x, derives a). split; [reflexivity|]. unfold module_derives. apply in_flat_map. exists (a, i).
    split; [exact I|]. destruct K as [(vs & ->)|(fs & ->)]; left; reflexivity.
  Qed.
  (** A type name is that of one item. *)
  Lemma type_once m a i m' a' i' x : item_of ms m a i -> item_of ms m' a' i' ->
    (exists vs, i = IEnum x vs) \/ (exists fs, i = IStruct x fs) ->
    (exists vs, i' = IEnum x vs) \/ (exists fs, i' = IStruct x fs) -> i' = i.
  Proof.
    intros (its & M & I) (its' & M' & I') K K'.
    assert (D : forall b j, (exists vs, j = IEnum x vs) \/ (exists fs, j = IStruct x fs) ->
      In x (map fst (match snd (b, j) with IEnum x _ | IStruct x _ => [(x, derives b)] | _ => [] end))).
    { intros b j [(vs & ->)|(fs & ->)]; left; reflexivity. }
    assert (E : forall mi b j its0, In (b, j) its0 -> (exists vs, j = IEnum x vs) \/ (exists fs, j = IStruct x fs) ->
      In x (map fst (module_derives (mi, its0)))).
    { intros mi b j its0 J L. unfold module_derives. cbn [snd]. rewrite in_map_iff. exists (x, derives b). split; [reflexivity|].
      apply in_flat_map. exists (b, j). split; [exact J|]. destruct L as [(vs & ->)|(fs & ->)]; left; reflexivity. }
    assert (P : (m', its') = (m, its)).
    { eapply (nodup_flat _ ms _ _ x (c_types _ C)); [exact M'|exact M|exact (E m' _ _ _ I' K')|exact (E m _ _ _ I K)]. }
    injection P as -> ->.
    pose proof (nodup_flat_one _ _ _ (c_types _ C) M) as N. cbv beta in N. unfold module_derives in N. cbn [snd] in N.
    assert (N' : NoDup (flat_map (fun i0 : list attr * item => map fst (match snd i0 with IEnum x _ | IStruct x _ => [(x, derives (fst i0))] | _ => [] end)) its)).
    { clear -N. induction its as [|y l IH]; cbn [flat_map] in *; [constructor|]. rewrite map_app in N.
      assert (forall l, map fst (flat_map (fun i0 : list attr * item => match snd i0 with IEnum x _ | IStruct x _ => [(x, derives (fst i0))] | _ => [] end) l)
        = flat_map (fun i0 => map fst (match snd i0 with IEnum x _ | IStruct x _ => [(x, derives (fst i0))] | _ => [] end)) l) as F.
      { clear. induction l as [|z l IH]; [reflexivity|]. cbn [flat_map]. rewrite map_app, IH. reflexivity. }
      rewrite F in N. exact N. }
    pose proof (nodup_flat _ _ _ _ x N' I' I) as Q. cbn [fst] in Q. specialize (Q (D _ _ K') (D _ _ K)).
    injection Q as _ ->. reflexivity.
  Qed.
  Lemma enum_once m a vs m' a' vs' t : item_of ms m a (IEnum t vs) -> item_of ms m' a' (IEnum t vs') -> vs' = vs.
  Proof. intros I J. pose proof (type_once _ _ _ _ _ _ t I J ltac:(eauto) ltac:(eauto)). congruence. Qed.
  Lemma type_not_prim m a i x : item_of ms m a i -> (exists vs, i = IEnum x vs) \/ (exists fs, i = IStruct x fs) -> ~ In x prims.
  Proof. intros I K P. apply (c_prims _ C x (type_item _ _ _ _ I K)). apply in_or_app. left. exact P. Qed.

  Lemma type_named_unique t e e' : Type_named ms t e -> Type_named ms t e' -> e' = e.
  Proof.
    intros T T'. destruct T, T'; try reflexivity; exfalso;
      try (eapply type_not_prim; eauto; fail);
      match goal with A : item_of _ _ _ _, B : item_of _ _ _ _ |- _ => pose proof (type_once _ _ _ _ _ _ t A B ltac:(eauto) ltac:(eauto)); discriminate end.
  Qed.

  Lemma find_enum_in t vs : find_enum ms t = Some vs -> exists m a, item_of ms m a (IEnum t vs).
  Proof.
    unfold find_enum. intros H. destruct (first_some_in _ _ _ H) as ([m its] & I & E).
    destruct (first_some_in _ _ _ E) as ([a i] & J & F). cbn [snd] in *.
    destruct i; try discriminate F. destruct (name =? t) eqn:G; [|discriminate F]. injection F as ->.
    apply String.eqb_eq in G. subst. exists m, a, its. auto.
  Qed.
  Lemma in_find_enum m a t vs : item_of ms m a (IEnum t vs) -> find_enum ms t = Some vs.
  Proof.
    intros I. destruct (find_enum ms t) as [vs'|] eqn:E.
    - destruct (find_enum_in _ _ E) as (m' & a' & I'). rewrite (enum_once _ _ _ _ _ _ _ I I'). reflexivity.
    - exfalso. destruct I as (its & M & I). pose proof (first_some_none _ _ _ E M) as F. cbv beta in F.
      pose proof (first_some_none _ _ _ F I) as G. cbn [snd] in G. rewrite String.eqb_refl in G. discriminate G.
  Qed.
  Lemma is_struct_in t : is_struct ms t = true -> exists m a fs, item_of ms m a (IStruct t fs).
  Proof.
    unfold is_struct. intros H. apply existsb_exists in H. destruct H as ([m its] & I & E). apply existsb_exists in E.
    destruct E as ([a i] & J & F). cbn [snd] in *. destruct i; try discriminate F. apply String.eqb_eq in F. subst.
    exists m, a, fields, its. auto.
  Qed.
  Lemma has_method_in t x : has_method ms t x = true <-> Method ms t x.
  Proof.
    unfold has_method, Method. rewrite existsb_exists. split.
    - intros ([m its] & I & E). apply existsb_exists in E. destruct E as ([a i] & J & F). cbn [snd] in *.
      destruct i; try discriminate F. apply andb_true_iff in F. destruct F as [F G]. apply String.eqb_eq in F.
      apply existsb_exists in G. destruct G as ([b j] & K & L). cbn [snd] in *. destruct j; try discriminate L.
      apply String.eqb_eq in L. exists m, a, trait, t0, items, b, f. split; [exists its; auto|]. split; [exact F|]. auto.
    - intros (m & a & tr & T & its & b & f & (its' & M & I) & E & J & F). exists (m, its'). split; [exact M|].
      apply existsb_exists. exists (a, IImpl tr T its). split; [exact I|]. cbn [snd]. apply andb_true_iff. split.
      + apply String.eqb_eq. exact E.
      + apply existsb_exists. exists (b, IFn f). split; [exact J|]. cbn [snd]. apply String.eqb_eq. exact F.
  Qed.
  Lemma type_named_in t e : type_named ms t = Some e -> Type_named ms t e.
  Proof.
    unfold type_named. destruct (mem t prims) eqn:P.
    - intros H. injection H as <-. apply T_prim. apply mem_true. exact P.
    - destruct (find_enum ms t) as [vs|] eqn:E; cbn [is_some].
      + intros H. injection H as <-. destruct (find_enum_in _ _ E) as (m & a & I). exact (T_enum _ _ _ _ _ I).
      + destruct (is_struct ms t) eqn:F; [|discriminate]. intros H. injection H as <-.
        destruct (is_struct_in _ F) as (m & a & fs & I). exact (T_struct _ _ _ _ _ I).
  Qed.
  Lemma variant_not_method t x : Variant ms t x -> Method ms t x -> False.
  Proof.
    intros (m & a & vs & fs & (its & M & I) & J) K. apply has_method_in in K.
    rewrite (c_variants _ C t vs x) in K; [discriminate K| |change x with (fst (x, fs)); apply in_map; exact J].
    apply in_flat_map. exists (m, its). split; [exact M|]. apply in_flat_map. exists (a, IEnum t vs). split; [exact I|left; reflexivity].
  Qed.

  (** ** A path stands for one thing *)

  Definition clear_for (us : list (string * list string)) (m : list string) : Prop :=
    NoDup (map fst us) /\ forall x, In x (map fst us) -> ~ In x (names_in ms m) /\ ~ In x reserved.

  Lemma reserved_root x : In x roots -> In x reserved.
  Proof. intros I. apply in_or_app. left. exact I. Qed.
  Lemma reserved_prim x : In x prims -> In x reserved.
  Proof. intros I. apply in_or_app. right. apply in_or_app. left. exact I. Qed.
  Lemma reserved_extern x : In x (externs std) -> In x reserved.
  Proof.
    intros I. apply in_or_app. right. apply in_or_app. right. apply in_or_app. left.
    destruct std; [exact I|]. destruct I as [<-|[]]. left. reflexivity.
  Qed.
  Lemma reserved_prelude x (e : entity) : In (x, e) prelude -> In x reserved.
  Proof.
    intros I. apply in_or_app. right. apply in_or_app. right. apply in_or_app. right.
    change x with (fst (x, e)). apply in_map. exact I.
  Qed.
  Lemma reserved_once : NoDup reserved.
  Proof. apply distinct_nodup. reflexivity. Qed.
  Lemma root_not_prim x : In x roots -> ~ In x prims.
  Proof. intros I J. repeat (destruct I as [<-|I]; [revert J; apply mem_false; reflexivity|]). destruct I. Qed.
  Lemma root_not_extern x : In x roots -> ~ In x (externs std).
  Proof. intros I J. repeat (destruct I as [<-|I]; [revert J; apply mem_false; destruct std; reflexivity|]). destruct I. Qed.
  Lemma root_not_prelude x (e : entity) : In x roots -> ~ In (x, e) prelude.
  Proof. intros I J. apply (in_map fst) in J. cbn [fst] in J. repeat (destruct I as [<-|I]; [revert J; apply mem_false; reflexivity|]). destruct I. Qed.
  Lemma prim_not_extern x : In x prims -> ~ In x (externs std).
  Proof. intros I J. repeat (destruct I as [<-|I]; [revert J; apply mem_false; destruct std; reflexivity|]). destruct I. Qed.
  Lemma prim_not_prelude x (e : entity) : In x prims -> ~ In (x, e) prelude.
  Proof. intros I J. apply (in_map fst) in J. cbn [fst] in J. repeat (destruct I as [<-|I]; [revert J; apply mem_false; reflexivity|]). destruct I. Qed.
  Lemma extern_not_prelude x (e : entity) : In x (externs std) -> ~ In (x, e) prelude.
  Proof.
    intros I J. apply (in_map fst) in J. cbn [fst] in J. destruct std; repeat (destruct I as [<-|I]; [revert J; apply mem_false; reflexivity|]); destruct I.
  Qed.
  Lemma prelude_once x (e e' : entity) : In (x, e) prelude -> In (x, e') prelude -> e' = e.
  Proof. intros I J. eapply (nodup_assoc x prelude); [apply distinct_nodup; reflexivity|exact J|exact I]. Qed.

  Scheme in_module_ind' := Induction for In_module Sort Prop
  with leads_ind' := Induction for Leads Sort Prop
  with stands_ind' := Induction for Stands Sort Prop.
  Combined Scheme stands_mutind from in_module_ind', leads_ind', stands_ind'.

  Lemma module_not_reserved m x e : In_module std ms m x e -> In x reserved -> False.
  Proof. intros H. exact (proj1 (in_module_free _ _ _ H)). Qed.
  Lemma use_not_reserved us m x (q : list string) : clear_for us m -> In (x, q) us -> In x reserved -> False.
  Proof. intros [_ H] I. apply (in_map fst) in I. exact (proj2 (H _ I)). Qed.
  Lemma use_not_module us m x (q : list string) e : clear_for us m -> In (x, q) us -> In_module std ms m x e -> False.
  Proof. intros [_ H] I J. apply (in_map fst) in I. exact (proj1 (H _ I) (proj2 (in_module_free _ _ _ J))). Qed.

  Ltac root := match goal with |- In _ roots => cbn; tauto end.
  Ltac clash :=
    match goal with
    | H : In_module _ _ _ ?x _ |- _ =>
        exfalso; apply (module_not_reserved _ _ _ H);
        first [apply reserved_root; root | apply reserved_prim; assumption | apply reserved_extern; assumption
              | eapply reserved_prelude; eassumption]
    | K : clear_for ?us ?m, H : In (?x, ?q) ?us |- _ =>
        exfalso; first
          [ apply (use_not_reserved us m x q K H);
            first [apply reserved_root; root | apply reserved_prim; assumption | apply reserved_extern; assumption
                  | eapply reserved_prelude; eassumption]
          | eapply (use_not_module us m x q _ K H); eassumption ]
    | H : In _ prims |- _ =>
        exfalso; first [ eapply (fun r => root_not_prim _ r H); root
                       | eapply (prim_not_extern _ H); eassumption | eapply (prim_not_prelude _ _ H); eassumption ]
    | H : In _ (externs _) |- _ =>
        exfalso; first [ eapply (fun r => root_not_extern _ r H); root | eapply (extern_not_prelude _ _ H); eassumption ]
    | H : In (_, _) prelude |- _ => exfalso; eapply (fun r => root_not_prelude _ _ r H); root
    end.

  Lemma clear_nil m : clear_for [] m.
  Proof. split; [constructor|intros x []]. Qed.

  Lemma in_module_in m its x : find_module ms m = Some its -> ~ In x (names its) -> forall e, ~ In_module std ms m x e.
  Proof.
    intros F N e H. apply N. pose proof (proj2 (in_module_free _ _ _ H)) as I. unfold names_in in I. rewrite F in I. exact I.
  Qed.

  Theorem paths_unique :
    (forall m x e, In_module std ms m x e -> forall e', In_module std ms m x e' -> e' = e) /\
    (forall e p f, Leads std ms e p f -> forall f', Leads std ms e p f' -> f' = f) /\
    (forall us self m p e, Stands std ms us self m p e -> clear_for us m ->
       forall e', Stands std ms us self m p e' -> e' = e).
  Proof.
    apply (stands_mutind std ms
      (fun m x e _ => forall e', In_module std ms m x e' -> e' = e)
      (fun e p f _ => forall f', Leads std ms e p f' -> f' = f)
      (fun us self m p e _ => clear_for us m -> forall e', Stands std ms us self m p e' -> e' = e)).
    - intros m a i x e I D e' H. inversion H; subst.
      + pose proof (declared_once _ _ _ _ _ x I H0 (declares_declared _ _ _ _ _ D) (declares_declared _ _ _ _ _ H1)) as Q.
        injection Q as -> ->. exact (declares_unique _ _ _ _ _ D H1).
      + pose proof (declared_once _ _ _ _ _ x I H0 (declares_declared _ _ _ _ _ D) (use_declared _ _ _ _ _ H0 H1)) as Q.
        injection Q as -> <-. inversion D.
    - intros m a us x q e I U S IH e' H. inversion H; subst.
      + pose proof (declared_once _ _ _ _ _ x I H0 (use_declared _ _ _ _ _ I U) (declares_declared _ _ _ _ _ H1)) as Q.
        injection Q as -> ->. inversion H1.
      + pose proof (declared_once _ _ _ _ _ x I H0 (use_declared _ _ _ _ _ I U) (use_declared _ _ _ _ _ H0 H1)) as Q.
        injection Q as -> ->. rewrite (use_once _ _ _ _ _ _ I U H1) in H2. exact (IH (clear_nil _) _ H2).
    - intros e f' H. inversion H; subst; reflexivity.
    - intros m x p e L IH f' H. inversion H as [|m' x' p' e' L' E| | | | | |]; subst.
      + apply app_inj_tail in E. destruct E as [-> ->]. exact (IH _ L').
      + clash.
    - intros m x p e f M IHM L IHL f' H. inversion H; subst.
      + clash.
      + match goal with K : In_module _ _ _ _ _ |- _ => rewrite (IHM _ K) in * end. auto.
    - intros t x V f' H. inversion H; subst; [reflexivity|]. exfalso. eapply variant_not_method; eassumption.
    - intros t x V f' H. inversion H; subst; [|reflexivity]. exfalso. eapply variant_not_method; eassumption.
    - intros t x V f' H. inversion H; subst; reflexivity.
    - intros t x f' H. inversion H; subst; reflexivity.
    - intros q x p e L IH f' H. inversion H; subst. auto.
    - intros us self m p e L IH K e' H. inversion H; subst; try clash. auto.
    - intros us self m p e L IH K e' H. inversion H; subst; try clash. auto.
    - intros us self m x p e L IH K e' H. inversion H; subst; try clash. auto.
    - intros us self m p e f T L IH K e' H. inversion H; subst; try clash.
      match goal with T' : Type_named _ _ _ |- _ => rewrite (type_named_unique _ _ _ T T') in * end. auto.
    - intros us self m x p e P L IH K e' H. inversion H; subst; try clash. auto.
    - intros us self m x p e P L IH K e' H. inversion H; subst; try clash. auto.
    - intros us self m x q p e f U S IHS L IHL K e' H. inversion H; subst; try clash.
      match goal with U' : In (x, _) us |- _ => rewrite (nodup_assoc _ _ _ _ (proj1 K) U' U) in * end.
      match goal with S' : Stands _ _ [] _ _ _ _ |- _ => rewrite (IHS (clear_nil _) _ S') in * end. auto.
    - intros us self m x p e f M IHM L IHL K e' H. inversion H; subst; try clash.
      match goal with K' : In_module _ _ _ _ _ |- _ => rewrite (IHM _ K') in * end. auto.
    - intros us self m x p e f P L IHL K e' H. inversion H; subst; try clash.
      match goal with K' : In (x, _) prelude |- _ => rewrite (prelude_once _ _ _ P K') in * end. auto.
  Qed.

  (** ** The resolver finds it *)

  Section Walk.
    Context (rec : list string -> list string -> option entity)
      (REC : forall m q e, rec m q = Some e -> Stands std ms [] "" m q e).

    Lemma in_module_ok m x e : in_module rec ms m x = Some e -> In_module std ms m x e.
    Proof.
      unfold in_module. destruct (find_module ms m) as [its|] eqn:F; [|discriminate]. apply find_module_in in F.
      destruct (first_some (own_item m x) its) as [e'|] eqn:O.
      - intros H. injection H as ->. destruct (first_some_in _ _ _ O) as ([a i] & I & D). apply own_item_declares in D.
        eapply M_item; [exists its; split; [exact F|exact I]|exact D].
      - destruct (assoc x (imports its)) as [q|] eqn:A; [|discriminate]. intros H. apply REC in H.
        apply assoc_in in A. unfold imports in A. apply in_flat_map in A. destruct A as ([a i] & I & J). cbn [snd] in J.
        destruct i; try destruct J. eapply M_use; [exists its; split; [exact F|exact I]|exact J|exact H].
    Qed.

    Lemma walk_ok p : forall e f, walk rec ms e p = Some f -> Leads std ms e p f.
    Proof.
      induction p as [|x p IH]; intros e f H; cbn [walk] in H.
      - injection H as ->. apply L_end.
      - destruct e; try discriminate H.
        + destruct (x =? "super") eqn:E.
          * apply String.eqb_eq in E. subst. destruct m as [|y m]; [discriminate H|].
            rewrite (app_removelast_last "" (l := y :: m)) by discriminate. apply L_super. exact (IH _ _ H).
          * destruct (in_module rec ms m x) eqn:M; [|discriminate H]. eapply L_module; [exact (in_module_ok _ _ _ M)|exact (IH _ _ H)].
        + destruct p; [|discriminate H]. destruct (find_enum ms t) as [vs|] eqn:E; [|discriminate H].
          destruct (find_enum_in _ _ E) as (m & a & I). destruct (is_some (assoc x vs)) eqn:A.
          * injection H as <-. apply L_variant. apply assoc_some, in_map_iff in A. destruct A as ([v fs] & <- & J).
            exists m, a, vs, fs. auto.
          * destruct (has_method ms t x) eqn:M; [|discriminate H]. injection H as <-. apply L_enum_fn. apply has_method_in. exact M.
        + destruct p; [|discriminate H]. destruct (has_method ms t x) eqn:M; [|discriminate H]. injection H as <-.
          apply L_struct_fn. apply has_method_in. exact M.
        + destruct p; [|discriminate H]. injection H as <-. apply L_prim_fn.
        + apply L_ext. exact (IH _ _ H).
    Qed.
  End Walk.

  Theorem resolve_ok n : forall us self m p e, resolve n std ms us self m p = Some e -> Stands std ms us self m p e.
  Proof.
    induction n as [|n IH]; intros us self m p e H; [discriminate H|].
    assert (REC : forall m q e, resolve n std ms [] "" m q = Some e -> Stands std ms [] "" m q e) by (intros; apply IH; assumption).
    cbn [resolve] in H. destruct p as [|x p]; [discriminate H|].
    destruct (x =? "crate") eqn:E1; [apply String.eqb_eq in E1; subst; apply S_crate; exact (walk_ok _ REC _ _ _ H)|].
    destruct (x =? "super") eqn:E2; [apply String.eqb_eq in E2; subst; apply S_super; exact (walk_ok _ REC _ _ _ H)|].
    destruct (x =? "self") eqn:E3.
    { apply String.eqb_eq in E3; subst. destruct p as [|y p]; [discriminate H|]. apply S_self. exact (walk_ok _ REC _ _ _ H). }
    destruct (x =? "Self") eqn:E4.
    { apply String.eqb_eq in E4; subst. destruct (type_named ms self) eqn:T; [|discriminate H].
      eapply S_Self; [exact (type_named_in _ _ T)|exact (walk_ok _ REC _ _ _ H)]. }
    destruct (mem x prims) eqn:E5; [apply S_prim; [apply mem_true; exact E5|exact (walk_ok _ REC _ _ _ H)]|].
    destruct (mem x (externs std)) eqn:E6; [apply S_extern; [apply mem_true; exact E6|exact (walk_ok _ REC _ _ _ H)]|].
    destruct (assoc x us) as [q|] eqn:A.
    { destruct (resolve n std ms [] "" m q) as [e'|] eqn:R; [|discriminate H].
      eapply S_use; [exact (assoc_in _ _ _ A)|exact (REC _ _ _ R)|exact (walk_ok _ REC _ _ _ H)]. }
    destruct (in_module (resolve n std ms [] "") ms m x) as [e'|] eqn:M.
    { eapply S_module; [exact (in_module_ok _ REC _ _ _ M)|exact (walk_ok _ REC _ _ _ H)]. }
    destruct (assoc x prelude) as [e'|] eqn:P; [|discriminate H].
    eapply S_prelude; [exact (assoc_in _ _ _ P)|exact (walk_ok _ REC _ _ _ H)].
  Qed.
End Paths.

(** ** Scopes *)

(** The scope is in a clean crate and its [use] declarations bring nothing twice. *)
Definition Clear (s : scope) : Prop := Clean (s_mods s) /\ clear_for (s_mods s) (s_uses s) (s_here s).

Lemma look_ok s p e : look s p = Some e -> Means s p e.
Proof. apply resolve_ok. Qed.
Lemma means_unique s p e e' : Clear s -> Means s p e -> Means s p e' -> e' = e.
Proof. intros [C K] H H'. exact (proj2 (proj2 (paths_unique _ _ C)) _ _ _ _ _ H K _ H'). Qed.
Lemma look_unique s p e e' : Clear s -> look s p = Some e -> Means s p e' -> e' = e.
Proof. intros C L. exact (means_unique s p e e' C (look_ok _ _ _ L)). Qed.

Lemma unknown_ok s x e : Clear s -> unknown s x = true -> ~ Means s [x] e.
Proof.
  intros [C K] U M. unfold unknown in U. apply orb_true_iff in U. destruct U as [U|U].
  - apply String.eqb_eq in U. subst. unfold Means in M. inversion M; subst; try discriminate.
    + apply (root_not_prim "self"); [cbn; tauto|assumption].
    + apply (root_not_extern (s_std s) "self"); [cbn; tauto|assumption].
    + eapply (use_not_reserved (s_mods s)); [exact K|eassumption|]. apply reserved_root. cbn. tauto.
    + eapply (module_not_reserved (s_std s) (s_mods s)); [exact C|eassumption|]. apply reserved_root. cbn. tauto.
    + eapply (root_not_prelude "self"); [cbn; tauto|eassumption].
  - apply negb_true_iff, orb_false_iff in U. destruct U as [U R]. apply orb_false_iff in U. destruct U as [N U].
    apply mem_false in N, U, R. unfold Means in M. inversion M; subst;
      try (apply R; apply reserved_root; cbn; tauto).
    + apply R. apply reserved_prim. assumption.
    + apply R. eapply reserved_extern. eassumption.
    + apply U. change x with (fst (x, q)). apply in_map. assumption.
    + apply N. eapply in_module_free; eassumption.
    + apply R. eapply reserved_prelude. eassumption.
Qed.

Lemma clear_vars s xs : Clear s -> Clear (with_vars s xs).
Proof. exact (fun H => H). Qed.
Lemma clear_uses_ok s us : Clear s -> clear_uses s us = true -> Clear (with_uses s us).
Proof.
  intros [C [N K]] H. unfold clear_uses in H. apply andb_true_iff in H. destruct H as [D F]. split; [exact C|].
  split; [exact (distinct_nodup _ D)|]. cbn [s_uses with_uses s_here s_mods]. intros x I. rewrite map_app in I.
  apply in_app_or in I. destruct I as [I|I]; [|exact (K x I)]. rewrite forallb_forall in F. specialize (F x I).
  apply andb_true_iff in F. destruct F as [A B]. apply negb_true_iff, mem_false in A, B. auto.
Qed.
Lemma clear_module std ms m : Clean ms -> Clear (module_scope std ms m).
Proof. intros C. split; [exact C|apply clear_nil]. Qed.
Lemma clear_impl std ms m t types : Clean ms -> Clear (impl_scope std ms m t types).
Proof. intros C. split; [exact C|apply clear_nil]. Qed.
Lemma clear_fn s f : Clear s -> Clear (fn_scope s f).
Proof. exact (fun H => H). Qed.
