(** Whatever is in the branches no test comes to; see PropsTested.v. *)
From Coq Require Import ZArith List Bool String Lia.
From Verif Require Import Rust Spec SrcAst SrcNames SrcLink SrcSem SrcProg SpecNames SpecMeaning SpecReach SpecTested SrcMeant
  SrcTrap SrcTrap2 SrcReach SrcReached SrcTested.
Import ListNotations.
Local Open Scope string_scope.

(** ** With no numbers given nothing is replaced *)

Lemma through_same {A} (f : nat -> A -> nat * A) l : (forall i a, snd (f i a) = a) -> forall i, snd (through f i l) = l.
Proof.
  intros H. induction l as [|a l IH]; intros i; cbn [through]; [reflexivity|].
  specialize (H i a). destruct (f i a) as [i1 b]. cbn [snd] in H. subst b.
  specialize (IH i1). destruct (through f i1 l) as [i2 m]. cbn [snd] in IH |- *. subst m. reflexivity.
Qed.
Lemma through_opt_same {A} (f : nat -> A -> nat * A) x : (forall i a, snd (f i a) = a) -> forall i, snd (through_opt f i x) = x.
Proof. intros H i. destruct x as [a|]; [|reflexivity]. cbn [through_opt]. specialize (H i a). destruct (f i a). cbn in *. subst. reflexivity. Qed.
Definition none (_ : nat) : bool := false.
Definition br (n i : nat) (e : expr) := let '(j, e') := with_traps none n (S i) e in (j, e').
Lemma none_replaced n : forall i e, snd (with_traps none n i e) = e.
Proof.
  induction n as [|n IH]; intros i e; [reflexivity|].
  assert (B : forall i e, snd (br n i e) = e).
  { intros j a. unfold br. specialize (IH (S j) a). destruct (with_traps none n (S j) a). exact IH. }
  assert (Es : forall i es, snd (through (with_traps none n) i es) = es) by (intros; apply through_same, IH).
  assert (Os : forall i x, snd (through_opt (with_traps none n) i x) = x) by (intros; apply through_opt_same, IH).
  assert (Bs : forall i x, snd (through_opt (br n) i x) = x) by (intros; apply through_opt_same, B).
  assert (Arms : forall i (arms : list (pat * expr)),
    snd (through (fun i arm => let '(i, b) := br n i (snd arm) in (i, (fst arm, b))) i arms) = arms).
  { intros j arms. apply through_same. intros k [q a]. cbn [fst snd]. specialize (B k a). destruct (br n k a).
    cbn [snd] in *. subst. reflexivity. }
  assert (Fs : forall i (fs : list (string * expr)),
    snd (through (fun i f => let '(i, a) := with_traps none n i (snd f) in (i, (fst f, a))) i fs) = fs).
  { intros j fs. apply through_same. intros k [q a]. cbn [fst snd]. specialize (IH k a). destruct (with_traps none n k a).
    cbn [snd] in *. subst. reflexivity. }
  assert (Ss : forall i ss, snd (through (fun i st =>
            match st with
            | SLet x u a => let '(i, a') := with_traps none n i a in (i, SLet x u a')
            | SExpr a => let '(i, a') := with_traps none n i a in (i, SExpr a')
            | SUse us => (i, SUse us)
            end) i ss) = ss).
  { intros j ss. apply through_same. intros k st. destruct st as [x u a|a|us]; [| |reflexivity];
      specialize (IH k a); destruct (with_traps none n k a); cbn [snd] in *; subst; reflexivity. }
  destruct e; cbn [with_traps]; try reflexivity.
  Ltac by_ H := let X := fresh in pose proof H as X; match type of X with snd ?x = _ => destruct x end; cbn [snd] in X; subst.
  - by_ (IH i e). by_ (Es n0 args). reflexivity.
  - by_ (IH i e). by_ (Es n0 args). reflexivity.
  - by_ (IH i e). reflexivity.
  - by_ (IH i e). reflexivity.
  - by_ (IH i e). reflexivity.
  - by_ (IH i e). reflexivity.
  - by_ (IH i e). reflexivity.
  - by_ (IH i e1). by_ (IH n0 e2). reflexivity.
  - by_ (IH i e). reflexivity.
  - change (snd (let '(i, b') := br n i e in (i, EClos params b')) = EClos params e). by_ (B i e). reflexivity.
  - change (snd (let '(i, c') := with_traps none n i e1 in let '(i, t') := br n i e2 in
      let '(i, f') := through_opt (br n) i e3 in (i, EIf c' t' f')) = EIf e1 e2 e3).
    by_ (IH i e1). by_ (B n0 e2). by_ (Bs n1 e3). reflexivity.
  - change (snd (let '(i, a') := with_traps none n i e in
      let '(i, arms') := through (fun i arm => let '(i, b) := br n i (snd arm) in (i, (fst arm, b))) i arms in
      (i, EMatch a' arms')) = EMatch e arms).
    by_ (IH i e). by_ (Arms n0 arms). reflexivity.
  - by_ (Ss i ss). by_ (Os n0 tail). reflexivity.
  - by_ (Es i es). reflexivity.
  - by_ (Fs i fs). reflexivity.
  - by_ (Es i args). reflexivity.
  - by_ (IH i e). reflexivity.
  - by_ (Os i e). reflexivity.
  - by_ (IH i e). reflexivity.
  - change (snd (let '(i, a') := with_traps none n i e1 in let '(i, b') := br n i e2 in (i, EFor p a' b')) = EFor p e1 e2).
    by_ (IH i e1). by_ (B n0 e2). reflexivity.
  - by_ (Fs i fs). reflexivity.
  - by_ (IH i e). by_ (Es n0 args). reflexivity.
  - by_ (Es i args). reflexivity.
Qed.

Lemma trapped_none P : trapped [] P = P.
Proof.
  unfold trapped. assert (M : map (fun kf => (fst kf, snd (fn_with_traps (among [] (fst kf)) (snd kf)))) (p_fns P) = p_fns P).
  { rewrite <- map_id. apply map_ext. intros [k f]. cbn [fst snd]. f_equal. unfold fn_with_traps.
    destruct (f_body f) as [e|] eqn:E; [|reflexivity].
    change (with_traps (among [] k) 100 1 e) with (with_traps none 100 1 e).
    pose proof (none_replaced 100 1 e) as N. destruct (with_traps none 100 1 e) as [m e']. cbn [snd] in N |- *. subst e'.
    cbn [among existsb]. rewrite <- E. destruct f; reflexivity. }
  rewrite M. destruct P; reflexivity.
Qed.

(** ** Whatever is there *)

Lemma no_clos_is n : forall e, no_clos n e = closure_free n e.
Proof. reflexivity. Qed.

Lemma calm_of l P : without_closures l P -> forallb (calm l) (p_fns P) = true.
Proof.
  intros W. apply forallb_forall. intros [key f] I. unfold calm. cbn [fst snd].
  destruct (existsb (fun b => fst b =? key) l) eqn:X; [|reflexivity]. cbn [negb orb].
  destruct (f_body f) as [e|] eqn:E; [|reflexivity]. rewrite no_clos_is. apply (W key f e I); [|exact E].
  apply existsb_exists in X. destruct X as (b & J & Q). apply String.eqb_eq in Q. subst key. apply in_map. exact J.
Qed.

Definition plain : list branch :=
  filter (fun b => forallb (fun kf => negb (fst kf =? fst b) || calm [b] kf) (p_fns test_crate)) (untested crate).
Lemma plain_calm : forallb (calm plain) (p_fns test_crate) = true.
Proof. vm_compute. reflexivity. Qed.
Lemma passes_plain : forallb (pass_on (p_tests test_crate) (trapped plain test_crate)) platforms = true.
Proof. vm_cast_no_check (eq_refl true). Qed.

Lemma among_incl l m : List.incl l m -> forall key i, among l key i = true -> among m key i = true.
Proof.
  intros H key i A. unfold among in *. apply existsb_exists in A. destruct A as (b & I & A).
  apply existsb_exists. exists b. split; [exact (H b I)|exact A].
Qed.

Lemma in_plain l : List.incl l (untested crate) -> without_closures l test_crate -> List.incl l plain.
Proof.
  intros U W b I. apply (proj2 (filter_In _ b (untested crate))). split; [exact (U b I)|]. apply forallb_forall. intros [key f] J.
  cbn [fst snd]. destruct (String.eqb_spec key (fst b)) as [E|N]; [|reflexivity]. cbn [negb orb]. subst key.
  unfold calm. cbn [snd]. destruct (f_body f) as [e|] eqn:F; [|apply orb_true_r]. rewrite no_clos_is.
  rewrite (W _ f e J (in_map fst l b I) F). apply orb_true_r.
Qed.

Lemma R_done a b v o : R a b -> a = Done v o -> b = Done v o.
Proof. intros [E|E] D; rewrite D in E; [discriminate E|symmetry; exact E]. Qed.

Lemma blind P T Q l p t : stands_for false false SrcText.source P -> stands_for true true SrcText.source T ->
  List.incl l (untested P) -> without_closures l T -> without_closures l Q -> differ_in l T Q ->
  (usize_bits p = 32 \/ usize_bits p = 64)%Z -> In t (p_tests T) ->
  forall r, Calls Q p t [] "" r <-> r = Gives VUnit "".
Proof.
  intros S S' Il WT WQ D U I. apply (proj1 SrcLinked.crate_stands) in S. subst P.
  apply (proj2 (proj2 SrcLinked.crate_stands)) in S'. subst T. apply quiet_means; [exact U|].
  pose proof (all_pass _ _ p t passes_plain U I) as A.
  pose proof (run_R test_crate p l plain (among_incl _ _ (in_plain l Il WT)) plain_calm 12 t [] "") as B.
  apply (R_done _ _ _ _ B) in A. rewrite D in A.
  pose proof (run_R Q p [] l (fun k i (H : among [] k i = true) => ltac:(discriminate H)) (calm_of l Q WQ) 12 t [] "") as C.
  rewrite trapped_none in C. exact (R_done _ _ _ _ C A).
Qed.

(** ** Exactly those *)

Definition rest : list branch := filter (fun b => negb (among plain (fst b) (snd b))) (untested crate).
Lemma passes_rest : forallb (fun b => pass_on (p_tests test_crate) (trapped [b] test_crate) plat) rest = true.
Proof. vm_cast_no_check (eq_refl true). Qed.

Lemma one_plain p t b : In b plain -> (usize_bits p = 32 \/ usize_bits p = 64)%Z -> In t (p_tests test_crate) ->
  run (trapped [b] test_crate) p 12 t [] "" = Done VUnit "".
Proof.
  intros I U J. pose proof (all_pass _ _ p t passes_plain U J) as A.
  refine (R_done _ _ _ _ (run_R test_crate p [b] plain (among_incl _ _ _) plain_calm 12 t [] "") A).
  intros c [<-|[]]. exact I.
Qed.

Lemma among_In l b : among l (fst b) (snd b) = true -> In b l.
Proof.
  intros A. unfold among in A. apply existsb_exists in A. destruct A as ([k i] & I & A). apply andb_true_iff in A.
  destruct A as [A B]. apply String.eqb_eq in A. apply PeanoNat.Nat.eqb_eq in B. destruct b as [k' i'].
  cbn [fst snd] in A, B. subst. exact I.
Qed.
Lemma In_among l b : In b l -> among l (fst b) (snd b) = true.
Proof.
  intros I. unfold among. apply existsb_exists. exists b. split; [exact I|].
  rewrite String.eqb_refl, PeanoNat.Nat.eqb_refl. reflexivity.
Qed.

Lemma each_pass (l : list branch) (f : branch -> bool) b : forallb f l = true -> In b l -> f b = true.
Proof. intros A. rewrite forallb_forall in A. exact (A b). Qed.

Lemma filter_not (l u : list branch) b : In b u -> among l (fst b) (snd b) = false ->
  In b (filter (fun b => negb (among l (fst b) (snd b))) u).
Proof. intros I A. apply filter_In. split; [exact I|]. rewrite A. reflexivity. Qed.

Lemma one_untested t b : In b (untested crate) ->
  In t (p_tests test_crate) -> run (trapped [b] test_crate) plat 12 t [] "" = Done VUnit "".
Proof.
  intros I J. destruct (among plain (fst b) (snd b)) eqn:A.
  - exact (one_plain plat t b (among_In _ _ A) (or_intror eq_refl) J).
  - exact (one_pass _ _ plat t (each_pass _ _ b passes_rest (filter_not _ _ b I A)) J).
Qed.

Lemma exactly_tested P T b : stands_for false false SrcText.source P -> stands_for true true SrcText.source T ->
  In b (branches P) ->
  (In b tested <-> exists t, In t (p_tests T) /\ Calls (trapped [b] T) plat t [] "" (Dies (Says "reached"))).
Proof.
  intros S S' I. split; [exact (entered T b S')|]. apply (proj1 SrcLinked.crate_stands) in S. subst P.
  apply (proj2 (proj2 SrcLinked.crate_stands)) in S'. subst T. intros (t & J & C).
  destruct (among tested (fst b) (snd b)) eqn:A; [exact (among_In _ _ A)|]. exfalso.
  apply (quiet_means _ plat t (or_intror eq_refl) (one_untested t b (filter_not tested (branches crate) b I A) J)) in C.
  discriminate C.
Qed.

(** ** The list *)

Lemma tested_fns : forallb (fun b => existsb (same b) (branches crate)) tested = true.
Proof. vm_compute. reflexivity. Qed.
Lemma crate_fns : forallb (fun b => existsb (same b) (branches test_crate)) (branches crate) = true.
Proof. vm_compute. reflexivity. Qed.
Lemma incl_by l m : forallb (fun b => existsb (same b) m) l = true -> List.incl l m.
Proof.
  intros A b I. rewrite forallb_forall in A. specialize (A b I). apply existsb_exists in A.
  destruct A as (c & J & E). apply same_ok in E. subst c. exact J.
Qed.

Lemma the_tested P T : stands_for false false SrcText.source P -> stands_for true true SrcText.source T ->
  List.length (p_tests T) = 13%nat /\ List.length tested = 331%nat /\ List.length (untested P) = 501%nat /\ NoDup tested /\
  List.incl tested (branches P) /\ List.incl (branches P) (branches T).
Proof.
  intros S S'. apply (proj1 SrcLinked.crate_stands) in S. subst P.
  apply (proj2 (proj2 SrcLinked.crate_stands)) in S'. subst T.
  split; [reflexivity|]. split; [reflexivity|]. split; [vm_compute; reflexivity|].
  split; [apply distinct_ok; vm_compute; reflexivity|].
  split; [exact (incl_by _ _ tested_fns)|exact (incl_by _ _ crate_fns)].
Qed.

(** ** A wrong program that passes *)

Definition wrong : program := put_body "decode::only_rv64" lets_pass test_crate.
Definition rv32_arm : list branch := [("decode::only_rv64", 1%nat)].
Definition free_of (l : list branch) (P : program) : bool :=
  forallb (fun kf => negb (existsb (String.eqb (fst kf)) (map fst l)) ||
    match f_body (snd kf) with Some e => closure_free 100 e | None => true end) (p_fns P).
Lemma free_of_ok l P : free_of l P = true -> without_closures l P.
Proof.
  intros A key f e I J E. unfold free_of in A. rewrite forallb_forall in A. specialize (A _ I). cbn [fst snd] in A.
  rewrite E in A. apply orb_true_iff in A. destruct A as [A|A]; [|exact A]. exfalso. apply negb_true_iff in A.
  rewrite <- not_true_iff_false in A. apply A. apply existsb_exists. exists key. split; [exact J|apply String.eqb_refl].
Qed.
Lemma wrong_free : free_of rv32_arm wrong && free_of rv32_arm test_crate = true.
Proof. vm_compute. reflexivity. Qed.
Lemma wrong_differs : differ_in rv32_arm test_crate wrong.
Proof. vm_compute. reflexivity. Qed.
Lemma arm_untested : forallb (fun b => existsb (same b) (untested crate)) rv32_arm = true.
Proof. vm_compute. reflexivity. Qed.
Lemma blind_case : exists P T, stands_for false false SrcText.source P /\ stands_for true true SrcText.source T /\
  let l := [("decode::only_rv64", 1%nat)] in let Q := put_body "decode::only_rv64" lets_pass T in
  List.incl l (untested P) /\ without_closures l T /\ without_closures l Q /\ differ_in l T Q /\
  (forall p t, (usize_bits p = 32 \/ usize_bits p = 64)%Z -> In t (p_tests T) ->
    forall r, Calls Q p t [] "" r <-> r = Gives VUnit "") /\
  (forall r, Calls T Text.plat "u32.decode" [VInt U32 0xB503; VEnum "Isa" "Rv32" []] "" r <->
    r = Gives (VEnum "Result" "Err" [VEnum "DecodingError" "OnlyRv64Inst" []]) "") /\
  (exists i, forall r, Calls Q Text.plat "u32.decode" [VInt U32 0xB503; VEnum "Isa" "Rv32" []] "" r <->
    r = Gives (VEnum "Result" "Ok" [i]) "").
Proof.
  exists crate, test_crate. pose proof SrcLinked.crate_stands as [S [_ S']].
  assert (HP : stands_for false false SrcText.source crate) by (apply S; reflexivity).
  assert (HT : stands_for true true SrcText.source test_crate) by (apply S'; reflexivity).
  split; [exact HP|]. split; [exact HT|]. cbv zeta. change [("decode::only_rv64", 1%nat)] with rv32_arm.
  change (put_body "decode::only_rv64" lets_pass test_crate) with wrong.
  pose proof wrong_free as F. apply andb_true_iff in F. destruct F as [F1 F2].
  pose proof (incl_by _ _ arm_untested) as A. pose proof (free_of_ok _ _ F1) as WQ. pose proof (free_of_ok _ _ F2) as WT.
  pose proof wrong_differs as D.
  split; [exact A|]. split; [exact WT|]. split; [exact WQ|]. split; [exact D|].
  split; [intros p t U I; exact (blind crate test_crate wrong rv32_arm p t HP HT A WT WQ D U I)|].
  assert (ok : platform_ok Text.plat) by (right; right; reflexivity).
  split.
  - intros r. rewrite (run_means test_crate Text.plat 12 "u32.decode" [VInt U32 0xB503; VEnum "Isa" "Rv32" []] ""
      (Done (VEnum "Result" "Err" [VEnum "DecodingError" "OnlyRv64Inst" []]) "") ok) by (vm_compute; reflexivity || discriminate).
    split; [exact (answer_inj r (Gives _ ""))|intros ->; reflexivity].
  - destruct (run wrong Text.plat 12 "u32.decode" [VInt U32 0xB503; VEnum "Isa" "Rv32" []] "") as [v o| |] eqn:E;
      [|exfalso; vm_compute in E; discriminate E..].
    pose proof E as E'. vm_compute in E'. injection E' as Ev Eo. subst o v.
    eexists. intros r. rewrite (run_means wrong Text.plat 12 _ _ "" _ ok E) by discriminate.
    split; [exact (answer_inj r (Gives _ ""))|intros ->; reflexivity].
Qed.
