(** The meaning of the text of /repo/src and what the evaluator says about it. *)
From Coq Require Import ZArith List Bool String Lia.
From Verif Require Import Rust Types Debug Spec SpecOps SrcLine SrcText SrcLex SrcAst SrcLink SrcSem SrcEmbed SrcModel SrcProg SpecNames
  SpecSource SpecMeaning SrcOne SrcRuns SrcRuns2.
From Verif Require SrcClaims SrcLinked PartialEq PartialEqOk.
Import ListNotations.
Local Open Scope Z_scope.
Local Open Scope string_scope.
Local Opaque run crate test_crate.

Lemma answer_inj a b : answer a = answer b -> a = b.
Proof. destruct a, b; cbn; intros [=]; congruence. Qed.

Lemma run_means P p fuel key vs o a : platform_ok p -> run P p fuel key vs o = a -> (forall s, a <> Wrong s) ->
  forall r, Calls P p key vs o r <-> answer r = a.
Proof.
  intros ok R W r. assert (F : fine a) by (destruct a; try exact I; destruct (W _ eq_refl)).
  destruct (run_ok P p ok fuel key vs o a R F) as (r' & C & <-). split.
  - intros C'. rewrite (Calls_one P p ok _ _ _ _ _ C C'). reflexivity.
  - intros E. rewrite (answer_inj _ _ E). exact C.
Qed.

Lemma means_in std test src P p key vs o r : (forall P', stands_for std test src P' <-> P' = P) ->
  means std test src p key vs o r <-> Calls P p key vs o r.
Proof.
  intros S. split.
  - intros (P' & St & C). apply S in St. subst P'. exact C.
  - intros C. exists P. split; [apply S; reflexivity|exact C].
Qed.

Lemma evaluates_means p key vs o a : platform_ok p -> evaluates p key vs o a -> (forall s, a <> Wrong s) ->
  forall r, means false false source p key vs o r <-> answer r = a.
Proof.
  intros ok (P & L & E) W r. rewrite crate_loads in L. injection L as <-.
  rewrite (means_in _ _ _ _ _ _ _ _ _ (proj1 SrcLinked.crate_stands)).
  exact (run_means crate p 6 key vs o a ok (E 6%nat (le_n 6)) W r).
Qed.

Lemma evaluates_done p key vs o v o' : platform_ok p -> evaluates p key vs o (Done v o') ->
  forall r, means false false source p key vs o r <-> r = Gives v o'.
Proof.
  intros ok E r. rewrite (evaluates_means p key vs o _ ok E) by discriminate. split; [|intros ->; reflexivity].
  exact (answer_inj r (Gives v o')).
Qed.
Lemma evaluates_halt p key vs o w : platform_ok p -> evaluates p key vs o (Halt w) ->
  forall r, means false false source p key vs o r <-> r = Dies w.
Proof.
  intros ok E r. rewrite (evaluates_means p key vs o _ ok E) by discriminate. split; [|intros ->; reflexivity].
  exact (answer_inj r (Dies w)).
Qed.

Lemma means_one std test src P p key vs o a b : (forall P', stands_for std test src P' <-> P' = P) -> platform_ok p ->
  means std test src p key vs o a -> means std test src p key vs o b -> a = b.
Proof.
  intros S ok A B. apply (proj1 (means_in _ _ _ _ _ _ _ _ _ S)) in A. apply (proj1 (means_in _ _ _ _ _ _ _ _ _ S)) in B.
  exact (Calls_one P p ok _ _ _ _ _ A B).
Qed.

Lemma source_one p key vs o a b : platform_ok p ->
  means false false source p key vs o a -> means false false source p key vs o b -> a = b.
Proof. exact (means_one _ _ _ _ p key vs o a b (proj1 SrcLinked.crate_stands)). Qed.

Lemma loaded_one test src P p key vs o a b : load test src = Some P -> platform_ok p ->
  means true test src p key vs o a -> means true test src p key vs o b -> a = b.
Proof. intros L. exact (means_one _ _ _ P p key vs o a b (SrcLinked.load_stands _ _ _ L)). Qed.

Lemma loaded_means test src P p fuel key vs o a : load test src = Some P -> platform_ok p ->
  run P p fuel key vs o = a -> (forall s, a <> Wrong s) ->
  forall r, means true test src p key vs o r <-> answer r = a.
Proof.
  intros L ok R W r. rewrite (means_in _ _ _ _ _ _ _ _ _ (SrcLinked.load_stands _ _ _ L)).
  exact (run_means _ _ _ _ _ _ _ ok R W r).
Qed.

Lemma models_mean p key vs o a : platform_ok p -> models p key vs o a ->
  forall r, means false false source p key vs o r <-> answer r = a.
Proof.
  intros ok M. apply (evaluates_means _ _ _ _ _ ok (SrcClaims.models_evaluates _ _ _ _ _ M)).
  intros s. destruct (SrcClaims.models_ends _ _ _ _ _ M) as [(v & o' & ->)|(w & ->)]; discriminate.
Qed.

Lemma typed_means p key vs o : platform_ok p -> well_typed p key vs ->
  (exists v o', forall r, means false false source p key vs o r <-> r = Gives v o') \/
  (exists w, forall r, means false false source p key vs o r <-> r = Dies (Why w)).
Proof.
  intros ok T. destruct (SrcClaims.well_typed_ends p key vs o T) as [(v & o' & E)|(w & E)].
  - left. exists v, o'. exact (evaluates_done _ _ _ _ _ _ ok E).
  - right. exists w. exact (evaluates_halt _ _ _ _ _ ok E).
Qed.

Lemma typed_evaluates p key vs o : platform_ok p -> well_typed p key vs ->
  forall r, means false false source p key vs o r <-> evaluates p key vs o (answer r).
Proof.
  intros ok T r. destruct (SrcClaims.well_typed_modelled p key vs o T) as [a M].
  pose proof (SrcClaims.models_evaluates _ _ _ _ _ M) as E. rewrite (models_mean _ _ _ _ _ ok M). split.
  - intros <-. exact E.
  - intros K. exact (SrcClaims.evaluates_one _ _ _ _ _ _ K E).
Qed.

Lemma decode32_means p isa w : platform_ok p -> is_u32 w -> forall r,
  means false false source p "u32.decode" [VInt U32 w; of_isa isa] "" r <->
  (exists row, In row table32 /\ in_enc (r_acc row isa) w = true /\
     r = Gives (VEnum "Result" "Ok" [of_inst (reads row isa false w)]) "") \/
  (exists e, In e errors32 /\ in_enc (e_enc e isa) w = true /\
     r = Gives (VEnum "Result" "Err" [of_err (e_err e)]) "").
Proof.
  intros ok Hw r. destruct (SrcClaims.decode32_source p isa w ok Hw) as [(row & [U V] & N & E)|(e & [U V] & N & E)].
  - rewrite (evaluates_done _ _ _ _ _ _ ok E). split.
    + intros ->. left. exists row. destruct U as [I J]. repeat split; assumption.
    + intros [(row' & I & J & ->)|(e & I & J & _)].
      * rewrite (V row' (conj I J)). reflexivity.
      * rewrite (N e I) in J. discriminate.
  - rewrite (evaluates_done _ _ _ _ _ _ ok E). split.
    + intros ->. right. exists e. destruct U as [I J]. repeat split; assumption.
    + intros [(row & I & J & _)|(e' & I & J & ->)].
      * rewrite (N row I) in J. discriminate.
      * rewrite (V e' (conj I J)). reflexivity.
Qed.

Lemma decode16_means p isa w : platform_ok p -> is_u16 w -> forall r,
  means false false source p "u16.decode" [VInt U16 w; of_isa isa] "" r <->
  (exists row, In row table16 /\ in_enc (r_acc row isa) w = true /\
     r = Gives (VEnum "Result" "Ok" [of_inst (reads row isa true w)]) "") \/
  (exists e, In e errors16 /\ in_enc (e_enc e isa) w = true /\
     r = Gives (VEnum "Result" "Err" [of_err (e_err e)]) "").
Proof.
  intros ok Hw r. destruct (SrcClaims.decode16_source p isa w ok Hw) as [(row & [U V] & N & E)|(e & [U V] & N & E)].
  - rewrite (evaluates_done _ _ _ _ _ _ ok E). split.
    + intros ->. left. exists row. destruct U as [I J]. repeat split; assumption.
    + intros [(row' & I & J & ->)|(e & I & J & _)].
      * rewrite (V row' (conj I J)). reflexivity.
      * rewrite (N e I) in J. discriminate.
  - rewrite (evaluates_done _ _ _ _ _ _ ok E). split.
    + intros ->. right. exists e. destruct U as [I J]. repeat split; assumption.
    + intros [(row & I & J & _)|(e' & I & J & ->)].
      * rewrite (N row I) in J. discriminate.
      * rewrite (V e' (conj I J)). reflexivity.
Qed.

(** [usize] values: [TryFrom]. *)
Lemma try_from_means p x : platform_ok p -> 0 <= x < 2 ^ usize_bits p -> forall r,
  means false false source p "Instruction.try_from" [VInt Usize x] "" r <->
  (x mod 4 = 3 /\ x < 2 ^ 32 /\ means false false source p "u32.decode" [VInt U32 x; of_isa Rv64] "" r) \/
  (x mod 4 <> 3 /\ x < 2 ^ 16 /\ means false false source p "u16.decode" [VInt U16 x; of_isa Rv64] "" r) \/
  ((x mod 4 = 3 /\ 2 ^ 32 <= x \/ x mod 4 <> 3 /\ 2 ^ 16 <= x) /\ r = Dies (Why PExpect)).
Proof.
  intros ok Hx r. destruct (SrcClaims.try_from_source p x ok Hx) as (A & B & C & D).
  assert (S : forall key vs b, models p key vs "" b ->
     (forall a, evaluates p "Instruction.try_from" [VInt Usize x] "" a <-> evaluates p key vs "" a) ->
     means false false source p "Instruction.try_from" [VInt Usize x] "" r <-> means false false source p key vs "" r).
  { intros key vs b M I. pose proof (SrcClaims.models_evaluates _ _ _ _ _ M) as E.
    destruct (SrcClaims.models_ends _ _ _ _ _ M) as [(v & o' & ->)|(w & ->)].
    - rewrite (evaluates_done _ _ _ _ _ _ ok E). apply I in E. exact (evaluates_done _ _ _ _ _ _ ok E r).
    - rewrite (evaluates_halt _ _ _ _ _ ok E). apply I in E. exact (evaluates_halt _ _ _ _ _ ok E r). }
  destruct (Z.eq_dec (x mod 4) 3) as [H3|H3].
  - destruct (Z_lt_le_dec x (2 ^ 32)) as [H|H].
    + rewrite (S _ _ _ (m_decode32 p x Rv64 "") (A H3 H)). intuition lia.
    + rewrite (evaluates_halt _ _ _ _ _ ok (C H3 H)). intuition lia.
  - destruct (Z_lt_le_dec x (2 ^ 16)) as [H|H].
    + rewrite (S _ _ _ (m_decode16 p x Rv64 "") (B H3 H)). intuition lia.
    + rewrite (evaluates_halt _ _ _ _ _ ok (D H3 H)). intuition lia.
Qed.

Lemma test_means p key : usize_bits p = 32 \/ usize_bits p = 64 -> is_test key ->
  forall r, means true true source p key [] "" r <-> r = Gives VUnit "".
Proof.
  intros U T r. destruct (SrcClaims.tests_pass p key U T) as (P & L & E).
  rewrite test_crate_loads in L. injection L as <-.
  rewrite (means_in _ _ _ _ _ _ _ _ _ (proj2 (proj2 SrcLinked.crate_stands))).
  assert (ok : platform_ok p) by (unfold platform_ok; lia).
  rewrite (run_means test_crate p 12 key [] "" _ ok (E 12%nat (le_n 12))) by discriminate.
  split; [exact (answer_inj r (Gives VUnit ""))|intros ->; reflexivity].
Qed.

Lemma equal_means i j b :
  (exists P, stands_for false false source P /\ Equal P (of_inst i) (of_inst j) b) <-> (b = true <-> i = j).
Proof.
  assert (C : forall c, compares (of_inst i) (of_inst j) c -> Equal crate (of_inst i) (of_inst j) c).
  { intros c (P & L & E). rewrite crate_loads in L. injection L as <-. exact (veq_equal crate 10 _ _ _ E). }
  destruct (SrcClaims.equality_source i j) as [[_ T] [_ F]]. split.
  - intros (P & S & E). apply SrcLinked.crate_stands in S. subst P. split.
    + intros ->. destruct (PartialEq.Instruction_eq i j) eqn:Q; [exact (proj1 (PartialEqOk.Instruction_eq_iff i j) Q)|].
      assert (N : i <> j) by (intros Y; apply (proj2 (PartialEqOk.Instruction_eq_iff i j)) in Y; congruence).
      discriminate (proj1 (Equal_unique crate) _ _ _ E _ (C _ (F N))).
    + intros Y. exact (proj1 (Equal_unique crate) _ _ _ E _ (C _ (T Y))).
  - intros H. exists crate. split; [apply SrcLinked.crate_stands; reflexivity|]. apply C.
    destruct b; [apply T, H; reflexivity|]. apply F. intros Y. apply H in Y. discriminate Y.
Qed.

Lemma debug_means r s :
  (exists P, stands_for false false source P /\ Debugs P (of_result of_inst r) s) <-> s = compact (decode_debug r).
Proof.
  assert (C : Debugs crate (of_result of_inst r) (compact (decode_debug r))).
  { destruct (SrcClaims.debug_source r) as (P & L & E). rewrite crate_loads in L. injection L as <-.
    exact (debug_debugs crate 5 _ _ (E 5%nat (le_n 5))). }
  split.
  - intros (P & S & E). apply SrcLinked.crate_stands in S. subst P. exact (proj1 (Debugs_unique crate) _ _ E _ C).
  - intros ->. exists crate. split; [apply SrcLinked.crate_stands; reflexivity|exact C].
Qed.

Lemma loaded_says test src P p fuel key vs o r : load test src = Some P -> platform_ok p ->
  run P p fuel key vs o = answer r -> forall r', means true test src p key vs o r' <-> r' = r.
Proof.
  intros L ok R r'. rewrite (loaded_means test src P p fuel key vs o _ L ok R) by (destruct r; discriminate).
  split; [apply answer_inj|intros ->; reflexivity].
Qed.
