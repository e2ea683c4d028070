(** What the helpers of the [DecodeUtil] trait compute, for all arguments. *)
From Coq Require Import ZArith List Bool Lia.
From Verif Require Import Rust Types DecodeUtil Spec Util SpecHelp.
Import ListNotations.
Local Open Scope Z_scope.

(** ** Checked primitives out of range *)

Lemma ck_u_over n p v : ~ 0 <= v < 2 ^ n -> overflow_checks p = true -> ck_u n p v = Panic POverflow.
Proof.
  intros H C. unfold ck_u. rewrite C.
  destruct (Z.leb_spec 0 v); [|reflexivity]. destruct (Z.ltb_spec v (2 ^ n)); [lia|reflexivity].
Qed.
Lemma ck_u_wrap n p v : 0 <= n -> overflow_checks p = false -> ck_u n p v = Ret (v mod 2 ^ n).
Proof.
  intros Hn C. unfold ck_u. rewrite C.
  destruct (Z.leb_spec 0 v); [|reflexivity]. destruct (Z.ltb_spec v (2 ^ n)); [|reflexivity].
  cbn [andb]. rewrite Z.mod_small by lia. reflexivity.
Qed.
Lemma ck_i32_over p v : ~ - 2 ^ 31 <= v < 2 ^ 31 -> overflow_checks p = true ->
  ck_i32 p v = Panic POverflow.
Proof.
  intros H C. unfold ck_i32. rewrite C.
  destruct (Z.leb_spec (- 2 ^ 31) v); [|reflexivity]. destruct (Z.ltb_spec v (2 ^ 31)); [lia|reflexivity].
Qed.
Lemma ck_shift_over n p s : ~ 0 <= s < n -> overflow_checks p = true -> ck_shift n p s = Panic POverflow.
Proof.
  intros H C. unfold ck_shift. rewrite C.
  destruct (Z.leb_spec 0 s); [|reflexivity]. destruct (Z.ltb_spec s n); [lia|reflexivity].
Qed.

(** ** slice *)

Lemma field_bits w hi lo k : 0 <= lo <= hi -> 0 <= k ->
  Z.testbit (field w hi lo) k = (k <=? hi - lo) && Z.testbit w (lo + k).
Proof.
  intros H Hk. rewrite field_testbit by lia. rewrite andb_comm. f_equal.
  destruct (Z.ltb_spec k (hi - lo + 1)), (Z.leb_spec k (hi - lo)); lia || reflexivity.
Qed.

(** Common body of both versions, [n] bits wide. *)
Definition slice_n (n : Z) (p : platform) (self end_ start : Z) : outcome Z :=
  if end_ >=? start then
    let! a := shr n p self start in
    let! d := ck_u 32 p (end_ - start) in
    let! d1 := ck_u 32 p (d + 1) in
    let! pw := ck_u n p (2 ^ d1) in
    let! mask := ck_u n p (pw - 1) in
    Ret (Z.land a mask)
  else Panic PAssert.

Lemma slice_n_ok n p w hi lo : 0 <= n <= 32 -> 0 <= lo <= hi -> lo < n -> hi - lo + 1 < n ->
  slice_n n p w hi lo = Ret (field w hi lo).
Proof.
  intros Hn H Hl Hw. unfold slice_n.
  destruct (Z.geb_spec hi lo); [|lia].
  rewrite shr_ok by lia. cbn [bind].
  rewrite ck_u_ok by lia. cbn [bind].
  rewrite ck_u_ok by lia. cbn [bind].
  pose proof (pow2_lt (hi - lo + 1) n ltac:(lia)).
  rewrite ck_u_ok by lia. cbn [bind].
  rewrite ck_u_ok by lia. cbn [bind].
  f_equal. unfold field. rewrite Z.shiftr_div_pow2 by lia.
  rewrite <- Z.land_ones by lia. rewrite Z.ones_equiv. f_equal; lia.
Qed.

Lemma slice_n_assert n p w hi lo : hi < lo -> slice_n n p w hi lo = Panic PAssert.
Proof. intros H. unfold slice_n. destruct (Z.geb_spec hi lo); [lia|reflexivity]. Qed.

Lemma slice_n_panics n p w hi lo : 0 <= n <= 32 -> overflow_checks p = true ->
  0 <= lo <= hi -> hi < 2 ^ 32 -> ~ (lo < n /\ hi - lo + 1 < n) ->
  slice_n n p w hi lo = Panic POverflow.
Proof.
  intros Hn C H Hh N. unfold slice_n. destruct (Z.geb_spec hi lo); [|lia].
  destruct (Z.lt_ge_cases lo n) as [L|L].
  - rewrite shr_ok by lia. cbn [bind]. rewrite ck_u_ok by lia. cbn [bind].
    destruct (Z.eq_dec (hi - lo + 1) (2 ^ 32)) as [E|E].
    + rewrite ck_u_over; [reflexivity|lia|assumption].
    + rewrite ck_u_ok by lia. cbn [bind].
      rewrite ck_u_over; [reflexivity| |assumption].
      pose proof (Z.pow_le_mono_r 2 n (hi - lo + 1) ltac:(lia) ltac:(lia)). lia.
  - unfold shr. rewrite ck_shift_over; [reflexivity|lia|assumption].
Qed.

Lemma slice_n_wide n p w hi lo : 1 <= n <= 32 -> overflow_checks p = false -> 0 <= w < 2 ^ n ->
  0 <= lo <= hi -> hi - lo + 1 < 2 ^ 32 -> lo < n -> n <= hi - lo + 1 ->
  slice_n n p w hi lo = Ret (field w hi lo).
Proof.
  intros Hn C Hw H N L W. unfold slice_n. destruct (Z.geb_spec hi lo); [|lia].
  rewrite shr_ok by lia. cbn [bind]. rewrite ck_u_ok by lia. cbn [bind].
  rewrite ck_u_ok by lia. cbn [bind]. rewrite ck_u_wrap by (lia || assumption). cbn [bind].
  assert (Hz : 2 ^ (hi - lo + 1) mod 2 ^ n = 0).
  { replace (hi - lo + 1) with ((hi - lo + 1 - n) + n) by lia. rewrite Z.pow_add_r by lia.
    apply Z.mod_mul. pose proof (Z.pow_pos_nonneg 2 n). lia. }
  rewrite Hz. rewrite ck_u_wrap by (lia || assumption). cbn [bind].
  assert (Hm : (0 - 1) mod 2 ^ n = Z.ones n).
  { rewrite Z.ones_equiv. pose proof (Z.pow_pos_nonneg 2 n).
    symmetry. apply (Z.mod_unique _ _ (-1)); lia. }
  rewrite Hm. f_equal. rewrite Z.land_ones by lia. unfold field.
  rewrite Z.shiftr_div_pow2 by lia.
  pose proof (Z.pow_pos_nonneg 2 lo ltac:(lia) ltac:(lia)).
  assert (0 <= w / 2 ^ lo < 2 ^ n).
  { split; [apply Z.div_pos; lia|]. apply Z.div_lt_upper_bound; nia. }
  rewrite !Z.mod_small; [reflexivity| |assumption].
  pose proof (Z.pow_le_mono_r 2 n (hi - lo + 1) ltac:(lia) ltac:(lia)). lia.
Qed.

(** Without overflow checks the shift amount wraps. *)
Lemma ck_shift_wrap n p s : 0 < n -> 0 <= s -> overflow_checks p = false -> ck_shift n p s = Ret (s mod n).
Proof.
  intros Hn Hs C. unfold ck_shift. rewrite C.
  destruct (Z.leb_spec 0 s); [|reflexivity]. destruct (Z.ltb_spec s n); [|reflexivity].
  cbn [andb]. rewrite Z.mod_small by lia. reflexivity.
Qed.
Lemma slice_n_wraps n p w hi lo : 1 <= n <= 32 -> overflow_checks p = false -> 0 <= lo <= hi ->
  slice_n n p w hi lo = slice_n n p w (lo mod n + (hi - lo)) (lo mod n).
Proof.
  intros Hn C H. pose proof (Z.mod_pos_bound lo n ltac:(lia)) as B. unfold slice_n.
  destruct (Z.geb_spec hi lo); [|lia]. destruct (Z.geb_spec (lo mod n + (hi - lo)) (lo mod n)); [|lia].
  unfold shr. rewrite !ck_shift_wrap by (assumption || lia). rewrite Z.mod_mod by lia.
  replace (lo mod n + (hi - lo) - lo mod n) with (hi - lo) by lia. reflexivity.
Qed.
Lemma slice_n_release n p w hi lo : 1 <= n <= 32 -> overflow_checks p = false -> 0 <= w < 2 ^ n ->
  0 <= lo <= hi -> hi - lo + 1 < 2 ^ 32 ->
  slice_n n p w hi lo = Ret (field w (lo mod n + (hi - lo)) (lo mod n)).
Proof.
  intros Hn C Hw H N. pose proof (Z.mod_pos_bound lo n ltac:(lia)) as B.
  rewrite slice_n_wraps by (assumption || lia).
  destruct (Z.lt_ge_cases (hi - lo + 1) n); [apply slice_n_ok; lia|apply slice_n_wide; try assumption; lia].
Qed.
Lemma slice_n_none n p w hi lo : 1 <= n <= 32 -> overflow_checks p = false ->
  0 <= lo <= hi -> hi - lo + 1 = 2 ^ 32 -> slice_n n p w hi lo = Ret 0.
Proof.
  intros Hn C H N. unfold slice_n. destruct (Z.geb_spec hi lo); [|lia].
  unfold shr. rewrite ck_shift_wrap by (assumption || lia). cbn [bind].
  rewrite ck_u_ok by lia. cbn [bind]. rewrite ck_u_wrap by (assumption || lia). cbn [bind].
  rewrite N, Z.mod_same by lia. pose proof (Z.pow_le_mono_r 2 1 n ltac:(lia) ltac:(lia)).
  rewrite (ck_u_ok n) by lia. cbn [bind]. rewrite ck_u_ok by lia. cbn [bind].
  change (2 ^ 0 - 1) with 0. rewrite Z.land_0_r. reflexivity.
Qed.

(** ** to_signed_nbit *)

Lemma sext_spec n v r : 1 <= n -> 0 <= v < 2 ^ n -> r = sext n v ->
  - 2 ^ (n - 1) <= r < 2 ^ (n - 1) /\ (r - v) mod 2 ^ n = 0.
Proof.
  intros Hn Hv ->. unfold sext.
  assert (Hpn : 2 ^ n = 2 * 2 ^ (n - 1)).
  { rewrite <- Z.pow_succ_r by lia. f_equal. lia. }
  pose proof (Z.pow_pos_nonneg 2 (n - 1) ltac:(lia) ltac:(lia)).
  destruct (Z.ltb_spec v (2 ^ (n - 1))); (split; [lia|]).
  - rewrite Z.sub_diag. apply Z.mod_0_l. lia.
  - replace (v - 2 ^ n - v) with (-1 * 2 ^ n) by lia. apply Z.mod_mul. lia.
Qed.

Lemma signed_low p v n : 1 <= n <= 30 -> to_signed_nbit p v n = to_signed_nbit p (v mod 2 ^ n) n.
Proof.
  intros Hn. unfold to_signed_nbit. pose proof (pow2_lt n 31 ltac:(lia)).
  rewrite ck_i32_ok by lia. cbn [bind]. rewrite ck_i32_ok by lia. cbn [bind].
  replace (2 ^ n - 1) with (Z.ones n) by (rewrite Z.ones_equiv; lia).
  rewrite !Z.land_ones by lia. rewrite Z.mod_mod by lia. reflexivity.
Qed.

Lemma signed_value p v n : 1 <= n <= 30 ->
  exists r, to_signed_nbit p v n = Ret r /\ - 2 ^ (n - 1) <= r < 2 ^ (n - 1) /\ (r - v) mod 2 ^ n = 0.
Proof.
  intros Hn. pose proof (pow2_lt n 31 ltac:(lia)).
  pose proof (Z.mod_pos_bound v (2 ^ n) ltac:(lia)) as B.
  rewrite signed_low, to_signed_nbit_ok by lia. eexists. split; [reflexivity|].
  destruct (sext_spec n (v mod 2 ^ n) _ ltac:(lia) B eq_refl) as [R M]. split; [assumption|].
  replace (sext n (v mod 2 ^ n) - v) with ((sext n (v mod 2 ^ n) - v mod 2 ^ n) - (v - v mod 2 ^ n)) by lia.
  rewrite Zminus_mod, M.
  replace (v - v mod 2 ^ n) with (v / 2 ^ n * 2 ^ n).
  - rewrite Z.mod_mul by lia. apply Z.mod_0_l. lia.
  - pose proof (Z.div_mod v (2 ^ n) ltac:(lia)). lia.
Qed.

Lemma signed_panics p v n : overflow_checks p = true -> 0 <= n -> ~ 1 <= n <= 30 ->
  to_signed_nbit p v n = Panic POverflow.
Proof.
  intros C H0 Hn. unfold to_signed_nbit. destruct (Z.eq_dec n 0) as [->|N].
  - rewrite ck_i32_ok by (vm_compute; split; congruence). cbn [bind].
    rewrite ck_i32_ok by (vm_compute; split; congruence). cbn [bind].
    rewrite (ck_u_over 32 p (0 - 1)); [reflexivity|lia|assumption].
  - rewrite ck_i32_over; [reflexivity| |assumption].
    pose proof (Z.pow_le_mono_r 2 31 n ltac:(lia) ltac:(lia)). lia.
Qed.

(** Without overflow checks 31 and 32 bits work too. *)
Lemma ck_i32_wrap p v : overflow_checks p = false -> ck_i32 p v = Ret (wrap_i32 v).
Proof.
  intros C. unfold ck_i32. rewrite C.
  destruct (Z.leb_spec (- 2 ^ 31) v); [|reflexivity]. destruct (Z.ltb_spec v (2 ^ 31)); [|reflexivity].
  cbn [andb]. f_equal. unfold wrap_i32. destruct (Z.lt_ge_cases v 0) as [L|L].
  - replace (v mod 2 ^ 32) with (v + 2 ^ 32) by (apply (Z.mod_unique _ _ (-1)); lia).
    destruct (Z.ltb_spec (v + 2 ^ 32) (2 ^ 31)); lia.
  - rewrite Z.mod_small by lia. destruct (Z.ltb_spec v (2 ^ 31)); lia.
Qed.
Lemma signed_32 p v : overflow_checks p = false -> - 2 ^ 31 <= v < 2 ^ 31 ->
  to_signed_nbit p v 32 = Ret v.
Proof.
  intros C Hv. unfold to_signed_nbit. rewrite !ck_i32_wrap by assumption. cbn [bind].
  change (wrap_i32 (2 ^ 32)) with 0. cbn [bind]. rewrite !ck_i32_wrap by assumption. cbn [bind].
  change (wrap_i32 (0 - 1)) with (-1). rewrite Z.land_m1_r.
  rewrite ck_u_ok by lia. cbn [bind]. rewrite shr_ok by lia. cbn [bind].
  destruct (Z.land (Z.shiftr v (32 - 1)) 1 =? 1); [|reflexivity].
  rewrite ck_i32_ok by lia. f_equal. lia.
Qed.
Lemma signed_31 p v : overflow_checks p = false -> - 2 ^ 31 <= v < 2 ^ 31 ->
  exists r, to_signed_nbit p v 31 = Ret r /\ - 2 ^ 30 <= r < 2 ^ 30 /\ (r - v) mod 2 ^ 31 = 0.
Proof.
  intros C Hv. unfold to_signed_nbit. rewrite !ck_i32_wrap by assumption. cbn [bind].
  change (wrap_i32 (2 ^ 31)) with (- 2 ^ 31). cbn [bind]. rewrite !ck_i32_wrap by assumption. cbn [bind].
  change (wrap_i32 (- 2 ^ 31 - 1)) with (Z.ones 31). rewrite Z.land_ones by lia.
  pose proof (Z.mod_pos_bound v (2 ^ 31) ltac:(lia)) as B.
  pose proof (Z.div_mod v (2 ^ 31) ltac:(lia)) as D.
  rewrite ck_u_ok by lia. cbn [bind]. rewrite shr_ok by lia. cbn [bind].
  rewrite Z.shiftr_div_pow2 by lia. change (31 - 1) with 30. rewrite land_1.
  set (m := v mod 2 ^ 31) in *. set (q := v / 2 ^ 31) in *.
  destruct (Z.lt_ge_cases m (2 ^ 30)) as [L|L].
  - rewrite (Z.div_small m) by lia. cbn. eexists. split; [reflexivity|]. split; [lia|].
    replace (m - v) with (- q * 2147483648) by lia. apply Z.mod_mul. lia.
  - assert (E : m / 2 ^ 30 = 1) by (symmetry; apply (Z.div_unique m (2 ^ 30) 1 (m - 2 ^ 30)); lia).
    rewrite E. change (1 mod 2 =? 1) with true. cbv iota.
    exists (m - 2 ^ 31). split; [|split; [lia|]].
    + rewrite ck_i32_wrap by assumption. f_equal. unfold wrap_i32. rewrite (Z.mod_small (m - - 2 ^ 31)) by lia.
      destruct (Z.ltb_spec (m - - 2 ^ 31) (2 ^ 31)); lia.
    + replace (m - 2 ^ 31 - v) with ((- q - 1) * 2 ^ 31) by lia. apply Z.mod_mul. lia.
Qed.

(** More bits than the type has: nothing happens.  No bits: zero. *)
Lemma wrap_0 n : 32 <= n -> wrap_i32 (2 ^ n) = 0.
Proof.
  intros H. unfold wrap_i32. replace n with ((n - 32) + 32) by lia. rewrite Z.pow_add_r by lia.
  rewrite Z.mod_mul by lia. reflexivity.
Qed.
Lemma signed_many p v n : overflow_checks p = false -> - 2 ^ 31 <= v < 2 ^ 31 -> 32 <= n < 2 ^ 32 ->
  to_signed_nbit p v n = Ret v.
Proof.
  intros C Hv Hn. unfold to_signed_nbit. rewrite !ck_i32_wrap by assumption. cbn [bind].
  rewrite wrap_0 by lia. cbn [bind]. rewrite !ck_i32_wrap by assumption. cbn [bind].
  change (wrap_i32 (0 - 1)) with (-1). rewrite Z.land_m1_r.
  rewrite ck_u_ok by lia. cbn [bind]. unfold shr. rewrite ck_shift_wrap by (assumption || lia). cbn [bind].
  destruct (Z.land (Z.shiftr v ((n - 1) mod 32)) 1 =? 1); [|reflexivity].
  rewrite ck_i32_ok by lia. f_equal. lia.
Qed.
Lemma signed_none p v : overflow_checks p = false -> to_signed_nbit p v 0 = Ret 0.
Proof.
  intros C. unfold to_signed_nbit. rewrite !ck_i32_wrap by assumption. cbn [bind].
  change (wrap_i32 (2 ^ 0)) with 1. rewrite !ck_i32_wrap by assumption. cbn [bind].
  change (wrap_i32 (1 - 1)) with 0. rewrite Z.land_0_r. rewrite ck_u_wrap by (assumption || lia). cbn [bind].
  unfold shr. rewrite ck_shift_wrap by (assumption || (vm_compute; congruence)). cbn [bind].
  rewrite Z.shiftr_0_l. reflexivity.
Qed.

(** ** set *)

(** Bit [k] of the result: some position of the (reversed) mask is [k] and receives a set bit. *)
Lemma set_lor_bits self ms : forall i k, 0 <= i -> Forall (fun m => 0 <= m < 32) ms -> 0 <= k ->
  Z.testbit (set_lor self i ms 0) k = true <->
  exists j, nth_error ms j = Some k /\ Z.testbit self (i + Z.of_nat j) = true.
Proof.
  induction ms as [|m ms IH]; intros i k Hi Hms Hk; cbn [set_lor].
  - rewrite Z.testbit_0_l. split; [discriminate|]. intros [[|j] [H _]]; discriminate H.
  - inversion Hms as [|x y Hm Hms']; subst. rewrite set_lor_acc, Z.lor_0_l, Z.lor_spec, orb_true_iff.
    rewrite IH by (assumption || lia). split.
    + intros [H|[j [H B]]].
      * exists 0%nat. destruct (Z.eq_dec m k) as [->|N].
        { split; [reflexivity|]. rewrite Z.add_0_r. pose proof (bit_range self i).
          destruct (Z.testbit self i) eqn:E; [reflexivity|]. rewrite bit_testbit, E in H by assumption.
          cbn [Z.b2z] in H. rewrite Z.mul_0_l, Z.testbit_0_l in H. discriminate H. }
        rewrite bit_pow_testbit in H; [discriminate H|apply bit_range|lia|lia|assumption].
      * exists (S j). split; [exact H|]. rewrite <- B. f_equal. lia.
    + intros [[|j] [H B]]; cbn [nth_error] in H.
      * left. injection H as <-. rewrite Z.add_0_r in B. rewrite bit_testbit, B by assumption.
        cbn [Z.b2z]. rewrite Z.mul_1_l. apply Z.pow2_bits_true. assumption.
      * right. exists j. split; [exact H|]. rewrite <- B. f_equal. lia.
Qed.

Lemma set_lor_range self ms : Forall (fun m => 0 <= m < 32) ms -> 0 <= set_lor self 0 ms 0 < 2 ^ 32.
Proof.
  intros H. enough (G : forall i acc, 0 <= acc < 2 ^ 32 -> 0 <= set_lor self i ms acc < 2 ^ 32)
    by (apply G; lia).
  induction ms as [|m ms IH]; intros i acc A; cbn [set_lor]; [assumption|].
  inversion H as [|x y Hm Hms]; subst. apply IH; [assumption|].
  pose proof (bit_range self i). pose proof (pow2_lt m 32 ltac:(lia)).
  assert (B : 0 <= bit self i * 2 ^ m < 2 ^ 32) by nia.
  assert (0 <= Z.lor acc (bit self i * 2 ^ m)) by (apply Z.lor_nonneg; lia).
  split; [assumption|].
  replace (Z.lor acc (bit self i * 2 ^ m)) with (Z.lor acc (bit self i * 2 ^ m) mod 2 ^ 32).
  { apply Z.mod_pos_bound. lia. }
  rewrite <- !Z.land_ones by lia. apply Z.bits_inj'. intros k Hk.
  rewrite Z.land_spec, Z.lor_spec.
  destruct (Z.lt_ge_cases k 32) as [L|L].
  - rewrite Z.ones_spec_low by lia. apply andb_true_r.
  - rewrite Z.ones_spec_high by lia. rewrite andb_false_r. symmetry.
    assert (X : forall a, 0 <= a < 2 ^ 32 -> Z.testbit a k = false).
    { intros a Ha. rewrite <- (Z.mod_small a (2 ^ 32)) by lia. apply Z.mod_pow2_bits_high. lia. }
    rewrite !X by assumption. reflexivity.
Qed.

Lemma nth_error_rev {A} (l : list A) j x :
  nth_error (rev l) j = Some x <-> (j < length l)%nat /\ nth_error l (length l - S j) = Some x.
Proof.
  split.
  - intros H. assert (L : (j < length l)%nat).
    { rewrite <- rev_length. apply nth_error_Some. congruence. }
    split; [assumption|]. rewrite <- H. symmetry.
    rewrite (nth_error_nth' _ x) by (rewrite rev_length; assumption).
    rewrite (nth_error_nth' l x) by lia. f_equal. apply rev_nth. assumption.
  - intros [L H]. rewrite (nth_error_nth' _ x) by (rewrite rev_length; assumption).
    rewrite (nth_error_nth' l x) in H by lia. rewrite rev_nth by assumption. assumption.
Qed.

Lemma set_value p self mask : Z.of_nat (length mask) <= 32 -> Forall (fun m => 0 <= m < 32) mask ->
  exists r, set_loop p self 0 (rev mask) 0 = Ret r /\ 0 <= r < 2 ^ 32 /\
    forall k, 0 <= k -> (Z.testbit r k = true <->
      exists j, (j < length mask)%nat /\ nth_error mask (length mask - S j) = Some k /\
        Z.testbit self (Z.of_nat j) = true).
Proof.
  intros L F. assert (F' : Forall (fun m => 0 <= m < 32) (rev mask)).
  { rewrite Forall_forall in *. intros x Hx. apply F. apply in_rev. assumption. }
  exists (set_lor self 0 (rev mask) 0). split; [|split].
  - apply set_loop_ok; [lia|rewrite rev_length; lia|assumption].
  - apply set_lor_range. assumption.
  - intros k Hk. rewrite set_lor_bits by (assumption || lia). split.
    + intros [j [H B]]. exists j. apply nth_error_rev in H. tauto.
    + intros [j [H [N B]]]. exists j. split; [apply nth_error_rev; tauto|exact B].
Qed.

Lemma set_loop_panics p self ms : overflow_checks p = true -> forall i acc, 0 <= i ->
  (32 < i + Z.of_nat (length ms) /\ ms <> [] \/ Exists (fun m => ~ 0 <= m < 32) ms) ->
  set_loop p self i ms acc = Panic POverflow.
Proof.
  intros C. induction ms as [|m ms IH]; intros i acc Hi H.
  - destruct H as [[_ H]|H]; [congruence|inversion H].
  - cbn [set_loop]. unfold shr. destruct (Z.lt_ge_cases i 32) as [L|L].
    + rewrite ck_shift_ok by lia. cbn [bind]. unfold shl_u.
      destruct (Z.leb_spec 0 m) as [M|M]; [destruct (Z.ltb_spec m 32) as [M'|M']|].
      * rewrite ck_shift_ok by lia. cbn [bind]. apply IH; [lia|].
        destruct H as [[H _]|H].
        { left. cbn [length] in H. rewrite Nat2Z.inj_succ in H. split; [lia|].
          intros ->. cbn in H. lia. }
        right. inversion H; [lia|assumption].
      * rewrite ck_shift_over; [reflexivity|lia|assumption].
      * rewrite ck_shift_over; [reflexivity|lia|assumption].
    + rewrite ck_shift_over; [reflexivity|lia|assumption].
Qed.

Lemma lor_u32 a b : 0 <= a < 2 ^ 32 -> 0 <= b < 2 ^ 32 -> 0 <= Z.lor a b < 2 ^ 32.
Proof.
  intros A B. assert (N : 0 <= Z.lor a b) by (apply Z.lor_nonneg; lia). split; [exact N|].
  replace (Z.lor a b) with (Z.lor a b mod 2 ^ 32); [apply Z.mod_pos_bound; lia|].
  rewrite <- Z.land_ones by lia. rewrite Z.land_lor_distr_l, !Z.land_ones, !Z.mod_small by lia. reflexivity.
Qed.

(** Without overflow checks positions and bit numbers wrap at 32. *)
Lemma set_loop_wraps p self ms : overflow_checks p = false -> Forall (fun m => 0 <= m) ms ->
  forall i acc, 0 <= i -> 0 <= acc < 2 ^ 32 ->
  exists r, set_loop p self i ms acc = Ret r /\ 0 <= r < 2 ^ 32 /\
    forall k, 0 <= k -> (Z.testbit r k = true <-> Z.testbit acc k = true \/
      exists j m, nth_error ms j = Some m /\ m mod 32 = k /\
        Z.testbit self ((i + Z.of_nat j) mod 32) = true).
Proof.
  intros C. induction ms as [|m ms IH]; intros F i acc Hi Ha; cbn [set_loop].
  - exists acc. split; [reflexivity|]. split; [assumption|]. intros k Hk. split; [auto|].
    intros [H|[[|j] [m [H _]]]]; [assumption|discriminate H..].
  - inversion F as [|x y Hm F']; subst. unfold shr, shl_u.
    rewrite !ck_shift_wrap by (assumption || lia). cbn [bind].
    pose proof (Z.mod_pos_bound i 32 ltac:(lia)) as Bi. pose proof (Z.mod_pos_bound m 32 ltac:(lia)) as Bm.
    set (b := Z.land (Z.shiftr self (i mod 32)) 1).
    assert (Eb : b = Z.b2z (Z.testbit self (i mod 32))).
    { unfold b. change 1 with (Z.ones 1). rewrite Z.land_ones by lia. rewrite Z.shiftr_div_pow2 by lia.
      symmetry. apply Z.testbit_spec'. lia. }
    assert (Hb : 0 <= b <= 1) by (rewrite Eb; destruct (Z.testbit self (i mod 32)); cbn; lia).
    pose proof (Z.pow_pos_nonneg 2 (m mod 32) ltac:(lia) ltac:(lia)).
    pose proof (Z.pow_lt_mono_r 2 (m mod 32) 32 ltac:(lia) ltac:(lia) ltac:(lia)).
    assert (Es : Z.shiftl b (m mod 32) mod 2 ^ 32 = b * 2 ^ (m mod 32)).
    { rewrite Z.shiftl_mul_pow2 by lia. apply Z.mod_small. nia. }
    rewrite Es.
    assert (Hs : 0 <= b * 2 ^ (m mod 32) < 2 ^ 32) by nia.
    assert (Hl : 0 <= Z.lor acc (b * 2 ^ (m mod 32)) < 2 ^ 32)
      by (apply lor_u32; assumption).
    destruct (IH F' (i + 1) (Z.lor acc (b * 2 ^ (m mod 32))) ltac:(lia) Hl) as [r [R [Hr B]]].
    exists r. split; [exact R|]. split; [exact Hr|]. intros k Hk. rewrite B by assumption.
    rewrite Z.lor_spec, orb_true_iff.
    assert (T : Z.testbit (b * 2 ^ (m mod 32)) k = true <-> m mod 32 = k /\ Z.testbit self (i mod 32) = true).
    { rewrite Eb. destruct (Z.testbit self (i mod 32)); cbn [Z.b2z].
      - rewrite Z.mul_1_l, Z.pow2_bits_eqb by lia. rewrite Z.eqb_eq. tauto.
      - rewrite Z.mul_0_l, Z.testbit_0_l. split; [discriminate|intros [_ H']; discriminate H']. }
    rewrite T. split.
    + intros [[H1|H1]|[j [m' [N [E T']]]]]; [auto|right; exists 0%nat, m|right; exists (S j), m'].
      * split; [reflexivity|]. rewrite Z.add_0_r. tauto.
      * split; [exact N|]. split; [exact E|]. rewrite <- T'. f_equal. f_equal. lia.
    + intros [H1|[[|j] [m' [N [E T']]]]]; [auto| |].
      * left. right. injection N as <-. rewrite Z.add_0_r in T'. auto.
      * right. exists j, m'. split; [exact N|]. split; [exact E|]. rewrite <- T'. f_equal. f_equal. lia.
Qed.

(** ** The statements *)

Lemma slice_n_bits n w hi lo : 0 <= n -> 0 <= lo <= hi -> bits_of (field w hi lo) w hi lo.
Proof.
  intros Hn H. split; [apply field_range; assumption|]. intros k Hk. apply field_bits; assumption.
Qed.

Lemma slice32_spec p w hi lo : is_u32 w -> 0 <= lo < 2 ^ 32 -> 0 <= hi < 2 ^ 32 ->
  (hi < lo -> slice_u32 p w hi lo = Panic PAssert) /\
  (lo <= hi -> lo < 32 -> hi - lo < 31 -> exists v, slice_u32 p w hi lo = Ret v /\ bits_of v w hi lo) /\
  (lo <= hi -> ~ (lo < 32 /\ hi - lo < 31) -> overflow_checks p = true ->
     slice_u32 p w hi lo = Panic POverflow) /\
  (lo <= hi -> hi - lo < 2 ^ 32 - 1 -> overflow_checks p = false ->
     exists v, slice_u32 p w hi lo = Ret v /\ bits_of v w (lo mod 32 + (hi - lo)) (lo mod 32)) /\
  (lo = 0 -> hi = 2 ^ 32 - 1 -> overflow_checks p = false -> slice_u32 p w hi lo = Ret 0).
Proof.
  intros Hw Hl Hh. unfold is_u32 in Hw. change (slice_u32 p w hi lo) with (slice_n 32 p w hi lo).
  split; [apply slice_n_assert|]. split; [|split; [|split]].
  - intros A B C. exists (field w hi lo). split; [apply slice_n_ok; lia|apply (slice_n_bits 32); lia].
  - intros A B C. apply slice_n_panics; try assumption; lia.
  - intros A B C. pose proof (Z.mod_pos_bound lo 32 ltac:(lia)). exists (field w (lo mod 32 + (hi - lo)) (lo mod 32)).
    split; [apply slice_n_release; try assumption; lia|apply (slice_n_bits 32); lia].
  - intros A B C. apply slice_n_none; try assumption; lia.
Qed.
Lemma slice16_spec p w hi lo : is_u16 w -> 0 <= lo < 2 ^ 32 -> 0 <= hi < 2 ^ 32 ->
  (hi < lo -> slice_u16 p w hi lo = Panic PAssert) /\
  (lo <= hi -> lo < 16 -> hi - lo < 15 -> exists v, slice_u16 p w hi lo = Ret v /\ bits_of v w hi lo) /\
  (lo <= hi -> ~ (lo < 16 /\ hi - lo < 15) -> overflow_checks p = true ->
     slice_u16 p w hi lo = Panic POverflow) /\
  (lo <= hi -> hi - lo < 2 ^ 32 - 1 -> overflow_checks p = false ->
     exists v, slice_u16 p w hi lo = Ret v /\ bits_of v w (lo mod 16 + (hi - lo)) (lo mod 16)) /\
  (lo = 0 -> hi = 2 ^ 32 - 1 -> overflow_checks p = false -> slice_u16 p w hi lo = Ret 0).
Proof.
  intros Hw Hl Hh. unfold is_u16 in Hw. change (slice_u16 p w hi lo) with (slice_n 16 p w hi lo).
  split; [apply slice_n_assert|]. split; [|split; [|split]].
  - intros A B C. exists (field w hi lo). split; [apply slice_n_ok; lia|apply (slice_n_bits 16); lia].
  - intros A B C. apply slice_n_panics; try assumption; lia.
  - intros A B C. pose proof (Z.mod_pos_bound lo 16 ltac:(lia)). exists (field w (lo mod 16 + (hi - lo)) (lo mod 16)).
    split; [apply slice_n_release; try assumption; lia|apply (slice_n_bits 16); lia].
  - intros A B C. apply slice_n_none; try assumption; lia.
Qed.

Lemma signed_spec p v n : - 2 ^ 31 <= v < 2 ^ 31 -> 0 <= n < 2 ^ 32 ->
  (1 <= n <= 30 -> exists r, to_signed_nbit p v n = Ret r /\ signed_low_bits r v n) /\
  (~ 1 <= n <= 30 -> overflow_checks p = true -> to_signed_nbit p v n = Panic POverflow) /\
  (n = 31 \/ n = 32 -> overflow_checks p = false ->
     exists r, to_signed_nbit p v n = Ret r /\ signed_low_bits r v n) /\
  (32 <= n -> overflow_checks p = false -> to_signed_nbit p v n = Ret v) /\
  (n = 0 -> overflow_checks p = false -> to_signed_nbit p v n = Ret 0).
Proof.
  intros Hv Hn. split; [apply signed_value|]. split; [|split; [|split; [|intros -> C; apply signed_none; assumption]]].
  - intros A B. apply signed_panics; [assumption|lia|assumption].
  - intros [-> | ->] C; [exact (signed_31 p v C Hv)|]. exists v. split; [apply signed_32; assumption|].
    split; [exact Hv|]. rewrite Z.sub_diag. reflexivity.
  - intros A C. apply signed_many; try assumption. lia.
Qed.

Lemma Exists_not_Forall (l : list Z) : ~ Forall (fun m => 0 <= m < 32) l ->
  Exists (fun m => ~ 0 <= m < 32) l.
Proof.
  induction l as [|m l IH]; intros H; [exfalso; apply H; constructor|].
  destruct (Z.leb_spec 0 m) as [A|A]; [destruct (Z.ltb_spec m 32) as [B|B]|].
  - apply Exists_cons_tl. apply IH. intros F. apply H. constructor; [lia|assumption].
  - apply Exists_cons_hd. lia.
  - apply Exists_cons_hd. lia.
Qed.
Lemma set_release p w mask : Forall (fun m => 0 <= m) mask -> overflow_checks p = false ->
  exists r, set_loop p w 0 (rev mask) 0 = Ret r /\ scattered_mod32 r w mask.
Proof.
  intros F C. assert (F' : Forall (fun m => 0 <= m) (rev mask)).
  { rewrite Forall_forall in *. intros x Hx. apply F. apply in_rev. assumption. }
  destruct (set_loop_wraps p w (rev mask) C F' 0 0 ltac:(lia) ltac:(lia)) as [r [R [Hr B]]].
  exists r. split; [exact R|]. split; [exact Hr|]. intros k Hk. rewrite B by assumption.
  rewrite Z.testbit_0_l. split.
  - intros [H|[j [m [N [E T]]]]]; [discriminate H|]. exists j, m. apply nth_error_rev in N. tauto.
  - intros [j [m [L [N [E T]]]]]. right. exists j, m. rewrite nth_error_rev. tauto.
Qed.
Lemma set_spec p w mask : 
  (Z.of_nat (length mask) <= 32 -> Forall (fun m => 0 <= m < 32) mask ->
     exists r, set_loop p w 0 (rev mask) 0 = Ret r /\ scattered r w mask) /\
  (32 < Z.of_nat (length mask) \/ ~ Forall (fun m => 0 <= m < 32) mask -> overflow_checks p = true ->
     set_loop p w 0 (rev mask) 0 = Panic POverflow) /\
  (Forall (fun m => 0 <= m) mask -> overflow_checks p = false ->
     exists r, set_loop p w 0 (rev mask) 0 = Ret r /\ scattered_mod32 r w mask).
Proof.
  split; [intros A B; exact (set_value p w mask A B)|]. split; [|exact (set_release p w mask)]. intros H C.
  apply set_loop_panics; [assumption|lia|]. destruct H as [H|H].
  - left. rewrite rev_length. split; [lia|]. intros E.
    apply (f_equal (@length Z)) in E. rewrite rev_length in E. cbn in E. lia.
  - right. apply Exists_not_Forall in H. rewrite Exists_exists in *. destruct H as [m [I N]].
    exists m. split; [apply in_rev; rewrite rev_involutive; assumption|assumption].
Qed.
