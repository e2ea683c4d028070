(** Proof utilities: finite sweeps, decidable equalities, and the meaning of the Rust
    primitives on in-range arguments. *)
From Coq Require Import ZArith List Bool Lia.
From Coq Require Import ZifyBool.
From Verif Require Import Rust Types DecodeUtil Dec32 Dec16 Decode Spec.
Import ListNotations.
Local Open Scope Z_scope.

(** ** Complete sweeps over [k]-bit words *)

Fixpoint allw (k : nat) (base : Z) (f : Z -> bool) : bool :=
  match k with
  | O => f base
  | S k' => allw k' base f && allw k' (base + 2 ^ Z.of_nat k') f
  end.

Lemma allw_spec k : forall base f, allw k base f = true ->
  forall w, base <= w < base + 2 ^ Z.of_nat k -> f w = true.
Proof.
  induction k as [|k IH]; intros base f H w Hw.
  - simpl in *. replace w with base by lia. exact H.
  - cbn [allw] in H. apply andb_true_iff in H. destruct H as [H1 H2].
    rewrite Nat2Z.inj_succ, Z.pow_succ_r in Hw by lia.
    destruct (Z.lt_ge_cases w (base + 2 ^ Z.of_nat k)) as [Hl|Hl].
    + apply (IH base f H1). lia.
    + apply (IH _ f H2). lia.
Qed.

Lemma allw16 f : allw 16 0 f = true -> forall w, is_u16 w -> f w = true.
Proof. intros H w Hw. apply (allw_spec 16 0 f H). unfold is_u16 in Hw. simpl. lia. Qed.

(** ** Decidable equalities *)

Lemma Isa_dec (a b : Isa) : {a = b} + {a <> b}.
Proof. decide equality. Defined.
Lemma OpcodeKind_dec (a b : OpcodeKind) : {a = b} + {a <> b}.
Proof. decide equality; decide equality. Defined.
Lemma optZ_dec (a b : option Z) : {a = b} + {a <> b}.
Proof. decide equality. apply Z.eq_dec. Defined.
Lemma InstFormat_dec (a b : InstFormat) : {a = b} + {a <> b}.
Proof. decide equality. Defined.
Lemma Instruction_dec (a b : Instruction) : {a = b} + {a <> b}.
Proof.
  decide equality; try apply optZ_dec; try apply OpcodeKind_dec;
    try apply InstFormat_dec; apply bool_dec.
Defined.
Lemma DecodingError_dec (a b : DecodingError) : {a = b} + {a <> b}.
Proof. decide equality. Defined.
Lemma result_dec {A E} (dA : forall a b : A, {a = b} + {a <> b})
  (dE : forall a b : E, {a = b} + {a <> b}) (a b : result A E) : {a = b} + {a <> b}.
Proof. decide equality. Defined.
Lemma panic_dec (a b : panic) : {a = b} + {a <> b}.
Proof. decide equality. Defined.
Lemma outcome_dec {A} (dA : forall a b : A, {a = b} + {a <> b})
  (a b : outcome A) : {a = b} + {a <> b}.
Proof. decide equality. apply panic_dec. Defined.

Definition decres_dec (a b : outcome (result Instruction DecodingError)) :=
  outcome_dec (result_dec Instruction_dec DecodingError_dec) a b.
Definition opres_dec (a b : outcome (result OpcodeKind DecodingError)) :=
  outcome_dec (result_dec OpcodeKind_dec DecodingError_dec) a b.

Definition dec2b {P Q} (d : {P} + {Q}) : bool := if d then true else false.
Lemma dec2b_true {P Q : Prop} (d : {P} + {Q}) : dec2b d = true -> P.
Proof. destruct d; simpl; congruence. Qed.

(** ** Fields *)

Lemma field_range w hi lo : 0 <= lo <= hi -> 0 <= field w hi lo < 2 ^ (hi - lo + 1).
Proof. intros H. unfold field. apply Z.mod_pos_bound. apply Z.pow_pos_nonneg; lia. Qed.

Lemma field_bound w hi lo n : 0 <= lo <= hi -> hi - lo + 1 <= n -> 0 <= field w hi lo < 2 ^ n.
Proof.
  intros H Hn. pose proof (field_range w hi lo H).
  pose proof (Z.pow_le_mono_r 2 (hi - lo + 1) n). lia.
Qed.

Definition bit (w k : Z) : Z := (w / 2 ^ k) mod 2.

Lemma bit_testbit w k : 0 <= k -> bit w k = Z.b2z (Z.testbit w k).
Proof. intros. unfold bit. symmetry. apply Z.testbit_spec'. assumption. Qed.

Lemma bit_range w k : 0 <= bit w k <= 1.
Proof. unfold bit. pose proof (Z.mod_pos_bound (w / 2 ^ k) 2). lia. Qed.

Lemma field_one w k : field w k k = bit w k.
Proof. unfold field, bit. replace (k - k + 1) with 1 by lia. reflexivity. Qed.

Lemma field_split w hi lo : 0 <= lo < hi ->
  field w hi lo = bit w lo + 2 * field w hi (lo + 1).
Proof.
  intros H. unfold field, bit.
  replace (hi - lo + 1) with (1 + (hi - (lo + 1) + 1)) by lia.
  rewrite Z.pow_add_r by lia. change (2 ^ 1) with 2.
  rewrite (Z.pow_add_r 2 lo 1) by lia. change (2 ^ 1) with 2.
  rewrite <- Z.div_div by (try lia; apply Z.pow_nonzero; lia).
  rewrite Z.rem_mul_r; [reflexivity | lia | apply Z.pow_pos_nonneg; lia].
Qed.

Lemma field_testbit w hi lo k : 0 <= lo <= hi -> 0 <= k ->
  Z.testbit (field w hi lo) k = Z.testbit w (lo + k) && (k <? hi - lo + 1).
Proof.
  intros Hlo Hk. unfold field.
  destruct (Z.ltb_spec k (hi - lo + 1)) as [Hl|Hl].
  - rewrite Z.mod_pow2_bits_low by lia. rewrite Z.div_pow2_bits by lia.
    rewrite andb_true_r. f_equal. lia.
  - rewrite andb_false_r. apply Z.mod_pow2_bits_high. lia.
Qed.

Lemma bit_field w hi lo k : 0 <= lo <= hi -> 0 <= k <= hi - lo ->
  bit (field w hi lo) k = bit w (lo + k).
Proof.
  intros Hl Hk. rewrite !bit_testbit by lia. rewrite field_testbit by lia.
  destruct (Z.ltb_spec k (hi - lo + 1)); [|lia]. rewrite andb_true_r. reflexivity.
Qed.

Lemma field_field w h l hi lo : 0 <= l <= h -> 0 <= lo <= hi -> hi <= h - l ->
  field (field w h l) hi lo = field w (l + hi) (l + lo).
Proof.
  intros Hl Hlo Hhi. apply Z.bits_inj'. intros k Hk.
  rewrite !field_testbit by lia.
  replace (l + hi - (l + lo) + 1) with (hi - lo + 1) by lia.
  replace (l + lo + k) with (l + (lo + k)) by lia.
  destruct (Z.ltb_spec k (hi - lo + 1)); [|rewrite !andb_false_r; reflexivity].
  destruct (Z.ltb_spec (lo + k) (h - l + 1)); [|lia].
  rewrite !andb_true_r. reflexivity.
Qed.

(** ** Rust primitives on in-range arguments *)

Lemma ck_u_ok n p v : 0 <= v < 2 ^ n -> ck_u n p v = Ret v.
Proof.
  intros H. unfold ck_u.
  destruct (Z.leb_spec 0 v); [|lia]. destruct (Z.ltb_spec v (2 ^ n)); [|lia]. reflexivity.
Qed.

Lemma ck_i32_ok p v : - 2 ^ 31 <= v < 2 ^ 31 -> ck_i32 p v = Ret v.
Proof.
  intros H. unfold ck_i32.
  destruct (Z.leb_spec (- 2 ^ 31) v); [|lia]. destruct (Z.ltb_spec v (2 ^ 31)); [|lia].
  reflexivity.
Qed.

Lemma ck_shift_ok n p s : 0 <= s < n -> ck_shift n p s = Ret s.
Proof.
  intros H. unfold ck_shift.
  destruct (Z.leb_spec 0 s); [|lia]. destruct (Z.ltb_spec s n); [|lia]. reflexivity.
Qed.

Lemma shr_ok n p x s : 0 <= s < n -> shr n p x s = Ret (Z.shiftr x s).
Proof. intros H. unfold shr. rewrite ck_shift_ok by assumption. reflexivity. Qed.

Lemma pow2_lt a b : 0 <= a < b -> 0 < 2 ^ a < 2 ^ b.
Proof. intros. split; [apply Z.pow_pos_nonneg; lia | apply Z.pow_lt_mono_r; lia]. Qed.

Lemma slice_u32_ok p w hi lo : 0 <= lo <= hi -> hi < 32 -> hi - lo + 1 < 32 ->
  slice_u32 p w hi lo = Ret (field w hi lo).
Proof.
  intros H Hh Hw. unfold slice_u32.
  destruct (Z.geb_spec hi lo); [|lia].
  rewrite shr_ok by lia. cbn [bind].
  rewrite ck_u_ok by lia. cbn [bind].
  rewrite ck_u_ok by lia. cbn [bind].
  pose proof (pow2_lt (hi - lo + 1) 32 ltac:(lia)).
  rewrite ck_u_ok by lia. cbn [bind].
  rewrite ck_u_ok by lia. cbn [bind].
  f_equal. unfold field. rewrite Z.shiftr_div_pow2 by lia.
  rewrite <- Z.land_ones by lia. rewrite Z.ones_equiv. f_equal; lia.
Qed.

Lemma slice_u16_ok p w hi lo : 0 <= lo <= hi -> hi < 16 -> hi - lo + 1 < 16 ->
  slice_u16 p w hi lo = Ret (field w hi lo).
Proof.
  intros H Hh Hw. unfold slice_u16.
  destruct (Z.geb_spec hi lo); [|lia].
  rewrite shr_ok by lia. cbn [bind].
  rewrite ck_u_ok by lia. cbn [bind].
  rewrite ck_u_ok by lia. cbn [bind].
  pose proof (pow2_lt (hi - lo + 1) 16 ltac:(lia)).
  rewrite ck_u_ok by lia. cbn [bind].
  rewrite ck_u_ok by lia. cbn [bind].
  f_equal. unfold field. rewrite Z.shiftr_div_pow2 by lia.
  rewrite <- Z.land_ones by lia. rewrite Z.ones_equiv. f_equal; lia.
Qed.

Lemma u8_ok w hi lo : 0 <= lo <= hi -> hi - lo + 1 <= 8 ->
  u8_try_from_unwrap (field w hi lo) = Ret (field w hi lo).
Proof.
  intros H Hn. unfold u8_try_from_unwrap.
  pose proof (field_bound w hi lo 8 H Hn).
  destruct (Z.ltb_spec (field w hi lo) (2 ^ 8)); [reflexivity|lia].
Qed.

Lemma u16_ok w hi lo : 0 <= lo <= hi -> hi - lo + 1 <= 16 ->
  u16_try_from_unwrap (field w hi lo) = Ret (field w hi lo).
Proof.
  intros H Hn. unfold u16_try_from_unwrap.
  pose proof (field_bound w hi lo 16 H Hn).
  destruct (Z.ltb_spec (field w hi lo) (2 ^ 16)); [reflexivity|lia].
Qed.

Lemma usize_ge16 p : platform_ok p -> 2 ^ 16 <= 2 ^ usize_bits p.
Proof. intros [H|[H|H]]; rewrite H; lia. Qed.

Lemma as_usize_ok p v : platform_ok p -> 0 <= v < 2 ^ 16 -> as_usize p v = v.
Proof.
  intros Hp Hv. unfold as_usize. pose proof (usize_ge16 p Hp). apply Z.mod_small. lia.
Qed.

Lemma as_usize_field p w hi lo : platform_ok p -> 0 <= lo <= hi -> hi - lo + 1 <= 16 ->
  as_usize p (field w hi lo) = field w hi lo.
Proof.
  intros Hp H Hn. apply as_usize_ok; [assumption|]. apply field_bound; assumption.
Qed.

Lemma as_i32_ok v : 0 <= v < 2 ^ 31 -> as_i32 v = v.
Proof.
  intros H. unfold as_i32, wrap_i32. rewrite Z.mod_small by lia.
  destruct (Z.ltb_spec v (2 ^ 31)); [reflexivity|lia].
Qed.

Lemma to_signed_nbit_ok p v n : 1 <= n <= 30 -> 0 <= v < 2 ^ n ->
  to_signed_nbit p v n = Ret (sext n v).
Proof.
  intros Hn Hv. unfold to_signed_nbit, sext.
  pose proof (pow2_lt n 31 ltac:(lia)) as Hp.
  rewrite ck_i32_ok by lia. cbn [bind].
  rewrite ck_i32_ok by lia. cbn [bind].
  replace (2 ^ n - 1) with (Z.ones n) by (rewrite Z.ones_equiv; lia).
  rewrite Z.land_ones by lia. rewrite (Z.mod_small v) by lia.
  rewrite ck_u_ok by lia. cbn [bind].
  rewrite shr_ok by lia. cbn [bind].
  change 1 with (Z.ones 1) at 2. rewrite Z.land_ones by lia.
  rewrite Z.shiftr_div_pow2 by lia.
  assert (Hpn : 2 ^ n = 2 * 2 ^ (n - 1)).
  { rewrite <- Z.pow_succ_r by lia. f_equal. lia. }
  pose proof (Z.pow_pos_nonneg 2 (n - 1) ltac:(lia) ltac:(lia)) as Hq.
  change (2 ^ 1) with 2.
  destruct (Z.ltb_spec v (2 ^ (n - 1))) as [Hl|Hl].
  - rewrite Z.div_small by lia. reflexivity.
  - assert (Hd : v / 2 ^ (n - 1) = 1).
    { symmetry. apply (Z.div_unique v (2 ^ (n - 1)) 1 (v - 2 ^ (n - 1))); lia. }
    rewrite Hd. simpl (1 mod 2 =? 1).
    rewrite ck_i32_ok by lia. reflexivity.
Qed.

(** ** [set] *)

(** Pure version of the loop. *)
Fixpoint set_lor (self i : Z) (ms : list Z) (acc : Z) : Z :=
  match ms with
  | [] => acc
  | m :: ms' => set_lor self (i + 1) ms' (Z.lor acc (bit self i * 2 ^ m))
  end.

Fixpoint set_val (self i : Z) (ms : list Z) : Z :=
  match ms with
  | [] => 0
  | m :: ms' => bit self i * 2 ^ m + set_val self (i + 1) ms'
  end.

Lemma land_1 a : Z.land a 1 = a mod 2.
Proof. change 1 with (Z.ones 1). rewrite Z.land_ones by lia. reflexivity. Qed.

Lemma set_loop_ok p self ms : forall i acc,
  0 <= i -> i + Z.of_nat (length ms) <= 32 -> Forall (fun m => 0 <= m < 32) ms ->
  set_loop p self i ms acc = Ret (set_lor self i ms acc).
Proof.
  induction ms as [|m ms IH]; intros i acc Hi Hlen Hms; [reflexivity|].
  cbn [length] in Hlen. rewrite Nat2Z.inj_succ in Hlen. inversion Hms; subst.
  cbn [set_loop set_lor]. rewrite shr_ok by lia. cbn [bind].
  unfold shl_u. rewrite ck_shift_ok by lia. cbn [bind].
  rewrite land_1. rewrite Z.shiftr_div_pow2 by lia.
  change ((self / 2 ^ i) mod 2) with (bit self i).
  rewrite Z.shiftl_mul_pow2 by lia.
  rewrite Z.mod_small.
  - apply IH; [lia|lia|assumption].
  - pose proof (bit_range self i). pose proof (pow2_lt m 32 ltac:(lia)). nia.
Qed.

Lemma set_lor_acc self ms : forall i acc,
  set_lor self i ms acc = Z.lor acc (set_lor self i ms 0).
Proof.
  induction ms as [|m ms IH]; intros i acc; cbn [set_lor].
  - rewrite Z.lor_0_r. reflexivity.
  - rewrite IH. rewrite (IH (i + 1) (Z.lor 0 _)). rewrite Z.lor_0_l.
    rewrite Z.lor_assoc. reflexivity.
Qed.

Lemma bit_pow_testbit b m k : 0 <= b <= 1 -> 0 <= m -> 0 <= k -> m <> k ->
  Z.testbit (b * 2 ^ m) k = false.
Proof.
  intros Hb Hm Hk Hmk. assert (b = 0 \/ b = 1) as [-> | ->] by lia.
  - rewrite Z.mul_0_l. apply Z.testbit_0_l.
  - rewrite Z.mul_1_l. apply Z.pow2_bits_false. lia.
Qed.

Lemma set_lor_testbit_out self ms : forall i k, Forall (fun m => 0 <= m < 32) ms -> 0 <= k ->
  ~ In k ms -> Z.testbit (set_lor self i ms 0) k = false.
Proof.
  induction ms as [|m ms IH]; intros i k Hms Hk Hin; cbn [set_lor].
  - apply Z.testbit_0_l.
  - inversion Hms; subst. rewrite set_lor_acc, Z.lor_spec, Z.lor_0_l.
    rewrite bit_pow_testbit; [|apply bit_range|lia|lia|].
    + cbn [orb]. apply IH; [assumption|assumption|]. intro; apply Hin; right; assumption.
    + intro; apply Hin; left; assumption.
Qed.

Lemma lor_add a b : (forall k, 0 <= k -> Z.testbit a k = true -> Z.testbit b k = false) ->
  Z.lor a b = a + b.
Proof.
  intros H. assert (Hand : Z.land a b = 0).
  { apply Z.bits_inj'. intros k Hk. rewrite Z.land_spec, Z.bits_0.
    destruct (Z.testbit a k) eqn:E; [|reflexivity]. rewrite (H k Hk E). reflexivity. }
  rewrite <- Z.lxor_lor by assumption. symmetry. apply Z.add_nocarry_lxor. assumption.
Qed.

Lemma set_lor_val self ms : forall i, Forall (fun m => 0 <= m < 32) ms -> NoDup ms ->
  set_lor self i ms 0 = set_val self i ms.
Proof.
  induction ms as [|m ms IH]; intros i Hms Hnd; cbn [set_lor set_val]; [reflexivity|].
  inversion Hms; subst. inversion Hnd; subst.
  rewrite set_lor_acc, Z.lor_0_l. rewrite lor_add.
  - rewrite IH by assumption. reflexivity.
  - intros k Hk Hb. destruct (Z.eq_dec m k) as [->|Hne].
    + apply set_lor_testbit_out; assumption.
    + rewrite bit_pow_testbit in Hb; [congruence|apply bit_range|lia|lia|assumption].
Qed.

(** Two [set]s with disjoint masks. *)
Lemma set_lor_disjoint s1 i1 m1 s2 i2 m2 :
  Forall (fun m => 0 <= m < 32) m1 -> Forall (fun m => 0 <= m < 32) m2 ->
  NoDup m1 -> NoDup m2 -> (forall m, In m m1 -> ~ In m m2) ->
  Z.lor (set_lor s1 i1 m1 0) (set_lor s2 i2 m2 0) = set_val s1 i1 m1 + set_val s2 i2 m2.
Proof.
  intros H1 H2 N1 N2 D. rewrite lor_add.
  - rewrite !set_lor_val by assumption. reflexivity.
  - intros k Hk Hb. destruct (in_dec Z.eq_dec k m1) as [Hin|Hin].
    + apply set_lor_testbit_out; [assumption|assumption|]. apply D. assumption.
    + rewrite set_lor_testbit_out in Hb by assumption. congruence.
Qed.

(** Boolean version of the side conditions. *)
Definition mask_ok (ms : list Z) : bool :=
  forallb (fun m => (0 <=? m) && (m <? 32)) ms && (Z.of_nat (length ms) <=? 32).

Lemma mask_ok_spec ms : mask_ok ms = true ->
  Forall (fun m => 0 <= m < 32) ms /\ Z.of_nat (length ms) <= 32.
Proof.
  unfold mask_ok. rewrite andb_true_iff. intros [H1 H2]. split; [|lia].
  apply Forall_forall. rewrite forallb_forall in H1. intros x Hx. specialize (H1 x Hx). lia.
Qed.

Lemma set_u32_ok p self mask : mask_ok (rev mask) = true ->
  set_u32 p self mask = Ret (set_lor self 0 (rev mask) 0).
Proof. intros H. apply mask_ok_spec in H. apply set_loop_ok; [lia|lia|tauto]. Qed.

Lemma set_u16_ok p self mask : mask_ok (rev mask) = true ->
  set_u16 p self mask = Ret (set_lor self 0 (rev mask) 0).
Proof. intros H. apply mask_ok_spec in H. apply set_loop_ok; [lia|lia|tauto]. Qed.
