(** Proofs for C57. *)
From Coq Require Import ZArith List Bool Lia Permutation.
From Verif Require Import Rust Types DecodeUtil SpecHelp SpecExample.
From Verif Require Helpers Text.
Import ListNotations.
Local Open Scope Z_scope.

Lemma entry_nth_error : forall mask j, (j < length mask)%nat ->
  nth_error mask (length mask - S j) = Some (entry mask j).
Proof. intros mask j H. unfold entry. apply nth_error_nth'. lia. Qed.

Lemma entry_range : forall mask j, reordering mask -> (j < length mask)%nat ->
  0 <= entry mask j < Z.of_nat (length mask).
Proof.
  intros mask j P H.
  assert (I : In (entry mask j) mask) by (apply nth_In; lia).
  apply (Permutation_in _ P) in I. apply in_map_iff in I. destruct I as [n [E I]].
  apply in_seq in I. lia.
Qed.

Lemma reordering_nodup : forall mask, reordering mask -> NoDup mask.
Proof.
  intros mask P. apply (Permutation_NoDup (Permutation_sym P)).
  apply FinFun.Injective_map_NoDup; [intros a b; lia|apply seq_NoDup].
Qed.

Lemma entry_inj : forall mask i j, reordering mask -> (i < length mask)%nat -> (j < length mask)%nat ->
  entry mask i = entry mask j -> i = j.
Proof.
  intros mask i j P Hi Hj E. pose proof (reordering_nodup _ P) as N.
  rewrite (NoDup_nth _ 0) in N. specialize (N (length mask - S i) (length mask - S j))%nat.
  unfold entry in E. assert (length mask - S i = length mask - S j)%nat by (apply N; try lia; exact E).
  lia.
Qed.

Lemma entry_surj : forall mask k, reordering mask -> 0 <= k < Z.of_nat (length mask) ->
  exists j, (j < length mask)%nat /\ entry mask j = k.
Proof.
  intros mask k P H.
  assert (I : In k mask).
  { apply (Permutation_in _ (Permutation_sym P)). apply in_map_iff. exists (Z.to_nat k).
    split; [lia|]. apply in_seq. lia. }
  apply (In_nth _ _ 0) in I. destruct I as [n [L E]].
  exists (length mask - S n)%nat. split; [lia|]. unfold entry.
  replace (length mask - S (length mask - S n))%nat with n by lia. exact E.
Qed.

Lemma scattered_entry : forall r w mask k, scattered r w mask -> 0 <= k ->
  (Z.testbit r k = true <-> exists j, (j < length mask)%nat /\ entry mask j = k /\
     Z.testbit w (Z.of_nat j) = true).
Proof.
  intros r w mask k [_ S] H. rewrite (S k H). split; intros [j [L [E B]]]; exists j; repeat split; auto.
  - rewrite (entry_nth_error _ _ L) in E. congruence.
  - rewrite (entry_nth_error _ _ L). congruence.
Qed.

Lemma small_bits : forall w n, 0 <= w < 2 ^ n -> forall k, n <= k -> Z.testbit w k = false.
Proof.
  intros w n H k K. destruct (Z.eq_dec w 0) as [->|Z0]; [apply Z.testbit_0_l|].
  apply Z.bits_above_log2; [lia|]. apply Z.log2_lt_pow2; try lia.
  apply Z.lt_le_trans with (2 ^ n); [lia|].
  apply Z.pow_le_mono_r; lia.
Qed.

Lemma bits_small : forall w n, 0 <= w -> (forall k, n <= k -> Z.testbit w k = false) -> 0 <= n -> w < 2 ^ n.
Proof.
  intros w n H B N. destruct (Z.eq_dec w 0) as [->|Z0]; [apply Z.pow_pos_nonneg; lia|].
  apply Z.log2_lt_pow2; [lia|]. destruct (Z_lt_le_dec (Z.log2 w) n) as [L|L]; [exact L|].
  specialize (B _ L). rewrite Z.bit_log2 in B by lia. discriminate.
Qed.

Section Set_.
Variable setf : platform -> Z -> list Z -> outcome Z.
Variable mask : list Z.
Hypothesis spec : forall p w, exists r, setf p w mask = Ret r /\ scattered r w mask.
Hypothesis P : reordering mask.

Lemma undone : forall p w, 0 <= w < 2 ^ Z.of_nat (length mask) ->
  exists r, setf p w mask = Ret r /\ collected w r mask.
Proof using spec P.
  intros p w H. destruct (spec p w) as [r [E S]]. exists r. split; [exact E|].
  split; [exact H|]. intros j L.
  apply eq_true_iff_eq. pose proof (entry_range mask j P L) as R.
  rewrite (scattered_entry r w mask (entry mask j) S (proj1 R)). split.
  - intros B. exists j. auto.
  - intros [i [Li [Ei B]]]. rewrite <- (entry_inj mask i j P Li L Ei). exact B.
Qed.

Lemma undoes : forall p w r, 0 <= w < 2 ^ Z.of_nat (length mask) -> collected r w mask ->
  setf p r mask = Ret w.
Proof using spec P.
  intros p w r H [R C]. destruct (spec p r) as [v [E S]]. rewrite E. f_equal.
  apply Z.bits_inj'. intros k K. apply eq_true_iff_eq.
  rewrite (scattered_entry v r mask k S K). split.
  - intros [j [L [Ej B]]]. rewrite (C j L), Ej in B. exact B.
  - intros B. destruct (Z_lt_le_dec k (Z.of_nat (length mask))) as [L|L].
    + destruct (entry_surj mask k P (conj K L)) as [j [Lj Ej]]. exists j. repeat split; auto.
      rewrite (C j Lj), Ej. exact B.
    + rewrite (small_bits w _ H k L) in B. discriminate.
Qed.

Lemma agree : forall p,
  (forall w, 0 <= w < 2 ^ Z.of_nat (length mask) ->
     exists r, setf p w mask = Ret r /\ collected r w mask) <-> own_inverse mask.
Proof using spec P.
  intros p. split.
  - intros A j L. pose proof (entry_range mask j P L) as R.
    destruct (A (2 ^ entry mask j)) as [r [E [_ C]]].
    { split; [apply Z.pow_nonneg; lia|]. apply Z.pow_lt_mono_r; lia. }
    destruct (spec p (2 ^ entry mask j)) as [r' [E' S]].
    assert (r' = r) by congruence. subst r'.
    specialize (C j L). rewrite Z.pow2_bits_true in C by lia.
    apply (scattered_entry r _ mask (Z.of_nat j) S) in C; [|lia].
    destruct C as [i [Li [Ei B]]].
    assert (Z.of_nat i = entry mask j).
    { destruct (Z.eq_dec (entry mask j) (Z.of_nat i)) as [Q|Q]; [auto|].
      rewrite Z.pow2_bits_false in B by lia. discriminate. }
    rewrite <- H, Nat2Z.id. exact Ei.
  - intros O w H. destruct (spec p w) as [r [E S]]. exists r. split; [exact E|].
    assert (B : forall j, (j < length mask)%nat ->
              Z.testbit r (Z.of_nat j) = Z.testbit w (entry mask j)).
    { intros j L. apply eq_true_iff_eq. rewrite (scattered_entry r w mask (Z.of_nat j) S) by lia.
      pose proof (entry_range mask j P L) as R.
      assert (Li : (Z.to_nat (entry mask j) < length mask)%nat) by lia.
      split.
      - intros [i [Ll [Ei B]]].
        assert (i = Z.to_nat (entry mask j)).
        { apply (entry_inj mask _ _ P Ll Li). rewrite (O j L). exact Ei. }
        subst i. rewrite Z2Nat.id in B by lia. exact B.
      - intros B. exists (Z.to_nat (entry mask j)). repeat split; auto.
        rewrite Z2Nat.id by lia. exact B. }
    split; [|exact B]. pose proof (proj1 S) as R0. split; [lia|].
    apply bits_small; [lia| |lia]. intros k K.
    destruct (Z.testbit r k) eqn:Q; [|reflexivity].
    apply (scattered_entry r w mask k S) in Q; [|lia]. destruct Q as [j [L [Ej _]]].
    pose proof (entry_range mask j P L). lia.
Qed.
End Set_.

Lemma small_spec : forall mask, reordering mask -> (length mask <= 32)%nat ->
  forall p w, exists r, set_u32 p w mask = Ret r /\ scattered r w mask.
Proof.
  intros mask P L p w. apply Helpers.set_spec; [lia|]. apply Forall_forall. intros m I.
  apply (Permutation_in _ P) in I. apply in_map_iff in I. destruct I as [n [E I]].
  apply in_seq in I. lia.
Qed.

Lemma inverse_of_example : forall p mask, reordering mask -> (length mask <= 32)%nat ->
  (forall w, 0 <= w < 2 ^ Z.of_nat (length mask) ->
     exists r, set_u32 p w mask = Ret r /\ set_u16 p w mask = Ret r /\ collected w r mask) /\
  (forall w r, 0 <= w < 2 ^ Z.of_nat (length mask) -> collected r w mask ->
     set_u32 p r mask = Ret w /\ set_u16 p r mask = Ret w) /\
  ((forall w, 0 <= w < 2 ^ Z.of_nat (length mask) ->
      exists r, set_u32 p w mask = Ret r /\ collected r w mask) <-> own_inverse mask).
Proof.
  intros p mask P L. pose proof (small_spec mask P L) as S.
  split; [|split].
  - intros w H. destruct (undone set_u32 mask S P p w H) as [r [E C]]. exists r. auto.
  - intros w r H C. pose proof (undoes set_u32 mask S P p w r H C). auto.
  - exact (agree set_u32 mask S P p).
Qed.

(** ** The examples *)

Lemma reordering_dec : forall mask,
  forallb (fun n => existsb (Z.eqb (Z.of_nat n)) mask) (seq 0 (length mask)) = true -> reordering mask.
Proof.
  intros mask H. unfold reordering. apply Permutation_sym. apply NoDup_Permutation_bis.
  - apply FinFun.Injective_map_NoDup; [intros a b; lia|apply seq_NoDup].
  - rewrite map_length, seq_length. lia.
  - intros x I. apply in_map_iff in I. destruct I as [n [E I]]. subst x.
    rewrite forallb_forall in H. specialize (H n I). apply existsb_exists in H.
    destruct H as [y [Iy E]]. apply Z.eqb_eq in E. subst y. exact Iy.
Qed.

Lemma collected_dec : forall r w mask,
  (0 <=? r) && (r <? 2 ^ Z.of_nat (length mask)) &&
  forallb (fun j => eqb (Z.testbit r (Z.of_nat j)) (Z.testbit w (entry mask j))) (seq 0 (length mask)) = true ->
  collected r w mask.
Proof.
  intros r w mask H. apply andb_true_iff in H. destruct H as [H B]. split; [lia|].
  intros j L. rewrite forallb_forall in B. apply eqb_prop. apply B. apply in_seq. lia.
Qed.

Lemma own_inverse_dec : forall mask,
  forallb (fun j => entry mask (Z.to_nat (entry mask j)) =? Z.of_nat j) (seq 0 (length mask)) = true ->
  own_inverse mask.
Proof.
  intros mask B j L. rewrite forallb_forall in B. apply Z.eqb_eq. apply B. apply in_seq. lia.
Qed.

Lemma set_example : exists mask w r,
  reordering mask /\ mask = [7; 5; 3; 2; 0; 6; 4; 1] /\ w = 173 /\
  collected r w mask /\ r = 248 /\
  forall p, set_u32 p w mask = Ret 203 /\ set_u32 p r mask = Ret w.
Proof.
  exists [7; 5; 3; 2; 0; 6; 4; 1], 173, 248.
  split; [apply reordering_dec; reflexivity|]. split; [reflexivity|]. split; [reflexivity|].
  split; [apply collected_dec; reflexivity|]. split; [reflexivity|].
  intros p. split; reflexivity.
Qed.

Lemma slice_example : exists w hi lo shown,
  w = 1369 /\ hi = 5 /\ lo = 2 /\ shown = 22 /\ bits_of shown w (hi + 1) lo /\
  forall p, slice_u32 p w hi lo = Ret 6 /\ slice_u16 p w hi lo = Ret 6.
Proof.
  exists 1369, 5, 2, 22. repeat (split; [reflexivity|]). split; [|intros p; split; reflexivity].
  split; [lia|]. intros k K. destruct (Z_lt_le_dec k 5) as [L|L].
  - assert (k = 0 \/ k = 1 \/ k = 2 \/ k = 3 \/ k = 4) as [->|[->|[->|[->| ->]]]] by lia; reflexivity.
  - replace (k <=? 5 + 1 - 2) with false by lia. apply small_bits with (n := 5); lia.
Qed.

Lemma swapped : reordering [3; 2; 1; 0; 7; 6; 5; 4] /\ own_inverse [3; 2; 1; 0; 7; 6; 5; 4] /\
  set_u32 Text.plat 0xA5 [3; 2; 1; 0; 7; 6; 5; 4] = Ret 0x5A /\
  collected 0x5A 0xA5 [3; 2; 1; 0; 7; 6; 5; 4].
Proof.
  split; [apply reordering_dec; reflexivity|]. split; [apply own_inverse_dec; reflexivity|].
  split; [reflexivity|]. apply collected_dec. reflexivity.
Qed.
