(** Encoding what was read, and reading what was encoded. *)
From Coq Require Import ZArith List Bool Lia.
From Verif Require Import Types Spec SpecOps SpecText SpecAsm Util Pat Rows2 Operands Asm.
Import ListNotations.
Local Open Scope list_scope.
Local Open Scope Z_scope.

(** ** Encoding what was read *)

Definition positions (n : nat) : list Z := map Z.of_nat (seq 0 n).
Lemma positions_in n k : In k (positions n) <-> 0 <= k < Z.of_nat n.
Proof.
  unfold positions. rewrite in_map_iff. split.
  - intros [x [<- H]]. apply in_seq in H. lia.
  - intros H. exists (Z.to_nat k). split; [lia|]. apply in_seq. lia.
Qed.

(** Every bit belongs to an operand or is fixed, alike in all patterns. *)
Definition settled (n : nat) (c : class) (e : enc) : bool :=
  match incl e with
  | [] => true
  | p :: ps =>
      forallb (fun k =>
        match holder (slots c) k with
        | Some _ => true
        | None =>
            match pattern_bit p k with
            | Some b => forallb (fun q =>
                match pattern_bit q k with Some b' => Bool.eqb b b' | None => false end) ps
            | None => false
            end
        end) (positions n)
  end.

Lemma pattern_bit_matches p w k b : 0 <= k -> matches p w = true -> pattern_bit p k = Some b ->
  Z.testbit w k = b.
Proof.
  unfold matches, pattern_bit. intros Hk M E.
  destruct (nth_error p (Z.to_nat k)) as [o|] eqn:N; [|discriminate E]. subst o.
  rewrite <- (matches_bit p 0 w (Z.to_nat k) b M N). f_equal. lia.
Qed.

Lemma encode_read n r isa cmp w : class_ok (Z.of_nat n) (r_cls r isa) = true ->
  settled n (r_cls r isa) (r_man r isa) = true -> in_enc (r_man r isa) w = true ->
  0 <= w < 2 ^ Z.of_nat n ->
  word n (encoded_bit (r_cls r isa) (r_man r isa) (reads r isa cmp w)) = w.
Proof.
  intros C S E Hw. apply (bits_eq (Z.of_nat n)); [apply word_bound|assumption|lia|].
  intros k Hk. rewrite word_testbit by lia. destruct (Z.ltb_spec k (Z.of_nat n)); [|lia]. cbn [andb].
  unfold encoded_bit. destruct (holder (slots (r_cls r isa)) k) as [[o j]|] eqn:Ho.
  - destruct (holder_in _ _ _ _ Ho) as [h [l [b [I [R ->]]]]].
    rewrite get_reads. destruct (slot_read _ _ w _ _ _ _ k C I R) as [v [-> T]]. exact T.
  - unfold in_enc in E. apply andb_true_iff in E. destruct E as [E _]. unfold settled in S.
    destruct (incl (r_man r isa)) as [|p ps]; [discriminate E|].
    rewrite forallb_forall in S. specialize (S k (proj2 (positions_in n k) Hk)). rewrite Ho in S.
    destruct (pattern_bit p k) as [b|] eqn:P; [|discriminate S].
    cbn [existsb] in E. apply orb_true_iff in E. destruct E as [E|E].
    + symmetry. apply (pattern_bit_matches p w k b); (assumption || lia).
    + apply existsb_exists in E. destruct E as [q [Hq M]]. rewrite forallb_forall in S.
      specialize (S q Hq). destruct (pattern_bit q k) as [b'|] eqn:Q; [|discriminate S].
      apply eqb_prop in S. subst b'. symmetry. apply (pattern_bit_matches q w k b); (assumption || lia).
Qed.

(** ** Reading what was encoded *)

Definition operand_dec (a b : operand) : {a = b} + {a <> b}.
Proof. decide equality. Defined.
Definition reg_src_dec (a b : reg_src) : {a = b} + {a <> b}.
Proof. decide equality; apply Z.eq_dec. Defined.

(** The bits of an operand are held by it, or by rd if rs1 is stored in the same place. *)
Definition owned (c : class) : bool :=
  forallb (fun s : slot => let '(o, (h, l, b)) := s in
    forallb (fun k =>
      if (b - (h - l) <=? k) && (k <=? b) then
        match holder (slots c) k with
        | Some (o', j) => (j =? h - (b - k)) &&
            (dec2b (operand_dec o o') ||
             dec2b (operand_dec o ORs1) && dec2b (operand_dec o' ORd) && dec2b (reg_src_dec (c_rd c) (c_rs1 c)))
        | None => false
        end
      else true) (positions 32)) (slots c).

Lemma encoded_slot n c e i o h l b k v : class_ok n c = true -> n <= 32 -> owned c = true ->
  two_address c i -> In (o, (h, l, b)) (slots c) -> b - (h - l) <= k <= b -> get o i = Some v ->
  encoded_bit c e i k = Z.testbit (stored c o v) (h - (b - k)).
Proof.
  intros C N O T I R G. pose proof (slot_ok n c o h l b C I) as S.
  unfold owned in O. rewrite forallb_forall in O. specialize (O _ I). cbv beta iota in O.
  rewrite forallb_forall in O. specialize (O k). rewrite positions_in in O.
  assert (K : 0 <= k < Z.of_nat 32) by lia. specialize (O K).
  destruct (Z.leb_spec (b - (h - l)) k); [|lia]. destruct (Z.leb_spec k b); [|lia]. cbn [andb] in O.
  unfold encoded_bit. destruct (holder (slots c) k) as [[o' j]|]; [|discriminate O].
  apply andb_true_iff in O. destruct O as [J O]. apply Z.eqb_eq in J. subst j.
  apply orb_true_iff in O. destruct O as [O|O].
  - apply dec2b_true in O. subst o'. rewrite G. reflexivity.
  - rewrite !andb_true_iff in O. destruct O as [[O1 O2] O3]. apply dec2b_true in O1, O2, O3. subst o o'.
    cbn [get] in *. unfold two_address in T. rewrite O3 in T. unfold stored. cbn [reg_source].
    assert (Q : rd i = rs1 i).
    { apply slots_in in I. destruct I as [[_ [_ I]]|[D _]]; [|discriminate D]. cbn [reg_source] in I.
      destruct I as [I|I]; rewrite I in T; apply T; split; reflexivity. }
    rewrite Q, G, O3. reflexivity.
Qed.

Lemma small_testbit v n k : 0 <= v < 2 ^ n -> n <= k -> Z.testbit v k = false.
Proof.
  intros Hv Hk. destruct (Z.ltb_spec n 0) as [L|L].
  - rewrite Z.pow_neg_r in Hv by assumption. lia.
  - rewrite <- (Z.mod_small v (2 ^ n)) by assumption. apply Z.mod_pow2_bits_high. lia.
Qed.
Lemma step_testbit v s k : 0 <= s -> v mod 2 ^ s = 0 -> 0 <= k < s -> Z.testbit v k = false.
Proof.
  intros Hs E Hk. rewrite <- (Z.mod_pow2_bits_low v s k) by lia. rewrite E. apply Z.bits_0.
Qed.

Definition held (cs : list chunk) (j : Z) : bool :=
  match src_of cs j with Some _ => true | None => false end.
(** Every value of the range can be stored. *)
Definition imm_full (s : imm_src) (range : option (Z * Z * Z)) : bool :=
  match s, range with
  | INone, None => true
  | IUns cs, Some (lo, hi, step) =>
      (step =? 2 ^ Z.log2 step) && (0 <=? lo) && (hi <? 2 ^ 32) &&
      forallb (fun j => (j <? Z.log2 step) || (hi <? 2 ^ j) || held cs j) (positions 32)
  | ISig m cs, Some (lo, hi, step) =>
      (step =? 2 ^ Z.log2 step) && (- 2 ^ (m - 1) <=? lo) && (hi <? 2 ^ (m - 1)) && (m <=? 32) &&
      forallb (fun j => (j <? Z.log2 step) || (m <=? j) || held cs j) (positions 32)
  | _, _ => false
  end.

Section Read.
Variables (n : nat) (c : class) (e : enc) (i : Instruction).
Hypothesis Hn : Z.of_nat n <= 32.
Hypothesis C : class_ok (Z.of_nat n) c = true.
Hypothesis O : owned c = true.
Hypothesis T : two_address c i.
Let w := word n (encoded_bit c e i).

Lemma w_slot o h l b k v : In (o, (h, l, b)) (slots c) -> b - (h - l) <= k <= b -> get o i = Some v ->
  Z.testbit w k = Z.testbit (stored c o v) (h - (b - k)).
Proof.
  intros I R G. pose proof (slot_ok _ c o h l b C I) as S. unfold w. rewrite word_testbit by lia.
  destruct (Z.ltb_spec k (Z.of_nat n)); [|lia]. cbn [andb].
  apply (encoded_slot (Z.of_nat n) c e i o h l b k v); assumption || lia.
Qed.

Lemma read_reg o : o <> OImm -> reg_ok (reg_source c o) (get o i) -> read c w o = get o i.
Proof.
  intros N R. assert (E : read c w o = reg_of (reg_source c o) w) by (destruct o; try reflexivity; contradiction).
  rewrite E. clear E.
  assert (F : forall hi lo v, reg_source c o = RBits hi lo \/ reg_source c o = RPrime hi lo ->
    get o i = Some v -> 0 <= stored c o v < 2 ^ (hi - lo + 1) -> field w hi lo = stored c o v).
  { intros hi lo v S G B.
    assert (I : In (o, (hi - lo, 0, hi)) (slots c)).
    { apply in_slots. left. split; [assumption|]. split; [reflexivity|].
      replace (hi - (hi - lo)) with lo by lia. assumption. }
    pose proof (slot_ok _ c _ _ _ _ C I) as K.
    apply Z.bits_inj'. intros j Hj. rewrite field_testbit by lia.
    destruct (Z.ltb_spec j (hi - lo + 1)).
    - rewrite andb_true_r. rewrite (w_slot o (hi - lo) 0 hi (lo + j) v) by (assumption || lia).
      f_equal. lia.
    - rewrite andb_false_r. symmetry. apply (small_testbit _ (hi - lo + 1)); assumption. }
  destruct (reg_source c o) as [|z|hi lo|hi lo] eqn:S; cbn [reg_ok reg_of] in *.
  - symmetry. assumption.
  - symmetry. assumption.
  - destruct R as [x [G B]]. rewrite G. f_equal. specialize (F hi lo x (or_introl eq_refl) G).
    unfold stored in F. rewrite S in F. auto.
  - destruct R as [x [G B]]. rewrite G. f_equal. specialize (F hi lo x (or_intror eq_refl) G).
    unfold stored in F. rewrite S in F. rewrite F; [lia|].
    pose proof C as C0. unfold class_ok in C0. rewrite !andb_true_iff in C0. destruct C0 as [[[C1 C2] C3] _].
    assert (K : reg_src_ok (Z.of_nat n) (RPrime hi lo) = true)
      by (rewrite <- S; destruct o; assumption || contradiction).
    cbn [reg_src_ok] in K. replace (hi - lo + 1) with 3 by lia. lia.
Qed.

Lemma held_bit cs v j : src_chunks (c_imm c) = cs -> apart cs = true -> forallb chunk_ok cs = true ->
  imm i = Some v -> 0 <= j -> held cs j = true -> Z.testbit (chunks_val w cs) j = Z.testbit v j.
Proof.
  intros Q A B G Hj H. rewrite chunks_testbit by assumption. unfold held in H.
  destruct (src_of cs j) as [k|] eqn:F; [|discriminate H].
  destruct (src_of_in _ _ _ F) as [h [l [b [I [L ->]]]]].
  assert (IS : In (OImm, (h, l, b)) (slots c)) by (apply in_slots; right; rewrite Q; auto).
  rewrite (w_slot OImm h l b _ v IS); [|lia|assumption]. unfold stored. cbn [reg_source]. f_equal. lia.
Qed.
Lemma unheld_bit cs j : apart cs = true -> forallb chunk_ok cs = true -> 0 <= j ->
  held cs j = false -> Z.testbit (chunks_val w cs) j = false.
Proof.
  intros A B Hj H. rewrite chunks_testbit by assumption. unfold held in H.
  destruct (src_of cs j); [discriminate H|reflexivity].
Qed.

Lemma read_imm range : imm_full (c_imm c) range = true -> imm_in range (imm i) ->
  read c w OImm = imm i.
Proof.
  intros F R. cbn [read]. pose proof C as K. unfold class_ok in K. rewrite !andb_true_iff in K.
  destruct K as [_ K].
  destruct range as [[[lo hi] step]|]; destruct (c_imm c) as [|cs|m cs] eqn:Q; cbn [imm_full] in F;
    try discriminate F; cbn [imm_in imm_of imm_ok] in *; [| |symmetry; assumption];
    destruct R as [v [G [B M]]]; rewrite G; f_equal; repeat rewrite andb_true_iff in K; repeat rewrite andb_true_iff in F.
  - destruct F as [[[F1 F2] F3] F4]. destruct K as [[K1 K2] K3]. rewrite forallb_forall in F4.
    assert (S0 : 0 <= Z.log2 step) by apply Z.log2_nonneg.
    apply Z.bits_inj'. intros j Hj. destruct (held cs j) eqn:H.
    + apply held_bit; try assumption. rewrite Q. reflexivity.
    + rewrite unheld_bit by assumption. symmetry.
      destruct (Z.ltb_spec j (Z.log2 step)) as [L|L].
      { apply (step_testbit v (Z.log2 step)); [assumption| |lia]. apply Z.eqb_eq in F1. rewrite <- F1. assumption. }
      destruct (Z.ltb_spec j 32) as [L'|L'].
      * specialize (F4 j (proj2 (positions_in 32 j) (conj Hj L'))). rewrite H in F4.
        apply (small_testbit v j); lia.
      * apply (small_testbit v 32); lia.
  - destruct F as [[[[F1 F2] F3] F4] F5]. destruct K as [[[[[K1 K2] K3] K4] K5] K6].
    rewrite forallb_forall in F5.
    assert (S0 : 0 <= Z.log2 step) by apply Z.log2_nonneg.
    replace (chunks_val w cs) with (v mod 2 ^ m); [apply sext_mod; lia|].
    apply Z.bits_inj'. intros j Hj. destruct (held cs j) eqn:H.
    + assert (J : j < m).
      { unfold held in H. destruct (src_of cs j) as [k|] eqn:SO; [|discriminate H].
        destruct (src_of_in _ _ _ SO) as [h [l [b [I [L _]]]]]. rewrite forallb_forall in K4.
        specialize (K4 _ I). cbn in K4. lia. }
      rewrite Z.mod_pow2_bits_low by lia. symmetry. apply held_bit; try assumption. rewrite Q. reflexivity.
    + rewrite unheld_bit by assumption.
      destruct (Z.ltb_spec j m) as [J|J]; [|apply Z.mod_pow2_bits_high; lia].
      rewrite Z.mod_pow2_bits_low by lia.
      assert (L' : j < Z.of_nat 32) by lia.
      specialize (F5 j (proj2 (positions_in 32 j) (conj Hj L'))). rewrite H in F5.
      apply (step_testbit v (Z.log2 step)); [assumption| |lia]. apply Z.eqb_eq in F1. rewrite <- F1. assumption.
Qed.
End Read.
