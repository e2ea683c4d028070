(** The decoders do not depend on the platform: every primitive is used in range. *)
From Coq Require Import ZArith List Bool Lia.
From Verif Require Import Rust Types DecodeUtil Dec32 Dec16 Decode Spec Util.
Import ListNotations.
Local Open Scope Z_scope.

(** Reference platform of the sweeps: overflow checks on, smallest [usize]. *)
Definition p0 : platform := {| overflow_checks := true; usize_bits := 16 |}.
Lemma p0_ok : platform_ok p0.
Proof. left. reflexivity. Qed.

(** Replace slices and conversions by [field]s. *)
Ltac slices :=
  repeat (first
    [ rewrite slice_u32_ok by lia | rewrite slice_u16_ok by lia
    | rewrite u8_ok by lia | rewrite u16_ok by lia
    | rewrite set_u32_ok by reflexivity | rewrite set_u16_ok by reflexivity
    | rewrite as_usize_field by (first [assumption | apply p0_ok | lia]) ];
    cbn [bind]).

(** ** u16 *)

Lemma prime_reg_ok p w hi lo : platform_ok p -> 0 <= lo <= hi -> hi < 16 -> hi - lo + 1 < 8 ->
  prime_reg p w hi lo = Ret (8 + field w hi lo).
Proof.
  intros Hp H Hh Hw. unfold prime_reg. slices.
  pose proof (field_bound w hi lo 7 H ltac:(lia)).
  rewrite ck_u_ok by lia. cbn [bind]. rewrite as_usize_ok by (assumption || lia).
  f_equal. lia.
Qed.

Lemma wide_reg_ok p w hi lo : platform_ok p -> 0 <= lo <= hi -> hi < 16 -> hi - lo + 1 < 16 ->
  wide_reg p w hi lo = Ret (field w hi lo).
Proof. intros Hp H Hh Hw. unfold wide_reg. slices. reflexivity. Qed.

Ltac regs16 :=
  repeat (first
    [ rewrite prime_reg_ok by (first [assumption | apply p0_ok | lia])
    | rewrite wide_reg_ok by (first [assumption | apply p0_ok | lia]) ]; cbn [bind]).

Lemma quadrant1_plat p q w m isa : quadrant1 p w m isa = quadrant1 q w m isa.
Proof. unfold quadrant1. slices. reflexivity. Qed.
Lemma quadrant2_plat p q w m isa : quadrant2 p w m isa = quadrant2 q w m isa.
Proof. unfold quadrant2. slices. reflexivity. Qed.

Lemma parse_opcode_u16_plat p q w isa : parse_opcode_u16 p w isa = parse_opcode_u16 q w isa.
Proof.
  unfold parse_opcode_u16, c_parse_opcode. slices.
  rewrite (quadrant1_plat p q), (quadrant2_plat p q). reflexivity.
Qed.

Lemma parse_rd_u16_plat p q w k : platform_ok p -> platform_ok q ->
  parse_rd_u16 p w k = parse_rd_u16 q w k.
Proof. intros. unfold parse_rd_u16, c_parse_rd. destruct k; regs16; reflexivity. Qed.
Lemma parse_rs1_u16_plat p q w k : platform_ok p -> platform_ok q ->
  parse_rs1_u16 p w k = parse_rs1_u16 q w k.
Proof. intros. unfold parse_rs1_u16, c_parse_rs1. destruct k; regs16; reflexivity. Qed.
Lemma parse_rs2_u16_plat p q w k : platform_ok p -> platform_ok q ->
  parse_rs2_u16 p w k = parse_rs2_u16 q w k.
Proof. intros. unfold parse_rs2_u16, c_parse_rs2. destruct k; regs16; reflexivity. Qed.

(** Upper bound of a [set]. *)
Lemma lor_bound a b n : 0 <= n -> 0 <= a < 2 ^ n -> 0 <= b < 2 ^ n -> 0 <= Z.lor a b < 2 ^ n.
Proof.
  intros Hn Ha Hb.
  assert (H : forall x, 0 <= x < 2 ^ n -> Z.shiftr x n = 0).
  { intros x Hx. rewrite Z.shiftr_div_pow2 by lia. apply Z.div_small. lia. }
  assert (Hs : Z.shiftr (Z.lor a b) n = 0) by (rewrite Z.shiftr_lor, !H by lia; reflexivity).
  assert (Hnn : 0 <= Z.lor a b) by (apply Z.lor_nonneg; lia).
  rewrite Z.shiftr_div_pow2 in Hs by lia.
  apply Z.div_small_iff in Hs; [|apply Z.pow_nonzero; lia]. lia.
Qed.

Lemma set_lor_bound self ms n : forall i acc, 0 <= n -> Forall (fun m => 0 <= m < n) ms ->
  0 <= acc < 2 ^ n -> 0 <= set_lor self i ms acc < 2 ^ n.
Proof.
  induction ms as [|m ms IH]; intros i acc Hn Hms Hacc; cbn [set_lor]; [assumption|].
  inversion Hms; subst. apply IH; [assumption|assumption|].
  apply lor_bound; [assumption|assumption|].
  pose proof (bit_range self i). pose proof (pow2_lt m n ltac:(lia)). nia.
Qed.

Definition mask_lt (n : Z) (ms : list Z) : bool :=
  (0 <=? n) && forallb (fun m => (0 <=? m) && (m <? n)) ms.
Lemma set_lor_lt self ms n : mask_lt n ms = true -> 0 <= set_lor self 0 ms 0 < 2 ^ n.
Proof.
  unfold mask_lt. rewrite andb_true_iff, forallb_forall. intros [Hn H].
  apply set_lor_bound; [lia| |split; [lia|apply Z.pow_pos_nonneg; lia]].
  apply Forall_forall. intros x Hx. specialize (H x Hx). lia.
Qed.

Lemma slice_set_ok p w hi lo mask : 0 <= lo <= hi -> hi < 16 -> hi - lo + 1 < 16 ->
  mask_ok (rev mask) = true ->
  slice_set p w hi lo mask = Ret (set_lor (field w hi lo) 0 (rev mask) 0).
Proof. intros. unfold slice_set. slices. apply set_u16_ok. assumption. Qed.

Ltac sets :=
  repeat (first [ rewrite slice_set_ok by (first [lia | reflexivity]) ]; cbn [bind]).

(** Signed reading of one or two [set]s. *)
Lemma signed1 p self mask n : 1 <= n <= 30 -> mask_lt n mask = true ->
  to_signed_nbit p (as_i32 (set_lor self 0 mask 0)) n = Ret (sext n (set_lor self 0 mask 0)).
Proof.
  intros Hn Hm. pose proof (set_lor_lt self mask n Hm).
  pose proof (pow2_lt n 31 ltac:(lia)).
  rewrite as_i32_ok by lia. apply to_signed_nbit_ok; assumption.
Qed.

Lemma signed2 p s1 m1 s2 m2 n : 1 <= n <= 30 -> mask_lt n m1 = true -> mask_lt n m2 = true ->
  to_signed_nbit p (as_i32 (Z.lor (set_lor s1 0 m1 0) (set_lor s2 0 m2 0))) n
  = Ret (sext n (Z.lor (set_lor s1 0 m1 0) (set_lor s2 0 m2 0))).
Proof.
  intros Hn H1 H2. pose proof (set_lor_lt s1 m1 n H1). pose proof (set_lor_lt s2 m2 n H2).
  pose proof (pow2_lt n 31 ltac:(lia)).
  pose proof (lor_bound _ _ n ltac:(lia) H H0).
  rewrite as_i32_ok by lia. apply to_signed_nbit_ok; assumption.
Qed.

Ltac signeds :=
  repeat (first [ rewrite signed1 by (first [lia | reflexivity])
                | rewrite signed2 by (first [lia | reflexivity]) ]; cbn [bind]).

Lemma parse_imm_u16_plat p q w k isa : parse_imm_u16 p w k isa = parse_imm_u16 q w k isa.
Proof.
  unfold parse_imm_u16, c_parse_imm, slice_set2.
  destruct k as [| | o | | | | | | |]; try reflexivity.
  destruct o; sets; signeds; reflexivity.
Qed.

Lemma try_ext {A B E} (m m' : outcome (result A E)) (k k' : A -> outcome (result B E)) :
  m = m' -> (forall a, k a = k' a) -> try m k = try m' k'.
Proof. intros <- H. destruct m as [[a|e]|w]; simpl; auto. Qed.

Lemma decode_u16_plat p q w isa : platform_ok p -> platform_ok q ->
  decode_u16 p w isa = decode_u16 q w isa.
Proof.
  intros Hp Hq. unfold decode_u16. destruct (w =? 0); [reflexivity|].
  apply try_ext; [apply parse_opcode_u16_plat|intro k].
  apply try_ext; [apply parse_rd_u16_plat; assumption|intro d].
  apply try_ext; [apply parse_rs1_u16_plat; assumption|intro s].
  apply try_ext; [apply parse_rs2_u16_plat; assumption|intro t].
  apply try_ext; [apply parse_imm_u16_plat|reflexivity].
Qed.
