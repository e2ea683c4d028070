(** Ranges and dependencies of the operands. *)
From Coq Require Import ZArith List Bool Lia String.
From Verif Require Import Rust Types DecodeUtil Dec32 Dec16 Decode Spec Util Plat Exact32 Exact16
  Pat SpecOps SpecApi Rows Rows2.
Import ListNotations.
Local Open Scope list_scope.
Local Open Scope Z_scope.

(** ** Immediate ranges (C17, C18) *)

(** Largest value and common factor of a list of chunks. *)
Definition chunk_ok (c : chunk) : bool := let '(h, l, b) := c in (0 <=? l) && (l <=? h) && (h - l <=? b).
Definition chunks_max (cs : list chunk) : Z :=
  fold_right (fun c acc => let '(h, l, _) := c in (2 ^ (h - l + 1) - 1) * 2 ^ l + acc) 0 cs.

Lemma chunks_bound w cs : forallb chunk_ok cs = true -> 0 <= chunks_val w cs <= chunks_max cs.
Proof.
  induction cs as [|[[h l] b] cs IH]; intros H; [cbn; lia|].
  cbn [forallb] in H. apply andb_true_iff in H. destruct H as [H1 H2]. specialize (IH H2).
  unfold chunk_ok in H1. rewrite !andb_true_iff in H1. destruct H1 as [[A B] C].
  unfold chunks_val, chunks_max in *. cbn [fold_right chunk_val].
  pose proof (field_range w b (b - (h - l)) ltac:(lia)) as F.
  replace (b - (b - (h - l)) + 1) with (h - l + 1) in F by lia.
  pose proof (Z.pow_pos_nonneg 2 l ltac:(lia) ltac:(lia)). nia.
Qed.

Definition divides (s : Z) (cs : list chunk) : bool :=
  forallb (fun c => let '(_, l, _) := c in 2 ^ l mod s =? 0) cs.

Lemma chunks_mod w cs s : 0 < s -> divides s cs = true -> chunks_val w cs mod s = 0.
Proof.
  intros Hs. induction cs as [|[[h l] b] cs IH]; intros H; [reflexivity|].
  unfold divides in H. cbn [forallb] in H. apply andb_true_iff in H. destruct H as [H1 H2].
  apply Z.eqb_eq in H1. specialize (IH H2).
  unfold chunks_val in *. cbn [fold_right chunk_val].
  rewrite Z.add_mod, IH by lia. rewrite Z.mul_mod, H1 by lia.
  rewrite Z.mul_0_r, !Z.mod_0_l by lia. reflexivity.
Qed.

(** The range claimed for an immediate source is right. *)
Definition range_ok (s : imm_src) (range : option (Z * Z * Z)) : bool :=
  match s, range with
  | INone, None => true
  | IUns cs, Some (lo, hi, step) =>
      (lo =? 0) && (hi =? chunks_max cs) && (0 <? step) && divides step cs && forallb chunk_ok cs
  | ISig n cs, Some (lo, hi, step) =>
      (1 <=? n) && (lo =? - 2 ^ (n - 1)) && (hi =? 2 ^ (n - 1) - step) && (0 <? step)
      && divides step cs && forallb chunk_ok cs && (chunks_max cs <? 2 ^ n)
      && (2 ^ (n - 1) mod step =? 0)
  | _, _ => false
  end.

Lemma range_ok_in s range w : range_ok s range = true -> imm_in range (imm_of s w).
Proof.
  destruct s as [|cs|n cs], range as [[[lo hi] step]|]; try discriminate; cbn [range_ok imm_of imm_in].
  - reflexivity.
  - rewrite !andb_true_iff. intros [[[[H1 H2] H3] H4] H5].
    exists (chunks_val w cs). split; [reflexivity|].
    pose proof (chunks_bound w cs H5). pose proof (chunks_mod w cs step ltac:(lia) H4). lia.
  - rewrite !andb_true_iff. intros [[[[[[[H0 H1] H2] H3] H4] H5] H6] H7].
    exists (sext n (chunks_val w cs)). split; [reflexivity|].
    pose proof (chunks_bound w cs H5) as B. pose proof (chunks_mod w cs step ltac:(lia) H4) as M.
    assert (E : 2 ^ n = 2 * 2 ^ (n - 1)).
    { replace n with (Z.succ (n - 1)) at 1 by lia. rewrite Z.pow_succ_r by lia. reflexivity. }
    unfold sext. set (v := chunks_val w cs) in *. set (h := 2 ^ (n - 1)) in *.
    assert (Hh : exists q, h = q * step).
    { apply Z.eqb_eq in H7. exists (h / step).
      pose proof (Z.div_mod h step ltac:(lia)). lia. }
    assert (Hv : exists q, v = q * step).
    { exists (v / step). pose proof (Z.div_mod v step ltac:(lia)). lia. }
    destruct Hh as [a Ha], Hv as [b Hb].
    destruct (Z.ltb_spec v h).
    + split; [|assumption]. split; [lia|]. assert (b < a) by nia. nia.
    + split.
      * split; [lia|]. assert (b < 2 * a) by nia. nia.
      * rewrite E, Ha, Hb. replace (b * step - 2 * (a * step)) with ((b - 2 * a) * step) by lia.
        apply Z.mod_mul. lia.
Qed.

Lemma ranges32 isa :
  forallb (fun r => range_ok (c_imm (r_cls r isa)) (imm_range32 isa (r_op r))) table32 = true.
Proof. destruct isa; vm_compute; reflexivity. Qed.
Lemma ranges16_ok isa :
  forallb (fun r => range_ok (c_imm (r_cls r isa)) (imm_range16 (r_op r))) table16 = true.
Proof. destruct isa; vm_compute; reflexivity. Qed.

Lemma imm32 p isa w i : platform_ok p -> is_u32 w -> decode_u32 p w isa = Ret (Ok i) ->
  imm_in (imm_range32 isa (opc i)) (imm i).
Proof.
  intros Hp Hw H. destruct (ok32 _ _ _ _ Hp Hw H) as [r [Hr [_ ->]]]. cbn [reads opc imm].
  apply range_ok_in. pose proof (ranges32 isa) as A. rewrite forallb_forall in A. auto.
Qed.
Lemma imm16 p isa w i : platform_ok p -> is_u16 w -> decode_u16 p w isa = Ret (Ok i) ->
  imm_in (imm_range16 (opc i)) (imm i).
Proof.
  intros Hp Hw H. destruct (ok16 _ _ _ _ Hp Hw H) as [r [Hr [_ ->]]]. cbn [reads opc imm].
  apply range_ok_in. pose proof (ranges16_ok isa) as A. rewrite forallb_forall in A. auto.
Qed.

(** ** Immediates depend on their bits only *)

Lemma field_ext w w' hi lo : 0 <= lo <= hi ->
  (forall k, lo <= k <= hi -> Z.testbit w k = Z.testbit w' k) -> field w hi lo = field w' hi lo.
Proof.
  intros H E. apply Z.bits_inj'. intros n Hn. rewrite !field_testbit by lia.
  destruct (Z.ltb_spec n (hi - lo + 1)); [|rewrite !andb_false_r; reflexivity].
  rewrite !andb_true_r. apply E. lia.
Qed.

(** Bits [b .. b-(h-l)] are covered by one of the ranges. *)
Definition covered (ranges : list (Z * Z)) (c : chunk) : bool :=
  let '(h, l, b) := c in
  existsb (fun x => (snd x <=? b - (h - l)) && (b <=? fst x)) ranges.
Definition src_chunks (s : imm_src) : list chunk :=
  match s with INone => [] | IUns cs => cs | ISig _ cs => cs end.
Definition bits_ok (s : imm_src) (ranges : list (Z * Z)) : bool :=
  forallb chunk_ok (src_chunks s) && forallb (covered ranges) (src_chunks s).

Lemma chunks_ext ranges cs w w' : forallb chunk_ok cs = true -> forallb (covered ranges) cs = true ->
  same_bits ranges w w' -> chunks_val w cs = chunks_val w' cs.
Proof.
  intros H1 H2 S. induction cs as [|[[h l] b] cs IH]; [reflexivity|].
  cbn [forallb] in *. apply andb_true_iff in H1, H2. destruct H1 as [A1 A2], H2 as [B1 B2].
  unfold chunks_val in *. cbn [fold_right chunk_val]. rewrite (IH A2 B2). f_equal. f_equal.
  unfold chunk_ok in A1. rewrite !andb_true_iff in A1.
  unfold covered in B1. apply existsb_exists in B1. destruct B1 as [[hi lo] [Hin Hc]].
  cbn [fst snd] in Hc. apply andb_true_iff in Hc.
  apply field_ext; [lia|]. intros k Hk. apply (S hi lo k Hin). lia.
Qed.

Lemma imm_ext s ranges w w' : bits_ok s ranges = true -> same_bits ranges w w' ->
  imm_of s w = imm_of s w'.
Proof.
  unfold bits_ok. rewrite andb_true_iff. intros [H1 H2] S.
  destruct s; cbn [imm_of src_chunks] in *; [reflexivity| |];
    rewrite (chunks_ext ranges _ w w' H1 H2 S); reflexivity.
Qed.

Lemma bits32 isa :
  forallb (fun r => bits_ok (c_imm (r_cls r isa)) (imm_bits32 isa (r_op r))) table32 = true.
Proof. destruct isa; vm_compute; reflexivity. Qed.
Lemma bits16 isa :
  forallb (fun r => bits_ok (c_imm (r_cls r isa)) (imm_bits16 (r_op r))) table16 = true.
Proof. destruct isa; vm_compute; reflexivity. Qed.

Lemma imm_only32 p isa w w' i i' : platform_ok p -> is_u32 w -> is_u32 w' ->
  decode_u32 p w isa = Ret (Ok i) -> decode_u32 p w' isa = Ret (Ok i') -> opc i = opc i' ->
  same_bits (imm_bits32 isa (opc i)) w w' -> imm i = imm i'.
Proof.
  intros Hp Hw Hw' H H' E S. destruct (ok32 _ _ _ _ Hp Hw H) as [r [Hr [_ ->]]].
  destruct (ok32 _ _ _ _ Hp Hw' H') as [r' [Hr' [_ ->]]]. cbn [reads opc imm] in *.
  apply row_unique32 in E; [|assumption..]. subst r'.
  apply (imm_ext _ (imm_bits32 isa (r_op r))); [|assumption].
  pose proof (bits32 isa) as A. rewrite forallb_forall in A. auto.
Qed.
Lemma imm_only16 p isa w w' i i' : platform_ok p -> is_u16 w -> is_u16 w' ->
  decode_u16 p w isa = Ret (Ok i) -> decode_u16 p w' isa = Ret (Ok i') -> opc i = opc i' ->
  same_bits (imm_bits16 (opc i)) w w' -> imm i = imm i'.
Proof.
  intros Hp Hw Hw' H H' E S. destruct (ok16 _ _ _ _ Hp Hw H) as [r [Hr [_ ->]]].
  destruct (ok16 _ _ _ _ Hp Hw' H') as [r' [Hr' [_ ->]]]. cbn [reads opc imm] in *.
  apply row_unique16 in E; [|assumption..]. subst r'.
  apply (imm_ext _ (imm_bits16 (r_op r))); [|assumption].
  pose proof (bits16 isa) as A. rewrite forallb_forall in A. auto.
Qed.

(** ** Registers (C19) *)

Definition reg_lt (n : Z) (s : reg_src) : bool :=
  match s with
  | RNone => true
  | RConst c => (0 <=? c) && (c <? n)
  | RBits hi lo => (0 <=? lo) && (lo <=? hi) && (2 ^ (hi - lo + 1) <=? n)
  | RPrime hi lo => (0 <=? lo) && (lo <=? hi) && (8 + 2 ^ (hi - lo + 1) <=? n)
  end.
Lemma Some_inj {A} (a b : A) : Some a = Some b -> a = b.
Proof. congruence. Qed.
Lemma reg_lt_ok n s w : reg_lt n s = true -> below n (reg_of s w).
Proof.
  intros H r E. destruct s as [|c|hi lo|hi lo]; cbn [reg_of reg_lt] in *; [discriminate| | |];
    apply Some_inj in E; subst r; rewrite ?andb_true_iff in H.
  - lia.
  - destruct H as [[A B] C]. apply Z.leb_le in C.
    pose proof (field_range w hi lo ltac:(lia)). set (x := 2 ^ _) in *. lia.
  - destruct H as [[A B] C]. apply Z.leb_le in C.
    pose proof (field_range w hi lo ltac:(lia)). set (x := 2 ^ _) in *. lia.
Qed.

Definition regs_lt (r : row) (isa : Isa) : bool :=
  let c := r_cls r isa in
  reg_lt 32 (c_rd c) && reg_lt 32 (c_rs1 c) && reg_lt (if is_zicsr (r_op r) then 4096 else 32) (c_rs2 c).
Lemma regs32 isa : forallb (fun r => regs_lt r isa) table32 = true.
Proof. destruct isa; vm_compute; reflexivity. Qed.
Lemma regs16_lt isa : forallb (fun r => regs_lt r isa) table16 = true.
Proof. destruct isa; vm_compute; reflexivity. Qed.

Lemma reg_range32 p isa w i : platform_ok p -> is_u32 w -> decode_u32 p w isa = Ret (Ok i) ->
  below 32 (rd i) /\ below 32 (rs1 i) /\ below (if is_zicsr (opc i) then 4096 else 32) (rs2 i).
Proof.
  intros Hp Hw H. destruct (ok32 _ _ _ _ Hp Hw H) as [r [Hr [_ ->]]].
  pose proof (regs32 isa) as A. rewrite forallb_forall in A. specialize (A r Hr).
  unfold regs_lt in A. rewrite !andb_true_iff in A. destruct A as [[A1 A2] A3].
  cbn [reads rd rs1 rs2 opc]. auto using reg_lt_ok.
Qed.

Definition is_prime (s : reg_src) : bool :=
  match s with RPrime hi lo => (hi - lo =? 2) && (0 <=? lo) | _ => false end.
Lemma is_prime_ok s w : is_prime s = true -> exists r, reg_of s w = Some r /\ 8 <= r <= 15.
Proof.
  destruct s as [| | |hi lo]; try discriminate. cbn [is_prime reg_of]. intros H.
  apply andb_true_iff in H. exists (8 + field w hi lo). split; [reflexivity|].
  pose proof (field_bound w hi lo 3 ltac:(lia) ltac:(lia)). lia.
Qed.

Definition primes (r : row) (isa : Isa) : bool :=
  let c := r_cls r isa in
  (if mem_op (r_op r) prime_rd then is_prime (c_rd c) else true)
  && (if mem_op (r_op r) prime_rs1 then is_prime (c_rs1 c) else true)
  && (if mem_op (r_op r) prime_rs2 then is_prime (c_rs2 c) else true).
Lemma primes16 isa : forallb (fun r => primes r isa) table16 = true.
Proof. destruct isa; vm_compute; reflexivity. Qed.

Lemma reg_range16 p isa w i : platform_ok p -> is_u16 w -> decode_u16 p w isa = Ret (Ok i) ->
  below 32 (rd i) /\ below 32 (rs1 i) /\ below 32 (rs2 i) /\
  (In (opc i) prime_rd -> exists r, rd i = Some r /\ 8 <= r <= 15) /\
  (In (opc i) prime_rs1 -> exists r, rs1 i = Some r /\ 8 <= r <= 15) /\
  (In (opc i) prime_rs2 -> exists r, rs2 i = Some r /\ 8 <= r <= 15).
Proof.
  intros Hp Hw H. destruct (ok16 _ _ _ _ Hp Hw H) as [r [Hr [_ ->]]].
  pose proof (regs16_lt isa) as A. rewrite forallb_forall in A. specialize (A r Hr).
  unfold regs_lt in A. rewrite !andb_true_iff in A. destruct A as [[A1 A2] A3].
  pose proof (primes16 isa) as B. rewrite forallb_forall in B. specialize (B r Hr).
  unfold primes in B. rewrite !andb_true_iff in B. destruct B as [[B1 B2] B3].
  assert (Z16 : forallb (fun r => negb (is_zicsr (r_op r))) table16 = true)
    by (vm_compute; reflexivity).
  rewrite forallb_forall in Z16. specialize (Z16 r Hr). apply negb_true_iff in Z16.
  rewrite Z16 in A3.
  cbn [reads rd rs1 rs2 opc].
  refine (conj (reg_lt_ok _ _ _ A1) (conj (reg_lt_ok _ _ _ A2) (conj (reg_lt_ok _ _ _ A3)
    (conj _ (conj _ _))))); intros M; apply mem_op_ok in M.
  - rewrite M in B1. apply is_prime_ok. assumption.
  - rewrite M in B2. apply is_prime_ok. assumption.
  - rewrite M in B3. apply is_prime_ok. assumption.
Qed.

(** ** Operand presence (C20) *)

Definition has_reg (s : reg_src) : bool := match s with RNone => false | _ => true end.
Definition has_imm (s : imm_src) : bool := match s with INone => false | _ => true end.
Lemma has_reg_ok s w : has (reg_of s w) = has_reg s.
Proof. destruct s; reflexivity. Qed.
Lemma has_imm_ok s w : has (imm_of s w) = has_imm s.
Proof. destruct s; reflexivity. Qed.

Definition shape (c : class) := (has_reg (c_rd c), has_reg (c_rs1 c), has_reg (c_rs2 c),
  has_imm (c_imm c)).
Definition shape_eqb (a b : bool * bool * bool * bool) : bool :=
  match a, b with
  | (a1, a2, a3, a4), (b1, b2, b3, b4) =>
      Bool.eqb a1 b1 && Bool.eqb a2 b2 && Bool.eqb a3 b3 && Bool.eqb a4 b4
  end.
Lemma shape_eqb_ok a b : shape_eqb a b = true -> a = b.
Proof.
  destruct a as [[[a1 a2] a3] a4], b as [[[b1 b2] b3] b4]. cbn. rewrite !andb_true_iff.
  intros [[[H1 H2] H3] H4]. apply eqb_prop in H1, H2, H3, H4. congruence.
Qed.

Lemma reads_shape r isa c w : inst_shape (reads r isa c w) = shape (r_cls r isa).
Proof.
  unfold inst_shape, shape. cbn [reads rd rs1 rs2 imm]. rewrite !has_reg_ok, has_imm_ok. reflexivity.
Qed.

Lemma shape_isa :
  forallb (fun r => shape_eqb (shape (r_cls r Rv32)) (shape (r_cls r Rv64))) (table32 ++ table16) = true.
Proof. vm_compute. reflexivity. Qed.
Lemma shape_isa' r isa isa' : In r (table32 ++ table16) ->
  shape (r_cls r isa) = shape (r_cls r isa').
Proof.
  intros H. pose proof shape_isa as A. rewrite forallb_forall in A. specialize (A r H).
  apply shape_eqb_ok in A. destruct isa, isa'; congruence.
Qed.


Lemma decoded_row i : decoded i -> exists r isa c w, In r (table32 ++ table16) /\
  in_enc (r_acc r isa) w = true /\ i = reads r isa c w.
Proof.
  intros [p [isa [w [Hp [[Hw H]|[Hw H]]]]]].
  - destruct (ok32 _ _ _ _ Hp Hw H) as [r [Hr [He ->]]]. exists r, isa, false, w.
    auto using in_or_app.
  - destruct (ok16 _ _ _ _ Hp Hw H) as [r [Hr [He ->]]]. exists r, isa, true, w.
    auto using in_or_app.
Qed.

Lemma presence i j : decoded i -> decoded j -> opc i = opc j -> inst_shape i = inst_shape j.
Proof.
  intros Hi Hj E. apply decoded_row in Hi, Hj.
  destruct Hi as [r [isa [c [w [Hr [_ ->]]]]]], Hj as [r' [isa' [c' [w' [Hr' [_ ->]]]]]].
  rewrite !reads_shape. cbn [reads opc] in E. apply row_unique in E; [|assumption..]. subst r'.
  apply shape_isa'. assumption.
Qed.
