(** The results of the functions of the source have their declared types. *)
From Coq Require Import ZArith List Bool String Lia.
From Verif Require Import Rust Types DecodeUtil Dec32 Dec16 Decode Fmt SrcText SrcAst SrcLink SrcSem SrcProg
  SrcEmbed SrcDerive SrcDeriveOk SrcModel SrcCover SpecSource.
From Verif Require SrcClaims.
Import ListNotations.
Local Open Scope string_scope.
Local Open Scope Z_scope.

Local Opaque run crate.

(** ** Ranges of the model's results *)

(** Whatever [m] returns satisfies [Q]. *)
Definition ends {A} (Q : A -> Prop) (m : outcome A) : Prop := forall a, m = Ret a -> Q a.

Lemma ends_ret {A} (Q : A -> Prop) a : Q a -> ends Q (Ret a).
Proof. intros H b E. injection E as <-. exact H. Qed.
Lemma ends_panic {A} (Q : A -> Prop) w : ends Q (Panic w).
Proof. intros b E. discriminate E. Qed.
Lemma ends_bind {A B} (R : A -> Prop) (Q : B -> Prop) m k :
  ends R m -> (forall a, R a -> ends Q (k a)) -> ends Q (bind m k).
Proof. intros H K b E. destruct m as [a|w]; [|discriminate E]. exact (K a (H a eq_refl) b E). Qed.
Lemma ends_bind_any {A B} (Q : B -> Prop) (m : outcome A) k : (forall a, ends Q (k a)) -> ends Q (bind m k).
Proof. intros K. apply (ends_bind (fun _ => True)); [intros ? ?; exact I|intros a _; apply K]. Qed.
Lemma ends_if {A} (Q : A -> Prop) (b : bool) m n : ends Q m -> ends Q n -> ends Q (if b then m else n).
Proof. destruct b; trivial. Qed.

Definition unsigned (n z : Z) : Prop := 0 <= z < 2 ^ n.
Definition signed32 (z : Z) : Prop := - 2 ^ 31 <= z < 2 ^ 31.

Lemma unsigned_shift n z : 0 <= n -> (unsigned n z <-> Z.shiftr z n = 0).
Proof.
  intros Hn. rewrite Z.shiftr_div_pow2 by exact Hn. unfold unsigned.
  assert (0 < 2 ^ n) by (apply Z.pow_pos_nonneg; lia). split.
  - apply Z.div_small.
  - intros E. pose proof (Z.div_mod z (2 ^ n) ltac:(lia)). pose proof (Z.mod_pos_bound z (2 ^ n) ltac:(lia)). lia.
Qed.

Lemma signed_shift z : signed32 z <-> Z.shiftr z 31 = 0 \/ Z.shiftr z 31 = -1.
Proof.
  rewrite Z.shiftr_div_pow2 by lia. unfold signed32.
  pose proof (Z.div_mod z (2 ^ 31) ltac:(lia)). pose proof (Z.mod_pos_bound z (2 ^ 31) ltac:(lia)). split.
  - intros H1. assert (-1 <= z / 2 ^ 31 < 1); [|lia]. split.
    + apply Z.div_le_lower_bound; lia.
    + apply Z.div_lt_upper_bound; lia.
  - lia.
Qed.

Lemma land_unsigned n a b : 0 <= n -> unsigned n a -> unsigned n b -> unsigned n (Z.land a b).
Proof.
  intros Hn A B. apply unsigned_shift in A, B; try exact Hn. apply unsigned_shift; [exact Hn|].
  rewrite Z.shiftr_land, A. apply Z.land_0_l.
Qed.
Lemma lor_unsigned n a b : 0 <= n -> unsigned n a -> unsigned n b -> unsigned n (Z.lor a b).
Proof.
  intros Hn A B. apply unsigned_shift in A, B; try exact Hn. apply unsigned_shift; [exact Hn|].
  rewrite Z.shiftr_lor, A, B. reflexivity.
Qed.
Lemma land_signed a b : signed32 a -> signed32 b -> signed32 (Z.land a b).
Proof.
  intros A B. apply signed_shift in A, B. apply signed_shift. rewrite Z.shiftr_land.
  destruct A as [->| ->], B as [->| ->]; [left|left|left|right]; reflexivity.
Qed.

Lemma mod_unsigned n z : 0 <= n -> unsigned n (z mod 2 ^ n).
Proof. intros Hn. apply Z.mod_pos_bound, Z.pow_pos_nonneg; lia. Qed.

Lemma ck_u_ends n p v : 0 <= n -> ends (unsigned n) (ck_u n p v).
Proof.
  intros Hn. unfold ck_u. destruct ((0 <=? v) && (v <? 2 ^ n)) eqn:E.
  - apply ends_ret. apply andb_prop in E. unfold unsigned. lia.
  - apply ends_if; [apply ends_panic|]. apply ends_ret, mod_unsigned, Hn.
Qed.

Lemma wrap_signed v : signed32 (wrap_i32 v).
Proof.
  unfold wrap_i32, signed32. pose proof (Z.mod_pos_bound v (2 ^ 32) ltac:(lia)).
  destruct (v mod 2 ^ 32 <? 2 ^ 31) eqn:E; lia.
Qed.

Lemma ck_i32_ends p v : ends signed32 (ck_i32 p v).
Proof.
  unfold ck_i32. destruct ((- 2 ^ 31 <=? v) && (v <? 2 ^ 31)) eqn:E.
  - apply ends_ret. apply andb_prop in E. unfold signed32. lia.
  - apply ends_if; [apply ends_panic|]. apply ends_ret, wrap_signed.
Qed.

Lemma shr_ends n p x s : 0 < n -> unsigned n x -> ends (unsigned n) (shr n p x s).
Proof.
  intros Hn Hx. unfold shr. apply (ends_bind (fun s => 0 <= s)).
  - unfold ck_shift. destruct ((0 <=? s) && (s <? n)) eqn:E.
    + apply ends_ret. apply andb_prop in E. lia.
    + apply ends_if; [apply ends_panic|]. apply ends_ret. apply Z.mod_pos_bound. exact Hn.
  - intros t Ht. apply ends_ret. unfold unsigned in *. split; [apply Z.shiftr_nonneg; lia|].
    rewrite Z.shiftr_div_pow2 by exact Ht.
    assert (0 < 2 ^ t) by (apply Z.pow_pos_nonneg; lia).
    apply (Z.le_lt_trans _ x); [apply Z.div_le_upper_bound; nia|lia].
Qed.

Lemma shl_ends n p x s : 0 <= n -> ends (unsigned n) (shl_u n p x s).
Proof. intros Hn. unfold shl_u. apply ends_bind_any. intros t. apply ends_ret, mod_unsigned, Hn. Qed.

Lemma slice32_ends p w a b : unsigned 32 w -> ends (unsigned 32) (slice_u32 p w a b).
Proof.
  intros Hw. unfold slice_u32. apply ends_if; [|apply ends_panic].
  apply (ends_bind (unsigned 32)); [apply shr_ends; [lia|exact Hw]|]. intros x Hx.
  apply ends_bind_any. intros d. apply ends_bind_any. intros d1. apply ends_bind_any. intros pw.
  apply (ends_bind (unsigned 32)); [apply ck_u_ends; lia|]. intros m Hm.
  apply ends_ret, land_unsigned; [lia|exact Hx|exact Hm].
Qed.

Lemma slice16_ends p w a b : unsigned 16 w -> ends (unsigned 16) (slice_u16 p w a b).
Proof.
  intros Hw. unfold slice_u16. apply ends_if; [|apply ends_panic].
  apply (ends_bind (unsigned 16)); [apply shr_ends; [lia|exact Hw]|]. intros x Hx.
  apply ends_bind_any. intros d. apply ends_bind_any. intros d1. apply ends_bind_any. intros pw.
  apply (ends_bind (unsigned 16)); [apply ck_u_ends; lia|]. intros m Hm.
  apply ends_ret, land_unsigned; [lia|exact Hx|exact Hm].
Qed.

Lemma signed_ends p v b : signed32 v -> ends signed32 (to_signed_nbit p v b).
Proof.
  intros Hv. unfold to_signed_nbit. apply ends_bind_any. intros pw.
  apply (ends_bind signed32); [apply ck_i32_ends|]. intros m Hm.
  apply ends_bind_any. intros sh. apply ends_bind_any. intros top. apply ends_if.
  - apply ends_bind_any. intros pw'. apply ck_i32_ends.
  - apply ends_ret, land_signed; assumption.
Qed.

Lemma set_loop_ends p w ms : forall i x, unsigned 32 x -> ends (unsigned 32) (set_loop p w i ms x).
Proof.
  induction ms as [|m ms IH]; intros i x Hx; cbn [set_loop]; [apply ends_ret, Hx|].
  apply ends_bind_any. intros a. apply (ends_bind (unsigned 32)); [apply shl_ends; lia|]. intros b Hb.
  apply IH, lor_unsigned; [lia|exact Hx|exact Hb].
Qed.

Lemma set32_ends p w ms : ends (unsigned 32) (set_u32 p w ms).
Proof. apply set_loop_ends. unfold unsigned. lia. Qed.
Lemma set16_ends p w ms : ends (unsigned 32) (set_u16 p w ms).
Proof. apply set_loop_ends. unfold unsigned. lia. Qed.

(** ** Operands *)

Lemma unsigned_in n z : unsigned n z -> ((0 <=? z) && (z <? 2 ^ n))%bool = true.
Proof. unfold unsigned. intros H. apply andb_true_intro. lia. Qed.
Lemma in_unsigned n z : ((0 <=? z) && (z <? 2 ^ n))%bool = true -> unsigned n z.
Proof. unfold unsigned. intros H. apply andb_prop in H. lia. Qed.
Lemma signed_in p z : signed32 z -> in_type p SrcSem.I32 z = true.
Proof. unfold signed32. intros H. apply andb_true_intro. lia. Qed.
Lemma in_signed p z : in_type p SrcSem.I32 z = true -> signed32 z.
Proof. intros H. apply andb_prop in H. unfold signed32. lia. Qed.

Lemma usize_large p : platform_ok p -> 16 <= usize_bits p.
Proof. unfold platform_ok. lia. Qed.

Lemma as_usize_in p z : platform_ok p -> in_type p SrcSem.Usize (as_usize p z) = true.
Proof. intros H. apply unsigned_in, mod_unsigned. pose proof (usize_large p H). lia. Qed.

Lemma small_in p z : platform_ok p -> 0 <= z < 32 -> in_type p SrcSem.Usize z = true.
Proof.
  intros H Z. pose proof (usize_large p H). pose proof (Z.pow_le_mono_r 2 16 (usize_bits p) ltac:(lia) ltac:(lia)).
  apply unsigned_in. unfold unsigned. cbn [width]. lia.
Qed.

Lemma small_signed p z : 0 <= z < 2 ^ 31 -> in_type p SrcSem.I32 z = true.
Proof. intros H. apply signed_in. unfold signed32. lia. Qed.

Lemma prime_ends p w hi lo : platform_ok p -> ends (fun r => in_type p SrcSem.Usize r = true) (prime_reg p w hi lo).
Proof.
  intros H. unfold prime_reg. repeat (apply ends_bind_any; intros ?). apply ends_ret, as_usize_in, H.
Qed.
Lemma wide_ends p w hi lo : platform_ok p -> ends (fun r => in_type p SrcSem.Usize r = true) (wide_reg p w hi lo).
Proof.
  intros H. unfold wide_reg. repeat (apply ends_bind_any; intros ?). apply ends_ret, as_usize_in, H.
Qed.

(** A register is a cast to usize, or a small number. *)
Ltac reg :=
  cbv zeta;
  lazymatch goal with
  | |- ends _ (Ret None) => apply ends_ret; exact I
  | |- ends _ (Ret (Some (as_usize _ _))) => apply ends_ret; apply as_usize_in; assumption
  | |- ends _ (Ret (Some ?z)) => apply ends_ret; first [assumption | apply small_in; [assumption|lia]]
  | |- ends _ (Panic _) => apply ends_panic
  | |- ends _ (bind (prime_reg _ _ _ _) _) => eapply ends_bind; [apply prime_ends; assumption|]; intros ? ?; reg
  | |- ends _ (bind (wide_reg _ _ _ _) _) => eapply ends_bind; [apply wide_ends; assumption|]; intros ? ?; reg
  | |- ends _ (bind _ _) => apply ends_bind_any; intros ?; reg
  | |- ends _ (match ?op with _ => _ end) => destruct op; reg
  end.

(** An immediate is a cast to i32, the result of [to_signed_nbit] on one, or a small number. *)
Ltac imm :=
  cbv zeta;
  lazymatch goal with
  | |- ends _ (Ret None) => apply ends_ret; exact I
  | |- ends _ (Ret (Some (as_i32 _))) => apply ends_ret; apply signed_in, wrap_signed
  | |- ends _ (Ret (as_i32 _)) => apply ends_ret; apply wrap_signed
  | |- ends _ (Ret (Some ?z)) => apply ends_ret; first [apply signed_in; assumption | apply small_signed; lia]
  | |- ends _ (Panic _) => apply ends_panic
  | |- ends _ (to_signed_nbit _ (as_i32 _) _) => apply signed_ends, wrap_signed
  | |- ends _ (bind ?m (fun v => Ret (Some v))) =>
      apply (ends_bind signed32); [imm | intros ? ?; imm]
  | |- ends _ (bind _ _) => apply ends_bind_any; intros ?; imm
  | |- ends _ (match ?op with _ => _ end) => destruct op; imm
  end.

Lemma basei_rd_ends p w op : platform_ok p -> ends (opt_in p SrcSem.Usize) (basei_parse_rd p w op).
Proof. intros H. unfold basei_parse_rd. reg. Qed.
Lemma basei_rs1_ends p w op : platform_ok p -> ends (opt_in p SrcSem.Usize) (basei_parse_rs1 p w op).
Proof. intros H. unfold basei_parse_rs1. reg. Qed.
Lemma basei_rs2_ends p w op : platform_ok p -> ends (opt_in p SrcSem.Usize) (basei_parse_rs2 p w op).
Proof. intros H. unfold basei_parse_rs2. reg. Qed.
Lemma basei_imm_ends p w op isa : ends (opt_in p SrcSem.I32) (basei_parse_imm p w op isa).
Proof. unfold basei_parse_imm, imm_U, imm_J, imm_B, imm_I, imm_S. imm. Qed.
Lemma m_rd_ends p w op : platform_ok p -> ends (opt_in p SrcSem.Usize) (m_parse_rd p w op).
Proof. intros H. unfold m_parse_rd. reg. Qed.
Lemma m_rs1_ends p w op : platform_ok p -> ends (opt_in p SrcSem.Usize) (m_parse_rs1 p w op).
Proof. intros H. unfold m_parse_rs1. reg. Qed.
Lemma m_rs2_ends p w op : platform_ok p -> ends (opt_in p SrcSem.Usize) (m_parse_rs2 p w op).
Proof. intros H. unfold m_parse_rs2. reg. Qed.
Lemma m_imm_ends p w op : ends (opt_in p SrcSem.I32) (m_parse_imm p w op).
Proof. unfold m_parse_imm. imm. Qed.
Lemma a_rd_ends p w op : platform_ok p -> ends (opt_in p SrcSem.Usize) (a_parse_rd p w op).
Proof. intros H. unfold a_parse_rd. reg. Qed.
Lemma a_rs1_ends p w op : platform_ok p -> ends (opt_in p SrcSem.Usize) (a_parse_rs1 p w op).
Proof. intros H. unfold a_parse_rs1. reg. Qed.
Lemma a_rs2_ends p w op : platform_ok p -> ends (opt_in p SrcSem.Usize) (a_parse_rs2 p w op).
Proof. intros H. unfold a_parse_rs2. reg. Qed.
Lemma a_imm_ends p w op : ends (opt_in p SrcSem.I32) (a_parse_imm p w op).
Proof. unfold a_parse_imm. imm. Qed.
Lemma zicsr_rd_ends p w op : platform_ok p -> ends (opt_in p SrcSem.Usize) (zicsr_parse_rd p w op).
Proof. intros H. unfold zicsr_parse_rd. reg. Qed.
Lemma zicsr_rs1_ends p w op : platform_ok p -> ends (opt_in p SrcSem.Usize) (zicsr_parse_rs1 p w op).
Proof. intros H. unfold zicsr_parse_rs1. reg. Qed.
Lemma zicsr_rs2_ends p w op : platform_ok p -> ends (opt_in p SrcSem.Usize) (zicsr_parse_rs2 p w op).
Proof. intros H. unfold zicsr_parse_rs2. reg. Qed.
Lemma zicsr_imm_ends p w op : ends (opt_in p SrcSem.I32) (zicsr_parse_imm p w op).
Proof. unfold zicsr_parse_imm. imm. Qed.
Lemma zifencei_rd_ends p w op : platform_ok p -> ends (opt_in p SrcSem.Usize) (zifencei_parse_rd p w op).
Proof. intros H. unfold zifencei_parse_rd. reg. Qed.
Lemma zifencei_rs1_ends p w op : platform_ok p -> ends (opt_in p SrcSem.Usize) (zifencei_parse_rs1 p w op).
Proof. intros H. unfold zifencei_parse_rs1. reg. Qed.
Lemma zifencei_rs2_ends p w op : platform_ok p -> ends (opt_in p SrcSem.Usize) (zifencei_parse_rs2 p w op).
Proof. intros H. unfold zifencei_parse_rs2. reg. Qed.
Lemma zifencei_imm_ends p w op : ends (opt_in p SrcSem.I32) (zifencei_parse_imm p w op).
Proof. unfold zifencei_parse_imm. imm. Qed.
Lemma zicfiss_rd_ends p w op : platform_ok p -> ends (opt_in p SrcSem.Usize) (zicfiss_parse_rd p w op).
Proof. intros H. unfold zicfiss_parse_rd. reg. Qed.
Lemma zicfiss_rs1_ends p w op : platform_ok p -> ends (opt_in p SrcSem.Usize) (zicfiss_parse_rs1 p w op).
Proof. intros H. unfold zicfiss_parse_rs1. reg. Qed.
Lemma zicfiss_rs2_ends p w op : platform_ok p -> ends (opt_in p SrcSem.Usize) (zicfiss_parse_rs2 p w op).
Proof. intros H. unfold zicfiss_parse_rs2. reg. Qed.
Lemma zicfiss_imm_ends p w op : ends (opt_in p SrcSem.I32) (zicfiss_parse_imm p w op).
Proof. unfold zicfiss_parse_imm. imm. Qed.
Lemma zicboz_rd_ends p w op : platform_ok p -> ends (opt_in p SrcSem.Usize) (zicboz_parse_rd p w op).
Proof. intros H. unfold zicboz_parse_rd. reg. Qed.
Lemma zicboz_rs1_ends p w op : unsigned 32 w -> platform_ok p ->
  ends (opt_in p SrcSem.Usize) (zicboz_parse_rs1 p w op).
Proof.
  intros Hw H. unfold zicboz_parse_rs1.
  apply (ends_bind (unsigned 32)); [apply slice32_ends, Hw|]. intros s Hs. unfold u8_try_from_unwrap.
  destruct (s <? 2 ^ 8) eqn:E; [|apply ends_panic]. destruct op. apply ends_ret.
  cbn [opt_in]. apply unsigned_in. pose proof (usize_large p H).
  pose proof (Z.pow_le_mono_r 2 16 (usize_bits p) ltac:(lia) ltac:(lia)).
  unfold unsigned in *. cbn [width]. lia.
Qed.
Lemma zicboz_rs2_ends p w op : platform_ok p -> ends (opt_in p SrcSem.Usize) (zicboz_parse_rs2 p w op).
Proof. intros H. unfold zicboz_parse_rs2. reg. Qed.
Lemma zicboz_imm_ends p w op : ends (opt_in p SrcSem.I32) (zicboz_parse_imm p w op).
Proof. unfold zicboz_parse_imm. imm. Qed.
Lemma zicntr_rd_ends p w op : platform_ok p -> ends (opt_in p SrcSem.Usize) (zicntr_parse_rd p w op).
Proof. intros H. unfold zicntr_parse_rd. reg. Qed.
Lemma zicntr_rs1_ends p w op : platform_ok p -> ends (opt_in p SrcSem.Usize) (zicntr_parse_rs1 p w op).
Proof. intros H. unfold zicntr_parse_rs1. reg. Qed.
Lemma zicntr_rs2_ends p w op : platform_ok p -> ends (opt_in p SrcSem.Usize) (zicntr_parse_rs2 p w op).
Proof. intros H. unfold zicntr_parse_rs2. reg. Qed.
Lemma zicntr_imm_ends p w op : ends (opt_in p SrcSem.I32) (zicntr_parse_imm p w op).
Proof. unfold zicntr_parse_imm. imm. Qed.
Lemma priv_rd_ends p w op : platform_ok p -> ends (opt_in p SrcSem.Usize) (priv_parse_rd p w op).
Proof. intros H. unfold priv_parse_rd. reg. Qed.
Lemma priv_rs1_ends p w op : platform_ok p -> ends (opt_in p SrcSem.Usize) (priv_parse_rs1 p w op).
Proof. intros H. unfold priv_parse_rs1. reg. Qed.
Lemma priv_rs2_ends p w op : platform_ok p -> ends (opt_in p SrcSem.Usize) (priv_parse_rs2 p w op).
Proof. intros H. unfold priv_parse_rs2. reg. Qed.
Lemma priv_imm_ends p w op : ends (opt_in p SrcSem.I32) (priv_parse_imm p w op).
Proof. unfold priv_parse_imm. imm. Qed.
Lemma c_rd_ends p w op : platform_ok p -> ends (opt_in p SrcSem.Usize) (c_parse_rd p w op).
Proof. intros H. unfold c_parse_rd. reg. Qed.
Lemma c_rs1_ends p w op : platform_ok p -> ends (opt_in p SrcSem.Usize) (c_parse_rs1 p w op).
Proof. intros H. unfold c_parse_rs1. reg. Qed.
Lemma c_rs2_ends p w op : platform_ok p -> ends (opt_in p SrcSem.Usize) (c_parse_rs2 p w op).
Proof. intros H. unfold c_parse_rs2. reg. Qed.
Lemma c_imm_ends p w op : ends (opt_in p SrcSem.I32) (c_parse_imm p w op).
Proof. unfold c_parse_imm. imm. Qed.
Lemma zicfiss16_rd_ends p w op : platform_ok p -> ends (opt_in p SrcSem.Usize) (zicfiss16_parse_rd w op).
Proof. intros H. unfold zicfiss16_parse_rd. reg. Qed.
Lemma zicfiss16_rs1_ends p w op : platform_ok p -> ends (opt_in p SrcSem.Usize) (zicfiss16_parse_rs1 w op).
Proof. intros H. unfold zicfiss16_parse_rs1. reg. Qed.
Lemma zicfiss16_rs2_ends p w op : platform_ok p -> ends (opt_in p SrcSem.Usize) (zicfiss16_parse_rs2 w op).
Proof. intros H. unfold zicfiss16_parse_rs2. reg. Qed.
Lemma zicfiss16_imm_ends p w op : ends (opt_in p SrcSem.I32) (zicfiss16_parse_imm w op).
Proof. unfold zicfiss16_parse_imm. imm. Qed.

(** A result is an error, or satisfies [Q]. *)
Definition okay {A} (Q : A -> Prop) (r : result A DecodingError) : Prop := match r with Ok a => Q a | Err _ => True end.

Lemma ends_try {A B} (R : A -> Prop) (Q : B -> Prop) (m : outcome (result A DecodingError)) k :
  ends (okay R) m -> (forall a, R a -> ends (okay Q) (k a)) -> ends (okay Q) (try m k).
Proof.
  intros H K. destruct m as [[a|e]|w]; cbn [try]; [apply K, (H _ eq_refl)|apply ends_ret; exact I|apply ends_panic].
Qed.
Lemma ends_try_any {A B} (Q : B -> Prop) (m : outcome (result A DecodingError)) k :
  (forall a, ends (okay Q) (k a)) -> ends (okay Q) (try m k).
Proof. intros K. apply (ends_try (fun _ => True)); [|intros a _; apply K]. intros [a|e] _; exact I. Qed.
Lemma ok_of_ends {A} (Q : A -> Prop) m : ends Q m -> ends (okay Q) (ok_of m).
Proof. intros H. unfold ok_of. apply (ends_bind Q); [exact H|]. intros a Ha. apply ends_ret, Ha. Qed.

Lemma rd32_ends p w op : platform_ok p -> ends (okay (opt_in p SrcSem.Usize)) (parse_rd_u32 p w op).
Proof.
  intros H. destruct op; cbn [parse_rd_u32];
    [apply ok_of_ends, basei_rd_ends; assumption
    |apply ok_of_ends, m_rd_ends; assumption
    |apply ok_of_ends, a_rd_ends; assumption
    |apply ends_ret; exact I
    |apply ok_of_ends, zifencei_rd_ends; assumption
    |apply ok_of_ends, zicboz_rd_ends; assumption
    |apply ok_of_ends, zicsr_rd_ends; assumption
    |apply ok_of_ends, zicfiss_rd_ends; assumption
    |apply ok_of_ends, zicntr_rd_ends; assumption
    |apply ok_of_ends, priv_rd_ends; assumption].
Qed.
Lemma rs132_ends p w op : unsigned 32 w -> platform_ok p -> ends (okay (opt_in p SrcSem.Usize)) (parse_rs1_u32 p w op).
Proof.
  intros Hw H. destruct op; cbn [parse_rs1_u32];
    [apply ok_of_ends, basei_rs1_ends; assumption
    |apply ok_of_ends, m_rs1_ends; assumption
    |apply ok_of_ends, a_rs1_ends; assumption
    |apply ends_ret; exact I
    |apply ok_of_ends, zifencei_rs1_ends; assumption
    |apply ok_of_ends, zicboz_rs1_ends; assumption
    |apply ok_of_ends, zicsr_rs1_ends; assumption
    |apply ok_of_ends, zicfiss_rs1_ends; assumption
    |apply ok_of_ends, zicntr_rs1_ends; assumption
    |apply ok_of_ends, priv_rs1_ends; assumption].
Qed.
Lemma rs232_ends p w op : platform_ok p -> ends (okay (opt_in p SrcSem.Usize)) (parse_rs2_u32 p w op).
Proof.
  intros H. destruct op; cbn [parse_rs2_u32];
    [apply ok_of_ends, basei_rs2_ends; assumption
    |apply ok_of_ends, m_rs2_ends; assumption
    |apply ok_of_ends, a_rs2_ends; assumption
    |apply ends_ret; exact I
    |apply ok_of_ends, zifencei_rs2_ends; assumption
    |apply ok_of_ends, zicboz_rs2_ends; assumption
    |apply ok_of_ends, zicsr_rs2_ends; assumption
    |apply ok_of_ends, zicfiss_rs2_ends; assumption
    |apply ok_of_ends, zicntr_rs2_ends; assumption
    |apply ok_of_ends, priv_rs2_ends; assumption].
Qed.
Lemma imm32_ends p w op isa : ends (okay (opt_in p SrcSem.I32)) (parse_imm_u32 p w op isa).
Proof.
  destruct op; cbn [parse_imm_u32];
    [apply ok_of_ends, basei_imm_ends
    |apply ok_of_ends, m_imm_ends
    |apply ok_of_ends, a_imm_ends
    |apply ends_ret; exact I
    |apply ok_of_ends, zifencei_imm_ends
    |apply ok_of_ends, zicboz_imm_ends
    |apply ok_of_ends, zicsr_imm_ends
    |apply ok_of_ends, zicfiss_imm_ends
    |apply ok_of_ends, zicntr_imm_ends
    |apply ok_of_ends, priv_imm_ends].
Qed.
Lemma rd16_ends p w op : platform_ok p -> ends (okay (opt_in p SrcSem.Usize)) (parse_rd_u16 p w op).
Proof.
  intros H. destruct op; cbn [parse_rd_u16];
    [apply ends_ret; exact I
    |apply ends_ret; exact I
    |apply ends_ret; exact I
    |apply ok_of_ends, c_rd_ends; assumption
    |apply ends_ret; exact I
    |apply ends_ret; exact I
    |apply ends_ret; exact I
    |apply ok_of_ends, zicfiss16_rd_ends; assumption
    |apply ends_ret; exact I
    |apply ends_ret; exact I].
Qed.
Lemma rs116_ends p w op : platform_ok p -> ends (okay (opt_in p SrcSem.Usize)) (parse_rs1_u16 p w op).
Proof.
  intros H. destruct op; cbn [parse_rs1_u16];
    [apply ends_ret; exact I
    |apply ends_ret; exact I
    |apply ends_ret; exact I
    |apply ok_of_ends, c_rs1_ends; assumption
    |apply ends_ret; exact I
    |apply ends_ret; exact I
    |apply ends_ret; exact I
    |apply ok_of_ends, zicfiss16_rs1_ends; assumption
    |apply ends_ret; exact I
    |apply ends_ret; exact I].
Qed.
Lemma rs216_ends p w op : platform_ok p -> ends (okay (opt_in p SrcSem.Usize)) (parse_rs2_u16 p w op).
Proof.
  intros H. destruct op; cbn [parse_rs2_u16];
    [apply ends_ret; exact I
    |apply ends_ret; exact I
    |apply ends_ret; exact I
    |apply ok_of_ends, c_rs2_ends; assumption
    |apply ends_ret; exact I
    |apply ends_ret; exact I
    |apply ends_ret; exact I
    |apply ok_of_ends, zicfiss16_rs2_ends; assumption
    |apply ends_ret; exact I
    |apply ends_ret; exact I].
Qed.
Lemma imm16_ends p w op isa : ends (okay (opt_in p SrcSem.I32)) (parse_imm_u16 p w op isa).
Proof.
  destruct op; cbn [parse_imm_u16];
    [apply ends_ret; exact I
    |apply ends_ret; exact I
    |apply ends_ret; exact I
    |apply ok_of_ends, c_imm_ends
    |apply ends_ret; exact I
    |apply ends_ret; exact I
    |apply ends_ret; exact I
    |apply ok_of_ends, zicfiss16_imm_ends
    |apply ends_ret; exact I
    |apply ends_ret; exact I].
Qed.
Lemma decode32_ends p w isa : unsigned 32 w -> platform_ok p -> ends (okay (numbers_ok p)) (decode_u32 p w isa).
Proof.
  intros Hw H. unfold decode_u32. apply ends_try_any. intros op.
  apply (ends_try (opt_in p SrcSem.Usize)); [apply rd32_ends, H|]. intros d Hd.
  apply (ends_try (opt_in p SrcSem.Usize)); [apply rs132_ends; assumption|]. intros s1 H1.
  apply (ends_try (opt_in p SrcSem.Usize)); [apply rs232_ends, H|]. intros s2 H2.
  apply (ends_try (opt_in p SrcSem.I32)); [apply imm32_ends|]. intros i Hi.
  apply ends_ret. repeat split; assumption.
Qed.
Lemma decode16_ends p w isa : platform_ok p -> ends (okay (numbers_ok p)) (decode_u16 p w isa).
Proof.
  intros H. unfold decode_u16. apply ends_if; [apply ends_ret; exact I|]. apply ends_try_any. intros op.
  apply (ends_try (opt_in p SrcSem.Usize)); [apply rd16_ends, H|]. intros d Hd.
  apply (ends_try (opt_in p SrcSem.Usize)); [apply rs116_ends, H|]. intros s1 H1.
  apply (ends_try (opt_in p SrcSem.Usize)); [apply rs216_ends, H|]. intros s2 H2.
  apply (ends_try (opt_in p SrcSem.I32)); [apply imm16_ends|]. intros i Hi.
  apply ends_ret. repeat split; assumption.
Qed.
Lemma try_from_ends p w : 0 <= w -> platform_ok p -> ends (okay (numbers_ok p)) (try_from_usize p w).
Proof.
  intros Hw H. unfold try_from_usize. apply ends_if.
  - unfold try_from_expect. destruct (w <? 2 ^ 32) eqn:E; [|apply ends_panic].
    apply decode32_ends; [unfold unsigned; lia|exact H].
  - apply ends_bind_any. intros v. apply decode16_ends, H.
Qed.

(** ** Types *)

(** The functions with the types of their parameters and of their results. *)
Definition results : list (string * (list ty * ty)) :=
  Eval vm_compute in
    map (fun f => (fst f, (map snd (f_params (snd f)),
      match f_ret (snd f) with Some t => t | None => TyPath [] [] end))) (p_fns crate).

Lemma results_ok :
  map (fun f => (fst f, (map snd (f_params (snd f)), f_ret (snd f)))) (p_fns crate) =
  map (fun r => (fst r, (fst (snd r), Some (snd (snd r))))) results.
Proof. vm_compute. reflexivity. Qed.

Lemma assoc_in {A} k (l : list (string * A)) a : assoc k l = Some a -> In (k, a) l.
Proof.
  induction l as [|[x b] l IH]; cbn [assoc]; [discriminate|].
  destruct (String.eqb_spec k x) as [->|_].
  - intros E. injection E as ->. left. reflexivity.
  - intros E. right. apply IH, E.
Qed.

Lemma declared_by p key vs v ts t : assoc key results = Some (ts, t) ->
  (forall n, result_of p crate (S (S (S (S (S n))))) (combine ts vs) t v) -> declared p key vs v.
Proof.
  intros A R. apply assoc_in in A.
  apply (in_map (fun r => (fst r, (fst (snd r), Some (snd (snd r)))))) in A. rewrite <- results_ok in A.
  apply in_map_iff in A. destruct A as ([k f] & E & I). cbn [fst snd] in E. injection E as -> <- Ef.
  exists crate, f, t. split; [exact crate_loads|]. split; [exact I|]. split; [exact Ef|].
  intros fuel F. do 5 (destruct fuel as [|fuel]; [lia|]). apply R.
Qed.

Lemma typed_result p n t {A} (f : A -> value) r :
  okay (fun a => typed p crate (S n) t (f a) = true) r ->
  typed p crate (S (S n)) (TyPath ["Result"] [t; plain "DecodingError"]) (of_result f r) = true.
Proof.
  intros H. destruct r as [a|e]; cbn [of_result].
  - change ((true && (typed p crate (S n) t (f a) && true))%bool = true). rewrite Bool.andb_true_r. exact H.
  - change ((true && (typed p crate (S n) (plain "DecodingError") (of_err e) && true))%bool = true).
    rewrite Bool.andb_true_r. apply err_values. exists e. reflexivity.
Qed.

(** What a call comes to is declared. *)
Definition fits (p : platform) (key : string) (vs : list value) (a : ans) : Prop :=
  match a with Done v _ => declared p key vs v | _ => True end.

Lemma fits_gives {A} p key vs ts t o (f : A -> value) m :
  assoc key results = Some (ts, t) ->
  (forall n, ends (fun a => typed p crate (S (S (S (S (S n))))) t (f a) = true) m) ->
  fits p key vs (gives f o m).
Proof.
  intros E H. destruct m as [a|w]; [|exact I]. cbn [gives fits].
  apply (declared_by p key vs (f a) ts t E). intros n. apply r_typed, (H n a eq_refl).
Qed.

Lemma ends_weak {A} (R Q : A -> Prop) m : (forall a, R a -> Q a) -> ends R m -> ends Q m.
Proof. intros H K a E. apply H, K, E. Qed.
Lemma ends_any {A} (Q : A -> Prop) m : (forall a, Q a) -> ends Q m.
Proof. intros H a _. apply H. Qed.

Lemma fits_int p key vs ts x t o m : assoc key results = Some (ts, plain x) -> prim_ity x = Some t ->
  ends (fun z => in_type p t z = true) m -> fits p key vs (gives (VInt t) o m).
Proof.
  intros E Et H. apply (fits_gives p key vs ts (plain x) o _ m E). intros n. revert H. apply ends_weak.
  intros z Hz. apply (int_values p _ x t (VInt t z) Et). exists z. split; [exact Hz|reflexivity].
Qed.

Lemma fits_option p key vs ts x t o m :
  assoc key results = Some (ts, TyPath ["Option"] [plain x]) -> prim_ity x = Some t ->
  ends (opt_in p t) m -> fits p key vs (gives (of_option (VInt t)) o m).
Proof.
  intros E Et H. apply (fits_gives p key vs ts _ o _ m E). intros n. revert H. apply ends_weak.
  intros y Hy. apply (option_values p _ x t _ Et). exists y. split; [exact Hy|reflexivity].
Qed.

Lemma fits_option_result p key vs ts x t o m :
  assoc key results = Some (ts, TyPath ["Result"] [TyPath ["Option"] [plain x]; plain "DecodingError"]) ->
  prim_ity x = Some t ->
  ends (okay (opt_in p t)) m -> fits p key vs (gives (of_result (of_option (VInt t))) o m).
Proof.
  intros E Et H. apply (fits_gives p key vs ts _ o _ m E). intros n. revert H. apply ends_weak.
  intros r Hr. apply typed_result. destruct r as [y|e]; [|exact I]. cbn [okay] in *.
  apply (option_values p _ x t _ Et). exists y. split; [exact Hr|reflexivity].
Qed.

Lemma fits_instruction p key vs ts o m :
  assoc key results = Some (ts, TyPath ["Result"] [plain "Instruction"; plain "DecodingError"]) ->
  ends (okay (numbers_ok p)) m -> fits p key vs (gives (of_result of_inst) o m).
Proof.
  intros E H. apply (fits_gives p key vs ts _ o _ m E). intros n. revert H. apply ends_weak.
  intros r Hr. apply typed_result. destruct r as [i|e]; [|exact I]. cbn [okay] in *.
  apply instruction_values. exists i. split; [exact Hr|reflexivity].
Qed.

(** A declared enumeration all of whose values are values of [f]. *)
Lemma fits_enum {A} p key vs ts x (f : A -> value) o m :
  assoc key results = Some (ts, plain x) ->
  (forall n a, typed p crate (S (S n)) (plain x) (f a) = true) -> fits p key vs (gives f o m).
Proof. intros E H. apply (fits_gives p key vs ts _ o _ m E). intros n. apply ends_any. intros a. apply H. Qed.

Lemma fits_enum_result {A} p key vs ts x (f : A -> value) o m :
  assoc key results = Some (ts, TyPath ["Result"] [plain x; plain "DecodingError"]) ->
  (forall n a, typed p crate (S (S n)) (plain x) (f a) = true) -> fits p key vs (gives (of_result f) o m).
Proof.
  intros E H. apply (fits_gives p key vs ts _ o _ m E). intros n. apply ends_any. intros r.
  apply typed_result. destruct r as [a|e]; [apply H|exact I].
Qed.

Lemma fits_writes p key vs ts o m : assoc key results = Some (ts, TyPath ["fmt"; "Result"] []) ->
  fits p key vs (writes o m).
Proof.
  intros E. destruct m as [a|w]; [|exact I]. cbn [writes fits].
  apply (declared_by p key vs _ ts _ E). intros n. apply r_fmt.
Qed.

Lemma fits_text p key vs ts o m : assoc key results = Some (ts, TyRef (TyPath ["str"] [])) ->
  fits p key vs (gives VStr o m).
Proof.
  intros E. destruct m as [a|w]; [|exact I]. cbn [gives fits].
  apply (declared_by p key vs _ ts _ E). intros n. apply r_str.
Qed.

(** The arguments whose ranges matter. *)
Lemma arg_range p n t x z : prim_ity x = Some t ->
  typed p crate (S n) (plain x) (VInt t z) = true -> in_type p t z = true.
Proof. intros E H. apply (int_values p n x t _ E) in H. destruct H as (y & R & Ey). injection Ey as ->. exact R. Qed.

Definition ranges (p : platform) (key : string) (vs : list value) : Prop :=
  forall ts, In (key, ts) signatures -> all2 (admits p crate 5) ts vs = true.

Lemma first_arg p key t x z vs ts : ranges p key (VInt t z :: vs) -> prim_ity x = Some t ->
  assoc key signatures = Some (plain x :: ts) -> (x =? "T")%string = false -> in_type p t z = true.
Proof.
  intros R E S NT. apply assoc_in in S. specialize (R _ S). cbn [all2] in R. apply andb_prop in R.
  destruct R as [R _]. unfold admits, plain in R. rewrite NT in R. exact (arg_range p 4 t x z E R).
Qed.

Lemma second_arg p key v t x z vs u ts : ranges p key (v :: VInt t z :: vs) -> prim_ity x = Some t ->
  assoc key signatures = Some (u :: plain x :: ts) -> (x =? "T")%string = false -> in_type p t z = true.
Proof.
  intros R E S NT. apply assoc_in in S. specialize (R _ S). cbn [all2] in R. apply andb_prop in R.
  destruct R as [_ R]. apply andb_prop in R. destruct R as [R _].
  unfold admits, plain in R. rewrite NT in R. exact (arg_range p 4 t x z E R).
Qed.

Lemma models_fit p key vs o a : platform_ok p -> ranges p key vs -> models p key vs o a -> fits p key vs a.
Proof.
  intros Hp R M. destruct M.
  all: lazymatch goal with
  | |- fits _ _ _ (writes _ _) => eapply fits_writes; vm_compute; reflexivity
  | |- fits _ _ _ (gives VStr _ _) => eapply fits_text; vm_compute; reflexivity
  | |- fits _ _ _ (gives (of_result of_inst) _ _) =>
      eapply fits_instruction; [vm_compute; reflexivity|]
  | |- fits _ _ _ (gives (of_option (VInt SrcSem.Usize)) _ _) =>
      eapply (fits_option _ _ _ _ "usize"); [vm_compute; reflexivity|reflexivity|]
  | |- fits _ _ _ (gives (of_option (VInt SrcSem.I32)) _ _) =>
      eapply (fits_option _ _ _ _ "i32"); [vm_compute; reflexivity|reflexivity|]
  | |- fits _ _ _ (gives (of_result (of_option (VInt SrcSem.Usize))) _ _) =>
      eapply (fits_option_result _ _ _ _ "usize"); [vm_compute; reflexivity|reflexivity|]
  | |- fits _ _ _ (gives (of_result (of_option (VInt SrcSem.I32))) _ _) =>
      eapply (fits_option_result _ _ _ _ "i32"); [vm_compute; reflexivity|reflexivity|]
  | |- fits _ _ _ (gives (VInt U16) _ _) => eapply (fits_int _ _ _ _ "u16"); [vm_compute; reflexivity|reflexivity|]
  | |- fits _ _ _ (gives (VInt U32) _ _) => eapply (fits_int _ _ _ _ "u32"); [vm_compute; reflexivity|reflexivity|]
  | |- fits _ _ _ (gives (VInt SrcSem.I32) _ _) =>
      eapply (fits_int _ _ _ _ "i32"); [vm_compute; reflexivity|reflexivity|]
  | |- fits _ _ _ (gives (of_result (fun x => x)) _ _) => idtac
  | |- fits _ _ _ (gives (of_result _) _ _) => eapply fits_enum_result; [vm_compute; reflexivity|intros n c]
  | |- fits _ _ _ (gives _ _ _) => eapply fits_enum; [vm_compute; reflexivity|intros n c]
  end.
  all: lazymatch goal with
  | |- ends _ _ => idtac
  | |- fits _ _ _ _ => idtac
  | |- typed _ _ _ (plain "Extensions") _ = true => apply ext_values
  | |- typed _ _ _ (plain "OpcodeKind") _ = true => apply opcode_values
  | |- typed _ _ _ (plain "InstFormat") _ = true => apply fmt_values
  | |- typed _ _ _ (plain "BaseIOpcode") _ = true => apply basei_values
  | |- typed _ _ _ (plain "MOpcode") _ = true => apply m_values
  | |- typed _ _ _ (plain "AOpcode") _ = true => apply a_values
  | |- typed _ _ _ (plain "COpcode") _ = true => apply c_values
  | |- typed _ _ _ (plain "ZifenceiOpcode") _ = true => apply zifencei_values
  | |- typed _ _ _ (plain "ZicbozOpcode") _ = true => apply zicboz_values
  | |- typed _ _ _ (plain "ZicsrOpcode") _ = true => apply zicsr_values
  | |- typed _ _ _ (plain "ZicfissOpcode") _ = true => apply zicfiss_values
  | |- typed _ _ _ (plain "ZicntrOpcode") _ = true => apply zicntr_values
  | |- typed _ _ _ (plain "PrivOpcode") _ = true => apply priv_values
  end.
  all: lazymatch goal with
  | |- ends _ _ => idtac
  | |- fits _ _ _ _ => idtac
  | |- exists _, _ => exists c; reflexivity
  end.
  all: lazymatch goal with
  | |- ends _ (basei_parse_rd _ _ _) => apply basei_rd_ends; exact Hp
  | |- ends _ (basei_parse_rs1 _ _ _) => apply basei_rs1_ends; exact Hp
  | |- ends _ (basei_parse_rs2 _ _ _) => apply basei_rs2_ends; exact Hp
  | |- ends _ (basei_parse_imm _ _ _ _) => apply basei_imm_ends
  | |- ends _ (m_parse_rd _ _ _) => apply m_rd_ends; exact Hp
  | |- ends _ (m_parse_rs1 _ _ _) => apply m_rs1_ends; exact Hp
  | |- ends _ (m_parse_rs2 _ _ _) => apply m_rs2_ends; exact Hp
  | |- ends _ (m_parse_imm _ _ _) => apply m_imm_ends
  | |- ends _ (a_parse_rd _ _ _) => apply a_rd_ends; exact Hp
  | |- ends _ (a_parse_rs1 _ _ _) => apply a_rs1_ends; exact Hp
  | |- ends _ (a_parse_rs2 _ _ _) => apply a_rs2_ends; exact Hp
  | |- ends _ (a_parse_imm _ _ _) => apply a_imm_ends
  | |- ends _ (zicsr_parse_rd _ _ _) => apply zicsr_rd_ends; exact Hp
  | |- ends _ (zicsr_parse_rs1 _ _ _) => apply zicsr_rs1_ends; exact Hp
  | |- ends _ (zicsr_parse_rs2 _ _ _) => apply zicsr_rs2_ends; exact Hp
  | |- ends _ (zicsr_parse_imm _ _ _) => apply zicsr_imm_ends
  | |- ends _ (zifencei_parse_rd _ _ _) => apply zifencei_rd_ends; exact Hp
  | |- ends _ (zifencei_parse_rs1 _ _ _) => apply zifencei_rs1_ends; exact Hp
  | |- ends _ (zifencei_parse_rs2 _ _ _) => apply zifencei_rs2_ends; exact Hp
  | |- ends _ (zifencei_parse_imm _ _ _) => apply zifencei_imm_ends
  | |- ends _ (zicfiss_parse_rd _ _ _) => apply zicfiss_rd_ends; exact Hp
  | |- ends _ (zicfiss_parse_rs1 _ _ _) => apply zicfiss_rs1_ends; exact Hp
  | |- ends _ (zicfiss_parse_rs2 _ _ _) => apply zicfiss_rs2_ends; exact Hp
  | |- ends _ (zicfiss_parse_imm _ _ _) => apply zicfiss_imm_ends
  | |- ends _ (zicboz_parse_rd _ _ _) => apply zicboz_rd_ends; exact Hp
  | |- ends _ (zicboz_parse_rs2 _ _ _) => apply zicboz_rs2_ends; exact Hp
  | |- ends _ (zicboz_parse_imm _ _ _) => apply zicboz_imm_ends
  | |- ends _ (zicntr_parse_rd _ _ _) => apply zicntr_rd_ends; exact Hp
  | |- ends _ (zicntr_parse_rs1 _ _ _) => apply zicntr_rs1_ends; exact Hp
  | |- ends _ (zicntr_parse_rs2 _ _ _) => apply zicntr_rs2_ends; exact Hp
  | |- ends _ (zicntr_parse_imm _ _ _) => apply zicntr_imm_ends
  | |- ends _ (priv_parse_rd _ _ _) => apply priv_rd_ends; exact Hp
  | |- ends _ (priv_parse_rs1 _ _ _) => apply priv_rs1_ends; exact Hp
  | |- ends _ (priv_parse_rs2 _ _ _) => apply priv_rs2_ends; exact Hp
  | |- ends _ (priv_parse_imm _ _ _) => apply priv_imm_ends
  | |- ends _ (c_parse_rd _ _ _) => apply c_rd_ends; exact Hp
  | |- ends _ (c_parse_rs1 _ _ _) => apply c_rs1_ends; exact Hp
  | |- ends _ (c_parse_rs2 _ _ _) => apply c_rs2_ends; exact Hp
  | |- ends _ (c_parse_imm _ _ _) => apply c_imm_ends
  | |- ends _ (zicfiss16_parse_rd _ _) => apply zicfiss16_rd_ends; exact Hp
  | |- ends _ (zicfiss16_parse_rs1 _ _) => apply zicfiss16_rs1_ends; exact Hp
  | |- ends _ (zicfiss16_parse_rs2 _ _) => apply zicfiss16_rs2_ends; exact Hp
  | |- ends _ (zicfiss16_parse_imm _ _) => apply zicfiss16_imm_ends
  | |- ends _ (parse_rd_u32 _ _ _) => apply rd32_ends; exact Hp
  | |- ends _ (parse_rs2_u32 _ _ _) => apply rs232_ends; exact Hp
  | |- ends _ (parse_imm_u32 _ _ _ _) => apply imm32_ends
  | |- ends _ (parse_rd_u16 _ _ _) => apply rd16_ends; exact Hp
  | |- ends _ (parse_rs1_u16 _ _ _) => apply rs116_ends; exact Hp
  | |- ends _ (parse_rs2_u16 _ _ _) => apply rs216_ends; exact Hp
  | |- ends _ (parse_imm_u16 _ _ _ _) => apply imm16_ends
  | |- ends _ (decode_u16 _ _ _) => apply decode16_ends; exact Hp
  | |- _ => idtac
  end.
  - apply (first_arg p _ U32 "u32") with (ts := [plain "u32"; plain "u32"]) in R; try reflexivity.
    eapply ends_weak; [intros z; apply unsigned_in|]. apply slice32_ends, in_unsigned, R.
  - apply (first_arg p _ U16 "u16") with (ts := [plain "u32"; plain "u32"]) in R; try reflexivity.
    eapply ends_weak; [intros z; apply unsigned_in|]. apply slice16_ends, in_unsigned, R.
  - apply (second_arg p _ _ SrcSem.I32 "i32") with (u := plain "u32") (ts := [plain "u32"]) in R; try reflexivity.
    eapply ends_weak; [intros z; apply signed_in|]. apply signed_ends, (in_signed p), R.
  - apply (second_arg p _ _ SrcSem.I32 "i32") with (u := plain "u16") (ts := [plain "u32"]) in R; try reflexivity.
    eapply ends_weak; [intros z; apply signed_in|]. apply signed_ends, (in_signed p), R.
  - eapply ends_weak; [intros z; apply unsigned_in|]. apply set32_ends.
  - eapply ends_weak; [intros z; apply unsigned_in|]. apply set16_ends.
  - destruct isa; cbn [only_rv64 gives fits of_result].
    + eapply declared_by; [vm_compute; reflexivity|]. intros n. apply r_err.
      apply err_values. exists OnlyRv64Inst. reflexivity.
    + eapply declared_by; [vm_compute; reflexivity|]. intros n. apply r_ok. left. reflexivity.
  - apply (first_arg p _ U32 "u32") with (ts := [TyRef (plain "ZicbozOpcode")]) in R; try reflexivity.
    apply zicboz_rs1_ends; [apply in_unsigned, R|exact Hp].
  - apply (first_arg p _ U32 "u32") with (ts := [TyRef (plain "OpcodeKind")]) in R; try reflexivity.
    apply rs132_ends; [apply in_unsigned, R|exact Hp].
  - apply (first_arg p _ U32 "u32") with (ts := [plain "Isa"]) in R; try reflexivity.
    apply decode32_ends; [apply in_unsigned, R|exact Hp].
  - apply (first_arg p _ SrcSem.Usize "usize") with (ts := []) in R; try reflexivity.
    apply try_from_ends; [|exact Hp]. apply in_unsigned in R. exact (proj1 R).
Qed.

(** ** What is written *)

Lemma app_nil (s : string) : (s ++ "")%string = s.
Proof. induction s as [|c s IH]; [reflexivity|]. cbn [String.append]. rewrite IH. reflexivity. Qed.

(** The text already written does not matter, and only a call that is given a formatter writes. *)
Definition plainly (p : platform) (key : string) (vs : list value) (o : string) (a : ans) : Prop :=
  match a with
  | Done v o' => exists s, o' = (o ++ s)%string /\ (In VFmt vs \/ s = ""%string) /\
      forall o2, models p key vs o2 (Done v (o2 ++ s))
  | a => forall o2, models p key vs o2 a
  end.

Lemma plain_gives {A} p key vs o (f : A -> value) m :
  (forall o2, models p key vs o2 (gives f o2 m)) -> plainly p key vs o (gives f o m).
Proof.
  intros H. destruct m as [a|w]; cbn [gives plainly] in *; [|exact H].
  exists ""%string. rewrite app_nil. split; [reflexivity|]. split; [right; reflexivity|].
  intros o2. rewrite app_nil. apply H.
Qed.

Lemma plain_writes p key vs o m : In VFmt vs ->
  (forall o2, models p key vs o2 (writes o2 m)) -> plainly p key vs o (writes o m).
Proof.
  intros I H. destruct m as [a|w]; cbn [writes plainly] in *; [|exact H].
  exists a. split; [reflexivity|]. split; [left; exact I|]. exact H.
Qed.

Lemma models_plainly p key vs o a : models p key vs o a -> plainly p key vs o a.
Proof.
  intros M. destruct M;
    first [apply plain_gives; intros o2; constructor
          | apply plain_writes; [right; left; reflexivity|]; intros o2; constructor].
Qed.

(** ** The claims *)

(** No two functions of the source share a key. *)
Lemma keys_differ : NoDup (map fst (p_fns crate)).
Proof.
  assert (E : map fst (p_fns crate) = map fst signatures).
  { rewrite <- signatures_ok, map_map. reflexivity. }
  rewrite E. clear E.
  assert (H : nodup string_dec (map fst signatures) = map fst signatures) by (vm_compute; reflexivity).
  rewrite <- H. apply NoDup_nodup.
Qed.

Lemma one_value {A} (l : list (string * A)) k a b :
  NoDup (map fst l) -> In (k, a) l -> In (k, b) l -> a = b.
Proof.
  intros N I J. induction l as [|[x c] l IH]; [destruct I|].
  cbn [map fst] in N. apply NoDup_cons_iff in N. destruct N as [X N].
  destruct I as [I|I], J as [J|J].
  - congruence.
  - injection I as -> ->. destruct X. apply (in_map fst) in J. exact J.
  - injection J as -> ->. destruct X. apply (in_map fst) in I. exact I.
  - apply IH; assumption.
Qed.

Lemma well_typed_ranges p key vs : well_typed p key vs -> ranges p key vs.
Proof.
  intros (P & f & L & I & T) ts S. pose proof (SrcClaims.loads_one P crate L crate_loads) as ->.
  rewrite <- signatures_ok in S. apply in_map_iff in S. destruct S as ([k g] & E & J).
  cbn [fst snd] in E. injection E as -> <-.
  rewrite <- (one_value (p_fns crate) key f g keys_differ I J). apply T. lia.
Qed.

Lemma results_typed p key vs o v o' : platform_ok p -> well_typed p key vs ->
  evaluates p key vs o (Done v o') -> declared p key vs v.
Proof.
  intros Hp T E. destruct (SrcClaims.well_typed_modelled p key vs o T) as [a M].
  pose proof (SrcClaims.evaluates_one _ _ _ _ _ _ E (SrcClaims.models_evaluates _ _ _ _ _ M)) as <-.
  exact (models_fit p key vs o _ Hp (well_typed_ranges p key vs T) M).
Qed.

Lemma text_does_not_matter p key vs o : well_typed p key vs ->
  (forall v o', evaluates p key vs o (Done v o') ->
     exists s, o' = (o ++ s)%string /\ (In VFmt vs \/ s = ""%string) /\
       forall o2, evaluates p key vs o2 (Done v (o2 ++ s))) /\
  (forall w, evaluates p key vs o (Halt w) -> forall o2, evaluates p key vs o2 (Halt w)).
Proof.
  intros T. destruct (SrcClaims.well_typed_modelled p key vs o T) as [a M].
  pose proof (models_plainly p key vs o a M) as H. apply SrcClaims.models_evaluates in M. split.
  - intros v o' E. rewrite <- (SrcClaims.evaluates_one _ _ _ _ _ _ E M) in H.
    destruct H as (s & H1 & H2 & H3). exists s. split; [exact H1|]. split; [exact H2|].
    intros o2. apply SrcClaims.models_evaluates, H3.
  - intros w E. rewrite <- (SrcClaims.evaluates_one _ _ _ _ _ _ E M) in H.
    intros o2. apply SrcClaims.models_evaluates, H.
Qed.
