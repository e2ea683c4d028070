(** The restrictions on operands are those of the encodings; the tables pass all checks. *)
From Coq Require Import ZArith List Bool Lia.
From Verif Require Import Types Spec SpecOps SpecText SpecAsm Util Pat Rows2 Operands Asm Asm2.
Import ListNotations.
Local Open Scope list_scope.
Local Open Scope Z_scope.

(** ** Patterns given by a function *)

Lemma matches_map f n : forall s w, matches_at (Z.of_nat s) (map f (map Z.of_nat (seq s n))) w = true <->
  forall k, Z.of_nat s <= k < Z.of_nat s + Z.of_nat n ->
    match f k with Some b => Z.testbit w k = b | None => True end.
Proof.
  induction n as [|n IH]; intros s w.
  - cbn [seq map matches_at]. split; [intros _ k Hk; lia|reflexivity].
  - cbn [seq map matches_at]. replace (Z.of_nat s + 1) with (Z.of_nat (S s)) by lia. split.
    + intros M k Hk.
      assert (H : matches_at (Z.of_nat (S s)) (map f (map Z.of_nat (seq (S s) n))) w = true /\
        match f (Z.of_nat s) with Some b => Z.testbit w (Z.of_nat s) = b | None => True end).
      { destruct (f (Z.of_nat s)) as [b|]; [|auto].
        destruct (Bool.eqb (Z.testbit w (Z.of_nat s)) b) eqn:E; [|discriminate M].
        apply eqb_prop in E. auto. }
      destruct H as [H1 H2]. destruct (Z.eq_dec k (Z.of_nat s)) as [->|N]; [assumption|].
      apply (proj1 (IH (S s) w) H1). lia.
    + intros H. pose proof (H (Z.of_nat s)) as H0.
      assert (H1 : matches_at (Z.of_nat (S s)) (map f (map Z.of_nat (seq (S s) n))) w = true).
      { apply IH. intros k Hk. apply H. lia. }
      destruct (f (Z.of_nat s)) as [b|]; [|assumption].
      rewrite H0 by lia. rewrite eqb_reflx. assumption.
Qed.
Lemma matches_positions f n w : matches (map f (positions n)) w = true <->
  forall k, 0 <= k < Z.of_nat n -> match f k with Some b => Z.testbit w k = b | None => True end.
Proof. exact (matches_map f n 0 w). Qed.

(** ** An operand has a value *)

Definition is_operand (o : operand) (s : slot) : bool := dec2b (operand_dec o (fst s)).
Definition own_bit (c : class) (o : operand) (v k : Z) : option bool :=
  match holder (filter (is_operand o) (slots c)) k with
  | Some (_, j) => Some (Z.testbit (stored c o v) j)
  | None => None
  end.
Definition eq_pat (n : nat) (c : class) (ov : operand * Z) : pattern :=
  map (own_bit c (fst ov) (snd ov)) (positions n).
Definition the_bit (x : option bool) : bool := match x with Some b => b | None => false end.
Definition eq_ok (n : nat) (c : class) (ov : operand * Z) : bool :=
  dec2b (optZ_dec (read c (word n (fun k => the_bit (own_bit c (fst ov) (snd ov) k))) (fst ov))
                  (Some (snd ov))).

Lemma own_slot o c k j o' : holder (filter (is_operand o) (slots c)) k = Some (o', j) ->
  exists h l b, In (o, (h, l, b)) (slots c) /\ b - (h - l) <= k <= b /\ j = h - (b - k).
Proof.
  intros H. destruct (holder_in _ _ _ _ H) as [h' [l' [b' [I R]]]]. apply filter_In in I.
  destruct I as [I D]. apply dec2b_true in D. cbn in D. subst o'. eauto.
Qed.

Lemma eq_pat_ok n r isa cmp w ov : class_ok (Z.of_nat n) (r_cls r isa) = true ->
  eq_ok n (r_cls r isa) ov = true ->
  matches (eq_pat n (r_cls r isa) ov) w = has_value (reads r isa cmp w) ov.
Proof.
  intros C E. destruct ov as [o v]. unfold eq_ok in E. cbn [fst snd] in E. apply dec2b_true in E.
  unfold has_value. cbn [fst snd]. rewrite get_reads. set (c := r_cls r isa) in *.
  apply eq_true_iff_eq. unfold eq_pat. cbn [fst snd]. rewrite matches_positions.
  assert (P : forall h l b k, In (o, (h, l, b)) (slots c) -> b - (h - l) <= k <= b ->
    0 <= k < Z.of_nat n /\ exists j, own_bit c o v k = Some j).
  { intros h l b k I R. pose proof (slot_ok _ c _ _ _ _ C I). split; [lia|]. unfold own_bit.
    destruct (holder (filter (is_operand o) (slots c)) k) as [[o' j]|] eqn:F; [eauto|].
    exfalso. apply (holder_none _ _ o h l b F); [|assumption]. apply filter_In. split; [assumption|].
    unfold is_operand. apply dec2b_refl. }
  split.
  - intros M. rewrite (read_ext (Z.of_nat n) c w
      (word n (fun k => the_bit (own_bit c o v k))) o C), E; [apply Z.eqb_refl|].
    intros h l b k I R. destruct (P h l b k I R) as [K [j J]]. specialize (M k K). rewrite J in M.
    rewrite M, word_testbit by lia. destruct (Z.ltb_spec k (Z.of_nat n)); [|lia]. rewrite J. reflexivity.
  - destruct (read c w o) as [x|] eqn:X; [|discriminate]. intros Q. apply Z.eqb_eq in Q. subst x.
    intros k Hk. unfold own_bit.
    destruct (holder (filter (is_operand o) (slots c)) k) as [[o' j]|] eqn:F; [|trivial].
    destruct (own_slot o c k j o' F) as [h [l [b [I [R ->]]]]].
    destruct (slot_read _ c w o h l b k C I R) as [v' [V T]].
    rewrite X in V. injection V as <-. symmetry. exact T.
Qed.

(** ** Restrictions *)

Definition among_form (n : nat) (c : class) (o : operand) (vs : list Z) : form :=
  fold_right (fun v f => FOr (FPat (eq_pat n c (o, v))) f) FFalse vs.
Definition all_form (n : nat) (c : class) (l : list (operand * Z)) : form :=
  fold_right (fun ov f => FAnd (FPat (eq_pat n c ov)) f) FTrue l.
Definition cond_form (n : nat) (c : class) (x : cond) : form :=
  match x with
  | Among o vs => among_form n c o vs
  | Unless l => FNot (all_form n c l)
  end.
Definition cond_ok (n : nat) (c : class) (x : cond) : bool :=
  match x with
  | Among o vs => forallb (fun v => eq_ok n c (o, v)) vs
  | Unless l => forallb (eq_ok n c) l
  end.
Definition conds_form (n : nat) (c : class) (l : list cond) : form :=
  fold_right (fun x f => FAnd (cond_form n c x) f) FTrue l.

Lemma cond_sem n r isa cmp w x : class_ok (Z.of_nat n) (r_cls r isa) = true ->
  cond_ok n (r_cls r isa) x = true ->
  sem (cond_form n (r_cls r isa) x) 0 w = holds (reads r isa cmp w) x.
Proof.
  intros C K. destruct x as [o vs|l]; cbn [cond_form cond_ok holds sem] in *.
  - induction vs as [|v vs IH]; [reflexivity|]. cbn [forallb] in K. apply andb_true_iff in K.
    destruct K as [K1 K2]. cbn [among_form fold_right existsb sem].
    fold (matches (eq_pat n (r_cls r isa) (o, v)) w). rewrite (eq_pat_ok n r isa cmp w (o, v) C K1).
    fold (among_form n (r_cls r isa) o vs). rewrite IH by assumption. reflexivity.
  - f_equal. induction l as [|v l IH]; [reflexivity|]. cbn [forallb] in K. apply andb_true_iff in K.
    destruct K as [K1 K2]. cbn [all_form fold_right forallb sem].
    fold (matches (eq_pat n (r_cls r isa) v) w). rewrite (eq_pat_ok n r isa cmp w v C K1).
    fold (all_form n (r_cls r isa) l). rewrite IH by assumption. reflexivity.
Qed.
Lemma conds_sem n r isa cmp w l : class_ok (Z.of_nat n) (r_cls r isa) = true ->
  forallb (cond_ok n (r_cls r isa)) l = true ->
  (sem (conds_form n (r_cls r isa) l) 0 w = true <->
   Forall (fun x => holds (reads r isa cmp w) x = true) l).
Proof.
  intros C. induction l as [|x l IH]; cbn [forallb conds_form fold_right sem].
  - intros _. split; [constructor|reflexivity].
  - rewrite andb_true_iff. intros [K1 K2]. rewrite (cond_sem n r isa cmp) by assumption.
    rewrite andb_true_iff, Forall_cons_iff, <- IH by assumption. reflexivity.
Qed.

(** ** Fixed bits *)

Definition fixed_pat (n : nat) (c : class) (e : enc) : pattern :=
  map (fun k => match holder (slots c) k with
                | Some _ => None
                | None => Some (the_bit (match incl e with p :: _ => pattern_bit p k | [] => None end))
                end) (positions n).
Lemma fixed_encoded n c e i : matches (fixed_pat n c e) (word n (encoded_bit c e i)) = true.
Proof.
  apply matches_positions. intros k Hk. destruct (holder (slots c) k) as [[o j]|] eqn:H; [trivial|].
  rewrite word_testbit by lia. destruct (Z.ltb_spec k (Z.of_nat n)); [|lia]. cbn [andb].
  unfold encoded_bit. rewrite H. destruct (incl e) as [|p ps]; [reflexivity|].
  unfold the_bit. reflexivity.
Qed.

(** ** Rows *)

(** [un]: not on this ISA. *)
Definition row_ok (n : nat) (r : row) (isa : Isa) (range : option (Z * Z * Z)) (conds : list cond)
  (un : bool) : bool :=
  let c := r_cls r isa in let e := r_man r isa in
  class_ok (Z.of_nat n) c && owned c && imm_full (c_imm c) range && range_ok (c_imm c) range &&
  forallb (cond_ok n c) conds &&
  (if un then match incl e with [] => true | _ => false end
   else implies (FAnd (FPat (fixed_pat n c e)) (conds_form n c conds)) (enc_form e) &&
        implies (enc_form e) (conds_form n c conds)).

Definition unavailable32 (isa : Isa) : list OpcodeKind :=
  match isa with
  | Rv32 => rv64_base_i ++ rv64_m ++ rv64_a ++ rv64_ss
  | Rv64 => rv32_counters
  end.
Definition unavailable16 (isa : Isa) : list OpcodeKind :=
  match isa with Rv32 => rv64_c | Rv64 => rv32_c end.

Lemma rows_ok32 isa : forallb (fun r => row_ok 32 r isa (imm_range32 isa (r_op r))
  (conds32 isa (r_op r)) (mem_op (r_op r) (unavailable32 isa))) table32 = true.
Proof. destruct isa; vm_compute; reflexivity. Qed.
Lemma rows_ok16 isa : forallb (fun r => row_ok 16 r isa (imm_range16 (r_op r))
  (conds16 isa (r_op r)) (mem_op (r_op r) (unavailable16 isa))) table16 = true.
Proof. destruct isa; vm_compute; reflexivity. Qed.
Lemma settled32 isa : forallb (fun r => mem_op (r_op r) unreported ||
  settled 32 (r_cls r isa) (r_man r isa)) table32 = true.
Proof. destruct isa; vm_compute; reflexivity. Qed.
Lemma settled16 isa : forallb (fun r => settled 16 (r_cls r isa) (r_man r isa)) table16 = true.
Proof. destruct isa; vm_compute; reflexivity. Qed.

Lemma row_valid n r isa range conds un w cmp i : row_ok n r isa range conds un = true ->
  Z.of_nat n <= 32 ->
  un = false -> reg_ok (c_rd (r_cls r isa)) (rd i) -> reg_ok (c_rs1 (r_cls r isa)) (rs1 i) ->
  reg_ok (c_rs2 (r_cls r isa)) (rs2 i) -> two_address (r_cls r isa) i ->
  imm_in range (imm i) -> inst_format i = c_fmt (r_cls r isa) -> r_op r = opc i ->
  is_compressed i = cmp -> Forall (fun x => holds i x = true) conds ->
  w = word n (encoded_bit (r_cls r isa) (r_man r isa) i) ->
  reads r isa cmp w = i /\ in_enc (r_man r isa) w = true.
Proof.
  intros K Hn U R1 R2 R3 T M F Op Cm H Ew. unfold row_ok in K. subst un.
  repeat rewrite andb_true_iff in K. destruct K as [[[[[K1 K2] K3] K4] K5] [K6 _]].
  pose proof (read_reg n _ (r_man r isa) i Hn K1 K2 T ORd ltac:(discriminate) R1) as Q1.
  pose proof (read_reg n _ (r_man r isa) i Hn K1 K2 T ORs1 ltac:(discriminate) R2) as Q2.
  pose proof (read_reg n _ (r_man r isa) i Hn K1 K2 T ORs2 ltac:(discriminate) R3) as Q3.
  pose proof (read_imm n _ (r_man r isa) i Hn K1 K2 T range K3 M) as Q4.
  rewrite <- Ew in *. cbn [read reg_source get] in Q1, Q2, Q3, Q4.
  assert (E : reads r isa cmp w = i).
  { destruct i as [i1 i2 i3 i4 i5 i6 i7]; cbn [opc rd rs1 rs2 imm inst_format is_compressed] in *. unfold reads. congruence. }
  split; [exact E|].
  rewrite <- enc_sem. apply (implies_ok _ _ w K6). cbn [sem]. apply andb_true_iff. split.
  - rewrite Ew. apply fixed_encoded.
  - apply (conds_sem n r isa cmp w conds K1 K5). rewrite E. assumption.
Qed.

Lemma reg_ok_read n s w : reg_src_ok n s = true -> reg_ok s (reg_of s w).
Proof.
  destruct s; cbn [reg_src_ok reg_ok reg_of]; intros H; try reflexivity.
  - eexists. split; [reflexivity|]. apply field_range. lia.
  - eexists. split; [reflexivity|]. pose proof (field_range w hi lo ltac:(lia)) as B.
    replace (hi - lo + 1) with 3 in B by lia. lia.
Qed.

Lemma row_legal n r isa range conds un w cmp : row_ok n r isa range conds un = true ->
  in_enc (r_man r isa) w = true ->
  un = false /\ reg_ok (c_rd (r_cls r isa)) (rd (reads r isa cmp w)) /\
  reg_ok (c_rs1 (r_cls r isa)) (rs1 (reads r isa cmp w)) /\
  reg_ok (c_rs2 (r_cls r isa)) (rs2 (reads r isa cmp w)) /\
  two_address (r_cls r isa) (reads r isa cmp w) /\
  imm_in range (imm (reads r isa cmp w)) /\
  Forall (fun x => holds (reads r isa cmp w) x = true) conds.
Proof.
  intros K E. unfold row_ok in K. repeat rewrite andb_true_iff in K.
  destruct K as [[[[[K1 K2] K3] K4] K5] K6]. split.
  { destruct un; [|reflexivity]. unfold in_enc in E. destruct (incl (r_man r isa)); discriminate. }
  assert (U : un = false).
  { destruct un; [|reflexivity]. unfold in_enc in E. destruct (incl (r_man r isa)); discriminate. }
  subst un. apply andb_true_iff in K6. destruct K6 as [_ K6].
  pose proof K1 as C. unfold class_ok in C. repeat rewrite andb_true_iff in C. destruct C as [[[C1 C2] C3] _].
  cbn [reads rd rs1 rs2 imm]. repeat split; try (eapply reg_ok_read; eassumption).
  - unfold two_address, reads. cbn [rd rs1]. destruct (c_rd (r_cls r isa)), (c_rs1 (r_cls r isa)); trivial;
      intros [-> ->]; reflexivity.
  - apply range_ok_in. assumption.
  - apply (conds_sem n r isa cmp w conds K1 K5). apply (implies_ok _ _ w K6). rewrite enc_sem. assumption.
Qed.
