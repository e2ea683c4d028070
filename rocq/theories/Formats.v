(** Proofs about format tags (C52) and the bits operands come from (C53). *)
From Coq Require Import ZArith List Bool Lia.
From Verif Require Import Rust Types Decode Spec SpecOps SpecText SpecApi SpecFormat.
From Verif Require Import Util Rows Rows2 Operands Asm Asm2 Text Text2.
Import ListNotations.
Local Open Scope Z_scope.

(** ** Operands named and present *)

Definition op_eqb (a b : operand) : bool :=
  match a, b with ORd, ORd | ORs1, ORs1 | ORs2, ORs2 | OImm, OImm => true | _, _ => false end.
Lemma op_eqb_ok a b : op_eqb a b = true <-> a = b.
Proof. destruct a, b; split; intros H; try reflexivity; discriminate H. Qed.
Definition has_op (c : class) (o : operand) : bool :=
  match o with
  | ORd => has_reg (c_rd c) | ORs1 => has_reg (c_rs1 c) | ORs2 => has_reg (c_rs2 c)
  | OImm => has_imm (c_imm c)
  end.
Lemma has_op_ok r isa c w o : get o (reads r isa c w) = None <-> has_op (r_cls r isa) o = false.
Proof.
  assert (A : forall s, reg_of s w = None <-> has_reg s = false)
    by (intros s; destruct s; split; intros H; try reflexivity; discriminate H).
  assert (B : forall s, imm_of s w = None <-> has_imm s = false)
    by (intros s; destruct s; split; intros H; try reflexivity; discriminate H).
  destruct o; [apply A|apply A|apply A|apply B].
Qed.
Definition pair_dec (a b : OpcodeKind * operand) : {a = b} + {a <> b}.
Proof. decide equality; [decide equality|apply OpcodeKind_dec]. Defined.
Definition pair_mem (op : OpcodeKind) (o : operand) (l : list (OpcodeKind * operand)) : bool :=
  if in_dec pair_dec (op, o) l then true else false.
Lemma pair_mem_ok op o l : pair_mem op o l = true <-> In (op, o) l.
Proof. unfold pair_mem. destruct (in_dec pair_dec (op, o) l); split; intros H; try assumption; try reflexivity; [discriminate H|contradiction]. Qed.
Definition names (c : class) (o : operand) : bool := existsb (op_eqb o) (named (c_fmt c)).
Lemma names_ok c o : names c o = true <-> In o (named (c_fmt c)).
Proof.
  unfold names. rewrite existsb_exists. split.
  - intros [x [I E]]. apply op_eqb_ok in E. subst x. exact I.
  - intros I. exists o. split; [exact I|]. apply op_eqb_ok. reflexivity.
Qed.
Definition operands4 : list operand := [ORd; ORs1; ORs2; OImm].
Lemma operands4_in o : In o operands4.
Proof. destruct o; cbn; auto. Qed.

Definition tagged (r : row) (isa : Isa) : bool :=
  forallb (fun o => Bool.eqb (names (r_cls r isa) o && negb (has_op (r_cls r isa) o))
                             (pair_mem (r_op r) o lacking)
                    && Bool.eqb (has_op (r_cls r isa) o && negb (names (r_cls r isa) o))
                                (pair_mem (r_op r) o unnamed)) operands4.
Lemma all_tagged : forallb (fun r => tagged r Rv32 && tagged r Rv64) (table32 ++ table16) = true.
Proof. vm_compute. reflexivity. Qed.

Lemma eqb_iff a b : Bool.eqb a b = true -> (a = true <-> b = true).
Proof. intros H. apply eqb_prop in H. subst. reflexivity. Qed.
Lemma tag i o : decoded i ->
  (In o (named (inst_format i)) /\ get o i = None <-> In (opc i, o) lacking) /\
  (get o i <> None /\ ~ In o (named (inst_format i)) <-> In (opc i, o) unnamed).
Proof.
  intros D. apply decoded_row in D. destruct D as [r [isa [c [w [Hr [_ ->]]]]]].
  pose proof all_tagged as A. rewrite forallb_forall in A. specialize (A r Hr).
  apply andb_true_iff in A. assert (T : tagged r isa = true) by (destruct isa; apply A). clear A Hr.
  unfold tagged in T. rewrite forallb_forall in T. specialize (T o (operands4_in o)).
  apply andb_true_iff in T. destruct T as [T1 T2]. apply eqb_iff in T1, T2.
  change (opc (reads r isa c w)) with (r_op r). change (inst_format (reads r isa c w)) with (c_fmt (r_cls r isa)).
  rewrite <- !pair_mem_ok, <- !names_ok, <- T1, <- T2, !has_op_ok, !andb_true_iff, !negb_true_iff,
    <- not_true_iff_false. clear T1 T2.
  destruct (has_op (r_cls r isa) o), (names (r_cls r isa) o); intuition congruence.
Qed.

(** ** Sources of bits *)

Definition bits_of (n : Z) : sources :=
  (map (fun k => if Z.testbit n (Z.of_nat k) then One else Zero) (seq 0 32), Zero).
Definition srcs (cs : list chunk) (n : nat) : list source :=
  map (fun k => match Asm.src_of cs (Z.of_nat k) with Some b => At b | None => Zero end) (seq 0 n).
Definition reg_srcs (s : reg_src) : option sources :=
  match s with
  | RNone => None
  | RConst n => if (0 <=? n) && (n <? 2 ^ 32) then Some (bits_of n) else None
  | RBits hi lo => if (0 <=? lo) && (lo <=? hi) then Some (run lo (Z.to_nat (hi - lo + 1)), Zero) else None
  | RPrime hi lo => if (0 <=? lo) && (lo + 2 =? hi) then Some (reg3 lo) else None
  end.
Definition good (cs : list chunk) : bool := forallb chunk_ok cs && apart cs.
Definition below (n : Z) (cs : list chunk) : bool := forallb (fun c => let '(h, _, _) := c in h <? n) cs.
Definition imm_srcs (s : imm_src) : option sources :=
  match s with
  | INone => None
  | IUns cs => if good cs && below 32 cs then Some (srcs cs 32, Zero) else None
  | ISig n cs => if good cs && below n cs && (0 <? n)
                 then match Asm.src_of cs (n - 1) with
                      | Some b => Some (srcs cs (Z.to_nat (n - 1)), At b)
                      | None => None
                      end
                 else None
  end.
Definition op_srcs (c : class) (o : operand) : option sources :=
  match o with
  | ORd => reg_srcs (c_rd c) | ORs1 => reg_srcs (c_rs1 c) | ORs2 => reg_srcs (c_rs2 c)
  | OImm => imm_srcs (c_imm c)
  end.

Lemma nth_run len : forall n k d, nth k (run n len) d = if (k <? len)%nat then At (n + Z.of_nat k) else d.
Proof.
  induction len as [|len IH]; intros n k d; [destruct k; reflexivity|].
  destruct k as [|k]; cbn [run nth].
  - cbn. f_equal. lia.
  - rewrite IH. change (S k <? S len)%nat with (k <? len)%nat. destruct (k <? len)%nat; [|reflexivity].
    f_equal. lia.
Qed.
Lemma nth_map_seq (f : nat -> source) n k d :
  nth k (map f (seq 0 n)) d = if (k <? n)%nat then f k else d.
Proof.
  destruct (Nat.ltb_spec k n) as [L|L].
  - rewrite (nth_indep _ d (f O)) by (rewrite map_length, seq_length; exact L).
    rewrite (map_nth f), seq_nth by exact L. reflexivity.
  - apply nth_overflow. rewrite map_length, seq_length. exact L.
Qed.
Lemma ltb_nat k n : 0 <= k -> 0 <= n -> (Z.to_nat k <? Z.to_nat n)%nat = (k <? n).
Proof. intros. destruct (Nat.ltb_spec (Z.to_nat k) (Z.to_nat n)), (Z.ltb_spec k n); lia. Qed.

Lemma const_drawn n w : 0 <= n < 2 ^ 32 -> drawn (bits_of n) w n.
Proof.
  intros Hn k Hk. unfold bits_of. cbn [fst snd]. rewrite nth_map_seq.
  change 32%nat with (Z.to_nat 32). rewrite ltb_nat by lia. rewrite Z2Nat.id by exact Hk.
  destruct (Z.ltb_spec k 32) as [L|L].
  - destruct (Z.testbit n k); reflexivity.
  - apply (small_testbit n 32); assumption.
Qed.
Lemma bits_drawn hi lo w : 0 <= lo <= hi -> drawn (run lo (Z.to_nat (hi - lo + 1)), Zero) w (field w hi lo).
Proof.
  intros H k Hk. cbn [fst snd]. rewrite nth_run, ltb_nat, field_testbit, Z2Nat.id by lia.
  destruct (k <? hi - lo + 1); [apply andb_true_r|apply andb_false_r].
Qed.
Lemma prime_drawn lo w : 0 <= lo -> drawn (reg3 lo) w (8 + field w (lo + 2) lo).
Proof.
  intros H k Hk. pose proof (field_range w (lo + 2) lo) as B.
  replace (lo + 2 - lo + 1) with 3 in B by lia. specialize (B ltac:(lia)). change (2 ^ 3) with 8 in B.
  assert (E : 8 + field w (lo + 2) lo = Z.lor (2 ^ 3) (field w (lo + 2) lo)).
  { assert (N : Z.land (2 ^ 3) (field w (lo + 2) lo) = 0).
    { apply Z.bits_inj'. intros j Hj. rewrite Z.land_spec, Z.bits_0, Z.pow2_bits_eqb by lia.
      destruct (Z.eqb_spec 3 j) as [<-|]; [|reflexivity]. cbn [andb]. apply (small_testbit _ 3); cbn; lia. }
    rewrite <- Z.lxor_lor, <- Z.add_nocarry_lxor by exact N. reflexivity. }
  rewrite E, Z.lor_spec, Z.pow2_bits_eqb by lia.
  unfold reg3. cbn [fst snd]. rewrite field_testbit by lia.
  destruct (Z.ltb_spec k 3) as [L|L].
  - assert (k = 0 \/ k = 1 \/ k = 2) as [-> | [-> | ->]] by lia; cbn [Z.eqb Z.to_nat];
      cbn -[Z.testbit]; rewrite ?Z.add_0_r, <- ?Z.add_assoc; cbn -[Z.testbit];
      replace (lo + 2 - lo + 1) with 3 by lia; apply andb_true_r.
  - assert (F : (k <? lo + 2 - lo + 1) = false) by (apply Z.ltb_ge; lia). rewrite F, andb_false_r, orb_false_r.
    destruct (Z.eqb_spec 3 k) as [<-|N]; [reflexivity|].
    rewrite nth_overflow; [reflexivity|]. cbn. lia.
Qed.
Lemma reg_drawn s l w v : reg_srcs s = Some l -> reg_of s w = Some v -> drawn l w v.
Proof.
  destruct s as [|n|hi lo|hi lo]; cbn [reg_srcs reg_of]; [discriminate| | |].
  - destruct (_ && _) eqn:E; [|discriminate]. intros H1 H2. injection H1 as <-. injection H2 as <-.
    apply const_drawn. lia.
  - destruct (_ && _) eqn:E; [|discriminate]. intros H1 H2. injection H1 as <-. injection H2 as <-.
    apply bits_drawn. lia.
  - destruct (_ && _) eqn:E; [|discriminate]. intros H1 H2. injection H1 as <-. injection H2 as <-.
    assert (hi = lo + 2) as -> by lia. apply prime_drawn. lia.
Qed.

Lemma srcs_nth w cs n k d : good cs = true -> 0 <= k -> k < Z.of_nat n ->
  bit_from w (nth (Z.to_nat k) (srcs cs n) d) = Z.testbit (chunks_val w cs) k.
Proof.
  intros G Hk L. apply andb_true_iff in G. destruct G as [G1 G2]. unfold srcs. rewrite nth_map_seq.
  destruct (Nat.ltb_spec (Z.to_nat k) n); [|lia]. rewrite Z2Nat.id, chunks_testbit by assumption.
  destruct (Asm.src_of cs k); reflexivity.
Qed.
Lemma below_none n cs k : below n cs = true -> n <= k -> Asm.src_of cs k = None.
Proof.
  intros B L. destruct (Asm.src_of cs k) as [b|] eqn:E; [|reflexivity].
  apply src_of_in in E. destruct E as [h [l [b' [I [R _]]]]].
  unfold below in B. rewrite forallb_forall in B. specialize (B _ I). cbn in B. lia.
Qed.
Lemma below_range n cs w : good cs = true -> below n cs = true -> 0 <= n -> 0 <= chunks_val w cs < 2 ^ n.
Proof.
  intros G B Hn. apply andb_true_iff in G. destruct G as [G1 G2].
  pose proof (chunks_bound w cs G1) as [P _]. split; [exact P|].
  destruct (Z.ltb_spec (chunks_val w cs) (2 ^ n)) as [L|L]; [exact L|]. exfalso.
  assert (Q : 0 < chunks_val w cs) by (assert (0 < 2 ^ n) by (apply Z.pow_pos_nonneg; lia); lia).
  pose proof (Z.bit_log2 _ Q) as T. apply Z.log2_le_mono in L. rewrite Z.log2_pow2 in L by exact Hn.
  rewrite chunks_testbit in T by (try assumption; lia).
  rewrite (below_none n) in T by assumption. discriminate T.
Qed.
Lemma imm_drawn s l w v : imm_srcs s = Some l -> imm_of s w = Some v -> drawn l w v.
Proof.
  destruct s as [|cs|n cs]; cbn [imm_srcs imm_of]; [discriminate| |].
  - destruct (_ && _) eqn:E; [|discriminate]. intros H1 H2. injection H1 as <-. injection H2 as <-.
    apply andb_true_iff in E. destruct E as [G B]. intros k Hk. cbn [fst snd].
    destruct (Z.ltb_spec k 32) as [L|L]; [symmetry; apply srcs_nth; [assumption|lia|lia]|].
    rewrite nth_overflow by (unfold srcs; rewrite map_length, seq_length; lia).
    apply (small_testbit _ 32); [|exact L]. apply below_range; [assumption..|lia].
  - destruct (good cs && below n cs && (0 <? n)) eqn:E; [|discriminate].
    rewrite !andb_true_iff in E. destruct E as [[G B] N].
    destruct (Asm.src_of cs (n - 1)) as [b|] eqn:S; [|discriminate].
    intros H1 H2. injection H1 as <-. injection H2 as <-. intros k Hk. cbn [fst snd].
    pose proof (below_range n cs w G B ltac:(lia)) as R.
    assert (T : Z.testbit (chunks_val w cs) (n - 1) = Z.testbit w b).
    { apply andb_true_iff in G. destruct G as [G1 G2]. rewrite chunks_testbit, S by (try assumption; lia). reflexivity. }
    destruct (Z.ltb_spec k (n - 1)) as [L|L].
    + rewrite srcs_nth by (try assumption; lia). apply sext_testbit; [exact R|lia].
    + rewrite nth_overflow by (unfold srcs; rewrite map_length, seq_length; lia). cbn [bit_from].
      rewrite <- T. clear T S.
      assert (P : 2 ^ n = 2 * 2 ^ (n - 1))
        by (rewrite <- Z.pow_succ_r by lia; f_equal; lia).
      unfold sext. destruct (Z.ltb_spec (chunks_val w cs) (2 ^ (n - 1))) as [V|V].
      * rewrite !(small_testbit _ (n - 1)) by lia. reflexivity.
      * assert (X : Z.testbit (chunks_val w cs) (n - 1) = true).
        { rewrite Z.testbit_true by lia. replace (chunks_val w cs / 2 ^ (n - 1)) with 1; [reflexivity|].
          apply Z.div_unique with (r := chunks_val w cs - 2 ^ (n - 1)); lia. }
        rewrite X. rewrite <- (Z.opp_involutive (chunks_val w cs - 2 ^ n)), Z.bits_opp by exact Hk.
        apply negb_true_iff. apply (small_testbit _ (n - 1)); lia.
Qed.
Lemma op_drawn r isa c w o l v : op_srcs (r_cls r isa) o = Some l -> get o (reads r isa c w) = Some v ->
  drawn l w v.
Proof. destruct o; [apply reg_drawn|apply reg_drawn|apply reg_drawn|apply imm_drawn]. Qed.

(** *** Comparing sources *)

Definition src_eqb (a b : source) : bool :=
  match a, b with At m, At n => m =? n | Zero, Zero | One, One => true | _, _ => false end.
Lemma src_eqb_ok a b : src_eqb a b = true -> a = b.
Proof.
  destruct a, b; cbn; intros H; try reflexivity; try discriminate H. apply Z.eqb_eq in H. congruence.
Qed.
Definition agree (a b : sources) : bool :=
  src_eqb (snd a) (snd b)
  && (length (fst a) <=? 32)%nat && (length (fst b) <=? 32)%nat
  && forallb (fun k => src_eqb (nth k (fst a) (snd a)) (nth k (fst b) (snd b))) (seq 0 32).
Lemma agree_drawn a b w v : agree a b = true -> drawn a w v -> drawn b w v.
Proof.
  unfold agree. rewrite !andb_true_iff, forallb_forall. intros [[[E L1] L2] F] D k Hk.
  rewrite (D k Hk). f_equal. apply Nat.leb_le in L1, L2.
  destruct (Nat.ltb_spec (Z.to_nat k) 32) as [L|L].
  - apply src_eqb_ok, F, in_seq. lia.
  - apply src_eqb_ok in E. rewrite !nth_overflow by lia. exact E.
Qed.
Definition drawn_row (r : row) (s : OpcodeKind -> InstFormat -> operand -> option sources) (isa : Isa) : bool :=
  forallb (fun o => if has_op (r_cls r isa) o
                    then match op_srcs (r_cls r isa) o, s (r_op r) (c_fmt (r_cls r isa)) o with
                         | Some a, Some b => agree a b
                         | _, _ => false
                         end
                    else true) operands4.
Lemma drawn_all32 : forallb (fun r => drawn_row r (sources32 Rv32) Rv32 && drawn_row r (sources32 Rv64) Rv64) table32 = true.
Proof. vm_compute. reflexivity. Qed.
Lemma drawn_all16 : forallb (fun r => drawn_row r sources16 Rv32 && drawn_row r sources16 Rv64) table16 = true.
Proof. vm_compute. reflexivity. Qed.
Lemma drawn_row_ok r s isa c w o v : drawn_row r s isa = true -> get o (reads r isa c w) = Some v ->
  exists l, s (r_op r) (c_fmt (r_cls r isa)) o = Some l /\ drawn l w v.
Proof.
  intros R G. unfold drawn_row in R. rewrite forallb_forall in R. specialize (R o (operands4_in o)).
  destruct (has_op (r_cls r isa) o) eqn:H.
  - destruct (op_srcs (r_cls r isa) o) as [a|] eqn:A; [|discriminate R].
    destruct (s (r_op r) (c_fmt (r_cls r isa)) o) as [b|]; [|discriminate R].
    exists b. split; [reflexivity|]. apply (agree_drawn a); [exact R|]. apply (op_drawn r isa c w o); assumption.
  - apply has_op_ok with (c := c) (w := w) in H. congruence.
Qed.
Lemma drawn32 p isa w i o v : platform_ok p -> is_u32 w -> decode_u32 p w isa = Ret (Ok i) ->
  get o i = Some v -> exists l, sources32 isa (opc i) (inst_format i) o = Some l /\ drawn l w v.
Proof.
  intros Hp Hw H G. destruct (ok32 _ _ _ _ Hp Hw H) as [r [Hr [_ ->]]].
  pose proof drawn_all32 as A. rewrite forallb_forall in A. specialize (A r Hr). apply andb_true_iff in A.
  apply (drawn_row_ok r (sources32 isa) isa false w o v); [destruct isa; apply A|exact G].
Qed.
Lemma drawn16 p isa w i o v : platform_ok p -> is_u16 w -> decode_u16 p w isa = Ret (Ok i) ->
  get o i = Some v -> exists l, sources16 (opc i) (inst_format i) o = Some l /\ drawn l w v.
Proof.
  intros Hp Hw H G. destruct (ok16 _ _ _ _ Hp Hw H) as [r [Hr [_ ->]]].
  pose proof drawn_all16 as A. rewrite forallb_forall in A. specialize (A r Hr). apply andb_true_iff in A.
  apply (drawn_row_ok r sources16 isa true w o v); [destruct isa; apply A|exact G].
Qed.

Lemma tag_refuted :
  (exists i, decoded i /\ In ORs2 (named (inst_format i)) /\ get ORs2 i = None) /\
  (exists i, decoded i /\ ~ In OImm (named (inst_format i)) /\ get OImm i = Some 40).
Proof.
  split.
  - eexists. split; [exact (dec_decoded (W32 0x1005352F) _ eq_refl eq_refl)|]. vm_compute. auto.
  - eexists. split; [exact (dec_decoded (W32 0x02859513) _ eq_refl eq_refl)|]. vm_compute.
    split; [intuition discriminate|reflexivity].
Qed.
