(** RV32/RV64 agreement, 16-bit errors, length errors, the parse methods, [TryFrom]. *)
From Coq Require Import ZArith List Bool Lia String.
From Verif Require Import Rust Types DecodeUtil Dec32 Dec16 Decode Spec Util Plat Oper32 Oper16
  Canon16 Exact32 Exact16 Pat SpecOps SpecApi Rows Rows2 Operands.
Import ListNotations.
Local Open Scope list_scope.
Local Open Scope Z_scope.

(** ** RV32 and RV64 (C22) *)

Definition bit25 : enc := only ["1..... ..... ..... ..... ....."%string].

Lemma bit25_ok w : in_enc bit25 w = Z.testbit w 25.
Proof.
  unfold in_enc, bit25, only, matches. cbn [incl excl map existsb].
  change (pat "1..... ..... ..... ..... .....") with (repeat None 25 ++ [Some true]).
  cbn [repeat app matches_at].
  change (0 + 1 + 1 + 1 + 1 + 1 + 1 + 1 + 1 + 1 + 1 + 1 + 1 + 1 + 1 + 1 + 1 + 1 + 1 + 1 + 1
          + 1 + 1 + 1 + 1 + 1) with 25.
  destruct (Z.testbit w 25); reflexivity.
Qed.

Lemma field_25_20 w : field w 25 20 = field w 24 20 + 32 * Z.b2z (Z.testbit w 25).
Proof.
  rewrite Z.testbit_spec' by lia. unfold field. change (25 - 20 + 1) with 6.
  change (24 - 20 + 1) with 5. change (2 ^ 25) with (2 ^ 20 * 2 ^ 5). change (2 ^ 6) with (2 ^ 5 * 2).
  rewrite <- Z.div_div by lia. rewrite Z.rem_mul_r by lia. lia.
Qed.

Lemma class_dec (a b : class) : {a = b} + {a <> b}.
Proof. repeat decide equality. Defined.

Lemma cls_agree_check :
  forallb (fun r => if mem_op (r_op r) shift_ops
                    then dec2b (class_dec (r_cls r Rv32) cSh5) && dec2b (class_dec (r_cls r Rv64) cSh6)
                    else dec2b (class_dec (r_cls r Rv32) (r_cls r Rv64))) table32 = true.
Proof. vm_compute. reflexivity. Qed.
Lemma cls_agree r : In r table32 ->
  mem_op (r_op r) shift_ops = false /\ r_cls r Rv32 = r_cls r Rv64 \/
  In (r_op r) shift_ops /\ r_cls r Rv32 = cSh5 /\ r_cls r Rv64 = cSh6.
Proof.
  intros Hr. pose proof cls_agree_check as A. rewrite forallb_forall in A. specialize (A r Hr).
  cbv beta in A. destruct (mem_op (r_op r) shift_ops) eqn:M.
  - right. apply andb_true_iff in A. destruct A as [A B]. apply dec2b_true in A, B.
    apply mem_op_ok in M. auto.
  - left. apply dec2b_true in A. auto.
Qed.
Lemma cls_agree16_check :
  forallb (fun r => dec2b (class_dec (r_cls r Rv32) (r_cls r Rv64))) table16 = true.
Proof. vm_compute. reflexivity. Qed.
Lemma cls_agree16 r : In r table16 -> r_cls r Rv32 = r_cls r Rv64.
Proof.
  intros Hr. pose proof cls_agree16_check as A. rewrite forallb_forall in A. specialize (A r Hr).
  apply dec2b_true in A. assumption.
Qed.

Lemma agree32_check :
  forallb (fun r => if enc_sub (r_acc r Rv32) (r_acc r Rv64)
                    then if mem_op (r_op r) shift_ops then enc_disj (r_acc r Rv32) bit25 else true
                    else false) table32 = true.
Proof. vm_compute. reflexivity. Qed.

Lemma reads_agree r w : In r table32 -> (In (r_op r) shift_ops -> Z.testbit w 25 = false) ->
  reads r Rv32 false w = reads r Rv64 false w.
Proof.
  intros Hr Hb. destruct (cls_agree r Hr) as [[_ E]|[Hs [E1 E2]]]; unfold reads.
  - rewrite E. reflexivity.
  - rewrite E1, E2. cbn [cSh5 cSh6 cls c_rd c_rs1 c_rs2 c_imm c_fmt].
    unfold imm_of, chunks_val. cbn [fold_right chunk_val].
    change (25 - (5 - 0)) with 20. change (24 - (4 - 0)) with 20.
    rewrite field_25_20, (Hb Hs). cbn [Z.b2z]. rewrite Z.mul_0_r, !Z.add_0_r. reflexivity.
Qed.

Lemma agree32 p w i : platform_ok p -> is_u32 w ->
  decode_u32 p w Rv32 = Ret (Ok i) -> decode_u32 p w Rv64 = Ret (Ok i).
Proof.
  intros Hp Hw H. destruct (ok32 _ _ _ _ Hp Hw H) as [r [Hr [He ->]]].
  pose proof agree32_check as A. rewrite forallb_forall in A. specialize (A r Hr). cbv beta in A.
  destruct (enc_sub (r_acc r Rv32) (r_acc r Rv64)) eqn:S; [|discriminate A].
  rewrite reads_agree; [apply row32; try assumption; exact (enc_sub_ok _ _ w S He)|assumption|].
  intros Hs. apply mem_op_ok in Hs. rewrite Hs in A. rewrite <- bit25_ok.
  exact (enc_disj_ok _ _ w A He).
Qed.

Lemma only64_check :
  forallb (fun r => implies (enc_form (r_acc r Rv64))
    (FOr (enc_form (r_acc r Rv32))
    (FOr (some_err (filter (is_err OnlyRv64Inst) errors32) Rv32)
         (if mem_op (r_op r) shift_ops
          then FAnd (enc_form bit25) (some_err (filter (is_err InvalidFunct7) errors32) Rv32)
          else FFalse)))) table32 = true.
Proof. vm_compute. reflexivity. Qed.

Lemma some_err32 p isa w d : platform_ok p -> is_u32 w ->
  sem (some_err (filter (is_err d) errors32) isa) 0 w = true ->
  decode_u32 p w isa = Ret (Err d).
Proof.
  intros Hp Hw H. apply some_err_ok in H. destruct H as [e [Hin Hx]].
  apply filter_In in Hin. destruct Hin as [Hin E]. apply dec2b_true in E. rewrite <- E.
  apply err32; assumption.
Qed.
Lemma some_err16 p isa w d : platform_ok p -> is_u16 w ->
  sem (some_err (filter (is_err d) errors16) isa) 0 w = true ->
  decode_u16 p w isa = Ret (Err d).
Proof.
  intros Hp Hw H. apply some_err_ok in H. destruct H as [e [Hin Hx]].
  apply filter_In in Hin. destruct Hin as [Hin E]. apply dec2b_true in E. rewrite <- E.
  apply err16; assumption.
Qed.

Lemma only64 p w i e : platform_ok p -> is_u32 w ->
  decode_u32 p w Rv64 = Ret (Ok i) -> decode_u32 p w Rv32 = Ret (Err e) ->
  e = OnlyRv64Inst \/
  In (opc i) shift_ops /\ e = InvalidFunct7 /\ exists s, imm i = Some s /\ 32 <= s < 64.
Proof.
  intros Hp Hw H N. destruct (ok32 _ _ _ _ Hp Hw H) as [r [Hr [He ->]]].
  pose proof only64_check as A. rewrite forallb_forall in A. specialize (A r Hr). cbv beta in A.
  pose proof He as He'. rewrite <- enc_sem in He. apply (implies_ok _ _ w A) in He.
  cbn [sem] in He. apply orb_true_iff in He. destruct He as [He|He].
  { rewrite enc_sem in He. rewrite (row32 p Rv32 w r) in N by assumption. discriminate N. }
  apply orb_true_iff in He. destruct He as [He|He].
  { apply (some_err32 p) in He; [|assumption..]. left. congruence. }
  destruct (mem_op (r_op r) shift_ops) eqn:M; [|discriminate He].
  apply mem_op_ok in M. cbn [sem] in He. apply andb_true_iff in He. destruct He as [B He].
  right. split; [exact M|]. apply (some_err32 p) in He; [|assumption..].
  split; [congruence|]. rewrite enc_sem, bit25_ok in B.
  pose proof (cls_agree r Hr) as C.
  assert (E : r_cls r Rv64 = cSh6).
  { destruct C as [[C _]|[_ [_ C]]]; [|assumption]. apply mem_op_ok in M. congruence. }
  cbn [reads imm]. rewrite E. cbn [cSh6 cls c_imm imm_of]. eexists. split; [reflexivity|].
  unfold chunks_val. cbn [fold_right chunk_val]. change (25 - (5 - 0)) with 20.
  rewrite field_25_20, B. cbn [Z.b2z]. pose proof (field_bound w 24 20 5 ltac:(lia) ltac:(lia)). lia.
Qed.

Lemma agree16_check :
  forallb (fun r => match r_op r with
    | OC C_JAL => true
    | _ => enc_sub (r_acc r Rv32) (r_acc r Rv64) end) table16 = true.
Proof. vm_compute. reflexivity. Qed.
Lemma reads_agree16 r w : In r table16 -> reads r Rv32 true w = reads r Rv64 true w.
Proof.
  intros Hr. unfold reads. rewrite (cls_agree16 r Hr). reflexivity.
Qed.
Lemma agree16 p w i : platform_ok p -> is_u16 w ->
  decode_u16 p w Rv32 = Ret (Ok i) -> opc i <> OC C_JAL -> decode_u16 p w Rv64 = Ret (Ok i).
Proof.
  intros Hp Hw H N. destruct (ok16 _ _ _ _ Hp Hw H) as [r [Hr [He ->]]]. cbn [reads opc] in N.
  pose proof agree16_check as A. rewrite forallb_forall in A. specialize (A r Hr). cbv beta in A.
  assert (S : enc_sub (r_acc r Rv32) (r_acc r Rv64) = true).
  { destruct (r_op r) as [| | |o| | | | | |]; try exact A. destruct o; try exact A.
    destruct (N eq_refl). }
  rewrite reads_agree16 by assumption. apply row16; try assumption. exact (enc_sub_ok _ _ w S He).
Qed.

Lemma jal_addiw_check :
  forallb (fun r => forallb (fun r' => match r_op r, r_op r' with
    | OC C_JAL, OC C_ADDIW =>
        if enc_sub (r_acc r Rv32) (r_acc r' Rv64) then enc_sub (r_acc r' Rv64) (r_acc r Rv32) else false
    | _, _ => true end) table16) table16 = true.
Proof. vm_compute. reflexivity. Qed.
Lemma op_row16 op : mem_op op (map r_op table16) = true -> exists r, In r table16 /\ r_op r = op.
Proof.
  intros H. apply mem_op_ok in H. apply in_map_iff in H. destruct H as [r [E Hr]]. eauto.
Qed.
Lemma jal_addiw p w : platform_ok p -> is_u16 w ->
  (exists i, decode_u16 p w Rv32 = Ret (Ok i) /\ opc i = OC C_JAL) <->
  (exists i, decode_u16 p w Rv64 = Ret (Ok i) /\ opc i = OC C_ADDIW).
Proof.
  intros Hp Hw.
  destruct (op_row16 (OC C_JAL) eq_refl) as [rj [Hj Ej]].
  destruct (op_row16 (OC C_ADDIW) eq_refl) as [ra [Ha Ea]].
  pose proof jal_addiw_check as A. rewrite forallb_forall in A. specialize (A rj Hj).
  rewrite forallb_forall in A. specialize (A ra Ha). cbv beta in A. rewrite Ej, Ea in A.
  destruct (enc_sub (r_acc rj Rv32) (r_acc ra Rv64)) eqn:S; [|discriminate A].
  split; intros [i [H E]]; destruct (ok16 _ _ _ _ Hp Hw H) as [r [Hr [He ->]]]; cbn [reads opc] in E.
  - assert (r = rj) by (apply row_unique16; congruence). subst r.
    exists (reads ra Rv64 true w). split; [|assumption]. apply row16; try assumption.
    exact (enc_sub_ok _ _ w S He).
  - assert (r = ra) by (apply row_unique16; congruence). subst r.
    exists (reads rj Rv32 true w). split; [|assumption]. apply row16; try assumption.
    exact (enc_sub_ok _ _ w A He).
Qed.

Lemma only64_16_check :
  forallb (fun r => implies (enc_form (r_acc r Rv64))
    (FOr (some_row table16 Rv32)
         (some_err (filter (is_err OnlyRv64Inst) errors16) Rv32))) table16 = true.
Proof. vm_compute. reflexivity. Qed.
Lemma only64_16 p w i e : platform_ok p -> is_u16 w ->
  decode_u16 p w Rv64 = Ret (Ok i) -> decode_u16 p w Rv32 = Ret (Err e) -> e = OnlyRv64Inst.
Proof.
  intros Hp Hw H N. destruct (ok16 _ _ _ _ Hp Hw H) as [r [Hr [He ->]]].
  pose proof only64_16_check as A. rewrite forallb_forall in A. specialize (A r Hr). cbv beta in A.
  rewrite <- enc_sem in He. apply (implies_ok _ _ w A) in He.
  cbn [sem] in He. apply orb_true_iff in He. destruct He as [He|He].
  - apply some_row_ok in He. destruct He as [r' [Hr' He]].
    rewrite (row16 p Rv32 w r') in N by assumption. discriminate N.
  - apply (some_err16 p) in He; [|assumption..]. congruence.
Qed.

(** ** Errors of 16-bit decoding (C24) *)

Definition zero16 : enc := only ["000 0 00000 00000 00"%string].
Lemma zero16_ok w : is_u16 w -> (in_enc zero16 w = true <-> w = 0).
Proof.
  intros Hw. split; [|intros ->; reflexivity].
  intros H. unfold in_enc, zero16, only in H. cbn [incl excl map existsb] in H.
  destruct (matches (pat "000 0 00000 00000 00") w) eqn:M; [|discriminate H]. clear H.
  assert (B : forall j : nat, (j < 16)%nat -> Z.testbit w (Z.of_nat j) = false).
  { intros j Hj. apply (matches_bit _ 0 w j false M).
    do 16 (destruct j as [|j]; [reflexivity|]). lia. }
  apply Z.bits_inj'. intros n Hn. rewrite Z.bits_0.
  destruct (Z.ltb_spec n 16).
  - rewrite <- (Z2Nat.id n) by assumption. apply B. lia.
  - destruct (Z.eq_dec w 0) as [->|N0]; [apply Z.bits_0|].
    apply Z.bits_above_log2; unfold is_u16 in Hw; [lia|].
    apply Z.log2_lt_pow2; [lia|]. pose proof (Z.pow_le_mono_r 2 16 n). lia.
Qed.

Lemma errs16_check : forall isa,
  forallb (fun e => match e_err e with
    | IllegalInstruction => enc_sub (e_enc e isa) zero16
    | OnlyRv64Inst | InvalidOpcode => enc_disj (e_enc e isa) zero16
    | _ => false end) errors16 = true.
Proof. destruct isa; vm_compute; reflexivity. Qed.

Lemma errors_of16 p isa w e : platform_ok p -> is_u16 w -> decode_u16 p w isa = Ret (Err e) ->
  w = 0 /\ e = IllegalInstruction \/ w <> 0 /\ (e = OnlyRv64Inst \/ e = InvalidOpcode).
Proof.
  intros Hp Hw H. destruct (bad16 _ _ _ _ Hp Hw H) as [r [Hin [He ->]]].
  pose proof (errs16_check isa) as A. rewrite forallb_forall in A. specialize (A r Hin).
  cbv beta in A. pose proof (zero16_ok w Hw) as Z.
  destruct (e_err r); try discriminate A.
  - right. pose proof (enc_disj_ok _ _ w A He). split; [|auto].
    intro. apply Z in H1. congruence.
  - left. pose proof (enc_sub_ok _ _ w A He). split; [apply Z; assumption|reflexivity].
  - right. pose proof (enc_disj_ok _ _ w A He). split; [|auto].
    intro. apply Z in H1. congruence.
Qed.
Lemma zero_illegal p isa : platform_ok p -> decode_u16 p 0 isa = Ret (Err IllegalInstruction).
Proof. reflexivity. Qed.

Lemma exact_errors16 p isa w e : platform_ok p -> is_u16 w ->
  decode_u16 p w isa = Ret (Err e) ->
  (e = IllegalInstruction <-> w = 0) /\
  (e = OnlyRv64Inst <-> isa = Rv32 /\ exists i, decode_u16 p w Rv64 = Ret (Ok i) /\
                        In (opc i) rv64_c /\ opc i <> OC C_ADDIW) /\
  (e = IllegalInstruction \/ e = OnlyRv64Inst \/ e = InvalidOpcode).
Proof.
  intros Hp Hw H. pose proof (errors_of16 _ _ _ _ Hp Hw H) as E.
  split; [|split].
  - destruct E as [[-> ->]|[N [-> | ->]]]; split; intros; try congruence; try discriminate.
  - rewrite <- only_rv64_16 by assumption. split; intros; congruence.
  - destruct E as [[_ ->]|[_ [-> | ->]]]; auto.
Qed.

(** ** Length errors (C25) *)

Definition not_length (d : DecodingError) : bool :=
  match d with Not16BitInst | Not32BitInst => false | _ => true end.
Lemma no_length_errors32 p isa w e : platform_ok p -> is_u32 w ->
  decode_u32 p w isa = Ret (Err e) -> e <> Not16BitInst /\ e <> Not32BitInst.
Proof.
  intros Hp Hw H. destruct (bad32 _ _ _ _ Hp Hw H) as [r [Hin [_ ->]]].
  assert (A : forallb (fun r => not_length (e_err r)) errors32 = true) by (vm_compute; reflexivity).
  rewrite forallb_forall in A. specialize (A r Hin). split; intro E; rewrite E in A; discriminate A.
Qed.
Lemma no_length_errors16 p isa w e : platform_ok p -> is_u16 w ->
  decode_u16 p w isa = Ret (Err e) -> e <> Not16BitInst /\ e <> Not32BitInst.
Proof.
  intros Hp Hw H. destruct (bad16 _ _ _ _ Hp Hw H) as [r [Hin [_ ->]]].
  assert (A : forallb (fun r => not_length (e_err r)) errors16 = true) by (vm_compute; reflexivity).
  rewrite forallb_forall in A. specialize (A r Hin). split; intro E; rewrite E in A; discriminate A.
Qed.

Lemma length_error32_check isa :
  implies (FNot (enc_form low2)) (some_err (filter (is_err InvalidOpcode) errors32) isa) = true.
Proof. destruct isa; vm_compute; reflexivity. Qed.
Lemma length_error16_check isa :
  implies (enc_form low2) (some_err (filter (is_err InvalidOpcode) errors16) isa) = true.
Proof. destruct isa; vm_compute; reflexivity. Qed.

Lemma wrong_length32 p isa w : platform_ok p -> is_u32 w -> w mod 4 <> 3 ->
  decode_u32 p w isa = Ret (Err InvalidOpcode).
Proof.
  intros Hp Hw H. apply some_err32; [assumption..|].
  apply (implies_ok _ _ w (length_error32_check isa)). cbn [sem]. rewrite enc_sem, low2_ok.
  apply negb_true_iff. apply Z.eqb_neq. assumption.
Qed.
Lemma wrong_length16 p isa w : platform_ok p -> is_u16 w -> w mod 4 = 3 ->
  decode_u16 p w isa = Ret (Err InvalidOpcode).
Proof.
  intros Hp Hw H. apply some_err16; [assumption..|].
  apply (implies_ok _ _ w (length_error16_check isa)). rewrite enc_sem, low2_ok.
  apply Z.eqb_eq. assumption.
Qed.

(** ** decode and the parse methods (C26) *)

Lemma parse_agree32 p isa w : platform_ok p -> is_u32 w ->
  (exists i, decode_u32 p w isa = Ret (Ok i) /\
     parse_opcode_u32 p w isa = Ret (Ok (opc i)) /\
     parse_rd_u32 p w (opc i) = Ret (Ok (rd i)) /\
     parse_rs1_u32 p w (opc i) = Ret (Ok (rs1 i)) /\
     parse_rs2_u32 p w (opc i) = Ret (Ok (rs2 i)) /\
     parse_imm_u32 p w (opc i) isa = Ret (Ok (imm i)) /\
     inst_format i = get_format (opc i) /\ is_compressed i = false) \/
  (exists e, decode_u32 p w isa = Ret (Err e) /\ parse_opcode_u32 p w isa = Ret (Err e)).
Proof.
  intros Hp Hw. destruct (parse_opcode_u32_exact p isa w Hw) as [[r [Hr [He H]]]|[e [Hr [He H]]]].
  - left. assert (Hi : In r (rows32 isa w)) by (rewrite Hr; left; reflexivity).
    apply rows32_in in Hi. destruct Hi as [Hi Ha].
    exists (reads r isa false w). split; [apply row32; assumption|]. split; [exact H|].
    pose proof (ops32 p w isa Hp) as O. rewrite Forall_forall in O.
    destruct (O r Hi) as [O1 [O2 [O3 [O4 O5]]]]. cbn [reads opc rd rs1 rs2 imm inst_format is_compressed].
    repeat split; auto.
  - right. exists (e_err e). assert (Hi : In e (errs32 isa w)) by (rewrite He; left; reflexivity).
    apply errs32_in in Hi. destruct Hi as [Hi Ha]. split; [apply err32; assumption|exact H].
Qed.

Lemma parse_agree16 p isa w : platform_ok p -> is_u16 w -> w <> 0 ->
  (exists i, decode_u16 p w isa = Ret (Ok i) /\
     parse_opcode_u16 p w isa = Ret (Ok (opc i)) /\
     parse_rd_u16 p w (opc i) = Ret (Ok (rd i)) /\
     parse_rs1_u16 p w (opc i) = Ret (Ok (rs1 i)) /\
     parse_rs2_u16 p w (opc i) = Ret (Ok (rs2 i)) /\
     parse_imm_u16 p w (opc i) isa = Ret (Ok (imm i)) /\
     inst_format i = get_format (opc i) /\ is_compressed i = true) \/
  (exists e, decode_u16 p w isa = Ret (Err e) /\ parse_opcode_u16 p w isa = Ret (Err e)).
Proof.
  intros Hp Hw Hz. destruct (sel16_exact p isa w Hw) as [[r [Hr [He H]]]|[e [Hr [He H]]]];
    unfold sel16 in H; apply Z.eqb_neq in Hz; rewrite Hz in H.
  - left. assert (Hi : In r (rows16 isa w)) by (rewrite Hr; left; reflexivity).
    apply rows16_in in Hi. destruct Hi as [Hi Ha].
    exists (reads r isa true w). split; [apply row16; assumption|]. split; [exact H|].
    pose proof (ops16 p w isa Hp) as O. rewrite Forall_forall in O.
    destruct (O r Hi) as [O1 [O2 [O3 [O4 O5]]]]. cbn [reads opc rd rs1 rs2 imm inst_format is_compressed].
    repeat split; auto.
  - right. exists (e_err e). assert (Hi : In e (errs16 isa w)) by (rewrite He; left; reflexivity).
    apply errs16_in in Hi. destruct Hi as [Hi Ha]. split; [apply err16; assumption|exact H].
Qed.

(** ** Foreign opcodes (C27) *)

Lemma has_row32 op : match op with OC _ | OZicfiss Ss_C_SSPUSH | OZicfiss Ss_C_SSPOPCHK => False
  | _ => True end -> exists r, In r table32 /\ r_op r = op.
Proof.
  intros H. assert (M : mem_op op (map r_op table32) = true).
  { destruct op as [o|o|o|o|o|o|o|o|o|o]; try contradiction; destruct o; try contradiction; reflexivity. }
  apply mem_op_ok in M. apply in_map_iff in M. destruct M as [r [E Hr]]. eauto.
Qed.
Lemma has_row16 op : match op with OC _ | OZicfiss Ss_C_SSPUSH | OZicfiss Ss_C_SSPOPCHK => True
  | _ => False end -> exists r, In r table16 /\ r_op r = op.
Proof.
  intros H. assert (M : mem_op op (map r_op table16) = true).
  { destruct op as [o|o|o|o|o|o|o|o|o|o]; try contradiction; destruct o; try contradiction; reflexivity. }
  apply mem_op_ok in M. apply in_map_iff in M. destruct M as [r [E Hr]]. eauto.
Qed.

(** The width an opcode belongs to. *)

Lemma own_width32 p w op isa : platform_ok p -> op_is_16 op = false ->
  (exists a, parse_rd_u32 p w op = Ret (Ok a)) /\ (exists a, parse_rs1_u32 p w op = Ret (Ok a)) /\
  (exists a, parse_rs2_u32 p w op = Ret (Ok a)) /\ (exists a, parse_imm_u32 p w op isa = Ret (Ok a)).
Proof.
  intros Hp H. destruct (has_row32 op) as [r [Hr <-]].
  { destruct op as [o|o|o|o|o|o|o|o|o|o]; try exact I; try discriminate H.
    destruct o; try exact I; discriminate H. }
  pose proof (ops32 p w isa Hp) as O. rewrite Forall_forall in O.
  destruct (O r Hr) as [O1 [O2 [O3 [O4 O5]]]]. rewrite O1, O2, O3, O4. repeat split; eauto.
Qed.
Lemma own_width16 p w op isa : platform_ok p -> op_is_16 op = true ->
  (exists a, parse_rd_u16 p w op = Ret (Ok a)) /\ (exists a, parse_rs1_u16 p w op = Ret (Ok a)) /\
  (exists a, parse_rs2_u16 p w op = Ret (Ok a)) /\ (exists a, parse_imm_u16 p w op isa = Ret (Ok a)).
Proof.
  intros Hp H. destruct (has_row16 op) as [r [Hr <-]].
  { destruct op as [o|o|o|o|o|o|o|o|o|o]; try exact I; try discriminate H.
    destruct o; try exact I; discriminate H. }
  pose proof (ops16 p w isa Hp) as O. rewrite Forall_forall in O.
  destruct (O r Hr) as [O1 [O2 [O3 [O4 O5]]]]. rewrite O1, O2, O3, O4. repeat split; eauto.
Qed.


Lemma foreign32 p w op isa : op_is_16 op = true -> is_zicfiss op = false ->
  parse_rd_u32 p w op = Ret (Err Not32BitInst) /\ parse_rs1_u32 p w op = Ret (Err Not32BitInst) /\
  parse_rs2_u32 p w op = Ret (Err Not32BitInst) /\ parse_imm_u32 p w op isa = Ret (Err Not32BitInst).
Proof.
  intros H N. destruct op as [o|o|o|o|o|o|o|o|o|o]; try discriminate H; try discriminate N.
  repeat split; reflexivity.
Qed.
Lemma foreign16 p w op isa : op_is_16 op = false -> is_zicfiss op = false ->
  parse_rd_u16 p w op = Ret (Err Not16BitInst) /\ parse_rs1_u16 p w op = Ret (Err Not16BitInst) /\
  parse_rs2_u16 p w op = Ret (Err Not16BitInst) /\ parse_imm_u16 p w op isa = Ret (Err Not16BitInst).
Proof.
  intros H N. destruct op as [o|o|o|o|o|o|o|o|o|o]; try discriminate H; try discriminate N;
  repeat split; reflexivity.
Qed.
Lemma foreign_ss32 p w op isa : platform_ok p -> op_is_16 op = true -> is_zicfiss op = true ->
  parse_rd_u32 p w op = Panic PUnreachable /\ parse_rs1_u32 p w op = Panic PUnreachable /\
  parse_rs2_u32 p w op = Panic PUnreachable /\ parse_imm_u32 p w op isa = Panic PUnreachable.
Proof.
  intros Hp H N. destruct op as [o|o|o|o|o|o|o|o|o|o]; try discriminate N.
  destruct o; try discriminate H;
    unfold parse_rd_u32, parse_rs1_u32, parse_rs2_u32, parse_imm_u32, ok_of, zicfiss_parse_rd,
      zicfiss_parse_rs1, zicfiss_parse_rs2, zicfiss_parse_imm;
    rewrite !slice_u32_ok by lia; repeat split; reflexivity.
Qed.
Lemma foreign_ss16 p w op isa : op_is_16 op = false -> is_zicfiss op = true ->
  parse_rd_u16 p w op = Panic PUnreachable /\ parse_rs1_u16 p w op = Ret (Ok None) /\
  parse_rs2_u16 p w op = Ret (Ok None) /\ parse_imm_u16 p w op isa = Ret (Ok None).
Proof.
  intros H N. destruct op as [o|o|o|o|o|o|o|o|o|o]; try discriminate N.
  destruct o; try discriminate H; repeat split; reflexivity.
Qed.

(** ** TryFrom<usize> (C28, C29) *)

Lemma land3 x : 0 <= x -> Z.land x 3 = x mod 4.
Proof. intros. change 3 with (Z.ones 2). rewrite Z.land_ones by lia. reflexivity. Qed.

Lemma try_from_32 p x : 0 <= x < 2 ^ 32 -> x mod 4 = 3 ->
  try_from_usize p x = decode_u32 p x Rv64.
Proof.
  intros Hx H. unfold try_from_usize. rewrite land3, H by lia. cbn [Z.eqb Pos.eqb].
  unfold try_from_expect. destruct (Z.ltb_spec x (2 ^ 32)); [reflexivity|lia].
Qed.
Lemma try_from_16 p x : 0 <= x < 2 ^ 16 -> x mod 4 <> 3 ->
  try_from_usize p x = decode_u16 p x Rv64.
Proof.
  intros Hx H. unfold try_from_usize. rewrite land3 by lia. apply Z.eqb_neq in H. rewrite H.
  unfold try_from_expect. destruct (Z.ltb_spec x (2 ^ 16)); [reflexivity|lia].
Qed.
Lemma try_from_too_big p x : 0 <= x -> (x mod 4 = 3 -> 2 ^ 32 <= x) -> (x mod 4 <> 3 -> 2 ^ 16 <= x) ->
  try_from_usize p x = Panic PExpect.
Proof.
  intros H0 H1 H2. unfold try_from_usize. rewrite land3 by lia.
  destruct (Z.eqb_spec (x mod 4) 3) as [E|E]; unfold try_from_expect.
  - destruct (Z.ltb_spec x (2 ^ 32)); [specialize (H1 E); lia|reflexivity].
  - destruct (Z.ltb_spec x (2 ^ 16)); [specialize (H2 E); lia|reflexivity].
Qed.

Lemma try_from_exact p x : platform_ok p -> 0 <= x < 2 ^ usize_bits p ->
  ((exists r, try_from_usize p x = Ret r) <-> x < 2 ^ 16 \/ (x mod 4 = 3 /\ x < 2 ^ 32)).
Proof.
  intros Hp Hx. split.
  - intros [r H]. destruct (Z.ltb_spec x (2 ^ 16)); [auto|]. right.
    destruct (Z.eq_dec (x mod 4) 3) as [E|E].
    + split; [assumption|]. destruct (Z.ltb_spec x (2 ^ 32)); [assumption|].
      rewrite try_from_too_big in H; [discriminate H|lia|lia|lia].
    + rewrite try_from_too_big in H; [discriminate H|lia|lia|lia].
  - intros H. destruct (Z.eq_dec (x mod 4) 3) as [E|E].
    + assert (x < 2 ^ 32) by (destruct H; lia).
      rewrite try_from_32 by (try assumption; lia). apply total32; [assumption|unfold is_u32; lia].
    + rewrite try_from_16 by (try assumption; lia). apply total16; [assumption|unfold is_u16; lia].
Qed.
