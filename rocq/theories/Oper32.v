(** The operands the u32 decoder extracts for each opcode are those of the opcode's class. *)
From Coq Require Import ZArith List Bool Lia.
From Verif Require Import Rust Types DecodeUtil Dec32 Dec16 Decode Spec Util Plat.
Import ListNotations.
Local Open Scope Z_scope.

(** ** Immediates *)

Lemma imm_U_ok p w : imm_U p w = Ret (chunks_val w [(19, 0, 31)]).
Proof.
  unfold imm_U. slices. pose proof (field_bound w 31 12 20 ltac:(lia) ltac:(lia)).
  rewrite as_i32_ok by lia. f_equal.
  unfold chunks_val, chunk_val; cbn [fold_right].
  change (31 - (19 - 0)) with 12. change (2 ^ 0) with 1. lia.
Qed.

Lemma imm_I_ok p w : imm_I p w = Ret (sext 12 (chunks_val w [(11, 0, 31)])).
Proof.
  unfold imm_I. slices. pose proof (field_bound w 31 20 12 ltac:(lia) ltac:(lia)).
  rewrite as_i32_ok by lia. rewrite to_signed_nbit_ok by lia. do 2 f_equal.
  unfold chunks_val, chunk_val; cbn [fold_right].
  change (31 - (11 - 0)) with 20. change (2 ^ 0) with 1. lia.
Qed.

(** Value of two [set]s with disjoint masks, and of one. *)
Fixpoint nodupb (l : list Z) : bool :=
  match l with [] => true | x :: l' => negb (existsb (Z.eqb x) l') && nodupb l' end.
Lemma existsb_eqb x l : existsb (Z.eqb x) l = true <-> In x l.
Proof.
  rewrite existsb_exists. split.
  - intros [y [Hy He]]. apply Z.eqb_eq in He. subst. assumption.
  - intros H. exists x. split; [assumption|apply Z.eqb_refl].
Qed.
Lemma nodupb_ok l : nodupb l = true -> NoDup l.
Proof.
  induction l as [|x l IH]; cbn [nodupb]; intros H; [constructor|].
  apply andb_true_iff in H. destruct H as [H1 H2]. constructor; [|apply IH; assumption].
  intro Hin. apply existsb_eqb in Hin. rewrite Hin in H1. discriminate H1.
Qed.

Lemma set1_val s ms : mask_ok ms = true -> nodupb ms = true -> set_lor s 0 ms 0 = set_val s 0 ms.
Proof. intros H1 H2. apply mask_ok_spec in H1. apply set_lor_val; [tauto|apply nodupb_ok; assumption]. Qed.
Lemma set2_val s1 m1 s2 m2 : mask_ok m1 = true -> mask_ok m2 = true ->
  nodupb (m1 ++ m2) = true ->
  Z.lor (set_lor s1 0 m1 0) (set_lor s2 0 m2 0) = set_val s1 0 m1 + set_val s2 0 m2.
Proof.
  intros H1 H2 H. apply mask_ok_spec in H1, H2. apply nodupb_ok in H.
  assert (Hs : forall l l' : list Z, NoDup (l ++ l') ->
            NoDup l /\ NoDup l' /\ (forall m, In m l -> ~ In m l')).
  { induction l as [|x l IH]; simpl; intros l' Hn.
    - split; [constructor|]. split; [assumption|]. intros m [].
    - inversion Hn; subst. destruct (IH l' H5) as [Ha [Hb Hc]]. split; [|split; [assumption|]].
      + constructor; [|assumption]. intro; apply H4; apply in_or_app; tauto.
      + intros m [->|Hm]; [|apply Hc; assumption]. intro; apply H4; apply in_or_app; tauto. }
  destruct (Hs _ _ H) as [Ha [Hb Hc]]. apply set_lor_disjoint; tauto.
Qed.

Ltac consts :=
  repeat match goal with
  | |- context [Z.add (Zpos ?a) (Zpos ?b)] =>
      let e := eval compute in (Z.add (Zpos a) (Zpos b)) in change (Z.add (Zpos a) (Zpos b)) with e
  | |- context [Z.add Z0 (Zpos ?b)] => change (Z.add Z0 (Zpos b)) with (Zpos b)
  | |- context [Z.add (Zpos ?b) Z0] => change (Z.add (Zpos b) Z0) with (Zpos b)
  | |- context [Z.sub (Zpos ?a) ?b] =>
      let e := eval compute in (Z.sub (Zpos a) b) in change (Z.sub (Zpos a) b) with e
  | |- context [Z.pow 2 ?b] =>
      let e := eval compute in (Z.pow 2 b) in change (Z.pow 2 b) with e
  end.

Ltac immbits w :=
  unfold chunks_val, chunk_val; cbn [fold_right rev app set_val]; consts;
  repeat (rewrite bit_field by lia); consts;
  repeat (first [rewrite field_split by lia; consts | rewrite field_one]);
  lia.

Lemma imm_S_ok p w : imm_S p w = Ret (sext 12 (chunks_val w [(11, 5, 31); (4, 0, 11)])).
Proof.
  unfold imm_S. slices. rewrite signed2 by (lia || reflexivity).
  rewrite set2_val by reflexivity. do 2 f_equal. immbits w.
Qed.

Lemma imm_B_ok p w : imm_B p w
  = Ret (sext 13 (chunks_val w [(12, 12, 31); (10, 5, 30); (4, 1, 11); (11, 11, 7)])).
Proof.
  unfold imm_B. slices. rewrite signed2 by (lia || reflexivity).
  rewrite set2_val by reflexivity. do 2 f_equal. immbits w.
Qed.

Lemma imm_J_ok p w : imm_J p w
  = Ret (sext 21 (chunks_val w [(20, 20, 31); (10, 1, 30); (11, 11, 20); (19, 12, 19)])).
Proof.
  unfold imm_J. slices. rewrite signed1 by (lia || reflexivity).
  rewrite set1_val by reflexivity. do 2 f_equal. immbits w.
Qed.

(** A zero-extended contiguous field read as i32. *)
Lemma as_i32_field w hi lo : 0 <= lo <= hi -> hi - lo + 1 <= 30 ->
  as_i32 (field w hi lo) = field w hi lo.
Proof.
  intros H Hn. pose proof (field_bound w hi lo 30 H Hn). apply as_i32_ok.
  pose proof (pow2_lt 30 31 ltac:(lia)). lia.
Qed.

Lemma one_chunk w h b : chunks_val w [(h, 0, b)] = field w b (b - h).
Proof.
  unfold chunks_val, chunk_val; cbn [fold_right]. change (2 ^ 0) with 1.
  rewrite Z.sub_0_r. lia.
Qed.

(** ** All rows *)

Definition ops32_ok (p : platform) (w : Z) (isa : Isa) (r : row) : Prop :=
  let c := r_cls r isa in
  parse_rd_u32 p w (r_op r) = Ret (Ok (reg_of (c_rd c) w)) /\
  parse_rs1_u32 p w (r_op r) = Ret (Ok (reg_of (c_rs1 c) w)) /\
  parse_rs2_u32 p w (r_op r) = Ret (Ok (reg_of (c_rs2 c) w)) /\
  parse_imm_u32 p w (r_op r) isa = Ret (Ok (imm_of (c_imm c) w)) /\
  get_format (r_op r) = c_fmt c.

Ltac op_case :=
  lazy [parse_rd_u32 parse_rs1_u32 parse_rs2_u32 parse_imm_u32 ok_of
        basei_parse_rd basei_parse_rs1 basei_parse_rs2 basei_parse_imm
        m_parse_rd m_parse_rs1 m_parse_rs2 m_parse_imm
        a_parse_rd a_parse_rs1 a_parse_rs2 a_parse_imm
        zicsr_parse_rd zicsr_parse_rs1 zicsr_parse_rs2 zicsr_parse_imm
        zifencei_parse_rd zifencei_parse_rs1 zifencei_parse_rs2 zifencei_parse_imm
        zicfiss_parse_rd zicfiss_parse_rs1 zicfiss_parse_rs2 zicfiss_parse_imm
        zicboz_parse_rd zicboz_parse_rs1 zicboz_parse_rs2 zicboz_parse_imm
        zicntr_parse_rd zicntr_parse_rs1 zicntr_parse_rs2 zicntr_parse_imm
        priv_parse_rd priv_parse_rs1 priv_parse_rs2 priv_parse_imm
        r_op r_cls same differs isa_cls by_isa c_rd c_rs1 c_rs2 c_imm c_fmt reg_of imm_of
        cls cR cM cI cS cB cU cJ cSh5 cSh6 cNone cA cLrW cLrD cCsr cCsrI cCounter cFence cCbo
        cSspush cSspopchk cSsrdp cSsamo cSfence d32 s32 t32];
  try reflexivity;
  slices; rewrite ?imm_U_ok, ?imm_I_ok, ?imm_S_ok, ?imm_B_ok, ?imm_J_ok; cbn [bind];
  rewrite ?as_i32_field by lia; rewrite ?one_chunk; reflexivity.

Ltac op_rows :=
  repeat (apply Forall_cons; [unfold ops32_ok; cbv zeta; repeat apply conj; op_case|]);
  apply Forall_nil.

Lemma ops_base_i p w isa : platform_ok p -> Forall (ops32_ok p w isa) base_i.
Proof. intros Hp. unfold base_i. destruct isa; op_rows. Qed.
Lemma ops_m_ext p w isa : platform_ok p -> Forall (ops32_ok p w isa) m_ext.
Proof. intros Hp. unfold m_ext. destruct isa; op_rows. Qed.
Lemma ops_a_ext p w isa : platform_ok p -> Forall (ops32_ok p w isa) a_ext.
Proof. intros Hp. unfold a_ext. destruct isa; op_rows. Qed.
Lemma ops_zicsr_ext p w isa : platform_ok p -> Forall (ops32_ok p w isa) zicsr_ext.
Proof. intros Hp. unfold zicsr_ext. destruct isa; op_rows. Qed.
Lemma ops_zicntr_ext p w isa : platform_ok p -> Forall (ops32_ok p w isa) zicntr_ext.
Proof. intros Hp. unfold zicntr_ext. destruct isa; op_rows. Qed.
Lemma ops_zifencei_ext p w isa : platform_ok p -> Forall (ops32_ok p w isa) zifencei_ext.
Proof. intros Hp. unfold zifencei_ext. destruct isa; op_rows. Qed.
Lemma ops_zicboz_ext p w isa : platform_ok p -> Forall (ops32_ok p w isa) zicboz_ext.
Proof. intros Hp. unfold zicboz_ext. destruct isa; op_rows. Qed.
Lemma ops_zicfiss_ext p w isa : platform_ok p -> Forall (ops32_ok p w isa) zicfiss_ext.
Proof. intros Hp. unfold zicfiss_ext. destruct isa; op_rows. Qed.
Lemma ops_priv_ext p w isa : platform_ok p -> Forall (ops32_ok p w isa) priv_ext.
Proof. intros Hp. unfold priv_ext. destruct isa; op_rows. Qed.

Lemma ops32 p w isa : platform_ok p -> Forall (ops32_ok p w isa) table32.
Proof.
  intros Hp. unfold table32. rewrite !Forall_app.
  repeat apply conj;
    [apply ops_base_i | apply ops_m_ext | apply ops_a_ext | apply ops_zicsr_ext
    |apply ops_zicntr_ext | apply ops_zifencei_ext | apply ops_zicboz_ext
    |apply ops_zicfiss_ext | apply ops_priv_ext]; assumption.
Qed.
