(** Every half-word falls in exactly one row of [table16] or [errors16], and that row gives the
    result of [decode]. *)
From Coq Require Import ZArith List Bool Lia.
From Verif Require Import Rust Types DecodeUtil Dec32 Dec16 Decode Spec Util Plat Oper16
  CanonBase CanonSpec Canon16 Exact32.
Import ListNotations.
Local Open Scope Z_scope.

Definition rows16 (isa : Isa) (w : Z) : list row :=
  filter (fun r => in_enc (r_acc r isa) w) table16.
Definition errs16 (isa : Isa) (w : Z) : list error_row :=
  filter (fun e => in_enc (e_enc e isa) w) errors16.

Lemma rows16_in isa w r : In r (rows16 isa w) -> In r table16 /\ in_enc (r_acc r isa) w = true.
Proof. unfold rows16. intros H. apply filter_In in H. exact H. Qed.
Lemma errs16_in isa w e : In e (errs16 isa w) -> In e errors16 /\ in_enc (e_enc e isa) w = true.
Proof. unfold errs16. intros H. apply filter_In in H. exact H. Qed.

Lemma rows_respect16 isa : forallb (fun r => enc_respects16 (r_acc r isa)) table16 = true.
Proof. destruct isa; vm_compute; reflexivity. Qed.
Lemma errs_respect16 isa : forallb (fun e => enc_respects16 (e_enc e isa)) errors16 = true.
Proof. destruct isa; vm_compute; reflexivity. Qed.

Lemma rows16_canon isa w : rows16 isa w = rows16 isa (canon16 w).
Proof.
  apply filter_ext'. intros r Hr. apply in_enc_canon16.
  pose proof (rows_respect16 isa) as H. rewrite forallb_forall in H. auto.
Qed.
Lemma errs16_canon isa w : errs16 isa w = errs16 isa (canon16 w).
Proof.
  apply filter_ext'. intros r Hr. apply in_enc_canon16.
  pose proof (errs_respect16 isa) as H. rewrite forallb_forall in H. auto.
Qed.

Lemma check16_rv32 :
  sweep16 (fun w => judge (rows16 Rv32 w) (errs16 Rv32 w) (sel16 p0 w Rv32)) = true.
Proof. vm_cast_no_check (eq_refl true). Qed.
Lemma check16_rv64 :
  sweep16 (fun w => judge (rows16 Rv64 w) (errs16 Rv64 w) (sel16 p0 w Rv64)) = true.
Proof. vm_cast_no_check (eq_refl true). Qed.
Lemma check16_all isa :
  sweep16 (fun w => judge (rows16 isa w) (errs16 isa w) (sel16 p0 w isa)) = true.
Proof. destruct isa; [exact check16_rv32 | exact check16_rv64]. Qed.

Theorem sel16_exact p isa w : is_u16 w ->
  (exists r, rows16 isa w = [r] /\ errs16 isa w = [] /\ sel16 p w isa = Ret (Ok (r_op r))) \/
  (exists e, rows16 isa w = [] /\ errs16 isa w = [e] /\ sel16 p w isa = Ret (Err (e_err e))).
Proof.
  intros Hw. rewrite (rows16_canon isa w), (errs16_canon isa w), (opcode_canon16 p w isa Hw).
  apply judge_true. exact (sweep16_spec _ (check16_all isa) w).
Qed.

(** [decode] is opcode selection followed by the operands. *)
Lemma decode_sel16 p w isa : decode_u16 p w isa =
  (let? o := sel16 p w isa in
   let? rd := parse_rd_u16 p w o in
   let? rs1 := parse_rs1_u16 p w o in
   let? rs2 := parse_rs2_u16 p w o in
   let? imm := parse_imm_u16 p w o isa in
   Ret (Ok {| opc := o; rd := rd; rs1 := rs1; rs2 := rs2; imm := imm;
              inst_format := get_format o; is_compressed := true |})).
Proof. unfold decode_u16, sel16. destruct (w =? 0); reflexivity. Qed.

Theorem decode_u16_exact p isa w : platform_ok p -> is_u16 w ->
  (exists r, rows16 isa w = [r] /\ errs16 isa w = [] /\
             decode_u16 p w isa = Ret (Ok (reads r isa true w))) \/
  (exists e, rows16 isa w = [] /\ errs16 isa w = [e] /\
             decode_u16 p w isa = Ret (Err (e_err e))).
Proof.
  intros Hp Hw. rewrite decode_sel16.
  destruct (sel16_exact p isa w Hw) as [[r [Hr [He H]]]|[e [Hr [He H]]]].
  - left. exists r. split; [assumption|]. split; [assumption|].
    assert (Hin : In r table16).
    { apply (rows16_in isa w). rewrite Hr. left. reflexivity. }
    pose proof (ops16 p w isa Hp) as Ho. rewrite Forall_forall in Ho.
    destruct (Ho r Hin) as [H1 [H2 [H3 [H4 H5]]]].
    rewrite H. cbn [try]. rewrite H1. cbn [try]. rewrite H2. cbn [try].
    rewrite H3. cbn [try]. rewrite H4. cbn [try]. rewrite H5. reflexivity.
  - right. exists e. split; [assumption|]. split; [assumption|]. rewrite H. reflexivity.
Qed.
