(** Every 32-bit word falls in exactly one row of [table32] or [errors32], and that row gives
    the result of [decode]. *)
From Coq Require Import ZArith List Bool Lia.
From Verif Require Import Rust Types DecodeUtil Dec32 Dec16 Decode Spec Util Plat Oper32 CanonBase Canon CanonSpec.
Import ListNotations.
Local Open Scope Z_scope.

Definition rows32 (isa : Isa) (w : Z) : list row :=
  filter (fun r => in_enc (r_acc r isa) w) table32.
Definition errs32 (isa : Isa) (w : Z) : list error_row :=
  filter (fun e => in_enc (e_enc e isa) w) errors32.

Lemma filter_ext' {A} (f g : A -> bool) l : (forall x, In x l -> f x = g x) ->
  filter f l = filter g l.
Proof.
  induction l as [|a l IH]; intros H; [reflexivity|]. cbn.
  rewrite (H a (or_introl eq_refl)), IH; [reflexivity|]. intros; apply H; right; assumption.
Qed.

Lemma rows32_in isa w r : In r (rows32 isa w) -> In r table32 /\ in_enc (r_acc r isa) w = true.
Proof. unfold rows32. intros H. apply filter_In in H. exact H. Qed.
Lemma errs32_in isa w e : In e (errs32 isa w) -> In e errors32 /\ in_enc (e_enc e isa) w = true.
Proof. unfold errs32. intros H. apply filter_In in H. exact H. Qed.

Lemma rows_respect isa : forallb (fun r => enc_respects (r_acc r isa)) table32 = true.
Proof. destruct isa; vm_compute; reflexivity. Qed.
Lemma errs_respect isa : forallb (fun e => enc_respects (e_enc e isa)) errors32 = true.
Proof. destruct isa; vm_compute; reflexivity. Qed.

Lemma rows32_canon isa w : rows32 isa w = rows32 isa (canon w).
Proof.
  apply filter_ext'. intros r Hr. apply in_enc_canon.
  pose proof (rows_respect isa) as H. rewrite forallb_forall in H. auto.
Qed.
Lemma errs32_canon isa w : errs32 isa w = errs32 isa (canon w).
Proof.
  apply filter_ext'. intros r Hr. apply in_enc_canon.
  pose proof (errs_respect isa) as H. rewrite forallb_forall in H. auto.
Qed.

(** One row or error row, which gives [res]. *)
Definition judge (rs : list row) (es : list error_row)
  (res : outcome (result OpcodeKind DecodingError)) : bool :=
  match rs, es with
  | [r], [] => dec2b (opres_dec res (Ret (Ok (r_op r))))
  | [], [e] => dec2b (opres_dec res (Ret (Err (e_err e))))
  | _, _ => false
  end.

Lemma judge_true rs es res : judge rs es res = true ->
  (exists r, rs = [r] /\ es = [] /\ res = Ret (Ok (r_op r))) \/
  (exists e, rs = [] /\ es = [e] /\ res = Ret (Err (e_err e))).
Proof.
  unfold judge. intros H.
  destruct rs as [|r [|? ?]]; destruct es as [|e [|? ?]]; try discriminate H;
    apply dec2b_true in H; [right; exists e | left; exists r]; auto.
Qed.

Lemma check32_rv32 :
  sweep32 (fun w => judge (rows32 Rv32 w) (errs32 Rv32 w) (parse_opcode_u32 p0 w Rv32)) = true.
Proof. vm_cast_no_check (eq_refl true). Qed.
Lemma check32_rv64 :
  sweep32 (fun w => judge (rows32 Rv64 w) (errs32 Rv64 w) (parse_opcode_u32 p0 w Rv64)) = true.
Proof. vm_cast_no_check (eq_refl true). Qed.
Lemma check32_all isa :
  sweep32 (fun w => judge (rows32 isa w) (errs32 isa w) (parse_opcode_u32 p0 w isa)) = true.
Proof. destruct isa; [exact check32_rv32 | exact check32_rv64]. Qed.

Theorem parse_opcode_u32_exact p isa w : is_u32 w ->
  (exists r, rows32 isa w = [r] /\ errs32 isa w = [] /\
             parse_opcode_u32 p w isa = Ret (Ok (r_op r))) \/
  (exists e, rows32 isa w = [] /\ errs32 isa w = [e] /\
             parse_opcode_u32 p w isa = Ret (Err (e_err e))).
Proof.
  intros Hw. rewrite (rows32_canon isa w), (errs32_canon isa w), (parse_opcode_canon p w isa Hw).
  apply judge_true. exact (sweep32_spec _ (check32_all isa) w).
Qed.

Theorem decode_u32_exact p isa w : platform_ok p -> is_u32 w ->
  (exists r, rows32 isa w = [r] /\ errs32 isa w = [] /\
             decode_u32 p w isa = Ret (Ok (reads r isa false w))) \/
  (exists e, rows32 isa w = [] /\ errs32 isa w = [e] /\
             decode_u32 p w isa = Ret (Err (e_err e))).
Proof.
  intros Hp Hw. destruct (parse_opcode_u32_exact p isa w Hw) as [[r [Hr [He H]]]|[e [Hr [He H]]]].
  - left. exists r. split; [assumption|]. split; [assumption|].
    assert (Hin : In r table32).
    { apply (rows32_in isa w). rewrite Hr. left. reflexivity. }
    pose proof (ops32 p w isa Hp) as Ho. rewrite Forall_forall in Ho.
    destruct (Ho r Hin) as [H1 [H2 [H3 [H4 H5]]]].
    unfold decode_u32. rewrite H. cbn [try]. rewrite H1. cbn [try]. rewrite H2. cbn [try].
    rewrite H3. cbn [try]. rewrite H4. cbn [try]. rewrite H5. reflexivity.
  - right. exists e. split; [assumption|]. split; [assumption|].
    unfold decode_u32. rewrite H. reflexivity.
Qed.
