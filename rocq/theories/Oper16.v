(** The operands the u16 decoder extracts for each opcode are those of the opcode's class. *)
From Coq Require Import ZArith List Bool Lia.
From Verif Require Import Rust Types DecodeUtil Dec32 Dec16 Decode Spec Util Plat Oper32.
Import ListNotations.
Local Open Scope Z_scope.

Definition ops16_ok (p : platform) (w : Z) (isa : Isa) (r : row) : Prop :=
  let c := r_cls r isa in
  parse_rd_u16 p w (r_op r) = Ret (Ok (reg_of (c_rd c) w)) /\
  parse_rs1_u16 p w (r_op r) = Ret (Ok (reg_of (c_rs1 c) w)) /\
  parse_rs2_u16 p w (r_op r) = Ret (Ok (reg_of (c_rs2 c) w)) /\
  parse_imm_u16 p w (r_op r) isa = Ret (Ok (imm_of (c_imm c) w)) /\
  get_format (r_op r) = c_fmt c.

(** Unsigned reading of one or two [set]s. *)
Lemma unsigned1 s ms : mask_ok ms = true -> mask_lt 31 ms = true ->
  as_i32 (set_lor s 0 ms 0) = set_lor s 0 ms 0.
Proof. intros _ H. apply as_i32_ok. apply set_lor_lt. assumption. Qed.
Lemma unsigned2 s1 m1 s2 m2 : mask_lt 31 m1 = true -> mask_lt 31 m2 = true ->
  as_i32 (Z.lor (set_lor s1 0 m1 0) (set_lor s2 0 m2 0))
  = Z.lor (set_lor s1 0 m1 0) (set_lor s2 0 m2 0).
Proof.
  intros H1 H2. apply as_i32_ok. apply lor_bound; [lia|apply set_lor_lt; assumption..].
Qed.

Ltac op_case16 w :=
  lazy [parse_rd_u16 parse_rs1_u16 parse_rs2_u16 parse_imm_u16 ok_of
        c_parse_rd c_parse_rs1 c_parse_rs2 c_parse_imm slice_set2
        zicfiss16_parse_rd zicfiss16_parse_rs1 zicfiss16_parse_rs2 zicfiss16_parse_imm
        r_op r_cls same differs c_rd c_rs1 c_rs2 c_imm c_fmt reg_of imm_of cls
        cAddi4spn cLw16 cLd16 cSw16 cSd16 cNop cAddi cLi cJ16 cAddi16sp cLui16 cShr16 cAndi16
        cCa cB16 cSlli16 cLwsp cLdsp cJr cMv cAdd cSwsp cSdsp cSs16 cNone dq sq dw tw
        off_w off_d imm6];
  try reflexivity;
  regs16; sets; signeds;
  try reflexivity;
  first [rewrite unsigned2 by reflexivity | rewrite unsigned1 by reflexivity | idtac];
  first [rewrite set2_val by reflexivity | rewrite set1_val by reflexivity];
  match goal with
  | |- Ret (Ok (Some (sext ?n ?a))) = Ret (Ok (Some (sext ?n ?b))) =>
      apply (f_equal (fun x => Ret (Ok (Some (sext n x)))))
  | |- Ret (Ok (Some ?a)) = Ret (Ok (Some ?b)) =>
      apply (f_equal (fun x => Ret (Ok (Some x))))
  end; immbits w.

Ltac op_rows16 w :=
  repeat (apply Forall_cons; [unfold ops16_ok; cbv zeta; refine (conj _ (conj _ (conj _ (conj _ _)))); op_case16 w|]);
  apply Forall_nil.

Lemma ops16_c p w isa : platform_ok p -> Forall (ops16_ok p w isa) c_ext.
Proof. intros Hp. unfold c_ext. destruct isa; op_rows16 w. Qed.
Lemma ops16_ss p w isa : platform_ok p -> Forall (ops16_ok p w isa) zicfiss16_ext.
Proof. intros Hp. unfold zicfiss16_ext. destruct isa; op_rows16 w. Qed.

Lemma ops16 p w isa : platform_ok p -> Forall (ops16_ok p w isa) table16.
Proof.
  intros Hp. unfold table16. rewrite Forall_app. split; [apply ops16_c|apply ops16_ss]; assumption.
Qed.
