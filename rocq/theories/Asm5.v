(** Compressed instructions expand to valid 32-bit instructions (C38). *)
From Coq Require Import ZArith List Bool Lia.
From Verif Require Import Rust Types DecodeUtil Decode Spec SpecOps SpecText SpecAsm Util Pat Rows Rows2
  Operands Asm Asm2 Asm3 Asm4 Text Findings.
Import ListNotations.
Local Open Scope list_scope.
Local Open Scope Z_scope.

Definition class_of (isa : Isa) (op : OpcodeKind) : option class :=
  match find (fun r => dec2b (OpcodeKind_dec (r_op r) op)) table32 with
  | Some r => Some (r_cls r isa)
  | None => None
  end.

Lemma valid_intro isa i c : class_of isa (opc i) = Some c ->
  mem_op (opc i) (unavailable32 isa) = false -> is_compressed i = false ->
  inst_format i = c_fmt c ->
  Forall (fun c => holds i c = true) (conds32 isa (opc i)) -> two_address c i ->
  imm_in (imm_range32 isa (opc i)) (imm i) ->
  reg_ok (c_rd c) (rd i) -> reg_ok (c_rs1 c) (rs1 i) -> reg_ok (c_rs2 c) (rs2 i) ->
  valid32 isa i.
Proof.
  intros Hc A Cm F H T M R1 R2 R3. unfold class_of in Hc.
  destruct (find (fun r => dec2b (OpcodeKind_dec (r_op r) (opc i))) table32) as [r|] eqn:E; [|discriminate Hc].
  injection Hc as <-. apply find_some in E. destruct E as [Hr Op]. apply dec2b_true in Op.
  split; [apply avail32; assumption|]. repeat (split; [assumption|]). exists r. auto 10.
Qed.

Lemma among31 i : holds i (Among OImm upto31) = true -> exists x, imm i = Some x /\ 0 <= x <= 31.
Proof.
  cbn [holds]. rewrite existsb_exists. intros [v [I H]]. unfold has_value in H. cbn [fst snd get] in H.
  destruct (imm i) as [x|]; [|discriminate H]. apply Z.eqb_eq in H. subst x. exists v. split; [reflexivity|].
  unfold upto31 in I. apply in_map_iff in I. destruct I as [n [<- I]]. apply in_seq in I. lia.
Qed.

Ltac finish_operand :=
  match goal with
  | |- _ = None => reflexivity
  | |- _ = Some _ => reflexivity
  | |- exists x, Some _ = Some x /\ _ => eexists; split; [reflexivity|]
  end;
  try match goal with
  | |- context [?v / 4096 mod 1048576] =>
      pose proof (Z.mod_pos_bound (v / 4096) 1048576 ltac:(lia))
  end;
  try (rewrite Z.mod_1_r); try lia; try (split; [lia|assumption]); auto.

Ltac expand_case isa_ R1 R2 R3 M A i :=
    destruct isa_; cbn [r_op same differs isa_cls] in *;
    try (vm_compute in A; discriminate A);
    cbn [r_cls same differs isa_cls conds16 imm_range16 imm_in] in *;
    repeat match goal with
    | X : Forall _ [Among OImm upto31] |- _ => apply Forall_inv, among31 in X
    end;
    cbn in R1, R2, R3, M;
    repeat match goal with
    | X : exists _, _ = Some _ /\ _ |- _ => destruct X as [? [? ?]]
    end;
    (eexists; split; [reflexivity|split; [|intros [[X _]|[X _]]; discriminate X]]);
    unfold sp, zero, ra;
    repeat match goal with X : _ i = _ |- _ => rewrite X in *; clear X end;
    repeat match goal with X : Some _ = Some _ |- _ => injection X as X end;
    (eapply valid_intro;
      [vm_compute; reflexivity|vm_compute; reflexivity|reflexivity|reflexivity
      |cbn; first [apply Forall_nil | apply Forall_cons; [reflexivity|apply Forall_nil]]|cbn; try trivial; intros [X _]; discriminate X
      |cbn; finish_operand..]).

Lemma expand_valid isa i : valid16 isa i -> exists j, expand i = Some j /\ valid32 isa j /\ ~ misread j.
Proof.
  intros [A [_ [M [H [r [Hr [Op [R1 [R2 [R3 [T _]]]]]]]]]]].
  apply avail16 in A. unfold expand, sp, zero, ra. rewrite <- Op in *. clear Op.
  unfold table16, c_ext, zicfiss16_ext in Hr. cbn [app In] in Hr.
  do 36 (destruct Hr as [<-|Hr]; [expand_case isa R1 R2 R3 M A i|]).
  destruct Hr.
Qed.

Lemma expands p q isa w i : platform_ok p -> platform_ok q -> is_u16 w ->
  decode_u16 p w isa = Ret (Ok i) -> legal16 isa (opc i) w ->
  exists j w', expand i = Some j /\ valid32 isa j /\ encodes32 isa j w' /\ is_u32 w' /\
    legal32 isa (opc j) w' /\ decode_u32 q w' isa = Ret (Ok j).
Proof.
  intros Hp Hq Hw D L. destruct (expand_valid isa i (decoded_valid16 _ _ _ _ Hp Hw D L)) as [j [E [V N]]].
  destruct (encodes32_exists _ _ V) as [w' W]. exists j, w'.
  destruct (assemble32 q _ _ _ Hq V W N) as [H1 [H2 H3]]. auto 10.
Qed.

(** ** Witnesses *)

Definition encodes_b (t : list row) (n : nat) (isa : Isa) (i : Instruction) (w : Z) : bool :=
  existsb (fun r => if dec2b (OpcodeKind_dec (r_op r) (opc i))
                    then w =? word n (encoded_bit (r_cls r isa) (r_man r isa) i) else false) t.
Lemma encodes_b_iff t n isa i w : encodes_b t n isa i w = true <->
  exists r, In r t /\ r_op r = opc i /\ w = word n (encoded_bit (r_cls r isa) (r_man r isa) i).
Proof.
  unfold encodes_b. rewrite existsb_exists. split.
  - intros [r [Hr H]]. exists r. destruct (dec2b (OpcodeKind_dec (r_op r) (opc i))) eqn:E; [|discriminate H].
    apply dec2b_true in E. apply Z.eqb_eq in H. auto.
  - intros [r [Hr [E ->]]]. exists r. rewrite E, dec2b_refl, Z.eqb_refl. auto.
Qed.
Lemma encodes32_iff isa i w : encodes_b table32 32 isa i w = true <-> encodes32 isa i w.
Proof. apply encodes_b_iff. Qed.
Lemma encodes16_iff isa i w : encodes_b table16 16 isa i w = true <-> encodes16 isa i w.
Proof. apply encodes_b_iff. Qed.

(** csrrs t0, cycle, t1 *)
Definition csrrs_cycle : Instruction :=
  {| opc := OZicsr Csr_CSRRS; rd := Some 5; rs1 := Some 6; rs2 := Some 0xC00; imm := None;
     inst_format := CsrFormat; is_compressed := false |}.
Lemma csrrs_cycle_valid : valid32 Rv64 csrrs_cycle.
Proof.
  eapply valid_intro; [vm_compute; reflexivity|vm_compute; reflexivity|reflexivity|reflexivity| | | | | |];
    cbn; try (intros [X _]; discriminate X); try reflexivity;
    try (eexists; split; [reflexivity|lia]).
  repeat (apply Forall_cons; [reflexivity|]). apply Forall_nil.
Qed.

Lemma reassemble_refuted : exists p isa w i, platform_ok p /\ is_u32 w /\
  legal32 isa (OZicsr Csr_CSRRS) w /\ decode_u32 p w isa = Ret (Ok i) /\ ~ encodes32 isa i w.
Proof.
  exists plat, Rv64, 0xC00322F3. eexists. split; [exact plat_ok|]. split; [is_word|].
  split; [apply legal32_iff; vm_compute; reflexivity|]. split; [vm_compute; reflexivity|].
  intros E. apply encodes32_iff in E. vm_compute in E. discriminate E.
Qed.

Lemma assemble_refuted : exists p isa i w, platform_ok p /\ valid32 isa i /\ encodes32 isa i w /\
  decode_u32 p w isa <> Ret (Ok i).
Proof.
  exists plat, Rv64, csrrs_cycle, 0xC00322F3. split; [exact plat_ok|]. split; [exact csrrs_cycle_valid|].
  split; [apply encodes32_iff; vm_compute; reflexivity|]. intros D. vm_compute in D. discriminate D.
Qed.

(** c.add x0, a0 *)
Definition c_add_hint : Instruction :=
  {| opc := OC C_ADD; rd := Some 0; rs1 := Some 0; rs2 := Some 10; imm := None;
     inst_format := CrFormat; is_compressed := true |}.
Lemma c_add_hint_row : exists r, In r table16 /\ in_enc (r_man r Rv64) 0x902A = true /\
  reads r Rv64 true 0x902A = c_add_hint.
Proof.
  assert (E : find (fun r => in_enc (r_man r Rv64) 0x902A &&
    dec2b (Instruction_dec (reads r Rv64 true 0x902A) c_add_hint)) table16 <> None)
    by (vm_compute; discriminate).
  destruct (find _ table16) as [r|] eqn:F; [|destruct (E eq_refl)].
  apply find_some in F. destruct F as [Hr F]. apply andb_true_iff in F. destruct F as [F1 F2].
  apply dec2b_true in F2. exists r. auto.
Qed.
Lemma c_add_hint_valid : valid16 Rv64 c_add_hint.
Proof. destruct c_add_hint_row as [r [Hr [He <-]]]. apply legal_valid16; assumption. Qed.
Lemma assemble16_refuted : exists p isa i w, platform_ok p /\ valid16 isa i /\ encodes16 isa i w /\
  decode_u16 p w isa <> Ret (Ok i).
Proof.
  exists plat, Rv64, c_add_hint, 0x902A. split; [exact plat_ok|]. split; [exact c_add_hint_valid|].
  split; [apply encodes16_iff; vm_compute; reflexivity|]. intros D. vm_compute in D. discriminate D.
Qed.

Lemma expand_refuted : exists p isa w i j, platform_ok p /\ is_u16 w /\ legal16 isa (OC C_ADD) w /\
  decode_u16 p w isa = Ret (Ok i) /\ expand i = Some j /\ opc j <> OBaseI I_ADD.
Proof.
  exists plat, Rv64, 0x902A. do 2 eexists. split; [exact plat_ok|]. split; [is_word|].
  split; [apply legal16_iff; vm_compute; reflexivity|]. split; [vm_compute; reflexivity|].
  split; [reflexivity|]. discriminate.
Qed.

Definition operand_bit_b (t : list row) (isa : Isa) (op : OpcodeKind) (k : Z) : bool :=
  existsb (fun r => if dec2b (OpcodeKind_dec (r_op r) op)
    then existsb (fun s : slot => let '(_, (h, l, b)) := s in (b - (h - l) <=? k) && (k <=? b))
           (slots (r_cls r isa))
    else false) t.
Lemma operand_bit_iff t isa op k : operand_bit_b t isa op k = true <-> operand_bit t isa op k.
Proof.
  unfold operand_bit_b, operand_bit. rewrite existsb_exists. split.
  - intros [r [Hr H]]. destruct (dec2b (OpcodeKind_dec (r_op r) op)) eqn:E; [|discriminate H].
    apply dec2b_true in E. apply existsb_exists in H. destruct H as [[o [[h l] b]] [I H]].
    exists r, o, h, l, b. repeat (split; [assumption|]). lia.
  - intros [r [o [h [l [b [Hr [<- [I H]]]]]]]]. exists r. split; [assumption|]. rewrite dec2b_refl.
    apply existsb_exists. exists (o, (h, l, b)). split; [assumption|]. lia.
Qed.
