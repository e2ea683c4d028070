(** Round trips between words and instructions (C35, C36, C37). *)
From Coq Require Import ZArith List Bool Lia.
From Verif Require Import Rust Types DecodeUtil Decode Spec SpecOps SpecText SpecAsm Util Pat Rows Rows2
  Operands Api Asm Asm2 Asm3 Text Findings.
Import ListNotations.
Local Open Scope list_scope.
Local Open Scope Z_scope.

Lemma word32 r isa i : is_u32 (word 32 (encoded_bit (r_cls r isa) (r_man r isa) i)).
Proof. exact (word_bound 32 _). Qed.
Lemma word16 r isa i : is_u16 (word 16 (encoded_bit (r_cls r isa) (r_man r isa) i)).
Proof. exact (word_bound 16 _). Qed.

Lemma row_ok32 isa r : In r table32 -> row_ok 32 r isa (imm_range32 isa (r_op r))
  (conds32 isa (r_op r)) (mem_op (r_op r) (unavailable32 isa)) = true.
Proof. intros H. pose proof (rows_ok32 isa) as A. rewrite forallb_forall in A. auto. Qed.
Lemma row_ok16 isa r : In r table16 -> row_ok 16 r isa (imm_range16 (r_op r))
  (conds16 isa (r_op r)) (mem_op (r_op r) (unavailable16 isa)) = true.
Proof. intros H. pose proof (rows_ok16 isa) as A. rewrite forallb_forall in A. auto. Qed.
Lemma row_class n r isa range conds un : row_ok n r isa range conds un = true ->
  class_ok (Z.of_nat n) (r_cls r isa) = true.
Proof. unfold row_ok. repeat rewrite andb_true_iff. tauto. Qed.

Lemma mem_op_false op l : mem_op op l = false <-> ~ In op l.
Proof. rewrite <- mem_op_ok. destruct (mem_op op l); split; congruence. Qed.
Lemma avail32 isa op : available32 isa op <-> mem_op op (unavailable32 isa) = false.
Proof. rewrite mem_op_false. destruct isa; reflexivity. Qed.
Lemma avail16 isa op : available16 isa op <-> mem_op op (unavailable16 isa) = false.
Proof. rewrite mem_op_false. destruct isa; reflexivity. Qed.

(** ** Uniqueness and existence of the encoding *)

Lemma encodes32_unique isa i w w' : encodes32 isa i w -> encodes32 isa i w' -> w = w'.
Proof.
  intros [r [H [E ->]]] [r' [H' [E' ->]]]. rewrite <- E' in E. apply row_unique32 in E; [|assumption..].
  subst. reflexivity.
Qed.
Lemma encodes16_unique isa i w w' : encodes16 isa i w -> encodes16 isa i w' -> w = w'.
Proof.
  intros [r [H [E ->]]] [r' [H' [E' ->]]]. rewrite <- E' in E. apply row_unique16 in E; [|assumption..].
  subst. reflexivity.
Qed.
Lemma encodes32_exists isa i : valid32 isa i -> exists w, encodes32 isa i w.
Proof. intros [_ [_ [_ [_ [r [H [E _]]]]]]]. eexists. exists r. eauto. Qed.
Lemma encodes16_exists isa i : valid16 isa i -> exists w, encodes16 isa i w.
Proof. intros [_ [_ [_ [_ [r [H [E _]]]]]]]. eexists. exists r. eauto. Qed.

(** ** From instructions to words *)

Lemma valid_legal32 isa i w : valid32 isa i -> encodes32 isa i w ->
  is_u32 w /\ exists r, In r table32 /\ r_op r = opc i /\ in_enc (r_man r isa) w = true /\
    reads r isa false w = i.
Proof.
  intros [A [Cm [M [H [r [Hr [Op [R1 [R2 [R3 [T F]]]]]]]]]]] [r' [Hr' [Op' Ew]]].
  assert (r' = r) as -> by (apply row_unique32; congruence).
  split; [rewrite Ew; apply word32|]. exists r. split; [assumption|]. split; [assumption|].
  pose proof (row_ok32 isa r Hr) as K. rewrite Op in K. apply avail32 in A.
  destruct (row_valid 32 r isa _ _ _ w false i K ltac:(lia) A R1 R2 R3 T M F Op Cm H Ew). auto.
Qed.
Lemma valid_legal16 isa i w : valid16 isa i -> encodes16 isa i w ->
  is_u16 w /\ exists r, In r table16 /\ r_op r = opc i /\ in_enc (r_man r isa) w = true /\
    reads r isa true w = i.
Proof.
  intros [A [Cm [M [H [r [Hr [Op [R1 [R2 [R3 [T F]]]]]]]]]]] [r' [Hr' [Op' Ew]]].
  assert (r' = r) as -> by (apply row_unique16; congruence).
  split; [rewrite Ew; apply word16|]. exists r. split; [assumption|]. split; [assumption|].
  pose proof (row_ok16 isa r Hr) as K. rewrite Op in K. apply avail16 in A.
  destruct (row_valid 16 r isa _ _ _ w true i K ltac:(lia) A R1 R2 R3 T M F Op Cm H Ew). auto.
Qed.

Lemma csr_class isa : forallb (fun r => match r_op r with
  | OZicsr Csr_CSRRS => dec2b (class_dec (r_cls r isa) cCsr) | _ => true end) table32 = true.
Proof. destruct isa; vm_compute; reflexivity. Qed.
Lemma add_class isa : forallb (fun r => match r_op r with
  | OC C_ADD => dec2b (class_dec (r_cls r isa) cAdd) | _ => true end) table16 = true.
Proof. destruct isa; vm_compute; reflexivity. Qed.

Lemma legal_decodes32 p isa w r : platform_ok p -> is_u32 w -> In r table32 ->
  in_enc (r_man r isa) w = true -> ~ misread (reads r isa false w) ->
  decode_u32 p w isa = Ret (Ok (reads r isa false w)).
Proof.
  intros Hp Hw Hr He N.
  assert (D : In r zicsr_ext \/ In r (base_i ++ m_ext ++ a_ext ++ zicntr_ext ++ zifencei_ext ++ zicboz_ext
    ++ zicfiss_ext ++ priv_ext)) by (unfold table32 in Hr; rewrite !in_app_iff in *; tauto).
  destruct D as [D|D]; [|apply man32; assumption].
  apply zicsr_complete; try assumption. intros O I. apply N. left. split; [assumption|].
  exists (field w 31 20). split; [|assumption]. pose proof (csr_class isa) as A.
  rewrite forallb_forall in A. specialize (A r Hr). rewrite O in A. apply dec2b_true in A.
  cbn [reads rs2]. rewrite A. reflexivity.
Qed.
Lemma legal_decodes16 p isa w r : platform_ok p -> is_u16 w -> In r table16 ->
  in_enc (r_man r isa) w = true -> ~ misread (reads r isa true w) ->
  decode_u16 p w isa = Ret (Ok (reads r isa true w)).
Proof.
  intros Hp Hw Hr He N. apply c_complete; try assumption. intros O I. apply N. right.
  split; [assumption|]. pose proof (add_class isa) as A.
  rewrite forallb_forall in A. specialize (A r Hr). rewrite O in A. apply dec2b_true in A.
  cbn [reads rd]. rewrite A. cbn [c_rd cAdd cls reg_of dw]. rewrite I. reflexivity.
Qed.

Lemma assemble32 p isa i w : platform_ok p -> valid32 isa i -> encodes32 isa i w -> ~ misread i ->
  is_u32 w /\ legal32 isa (opc i) w /\ decode_u32 p w isa = Ret (Ok i).
Proof.
  intros Hp V E N. destruct (valid_legal32 _ _ _ V E) as [Hw [r [Hr [Op [He R]]]]].
  split; [assumption|]. split; [exists r; auto|]. rewrite <- R in N |- *. apply legal_decodes32; assumption.
Qed.
Lemma assemble16 p isa i w : platform_ok p -> valid16 isa i -> encodes16 isa i w -> ~ misread i ->
  is_u16 w /\ legal16 isa (opc i) w /\ decode_u16 p w isa = Ret (Ok i).
Proof.
  intros Hp V E N. destruct (valid_legal16 _ _ _ V E) as [Hw [r [Hr [Op [He R]]]]].
  split; [assumption|]. split; [exists r; auto|]. rewrite <- R in N |- *. apply legal_decodes16; assumption.
Qed.

(** ** From words to instructions *)

Lemma legal_valid32 r isa w : In r table32 -> in_enc (r_man r isa) w = true ->
  valid32 isa (reads r isa false w).
Proof.
  intros Hr He. destruct (row_legal 32 r isa _ _ _ w false (row_ok32 isa r Hr) He)
    as [U [R1 [R2 [R3 [T [M H]]]]]].
  split; [apply avail32; assumption|]. split; [reflexivity|]. split; [assumption|]. split; [assumption|].
  exists r. auto 10.
Qed.
Lemma legal_valid16 r isa w : In r table16 -> in_enc (r_man r isa) w = true ->
  valid16 isa (reads r isa true w).
Proof.
  intros Hr He. destruct (row_legal 16 r isa _ _ _ w true (row_ok16 isa r Hr) He)
    as [U [R1 [R2 [R3 [T [M H]]]]]].
  split; [apply avail16; assumption|]. split; [reflexivity|]. split; [assumption|]. split; [assumption|].
  exists r. auto 10.
Qed.
Lemma decoded_valid32 p isa w i : platform_ok p -> is_u32 w -> decode_u32 p w isa = Ret (Ok i) ->
  legal32 isa (opc i) w -> valid32 isa i.
Proof.
  intros Hp Hw D [r [Hr [Op He]]]. destruct (ok32 _ _ _ _ Hp Hw D) as [r' [Hr' [_ ->]]].
  apply row_unique32 in Op; [|assumption..]. subst r'. apply legal_valid32; assumption.
Qed.
Lemma decoded_valid16 p isa w i : platform_ok p -> is_u16 w -> decode_u16 p w isa = Ret (Ok i) ->
  legal16 isa (opc i) w -> valid16 isa i.
Proof.
  intros Hp Hw D [r [Hr [Op He]]]. destruct (ok16 _ _ _ _ Hp Hw D) as [r' [Hr' [_ ->]]].
  apply row_unique16 in Op; [|assumption..]. subst r'. apply legal_valid16; assumption.
Qed.

Lemma reassemble32 p isa w i : platform_ok p -> is_u32 w -> decode_u32 p w isa = Ret (Ok i) ->
  legal32 isa (opc i) w -> ~ In (opc i) unreported -> encodes32 isa i w.
Proof.
  intros Hp Hw D [r [Hr [Op He]]] N. destruct (ok32 _ _ _ _ Hp Hw D) as [r' [Hr' [_ ->]]].
  apply row_unique32 in Op; [|assumption..]. subst r'. exists r. split; [assumption|]. split; [reflexivity|].
  symmetry. apply encode_read; try assumption; [eapply row_class, row_ok32; assumption|].
  pose proof (settled32 isa) as A. rewrite forallb_forall in A. specialize (A r Hr).
  apply orb_true_iff in A. destruct A as [A|A]; [|assumption].
  destruct (N (proj1 (mem_op_ok _ _) A)).
Qed.
Lemma reassemble16 p isa w i : platform_ok p -> is_u16 w -> decode_u16 p w isa = Ret (Ok i) ->
  legal16 isa (opc i) w -> encodes16 isa i w.
Proof.
  intros Hp Hw D [r [Hr [Op He]]]. destruct (ok16 _ _ _ _ Hp Hw D) as [r' [Hr' [_ ->]]].
  apply row_unique16 in Op; [|assumption..]. subst r'. exists r. split; [assumption|]. split; [reflexivity|].
  symmetry. apply encode_read; try assumption; [eapply row_class, row_ok16; assumption|].
  pose proof (settled16 isa) as A. rewrite forallb_forall in A. apply A. assumption.
Qed.

(** What ssamoswap loses is exactly aq and rl. *)
Definition settled_but (l : list Z) (n : nat) (c : class) (e : enc) : bool :=
  match incl e with
  | [p] => forallb (fun k => existsb (Z.eqb k) l ||
      match holder (slots c) k with
      | Some _ => true
      | None => match pattern_bit p k with Some _ => true | None => false end
      end) (positions n)
  | [] => true
  | _ => false
  end.
Lemma unreported_settled isa : forallb (fun r => negb (mem_op (r_op r) unreported) ||
  settled_but [25; 26] 32 (r_cls r isa) (r_man r isa)) table32 = true.
Proof. destruct isa; vm_compute; reflexivity. Qed.

Lemma reassemble_unreported p isa w i w' : platform_ok p -> is_u32 w ->
  decode_u32 p w isa = Ret (Ok i) -> legal32 isa (opc i) w -> In (opc i) unreported ->
  encodes32 isa i w' -> forall k, k <> 25 -> k <> 26 -> Z.testbit w k = Z.testbit w' k.
Proof.
  intros Hp Hw D [r [Hr [Op He]]] N [r2 [Hr2 [Op2 Ew]]] k N1 N2.
  destruct (ok32 _ _ _ _ Hp Hw D) as [r' [Hr' [_ ->]]].
  apply row_unique32 in Op; [|assumption..]. subst r'.
  apply row_unique32 in Op2; [|assumption..]. subst r2.
  pose proof (unreported_settled isa) as A. rewrite forallb_forall in A. specialize (A r Hr).
  cbn [reads opc] in N. rewrite (proj2 (mem_op_ok _ _) N) in A. cbn [negb orb] in A.
  assert (C : class_ok (Z.of_nat 32) (r_cls r isa) = true) by (eapply row_class, row_ok32; assumption).
  destruct (Z.ltb_spec k 0) as [L|L]; [rewrite !Z.testbit_neg_r by assumption; reflexivity|].
  destruct (Z.ltb_spec k (Z.of_nat 32)) as [U|U].
  2:{ rewrite (small_testbit w 32) by (assumption || lia).
      rewrite Ew. symmetry. apply (small_testbit _ 32); [apply word32|lia]. }
  rewrite Ew, word_testbit by lia. destruct (Z.ltb_spec k (Z.of_nat 32)); [|lia]. cbn [andb].
  unfold encoded_bit. destruct (holder (slots (r_cls r isa)) k) as [[o j]|] eqn:Ho.
  - destruct (holder_in _ _ _ _ Ho) as [h [l [b [I [R ->]]]]].
    rewrite get_reads. destruct (slot_read _ _ w _ _ _ _ k C I R) as [v [-> T]]. symmetry. exact T.
  - unfold in_enc in He. apply andb_true_iff in He. destruct He as [He _]. unfold settled_but in A.
    destruct (incl (r_man r isa)) as [|q [|q2 qs]]; [discriminate He| |discriminate A].
    rewrite forallb_forall in A. specialize (A k (proj2 (positions_in 32 k) (conj L U))).
    rewrite Ho in A. cbn [existsb orb] in A.
    destruct (Z.eqb_spec k 25); [contradiction|]. destruct (Z.eqb_spec k 26); [contradiction|].
    cbn [orb] in A. destruct (pattern_bit q k) as [b|] eqn:P; [|discriminate A].
    cbn [existsb] in He. rewrite orb_false_r in He. apply (pattern_bit_matches q w k b); assumption.
Qed.

(** ** The decoded value depends on the operand bits only, and on all of them *)

Lemma reads_bits n r isa cmp w w' : class_ok n (r_cls r isa) = true ->
  (reads r isa cmp w = reads r isa cmp w' <->
   forall o h l b k, In (o, (h, l, b)) (slots (r_cls r isa)) -> b - (h - l) <= k <= b ->
     Z.testbit w k = Z.testbit w' k).
Proof.
  intros C. split.
  - intros E o h l b k I R. destruct (slot_read n _ w o h l b k C I R) as [v [V T]].
    destruct (slot_read n _ w' o h l b k C I R) as [v' [V' T']].
    rewrite <- (get_reads r isa cmp) in V, V'. rewrite E in V. rewrite V in V'. injection V' as <-.
    congruence.
  - intros H. assert (E : forall o, read (r_cls r isa) w o = read (r_cls r isa) w' o).
    { intros o. apply (read_ext n); [assumption|]. intros h l b k. apply H. }
    pose proof (E ORd) as E1. pose proof (E ORs1) as E2. pose proof (E ORs2) as E3. pose proof (E OImm) as E4.
    cbn [read reg_source] in E1, E2, E3, E4. unfold reads. congruence.
Qed.

Lemma depends32 p q isa w w' i i' : platform_ok p -> platform_ok q -> is_u32 w -> is_u32 w' ->
  decode_u32 p w isa = Ret (Ok i) -> decode_u32 q w' isa = Ret (Ok i') ->
  (i = i' <-> opc i = opc i' /\
     forall k, operand_bit table32 isa (opc i) k -> Z.testbit w k = Z.testbit w' k).
Proof.
  intros Hp Hq Hw Hw' D D'. destruct (ok32 _ _ _ _ Hp Hw D) as [r [Hr [_ ->]]].
  destruct (ok32 _ _ _ _ Hq Hw' D') as [r' [Hr' [_ ->]]].
  assert (C : class_ok (Z.of_nat 32) (r_cls r isa) = true) by (eapply row_class, row_ok32; assumption).
  split.
  - intros E. assert (Op : r_op r = r_op r') by (change (opc (reads r isa false w) = r_op r'); rewrite E; reflexivity).
    split; [exact Op|]. apply row_unique32 in Op; [|assumption..]. subst r'.
    intros k [r2 [o [h [l [b [H2 [O2 [I R]]]]]]]]. apply row_unique32 in O2; [|assumption..]. subst r2.
    exact (proj1 (reads_bits _ _ _ _ _ _ C) E o h l b k I R).
  - cbn [reads opc]. intros [Op H]. apply row_unique32 in Op; [|assumption..]. subst r'.
    apply (reads_bits _ _ _ _ _ _ C). intros o h l b k I R. apply H. exists r, o, h, l, b. auto.
Qed.
Lemma depends16 p q isa w w' i i' : platform_ok p -> platform_ok q -> is_u16 w -> is_u16 w' ->
  decode_u16 p w isa = Ret (Ok i) -> decode_u16 q w' isa = Ret (Ok i') ->
  (i = i' <-> opc i = opc i' /\
     forall k, operand_bit table16 isa (opc i) k -> Z.testbit w k = Z.testbit w' k).
Proof.
  intros Hp Hq Hw Hw' D D'. destruct (ok16 _ _ _ _ Hp Hw D) as [r [Hr [_ ->]]].
  destruct (ok16 _ _ _ _ Hq Hw' D') as [r' [Hr' [_ ->]]].
  assert (C : class_ok (Z.of_nat 16) (r_cls r isa) = true) by (eapply row_class, row_ok16; assumption).
  split.
  - intros E. assert (Op : r_op r = r_op r') by (change (opc (reads r isa true w) = r_op r'); rewrite E; reflexivity).
    split; [exact Op|]. apply row_unique16 in Op; [|assumption..]. subst r'.
    intros k [r2 [o [h [l [b [H2 [O2 [I R]]]]]]]]. apply row_unique16 in O2; [|assumption..]. subst r2.
    exact (proj1 (reads_bits _ _ _ _ _ _ C) E o h l b k I R).
  - cbn [reads opc]. intros [Op H]. apply row_unique16 in Op; [|assumption..]. subst r'.
    apply (reads_bits _ _ _ _ _ _ C). intros o h l b k I R. apply H. exists r, o, h, l, b. auto.
Qed.

(** Legal words of one opcode differ in operand bits only. *)
Lemma legal_differ isa t n r w w' : class_ok (Z.of_nat n) (r_cls r isa) = true ->
  settled n (r_cls r isa) (r_man r isa) = true -> In r t ->
  in_enc (r_man r isa) w = true -> in_enc (r_man r isa) w' = true ->
  0 <= w < 2 ^ Z.of_nat n -> 0 <= w' < 2 ^ Z.of_nat n ->
  forall k, Z.testbit w k <> Z.testbit w' k -> operand_bit t isa (r_op r) k.
Proof.
  intros C S Hr He He' Hw Hw' k N.
  destruct (holder (slots (r_cls r isa)) k) as [[o j]|] eqn:Ho.
  - destruct (holder_in _ _ _ _ Ho) as [h [l [b [I [R _]]]]]. exists r, o, h, l, b. auto.
  - exfalso. apply N. destruct (Z.ltb_spec k 0) as [L|L]; [rewrite !Z.testbit_neg_r by assumption; reflexivity|].
    pose proof (encode_read n r isa false w C S He Hw) as E.
    pose proof (encode_read n r isa false w' C S He' Hw') as E'.
    rewrite <- E, <- E', !word_testbit by assumption. f_equal. unfold encoded_bit. rewrite Ho. reflexivity.
Qed.
Lemma legal_differ32 isa op w w' : is_u32 w -> is_u32 w' -> legal32 isa op w -> legal32 isa op w' ->
  ~ In op unreported -> forall k, Z.testbit w k <> Z.testbit w' k -> operand_bit table32 isa op k.
Proof.
  intros Hw Hw' [r [Hr [<- He]]] [r' [Hr' [Op He']]] N k K. apply row_unique32 in Op; [|assumption..]. subst r'.
  apply (legal_differ isa table32 32 r w w'); try assumption; [eapply row_class, row_ok32; assumption|].
  pose proof (settled32 isa) as A. rewrite forallb_forall in A. specialize (A r Hr).
  apply orb_true_iff in A. destruct A as [A|A]; [|assumption]. destruct (N (proj1 (mem_op_ok _ _) A)).
Qed.
Lemma legal_differ16 isa op w w' : is_u16 w -> is_u16 w' -> legal16 isa op w -> legal16 isa op w' ->
  forall k, Z.testbit w k <> Z.testbit w' k -> operand_bit table16 isa op k.
Proof.
  intros Hw Hw' [r [Hr [<- He]]] [r' [Hr' [Op He']]] k K. apply row_unique16 in Op; [|assumption..]. subst r'.
  apply (legal_differ isa table16 16 r w w'); try assumption; [eapply row_class, row_ok16; assumption|].
  pose proof (settled16 isa) as A. rewrite forallb_forall in A. auto.
Qed.

(** ** Witnesses *)

(** ssamoswap.w t0, a0, (a1) and the same with aq. *)
Lemma aqrl_refuted : exists p isa w w' i, platform_ok p /\ is_u32 w /\ is_u32 w' /\ w <> w' /\
  legal32 isa (opc i) w /\ legal32 isa (opc i) w' /\
  decode_u32 p w isa = Ret (Ok i) /\ decode_u32 p w' isa = Ret (Ok i).
Proof.
  exists plat, Rv64, 0x48A5A2AF, 0x4CA5A2AF. eexists. split; [exact plat_ok|]. split; [is_word|].
  split; [is_word|]. split; [lia|].
  split; [|split; [|split; [vm_compute; reflexivity|vm_compute; reflexivity]]];
    apply legal32_iff; vm_compute; reflexivity.
Qed.
