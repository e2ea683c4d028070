(** More consequences: C extension, leniency, ISA gating, immediates, registers, errors. *)
From Coq Require Import ZArith List Bool Lia String.
From Verif Require Import Rust Types DecodeUtil Dec32 Dec16 Decode Spec Util Plat Exact32 Exact16
  Pat SpecOps Rows.
Import ListNotations.
Local Open Scope list_scope.
Local Open Scope Z_scope.

(** ** C extension (C11) *)

Definition hint_add : enc := only ["100 1 00000 ..... 10"%string].

Lemma man16_isa isa :
  forallb (fun r => implies (FAnd (enc_form (r_man r isa)) (FNot (enc_form hint_add)))
                            (enc_form (r_acc r isa))) table16 = true.
Proof. destruct isa; vm_compute; reflexivity. Qed.
Lemma man16_isa' isa :
  forallb (fun r => match r_op r with OC C_ADD => true
                    | _ => enc_sub (r_man r isa) (r_acc r isa) end) table16 = true.
Proof. destruct isa; vm_compute; reflexivity. Qed.

Lemma matches_bit p : forall k w j b, matches_at k p w = true ->
  nth_error p j = Some (Some b) -> Z.testbit w (k + Z.of_nat j) = b.
Proof.
  induction p as [|x p IH]; intros k w j b H E; [destruct j; discriminate E|].
  destruct j as [|j].
  - cbn in E. injection E as ->. cbn [matches_at] in H. rewrite Z.add_0_r.
    destruct (Bool.eqb (Z.testbit w k) b) eqn:T; [|discriminate H]. apply eqb_prop. assumption.
  - cbn [nth_error] in E. replace (k + Z.of_nat (S j)) with (k + 1 + Z.of_nat j) by lia.
    apply (IH (k + 1) w j b); [|assumption]. cbn [matches_at] in H.
    destruct x as [c|]; [|assumption]. destruct (Bool.eqb (Z.testbit w k) c); [assumption|discriminate].
Qed.

Lemma hint_add_ok w : in_enc hint_add w = true -> field w 11 7 = 0.
Proof.
  intros H. unfold in_enc, hint_add, only in H. cbn [incl excl map existsb] in H.
  destruct (matches (pat "100 1 00000 ..... 10") w) eqn:M; [|discriminate H].
  assert (B : forall k, 7 <= k <= 11 -> Z.testbit w k = false).
  { intros k Hk. pose proof (fun j => matches_bit _ 0 w j false M) as K.
    assert (C : k = 7 \/ k = 8 \/ k = 9 \/ k = 10 \/ k = 11) by lia.
    destruct C as [->|[->|[->|[->| ->]]]];
      [exact (K 7%nat eq_refl)|exact (K 8%nat eq_refl)|exact (K 9%nat eq_refl)
      |exact (K 10%nat eq_refl)|exact (K 11%nat eq_refl)]. }
  apply Z.bits_inj'. intros n Hn. rewrite Z.bits_0, field_testbit by lia.
  destruct (Z.ltb_spec n (11 - 7 + 1)); [|apply andb_false_r].
  rewrite B by lia. reflexivity.
Qed.

Lemma c_complete p isa w r : platform_ok p -> is_u16 w -> In r table16 ->
  in_enc (r_man r isa) w = true -> (r_op r = OC C_ADD -> field w 11 7 <> 0) ->
  decode_u16 p w isa = Ret (Ok (reads r isa true w)).
Proof.
  intros Hp Hw Hr He Hc. apply row16; [assumption..|].
  destruct (OpcodeKind_dec (r_op r) (OC C_ADD)) as [E|N].
  - pose proof (man16_isa isa) as A. rewrite forallb_forall in A. specialize (A r Hr).
    pose proof (implies_ok _ _ w A) as K. cbn [sem] in K. rewrite !enc_sem, He in K.
    apply K. destruct (in_enc hint_add w) eqn:X; [|reflexivity].
    apply hint_add_ok in X. destruct (Hc E X).
  - pose proof (man16_isa' isa) as A. rewrite forallb_forall in A. specialize (A r Hr).
    cbv beta in A.
    assert (S : enc_sub (r_man r isa) (r_acc r isa) = true).
    { destruct (r_op r) as [| | |o| | | | | |]; try exact A. destruct o; try exact A.
      destruct (N eq_refl). }
    exact (enc_sub_ok _ _ w S He).
Qed.

(** ** Opcodes are distinct *)

Lemma dec2b_refl {A} (d : forall x y : A, {x = y} + {x <> y}) x : dec2b (d x x) = true.
Proof. destruct (d x x) as [|N]; [reflexivity|destruct (N eq_refl)]. Qed.

Definition nodup_ops (l : list OpcodeKind) : bool :=
  (fix go l := match l with
   | [] => true
   | x :: l' => if existsb (fun y => dec2b (OpcodeKind_dec x y)) l' then false else go l'
   end) l.

Lemma nodup_ops_ok l : nodup_ops l = true -> NoDup l.
Proof.
  induction l as [|x l IH]; intros H; [constructor|]. cbn in H.
  destruct (existsb (fun y => dec2b (OpcodeKind_dec x y)) l) eqn:E; [discriminate H|].
  constructor; [|apply IH; assumption]. intro I.
  assert (existsb (fun y => dec2b (OpcodeKind_dec x y)) l = true).
  { apply existsb_exists. exists x. split; [assumption|]. apply dec2b_refl. }
  congruence.
Qed.

Lemma ops_nodup : NoDup (map r_op (table32 ++ table16)).
Proof. apply nodup_ops_ok. vm_compute. reflexivity. Qed.

Lemma nodup_map_inj {A B} (f : A -> B) l x y : NoDup (map f l) -> In x l -> In y l ->
  f x = f y -> x = y.
Proof.
  induction l as [|a l IH]; intros H Hx Hy E; [destruct Hx|].
  cbn in H. inversion H as [|? ? N D]; subst.
  destruct Hx as [->|Hx], Hy as [->|Hy]; [reflexivity| | |auto].
  - exfalso. apply N. rewrite E. apply in_map. assumption.
  - exfalso. apply N. rewrite <- E. apply in_map. assumption.
Qed.

Lemma row_unique r r' : In r (table32 ++ table16) -> In r' (table32 ++ table16) ->
  r_op r = r_op r' -> r = r'.
Proof. apply nodup_map_inj. exact ops_nodup. Qed.

Lemma row_unique32 r r' : In r table32 -> In r' table32 -> r_op r = r_op r' -> r = r'.
Proof. intros. apply row_unique; auto using in_or_app. Qed.
Lemma row_unique16 r r' : In r table16 -> In r' table16 -> r_op r = r_op r' -> r = r'.
Proof. intros. apply row_unique; auto using in_or_app. Qed.

(** ** Leniency (C14, C15) *)

Definition find_enc (l : list (OpcodeKind * (Isa -> enc))) (op : OpcodeKind) (isa : Isa) : enc :=
  match find (fun x => dec2b (OpcodeKind_dec op (fst x))) l with
  | Some x => snd x isa
  | None => nothing
  end.

Lemma find_enc_in l op isa w : in_enc (find_enc l op isa) w = true -> lenient l isa op w.
Proof.
  unfold find_enc. destruct (find _ l) as [[o e]|] eqn:E; intros H.
  - apply find_some in E. destruct E as [Hin E]. cbn [fst snd] in *. apply dec2b_true in E.
    subst o. exists e. auto.
  - discriminate H.
Qed.

Lemma find_enc_out l op isa w : NoDup (map fst l) -> lenient l isa op w ->
  in_enc (find_enc l op isa) w = true.
Proof.
  intros N [e [Hin He]]. unfold find_enc. destruct (find _ l) as [[o e']|] eqn:E.
  - apply find_some in E. destruct E as [Hin' E]. cbn [fst snd] in *. apply dec2b_true in E.
    subst o. assert (X : (op, e) = (op, e')) by (apply (nodup_map_inj fst l); auto).
    injection X as <-. assumption.
  - apply (find_none _ _ E) in Hin. cbn [fst] in Hin.
    assert (dec2b (OpcodeKind_dec op op) = true) by apply dec2b_refl. congruence.
Qed.

Definition split_check (table : list row) (l : list (OpcodeKind * (Isa -> enc))) (isa : Isa) :=
  forallb (fun r =>
    let len := enc_form (find_enc l (r_op r) isa) in
    let man := enc_form (r_man r isa) in
    let acc := enc_form (r_acc r isa) in
    if implies acc (FOr man len) then implies len (FAnd acc (FNot man)) else false) table
  && forallb (fun x => existsb (fun r => dec2b (OpcodeKind_dec (fst x) (r_op r))) table) l
  && nodup_ops (map fst l).

Lemma lenient32_check isa : split_check table32 lenient32 isa = true.
Proof. destruct isa; vm_compute; reflexivity. Qed.
Lemma lenient16_check isa : split_check table16 lenient16 isa = true.
Proof. destruct isa; vm_compute; reflexivity. Qed.

Section Split.
Context (table : list row) (l : list (OpcodeKind * (Isa -> enc))) (isa : Isa).
Context (H : split_check table l isa = true).

Lemma split_row r w : In r table ->
  (in_enc (r_acc r isa) w = true -> in_enc (r_man r isa) w = true \/ lenient l isa (r_op r) w) /\
  (lenient l isa (r_op r) w -> in_enc (r_acc r isa) w = true /\ in_enc (r_man r isa) w = false).
Proof using H.
  intros Hr. unfold split_check in H. apply andb_true_iff in H. destruct H as [H1 H2].
  apply andb_true_iff in H1. destruct H1 as [H1 _].
  rewrite forallb_forall in H1. specialize (H1 r Hr). cbv zeta in H1.
  destruct (implies (enc_form (r_acc r isa)) _) eqn:A; [|discriminate H1].
  split.
  - intros E. rewrite <- enc_sem in E. pose proof (implies_ok _ _ w A E) as K. cbn [sem] in K.
    rewrite !enc_sem in K. apply orb_true_iff in K. destruct K as [K|K]; [left; assumption|].
    right. apply find_enc_in. assumption.
  - intros E. apply find_enc_out in E; [|apply nodup_ops_ok; assumption].
    rewrite <- enc_sem in E. pose proof (implies_ok _ _ w H1 E) as K. cbn [sem] in K.
    rewrite !enc_sem in K. apply andb_true_iff in K. destruct K as [K1 K2].
    split; [assumption|]. apply negb_true_iff. assumption.
Qed.

Lemma split_has op w : lenient l isa op w -> exists r, In r table /\ r_op r = op.
Proof using H.
  intros [e [Hin _]]. unfold split_check in H. apply andb_true_iff in H. destruct H as [H1 _].
  apply andb_true_iff in H1. destruct H1 as [_ H1]. rewrite forallb_forall in H1.
  specialize (H1 _ Hin). cbn [fst] in H1. apply existsb_exists in H1.
  destruct H1 as [r [Hr E]]. apply dec2b_true in E. exists r. auto.
Qed.
End Split.

(** An accepted word is legal or lenient, never both, and every lenient word is accepted. *)
Lemma soundness32 p isa w : platform_ok p -> is_u32 w ->
  (forall i, decode_u32 p w isa = Ret (Ok i) ->
     (legal32 isa (opc i) w \/ lenient lenient32 isa (opc i) w) /\
     ~ (legal32 isa (opc i) w /\ lenient lenient32 isa (opc i) w)) /\
  (forall op, lenient lenient32 isa op w ->
     exists i, decode_u32 p w isa = Ret (Ok i) /\ opc i = op).
Proof.
  intros Hp Hw. split.
  - intros i H. destruct (ok32 _ _ _ _ Hp Hw H) as [r [Hr [He ->]]].
    destruct (split_row _ _ _ (lenient32_check isa) r w Hr) as [S1 S2]. cbn [reads opc]. split.
    + destruct (S1 He) as [L|L]; [left; exists r|right]; auto.
    + intros [[r' [Hr' [E L]]] N]. apply row_unique32 in E; [|assumption..]. subst r'.
      destruct (S2 N). congruence.
  - intros op N. destruct (split_has _ _ _ (lenient32_check isa) op w N) as [r [Hr <-]].
    destruct (split_row _ _ _ (lenient32_check isa) r w Hr) as [_ S2]. destruct (S2 N) as [A _].
    exists (reads r isa false w). split; [apply row32; assumption|reflexivity].
Qed.

Lemma soundness16 p isa w : platform_ok p -> is_u16 w ->
  (forall i, decode_u16 p w isa = Ret (Ok i) ->
     (legal16 isa (opc i) w \/ lenient lenient16 isa (opc i) w) /\
     ~ (legal16 isa (opc i) w /\ lenient lenient16 isa (opc i) w)) /\
  (forall op, lenient lenient16 isa op w ->
     exists i, decode_u16 p w isa = Ret (Ok i) /\ opc i = op).
Proof.
  intros Hp Hw. split.
  - intros i H. destruct (ok16 _ _ _ _ Hp Hw H) as [r [Hr [He ->]]].
    destruct (split_row _ _ _ (lenient16_check isa) r w Hr) as [S1 S2]. cbn [reads opc]. split.
    + destruct (S1 He) as [L|L]; [left; exists r|right]; auto.
    + intros [[r' [Hr' [E L]]] N]. apply row_unique16 in E; [|assumption..]. subst r'.
      destruct (S2 N). congruence.
  - intros op N. destruct (split_has _ _ _ (lenient16_check isa) op w N) as [r [Hr <-]].
    destruct (split_row _ _ _ (lenient16_check isa) r w Hr) as [_ S2]. destruct (S2 N) as [A _].
    exists (reads r isa true w). split; [apply row16; assumption|reflexivity].
Qed.

(** ** Partition (C16) *)

Lemma partition32 isa w : is_u32 w ->
  (exists! r, In r table32 /\ in_enc (r_acc r isa) w = true) /\
     (forall e, In e errors32 -> in_enc (e_enc e isa) w = false) \/
  (forall r, In r table32 -> in_enc (r_acc r isa) w = false) /\
     (exists! e, In e errors32 /\ in_enc (e_enc e isa) w = true).
Proof.
  intros Hw.
  assert (R : forall x l, rows32 isa w = l -> (In x l <-> In x table32 /\ in_enc (r_acc x isa) w = true))
    by (intros x l <-; unfold rows32; apply filter_In).
  assert (E : forall x l, errs32 isa w = l -> (In x l <-> In x errors32 /\ in_enc (e_enc x isa) w = true))
    by (intros x l <-; unfold errs32; apply filter_In).
  destruct (parse_opcode_u32_exact p0 isa w Hw) as [[r [Hr [He _]]]|[e [Hr [He _]]]].
  - left. split.
    + exists r. split; [apply (R r _ Hr); left; reflexivity|].
      intros x Hx. apply (R x _ Hr) in Hx. destruct Hx as [Hx|[]]. assumption.
    + intros e Hin. destruct (in_enc (e_enc e isa) w) eqn:X; [|reflexivity].
      destruct (proj2 (E e _ He) (conj Hin X)).
  - right. split.
    + intros r Hin. destruct (in_enc (r_acc r isa) w) eqn:X; [|reflexivity].
      destruct (proj2 (R r _ Hr) (conj Hin X)).
    + exists e. split; [apply (E e _ He); left; reflexivity|].
      intros x Hx. apply (E x _ He) in Hx. destruct Hx as [Hx|[]]. assumption.
Qed.

Lemma partition16 isa w : is_u16 w ->
  (exists! r, In r table16 /\ in_enc (r_acc r isa) w = true) /\
     (forall e, In e errors16 -> in_enc (e_enc e isa) w = false) \/
  (forall r, In r table16 -> in_enc (r_acc r isa) w = false) /\
     (exists! e, In e errors16 /\ in_enc (e_enc e isa) w = true).
Proof.
  intros Hw.
  assert (R : forall x l, rows16 isa w = l -> (In x l <-> In x table16 /\ in_enc (r_acc x isa) w = true))
    by (intros x l <-; unfold rows16; apply filter_In).
  assert (E : forall x l, errs16 isa w = l -> (In x l <-> In x errors16 /\ in_enc (e_enc x isa) w = true))
    by (intros x l <-; unfold errs16; apply filter_In).
  destruct (sel16_exact p0 isa w Hw) as [[r [Hr [He _]]]|[e [Hr [He _]]]].
  - left. split.
    + exists r. split; [apply (R r _ Hr); left; reflexivity|].
      intros x Hx. apply (R x _ Hr) in Hx. destruct Hx as [Hx|[]]. assumption.
    + intros e Hin. destruct (in_enc (e_enc e isa) w) eqn:X; [|reflexivity].
      destruct (proj2 (E e _ He) (conj Hin X)).
  - right. split.
    + intros r Hin. destruct (in_enc (r_acc r isa) w) eqn:X; [|reflexivity].
      destruct (proj2 (R r _ Hr) (conj Hin X)).
    + exists e. split; [apply (E e _ He); left; reflexivity|].
      intros x Hx. apply (E x _ He) in Hx. destruct Hx as [Hx|[]]. assumption.
Qed.

(** ** Exact acceptance and errors (C12, C13, C23, C24) *)

Lemma accept32 p isa w i : platform_ok p -> is_u32 w ->
  (decode_u32 p w isa = Ret (Ok i) <->
   exists r, In r table32 /\ in_enc (r_acc r isa) w = true /\ i = reads r isa false w).
Proof.
  intros Hp Hw. split; [apply ok32; assumption|].
  intros [r [Hr [He ->]]]. apply row32; assumption.
Qed.
Lemma accept16 p isa w i : platform_ok p -> is_u16 w ->
  (decode_u16 p w isa = Ret (Ok i) <->
   exists r, In r table16 /\ in_enc (r_acc r isa) w = true /\ i = reads r isa true w).
Proof.
  intros Hp Hw. split; [apply ok16; assumption|].
  intros [r [Hr [He ->]]]. apply row16; assumption.
Qed.
Lemma reject32 p isa w e : platform_ok p -> is_u32 w ->
  (decode_u32 p w isa = Ret (Err e) <->
   exists r, In r errors32 /\ in_enc (e_enc r isa) w = true /\ e = e_err r).
Proof.
  intros Hp Hw. split; [apply bad32; assumption|].
  intros [r [Hr [He ->]]]. apply err32; assumption.
Qed.
Lemma reject16 p isa w e : platform_ok p -> is_u16 w ->
  (decode_u16 p w isa = Ret (Err e) <->
   exists r, In r errors16 /\ in_enc (e_enc r isa) w = true /\ e = e_err r).
Proof.
  intros Hp Hw. split; [apply bad16; assumption|].
  intros [r [Hr [He ->]]]. apply err16; assumption.
Qed.

(** ** RV64 gating (C21) *)

Definition mem_op (op : OpcodeKind) (l : list OpcodeKind) : bool :=
  existsb (fun y => dec2b (OpcodeKind_dec op y)) l.
Lemma mem_op_ok op l : mem_op op l = true <-> In op l.
Proof.
  unfold mem_op. rewrite existsb_exists. split.
  - intros [x [Hx E]]. apply dec2b_true in E. subst. assumption.
  - intros H. exists op. split; [assumption|]. apply dec2b_refl.
Qed.

Definition some_row (rs : list row) (isa : Isa) : form :=
  fold_right (fun r f => FOr (enc_form (r_acc r isa)) f) FFalse rs.
Lemma some_row_ok rs isa w : sem (some_row rs isa) 0 w = true ->
  exists r, In r rs /\ in_enc (r_acc r isa) w = true.
Proof.
  induction rs as [|r rs IH]; intros H; [discriminate H|]. cbn [some_row fold_right sem] in H.
  apply orb_true_iff in H. destruct H as [H|H].
  - rewrite enc_sem in H. exists r. split; [left; reflexivity|assumption].
  - destruct (IH H) as [x [Hx E]]. exists x. split; [right; assumption|assumption].
Qed.

Definition some_err (es : list error_row) (isa : Isa) : form :=
  fold_right (fun r f => FOr (enc_form (e_enc r isa)) f) FFalse es.
Lemma some_err_ok es isa w : sem (some_err es isa) 0 w = true ->
  exists e, In e es /\ in_enc (e_enc e isa) w = true.
Proof.
  induction es as [|r es IH]; intros H; [discriminate H|]. cbn [some_err fold_right sem] in H.
  apply orb_true_iff in H. destruct H as [H|H].
  - rewrite enc_sem in H. exists r. split; [left; reflexivity|assumption].
  - destruct (IH H) as [x [Hx E]]. exists x. split; [right; assumption|assumption].
Qed.

Definition is_err (d : DecodingError) (e : error_row) : bool :=
  dec2b (DecodingError_dec (e_err e) d).

(** Opcodes the crate accepts on Rv64 only. *)

Lemma gate32_fwd :
  forallb (fun e => implies (enc_form (e_enc e Rv32))
                            (some_row (filter (fun r => mem_op (r_op r) gated32) table32) Rv64))
          (filter (is_err OnlyRv64Inst) errors32) = true.
Proof. vm_compute. reflexivity. Qed.
Lemma gate32_bwd :
  forallb (fun r => implies (enc_form (r_acc r Rv64))
                            (some_err (filter (is_err OnlyRv64Inst) errors32) Rv32))
          (filter (fun r => mem_op (r_op r) gated32) table32) = true.
Proof. vm_compute. reflexivity. Qed.
Lemma gate32_none64 :
  forallb (fun e => implies (enc_form (e_enc e Rv64)) FFalse)
          (filter (is_err OnlyRv64Inst) errors32) = true.
Proof. vm_compute. reflexivity. Qed.

Lemma gate16_fwd :
  forallb (fun e => implies (enc_form (e_enc e Rv32))
                            (some_row (filter (fun r => mem_op (r_op r) rv64_c) table16) Rv64))
          (filter (is_err OnlyRv64Inst) errors16) = true.
Proof. vm_compute. reflexivity. Qed.
Lemma gate16_bwd :
  forallb (fun r => implies (enc_form (r_acc r Rv64))
                            (some_err (filter (is_err OnlyRv64Inst) errors16) Rv32))
          (filter (fun r => mem_op (r_op r) (remove OpcodeKind_dec (OC C_ADDIW) rv64_c)) table16)
  = true.
Proof. vm_compute. reflexivity. Qed.
Lemma gate16_none64 :
  forallb (fun e => implies (enc_form (e_enc e Rv64)) FFalse)
          (filter (is_err OnlyRv64Inst) errors16) = true.
Proof. vm_compute. reflexivity. Qed.

Lemma only_rv64_32 p isa w : platform_ok p -> is_u32 w ->
  (decode_u32 p w isa = Ret (Err OnlyRv64Inst) <->
   isa = Rv32 /\ exists i, decode_u32 p w Rv64 = Ret (Ok i) /\ In (opc i) gated32).
Proof.
  intros Hp Hw. split.
  - intros H. destruct (bad32 _ _ _ _ Hp Hw H) as [e [Hin [He E]]].
    assert (Hf : In e (filter (is_err OnlyRv64Inst) errors32)).
    { apply filter_In. split; [assumption|]. unfold is_err. rewrite <- E. apply dec2b_refl. }
    destruct isa.
    + split; [reflexivity|]. pose proof gate32_fwd as G. rewrite forallb_forall in G.
      specialize (G e Hf). rewrite <- enc_sem in He.
      pose proof (some_row_ok _ _ _ (implies_ok _ _ w G He)) as [r [Hr Ha]].
      apply filter_In in Hr. destruct Hr as [Hr Hm]. apply mem_op_ok in Hm.
      exists (reads r Rv64 false w). split; [apply row32; assumption|assumption].
    + exfalso. pose proof gate32_none64 as G. rewrite forallb_forall in G.
      specialize (G e Hf). rewrite <- enc_sem in He.
      pose proof (implies_ok _ _ w G He) as K. discriminate K.
  - intros [-> [i [H Hm]]]. destruct (ok32 _ _ _ _ Hp Hw H) as [r [Hr [He ->]]].
    cbn [reads opc] in Hm. apply mem_op_ok in Hm.
    pose proof gate32_bwd as G. rewrite forallb_forall in G.
    specialize (G r (proj2 (filter_In _ _ _) (conj Hr Hm))). rewrite <- enc_sem in He.
    pose proof (some_err_ok _ _ _ (implies_ok _ _ w G He)) as [e [Hin Hx]].
    apply filter_In in Hin. destruct Hin as [Hin E]. apply dec2b_true in E. rewrite <- E.
    apply err32; assumption.
Qed.

Lemma only_rv64_16 p isa w : platform_ok p -> is_u16 w ->
  (decode_u16 p w isa = Ret (Err OnlyRv64Inst) <->
   isa = Rv32 /\ exists i, decode_u16 p w Rv64 = Ret (Ok i) /\
                           In (opc i) rv64_c /\ opc i <> OC C_ADDIW).
Proof.
  intros Hp Hw. split.
  - intros H. destruct (bad16 _ _ _ _ Hp Hw H) as [e [Hin [He E]]].
    assert (Hf : In e (filter (is_err OnlyRv64Inst) errors16)).
    { apply filter_In. split; [assumption|]. unfold is_err. rewrite <- E. apply dec2b_refl. }
    destruct isa.
    + split; [reflexivity|]. pose proof gate16_fwd as G. rewrite forallb_forall in G.
      specialize (G e Hf). pose proof He as He'. rewrite <- enc_sem in He.
      pose proof (some_row_ok _ _ _ (implies_ok _ _ w G He)) as [r [Hr Ha]].
      apply filter_In in Hr. destruct Hr as [Hr Hm]. apply mem_op_ok in Hm.
      exists (reads r Rv64 true w). split; [apply row16; assumption|]. split; [assumption|].
      intros N.
      (* a c.addiw half-word is a c.jal on Rv32 *)
      assert (D : enc_disj (r_acc r Rv64) (e_enc e Rv32) = true).
      { assert (A : forallb (fun e => forallb (fun r =>
                     match r_op r with OC C_ADDIW => enc_disj (r_acc r Rv64) (e_enc e Rv32)
                     | _ => true end) table16) (filter (is_err OnlyRv64Inst) errors16) = true)
          by (vm_compute; reflexivity).
        rewrite forallb_forall in A. specialize (A e Hf). rewrite forallb_forall in A.
        specialize (A r Hr). cbn [reads opc] in N. rewrite N in A. exact A. }
      pose proof (enc_disj_ok _ _ w D Ha). congruence.
    + exfalso. pose proof gate16_none64 as G. rewrite forallb_forall in G.
      specialize (G e Hf). rewrite <- enc_sem in He.
      pose proof (implies_ok _ _ w G He) as K. discriminate K.
  - intros [-> [i [H [Hm N]]]]. destruct (ok16 _ _ _ _ Hp Hw H) as [r [Hr [He ->]]].
    cbn [reads opc] in *.
    assert (Hm' : mem_op (r_op r) (remove OpcodeKind_dec (OC C_ADDIW) rv64_c) = true).
    { apply mem_op_ok. apply in_in_remove; assumption. }
    pose proof gate16_bwd as G. rewrite forallb_forall in G.
    specialize (G r (proj2 (filter_In _ _ _) (conj Hr Hm'))). rewrite <- enc_sem in He.
    pose proof (some_err_ok _ _ _ (implies_ok _ _ w G He)) as [e [Hin Hx]].
    apply filter_In in Hin. destruct Hin as [Hin E]. apply dec2b_true in E. rewrite <- E.
    apply err16; assumption.
Qed.

(** No opcode of [l] is accepted on [isa]. *)
Lemma never_check32 :
  forallb (fun r => implies (enc_form (r_acc r Rv32)) FFalse)
          (filter (fun r => mem_op (r_op r) gated32) table32) = true.
Proof. vm_compute. reflexivity. Qed.
Lemma never_check16 :
  forallb (fun r => implies (enc_form (r_acc r Rv32)) FFalse)
          (filter (fun r => mem_op (r_op r) rv64_c) table16) = true.
Proof. vm_compute. reflexivity. Qed.
Lemma never_check16' :
  forallb (fun r => implies (enc_form (r_acc r Rv64)) FFalse)
          (filter (fun r => mem_op (r_op r) rv32_c) table16) = true.
Proof. vm_compute. reflexivity. Qed.

Lemma never32 p w i : platform_ok p -> is_u32 w -> decode_u32 p w Rv32 = Ret (Ok i) ->
  ~ In (opc i) gated32.
Proof.
  intros Hp Hw H Hm. destruct (ok32 _ _ _ _ Hp Hw H) as [r [Hr [He ->]]].
  cbn [reads opc] in Hm. apply mem_op_ok in Hm.
  pose proof never_check32 as G. rewrite forallb_forall in G.
  specialize (G r (proj2 (filter_In _ _ _) (conj Hr Hm))). rewrite <- enc_sem in He.
  pose proof (implies_ok _ _ w G He) as K. discriminate K.
Qed.
Lemma never16 p w i : platform_ok p -> is_u16 w -> decode_u16 p w Rv32 = Ret (Ok i) ->
  ~ In (opc i) rv64_c.
Proof.
  intros Hp Hw H Hm. destruct (ok16 _ _ _ _ Hp Hw H) as [r [Hr [He ->]]].
  cbn [reads opc] in Hm. apply mem_op_ok in Hm.
  pose proof never_check16 as G. rewrite forallb_forall in G.
  specialize (G r (proj2 (filter_In _ _ _) (conj Hr Hm))). rewrite <- enc_sem in He.
  pose proof (implies_ok _ _ w G He) as K. discriminate K.
Qed.
Lemma never16' p w i : platform_ok p -> is_u16 w -> decode_u16 p w Rv64 = Ret (Ok i) ->
  ~ In (opc i) rv32_c.
Proof.
  intros Hp Hw H Hm. destruct (ok16 _ _ _ _ Hp Hw H) as [r [Hr [He ->]]].
  cbn [reads opc] in Hm. apply mem_op_ok in Hm.
  pose proof never_check16' as G. rewrite forallb_forall in G.
  specialize (G r (proj2 (filter_In _ _ _) (conj Hr Hm))). rewrite <- enc_sem in He.
  pose proof (implies_ok _ _ w G He) as K. discriminate K.
Qed.
