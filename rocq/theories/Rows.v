(** Consequences of the exact characterisations, row by row. *)
From Coq Require Import ZArith List Bool Lia String.
From Verif Require Import Rust Types DecodeUtil Dec32 Dec16 Decode Spec Util Plat Exact32 Exact16
  Pat SpecOps.
Import ListNotations.
Local Open Scope list_scope.
Local Open Scope Z_scope.

(** ** Both directions for rows and error rows *)

Lemma row32 p isa w r : platform_ok p -> is_u32 w -> In r table32 ->
  in_enc (r_acc r isa) w = true -> decode_u32 p w isa = Ret (Ok (reads r isa false w)).
Proof.
  intros Hp Hw Hr He.
  assert (Hi : In r (rows32 isa w)) by (unfold rows32; apply filter_In; auto).
  destruct (decode_u32_exact p isa w Hp Hw) as [[x [Hx [_ H]]]|[e [Hx _]]]; rewrite Hx in Hi.
  - destruct Hi as [->|[]]. exact H.
  - destruct Hi.
Qed.

Lemma err32 p isa w e : platform_ok p -> is_u32 w -> In e errors32 ->
  in_enc (e_enc e isa) w = true -> decode_u32 p w isa = Ret (Err (e_err e)).
Proof.
  intros Hp Hw Hr He.
  assert (Hi : In e (errs32 isa w)) by (unfold errs32; apply filter_In; auto).
  destruct (decode_u32_exact p isa w Hp Hw) as [[x [_ [Hx _]]]|[x [_ [Hx H]]]]; rewrite Hx in Hi.
  - destruct Hi.
  - destruct Hi as [->|[]]. exact H.
Qed.

Lemma ok32 p isa w i : platform_ok p -> is_u32 w -> decode_u32 p w isa = Ret (Ok i) ->
  exists r, In r table32 /\ in_enc (r_acc r isa) w = true /\ i = reads r isa false w.
Proof.
  intros Hp Hw H. destruct (decode_u32_exact p isa w Hp Hw) as [[x [Hx [_ E]]]|[x [_ [Hx E]]]].
  - rewrite E in H. exists x. assert (Hi : In x (rows32 isa w)) by (rewrite Hx; left; reflexivity).
    apply rows32_in in Hi. destruct Hi. split; [assumption|]. split; [assumption|].
    congruence.
  - rewrite E in H. discriminate H.
Qed.

Lemma bad32 p isa w e : platform_ok p -> is_u32 w -> decode_u32 p w isa = Ret (Err e) ->
  exists r, In r errors32 /\ in_enc (e_enc r isa) w = true /\ e = e_err r.
Proof.
  intros Hp Hw H. destruct (decode_u32_exact p isa w Hp Hw) as [[x [Hx [_ E]]]|[x [_ [Hx E]]]].
  - rewrite E in H. discriminate H.
  - rewrite E in H. exists x. assert (Hi : In x (errs32 isa w)) by (rewrite Hx; left; reflexivity).
    apply errs32_in in Hi. destruct Hi. split; [assumption|]. split; [assumption|].
    congruence.
Qed.

Lemma row16 p isa w r : platform_ok p -> is_u16 w -> In r table16 ->
  in_enc (r_acc r isa) w = true -> decode_u16 p w isa = Ret (Ok (reads r isa true w)).
Proof.
  intros Hp Hw Hr He.
  assert (Hi : In r (rows16 isa w)) by (unfold rows16; apply filter_In; auto).
  destruct (decode_u16_exact p isa w Hp Hw) as [[x [Hx [_ H]]]|[e [Hx _]]]; rewrite Hx in Hi.
  - destruct Hi as [->|[]]. exact H.
  - destruct Hi.
Qed.

Lemma err16 p isa w e : platform_ok p -> is_u16 w -> In e errors16 ->
  in_enc (e_enc e isa) w = true -> decode_u16 p w isa = Ret (Err (e_err e)).
Proof.
  intros Hp Hw Hr He.
  assert (Hi : In e (errs16 isa w)) by (unfold errs16; apply filter_In; auto).
  destruct (decode_u16_exact p isa w Hp Hw) as [[x [_ [Hx _]]]|[x [_ [Hx H]]]]; rewrite Hx in Hi.
  - destruct Hi.
  - destruct Hi as [->|[]]. exact H.
Qed.

Lemma ok16 p isa w i : platform_ok p -> is_u16 w -> decode_u16 p w isa = Ret (Ok i) ->
  exists r, In r table16 /\ in_enc (r_acc r isa) w = true /\ i = reads r isa true w.
Proof.
  intros Hp Hw H. destruct (decode_u16_exact p isa w Hp Hw) as [[x [Hx [_ E]]]|[x [_ [Hx E]]]].
  - rewrite E in H. exists x. assert (Hi : In x (rows16 isa w)) by (rewrite Hx; left; reflexivity).
    apply rows16_in in Hi. destruct Hi. split; [assumption|]. split; [assumption|].
    congruence.
  - rewrite E in H. discriminate H.
Qed.

Lemma bad16 p isa w e : platform_ok p -> is_u16 w -> decode_u16 p w isa = Ret (Err e) ->
  exists r, In r errors16 /\ in_enc (e_enc r isa) w = true /\ e = e_err r.
Proof.
  intros Hp Hw H. destruct (decode_u16_exact p isa w Hp Hw) as [[x [Hx [_ E]]]|[x [_ [Hx E]]]].
  - rewrite E in H. discriminate H.
  - rewrite E in H. exists x. assert (Hi : In x (errs16 isa w)) by (rewrite Hx; left; reflexivity).
    apply errs16_in in Hi. destruct Hi. split; [assumption|]. split; [assumption|].
    congruence.
Qed.

(** ** Totality and platform independence (C01-C03) *)

Lemma total32 p isa w : platform_ok p -> is_u32 w -> exists r, decode_u32 p w isa = Ret r.
Proof.
  intros Hp Hw. destruct (decode_u32_exact p isa w Hp Hw) as [[r [_ [_ H]]]|[e [_ [_ H]]]]; eauto.
Qed.
Lemma total16 p isa w : platform_ok p -> is_u16 w -> exists r, decode_u16 p w isa = Ret r.
Proof.
  intros Hp Hw. destruct (decode_u16_exact p isa w Hp Hw) as [[r [_ [_ H]]]|[e [_ [_ H]]]]; eauto.
Qed.

Lemma plat32 p q isa w : platform_ok p -> platform_ok q -> is_u32 w ->
  decode_u32 p w isa = decode_u32 q w isa.
Proof.
  intros Hp Hq Hw. destruct (decode_u32_exact p isa w Hp Hw) as [[r [Hr [_ H]]]|[e [Hr [He H]]]];
    destruct (decode_u32_exact q isa w Hq Hw) as [[r' [Hr' [_ H']]]|[e' [Hr' [He' H']]]];
    rewrite H, H'; congruence.
Qed.
Lemma plat16 p q isa w : platform_ok p -> platform_ok q -> is_u16 w ->
  decode_u16 p w isa = decode_u16 q w isa.
Proof.
  intros Hp Hq Hw. destruct (decode_u16_exact p isa w Hp Hw) as [[r [Hr [_ H]]]|[e [Hr [He H]]]];
    destruct (decode_u16_exact q isa w Hq Hw) as [[r' [Hr' [_ H']]]|[e' [Hr' [He' H']]]];
    rewrite H, H'; congruence.
Qed.

(** ** Length bits (C04) *)

Definition low2 : enc := only ["11"%string].

Lemma low2_ok w : in_enc low2 w = (w mod 4 =? 3).
Proof.
  unfold in_enc, low2, only, matches. cbn [incl excl map existsb].
  change (pat "11") with [Some true; Some true]. cbn [matches_at negb].
  change 4 with (2 ^ 2). rewrite <- Z.land_ones by lia.
  assert (E : Z.land w (Z.ones 2) = Z.b2z (Z.testbit w 0) + 2 * Z.b2z (Z.testbit w 1)).
  { rewrite Z.land_ones by lia. rewrite (Z.div_mod w 2) at 1 by lia.
    rewrite !Z.testbit_spec' by lia. change (2 ^ 0) with 1. change (2 ^ 1) with 2.
    change (2 ^ 2) with 4. rewrite Z.div_1_r. Z.div_mod_to_equations. lia. }
  rewrite E. change (0 + 1) with 1. destruct (Z.testbit w 0), (Z.testbit w 1); reflexivity.
Qed.

Lemma all_low2_32 isa : forallb (fun r => enc_sub (r_acc r isa) low2) table32 = true.
Proof. destruct isa; vm_compute; reflexivity. Qed.
Lemma none_low2_16 isa : forallb (fun r => enc_disj (r_acc r isa) low2) table16 = true.
Proof. destruct isa; vm_compute; reflexivity. Qed.

Lemma length32 p isa w i : platform_ok p -> is_u32 w -> decode_u32 p w isa = Ret (Ok i) ->
  w mod 4 = 3.
Proof.
  intros Hp Hw H. destruct (ok32 _ _ _ _ Hp Hw H) as [r [Hr [He _]]].
  pose proof (all_low2_32 isa) as A. rewrite forallb_forall in A. specialize (A r Hr).
  pose proof (enc_sub_ok _ _ w A He) as K. rewrite low2_ok in K. lia.
Qed.
Lemma length16 p isa w i : platform_ok p -> is_u16 w -> decode_u16 p w isa = Ret (Ok i) ->
  w mod 4 <> 3.
Proof.
  intros Hp Hw H. destruct (ok16 _ _ _ _ Hp Hw H) as [r [Hr [He _]]].
  pose proof (none_low2_16 isa) as A. rewrite forallb_forall in A. specialize (A r Hr).
  pose proof (enc_disj_ok _ _ w A He) as K. rewrite low2_ok in K. lia.
Qed.
Lemma one_width p q isa isa' w i j : platform_ok p -> platform_ok q -> is_u32 w ->
  decode_u32 p w isa = Ret (Ok i) -> decode_u16 q (w mod 2 ^ 16) isa' = Ret (Ok j) -> False.
Proof.
  intros Hp Hq Hw H1 H2. apply (length32 p isa w i Hp Hw) in H1.
  apply (length16 q isa' (w mod 2 ^ 16) j Hq) in H2.
  - apply H2. change (2 ^ 16) with (4 * 16384). rewrite Z.rem_mul_r by lia.
    rewrite (Z.mul_comm 4), Z.mod_add by lia. rewrite Z.mod_mod by lia. assumption.
  - unfold is_u16. apply Z.mod_pos_bound. reflexivity.
Qed.

(** ** Manual encodings that are accepted (C05-C11) *)

Lemma man32_isa isa :
  forallb (fun r => enc_sub (r_man r isa) (r_acc r isa))
    (base_i ++ m_ext ++ a_ext ++ zicntr_ext ++ zifencei_ext ++ zicboz_ext ++ zicfiss_ext
     ++ priv_ext) = true.
Proof. destruct isa; vm_compute; reflexivity. Qed.

Lemma man32 p isa w r : platform_ok p -> is_u32 w ->
  In r (base_i ++ m_ext ++ a_ext ++ zicntr_ext ++ zifencei_ext ++ zicboz_ext ++ zicfiss_ext
        ++ priv_ext) ->
  in_enc (r_man r isa) w = true -> decode_u32 p w isa = Ret (Ok (reads r isa false w)).
Proof.
  intros Hp Hw Hr He. apply row32; [assumption..| |].
  - unfold table32. rewrite !in_app_iff in *. tauto.
  - pose proof (man32_isa isa) as A. rewrite forallb_forall in A.
    exact (enc_sub_ok _ _ w (A r Hr) He).
Qed.

Ltac man32_sub := intros; apply man32; [assumption..| |assumption]; rewrite !in_app_iff; tauto.
Lemma base_i_complete p isa w r : platform_ok p -> is_u32 w -> In r base_i ->
  in_enc (r_man r isa) w = true -> decode_u32 p w isa = Ret (Ok (reads r isa false w)).
Proof. man32_sub. Qed.
Lemma m_complete p isa w r : platform_ok p -> is_u32 w -> In r m_ext ->
  in_enc (r_man r isa) w = true -> decode_u32 p w isa = Ret (Ok (reads r isa false w)).
Proof. man32_sub. Qed.
Lemma a_complete p isa w r : platform_ok p -> is_u32 w -> In r a_ext ->
  in_enc (r_man r isa) w = true -> decode_u32 p w isa = Ret (Ok (reads r isa false w)).
Proof. man32_sub. Qed.
Lemma zicntr_complete p isa w r : platform_ok p -> is_u32 w -> In r zicntr_ext ->
  in_enc (r_man r isa) w = true -> decode_u32 p w isa = Ret (Ok (reads r isa false w)).
Proof. man32_sub. Qed.
Lemma fence_complete p isa w r : platform_ok p -> is_u32 w -> In r zifencei_ext ->
  in_enc (r_man r isa) w = true -> decode_u32 p w isa = Ret (Ok (reads r isa false w)).
Proof. man32_sub. Qed.
Lemma other_complete p isa w r : platform_ok p -> is_u32 w ->
  In r (zicfiss_ext ++ zicboz_ext ++ priv_ext) ->
  in_enc (r_man r isa) w = true -> decode_u32 p w isa = Ret (Ok (reads r isa false w)).
Proof. intros; apply man32; [assumption..| |assumption]; rewrite !in_app_iff in *; tauto. Qed.

(** Zicsr: complete away from the counters. *)
Definition counters_any : enc :=
  only ["1100.00 00000 ..... ... ..... ......."; "1100.00 00001 ..... ... ..... .......";
        "1100.00 00010 ..... ... ..... ......."]%string.

Lemma zicsr_isa isa :
  forallb (fun r => implies (FAnd (enc_form (r_man r isa)) (FNot (enc_form counters_any)))
                            (enc_form (r_acc r isa))) zicsr_ext = true.
Proof. destruct isa; vm_compute; reflexivity. Qed.
Lemma zicsr_isa' isa :
  forallb (fun r => match r_op r with OZicsr Csr_CSRRS => true
                    | _ => enc_sub (r_man r isa) (r_acc r isa) end) zicsr_ext = true.
Proof. destruct isa; vm_compute; reflexivity. Qed.

Lemma matches_csr (s : list (option bool)) w : List.length s = 12%nat ->
  matches (repeat None 20 ++ s) w = matches s (field w 31 20).
Proof.
  intros L. unfold matches. cbn [repeat app matches_at].
  change (0 + 1 + 1 + 1 + 1 + 1 + 1 + 1 + 1 + 1 + 1 + 1 + 1 + 1 + 1 + 1 + 1 + 1 + 1 + 1 + 1) with 20.
  apply CanonSpec.matches_at_field; rewrite ?L; lia.
Qed.

Lemma counters_check :
  allw 12 0 (fun v =>
    Bool.eqb (if matches (skipn 20 (pat "1100.00 00000 ..... ... ..... .......")) v then true
              else if matches (skipn 20 (pat "1100.00 00001 ..... ... ..... .......")) v then true
              else matches (skipn 20 (pat "1100.00 00010 ..... ... ..... .......")) v)
             (existsb (Z.eqb v) counter_csrs)) = true.
Proof. vm_compute. reflexivity. Qed.

Lemma counters_any_ok w : in_enc counters_any w = existsb (Z.eqb (field w 31 20)) counter_csrs.
Proof.
  pose proof (allw_spec 12 0 _ counters_check (field w 31 20)
                ltac:(pose proof (field_bound w 31 20 12 ltac:(lia) ltac:(lia)); simpl Z.of_nat; lia))
    as E. cbv beta in E. apply eqb_prop in E. rewrite <- E. clear E.
  unfold in_enc, counters_any, only. cbn [incl excl map existsb negb].
  rewrite <- !(matches_csr _ w) by reflexivity.
  change (repeat None 20 ++ skipn 20 (pat "1100.00 00000 ..... ... ..... ......."))
    with (pat "1100.00 00000 ..... ... ..... .......").
  change (repeat None 20 ++ skipn 20 (pat "1100.00 00001 ..... ... ..... ......."))
    with (pat "1100.00 00001 ..... ... ..... .......").
  change (repeat None 20 ++ skipn 20 (pat "1100.00 00010 ..... ... ..... ......."))
    with (pat "1100.00 00010 ..... ... ..... .......").
  destruct (matches (pat "1100.00 00000 ..... ... ..... .......") w),
    (matches (pat "1100.00 00001 ..... ... ..... .......") w),
    (matches (pat "1100.00 00010 ..... ... ..... .......") w); reflexivity.
Qed.

Lemma zicsr_complete p isa w r : platform_ok p -> is_u32 w -> In r zicsr_ext ->
  in_enc (r_man r isa) w = true ->
  (r_op r = OZicsr Csr_CSRRS -> ~ In (field w 31 20) counter_csrs) ->
  decode_u32 p w isa = Ret (Ok (reads r isa false w)).
Proof.
  intros Hp Hw Hr He Hc. apply row32; [assumption..| |].
  - unfold table32. rewrite !in_app_iff in *. tauto.
  - destruct (OpcodeKind_dec (r_op r) (OZicsr Csr_CSRRS)) as [E|N].
    + pose proof (zicsr_isa isa) as A. rewrite forallb_forall in A. specialize (A r Hr).
      pose proof (implies_ok _ _ w A) as K. cbn [sem] in K. rewrite !enc_sem, He in K.
      apply K. rewrite counters_any_ok.
      destruct (existsb (Z.eqb (field w 31 20)) counter_csrs) eqn:X; [|reflexivity].
      apply CanonBase.existsb_eqb in X. destruct (Hc E X).
    + pose proof (zicsr_isa' isa) as A. rewrite forallb_forall in A. specialize (A r Hr).
      cbv beta in A.
      assert (S : enc_sub (r_man r isa) (r_acc r isa) = true).
      { destruct (r_op r) as [| | | | | |o| | |]; try exact A. destruct o; try exact A.
        destruct (N eq_refl). }
      exact (enc_sub_ok _ _ w S He).
Qed.
