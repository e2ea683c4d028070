(** The tests come to the tested branches and no others; see PropsTested.v. *)
From Coq Require Import ZArith List Bool String Lia.
From Verif Require Import Rust Spec SrcAst SrcNames SrcLink SrcSem SrcProg SpecNames SpecMeaning SpecReach SpecTested SrcMeant
  SrcTrap SrcTrap2 SrcReach SrcReached.
Import ListNotations.
Local Open Scope string_scope.

(** ** A test for each *)

Definition t0 := "decode::a_extension::test_a::a_decode_test".
Definition t1 := "decode::base_i::test_basei::basei_decode_test".
Definition t2 := "decode::m_extension::test_m::m_decode_test".
Definition t3 := "decode::zifencei_extension::test_zifenci::zifenci_decode_test".
Definition t4 := "decode::zicsr_extension::test_zicsr::zicsr_decode_test".
Definition t5 := "decode::zicfiss_extension::test_zicfiss::zicfiss_32bit_decode_test".
Definition t6 := "decode::zicntr_extension::test_zicntr::zicntr_decode_test".
Definition t7 := "decode::zicboz_extension::test_zicboz::zicboz_decode_test".
Definition t8 := "decode::priv_extension::test_priv::priv_decode_test".
Definition t9 := "tests::usize_try_from_test".
Definition t10 := "decode::c_extension::test_c::c_decode_test".
Definition t11 := "decode::zicfiss_extension::test_zicfiss::zicfiss_16".
Definition by_test : list (string * list (nat * string)) :=
  [
    ("decode::only_rv64", [
       (0, t0); (2, t0)]);
    ("u32.parse_opcode", [
       (0, t0); (1, t1); (2, t2); (3, t0); (4, t3); (5, t4); (6, t5); (7, t6); (8, t7); (9, t8)]);
    ("u32.parse_rd", [
       (0, t0); (1, t1); (2, t2); (3, t0); (4, t3); (5, t4); (6, t5); (7, t6); (8, t7); (9, t8)]);
    ("u32.parse_rs1", [
       (0, t0); (1, t1); (2, t2); (3, t0); (4, t3); (5, t4); (6, t5); (7, t6); (8, t7); (9, t8)]);
    ("u32.parse_rs2", [
       (0, t0); (1, t1); (2, t2); (3, t0); (4, t3); (5, t4); (6, t5); (7, t6); (8, t7); (9, t8)]);
    ("u32.parse_imm", [
       (0, t0); (1, t1); (2, t2); (3, t0); (4, t3); (5, t4); (6, t5); (7, t6); (8, t7); (9, t8)]);
    ("u32.slice", [
       (0, t0)]);
    ("u32.parse_extension", [
       (0, t0); (1, t7); (2, t3); (3, t7); (5, t0); (6, t0); (7, t5); (9, t1); (10, t2); (11, t1); (16, t1);
       (17, t1); (18, t1); (19, t8); (20, t6); (21, t6); (22, t4); (23, t5); (24, t4); (25, t1)]);
    ("decode::a_extension::bit_32::parse_opcode", [
       (0, t0); (1, t0); (2, t0); (6, t0); (15, t0); (16, t0); (21, t0)]);
    ("decode::a_extension::bit_32::parse_rd", [
       (0, t0); (1, t0)]);
    ("decode::a_extension::bit_32::parse_rs1", [
       (0, t0); (1, t0)]);
    ("decode::a_extension::bit_32::parse_rs2", [
       (0, t0); (1, t0); (2, t0)]);
    ("decode::a_extension::bit_32::parse_imm", [
       (0, t0); (1, t0); (2, t0)]);
    ("u32.set", [
       (0, t1); (1, t1)]);
    ("u32.to_signed_nbit", [
       (0, t1); (1, t1); (2, t1)]);
    ("decode::base_i::bit_32::parse_opcode", [
       (0, t1); (1, t1); (2, t1); (3, t1); (5, t1); (6, t1); (8, t1); (10, t1); (13, t1); (17, t1); (22, t1);
       (23, t1); (28, t1); (29, t1); (39, t1); (52, t1); (53, t1); (55, t1); (59, t1); (68, t1); (69, t1); (70,
       t1); (71, t1); (95, t9)]);
    ("decode::base_i::bit_32::parse_rd", [
       (0, t1); (1, t1); (2, t1)]);
    ("decode::base_i::bit_32::parse_rs1", [
       (0, t1); (1, t1); (2, t1)]);
    ("decode::base_i::bit_32::parse_rs2", [
       (0, t1); (1, t1); (2, t1)]);
    ("decode::base_i::bit_32::parse_imm", [
       (0, t1); (1, t1); (2, t1); (3, t1); (4, t1); (5, t1); (8, t1); (9, t1); (10, t1); (11, t1); (12, t1);
       (17, t1)]);
    ("u16.parse_opcode", [
       (0, t10); (1, t10); (2, t11)]);
    ("u16.parse_rd", [
       (0, t10); (1, t10); (2, t11)]);
    ("u16.parse_rs1", [
       (0, t10); (1, t10); (2, t11)]);
    ("u16.parse_rs2", [
       (0, t10); (1, t10); (2, t11)]);
    ("u16.parse_imm", [
       (0, t10); (1, t10); (2, t11)]);
    ("u16.slice", [
       (0, t10)]);
    ("u16.parse_extension", [
       (0, t10); (1, t11); (2, t10)]);
    ("u16.set", [
       (0, t10); (1, t10)]);
    ("u16.to_signed_nbit", [
       (0, t10); (1, t10); (2, t10)]);
    ("decode::c_extension::bit_16::quadrant0", [
       (0, t10); (4, t10)]);
    ("decode::c_extension::bit_16::quadrant1", [
       (0, t10); (1, t10); (2, t10); (7, t10); (8, t10); (9, t10); (10, t10); (11, t10); (12, t10); (13, t10);
       (28, t10); (30, t10)]);
    ("decode::c_extension::bit_16::quadrant2", [
       (0, t10); (4, t10); (5, t10); (6, t10); (7, t10); (8, t10); (9, t10)]);
    ("decode::c_extension::bit_16::parse_opcode", [
       (0, t10); (2, t10); (3, t10); (4, t10)]);
    ("decode::c_extension::bit_16::parse_rd", [
       (0, t10); (2, t10); (3, t10); (4, t10); (5, t10)]);
    ("decode::c_extension::bit_16::parse_rs1", [
       (0, t10); (1, t10); (2, t10); (3, t10); (4, t10); (5, t10)]);
    ("decode::c_extension::bit_16::parse_rs2", [
       (0, t10); (1, t10); (3, t10); (4, t10)]);
    ("decode::c_extension::bit_16::parse_imm", [
       (0, t10); (1, t10); (4, t10); (5, t10); (6, t10); (7, t10); (8, t10); (9, t10); (10, t10); (17, t10);
       (19, t10); (20, t10); (21, t10); (22, t10); (23, t10); (24, t10); (25, t10); (31, t10)]);
    ("decode::m_extension::bit_32::parse_opcode", [
       (0, t2); (1, t2); (2, t2); (7, t2); (9, t2)]);
    ("decode::m_extension::bit_32::parse_rd", [
       (0, t2); (1, t2)]);
    ("decode::m_extension::bit_32::parse_rs1", [
       (0, t2); (1, t2)]);
    ("decode::m_extension::bit_32::parse_rs2", [
       (0, t2); (1, t2)]);
    ("decode::m_extension::bit_32::parse_imm", [
       (0, t2)]);
    ("decode::priv_extension::bit_32::parse_opcode", [
       (0, t8); (1, t8); (3, t8)]);
    ("decode::priv_extension::bit_32::parse_rd", [
       (0, t8)]);
    ("decode::priv_extension::bit_32::parse_rs1", [
       (0, t8); (2, t8)]);
    ("decode::priv_extension::bit_32::parse_rs2", [
       (0, t8); (2, t8)]);
    ("decode::priv_extension::bit_32::parse_imm", [
       (0, t8)]);
    ("decode::zicboz_extension::bit_32::parse_opcode", [
       (0, t7); (1, t7); (2, t7); (3, t7); (4, t7)]);
    ("decode::zicboz_extension::bit_32::parse_rd", [
       (0, t7)]);
    ("decode::zicboz_extension::bit_32::parse_rs1", [
       (0, t7); (1, t7)]);
    ("decode::zicboz_extension::bit_32::parse_rs2", [
       (0, t7)]);
    ("decode::zicboz_extension::bit_32::parse_imm", [
       (0, t7)]);
    ("decode::zicfiss_extension::bit_32::parse_opcode", [
       (0, t5); (1, t5); (2, t5); (3, t5); (4, t5); (6, t5); (9, t5); (10, t5); (11, t5)]);
    ("decode::zicfiss_extension::bit_32::parse_rd", [
       (0, t5); (1, t5); (2, t5)]);
    ("decode::zicfiss_extension::bit_32::parse_rs1", [
       (0, t5); (1, t5); (2, t5)]);
    ("decode::zicfiss_extension::bit_32::parse_rs2", [
       (0, t5); (1, t5); (2, t5)]);
    ("decode::zicfiss_extension::bit_32::parse_imm", [
       (0, t5); (1, t5)]);
    ("decode::zicfiss_extension::bit_16::parse_opcode", [
       (0, t11); (1, t11); (2, t11)]);
    ("decode::zicfiss_extension::bit_16::parse_rd", [
       (0, t11); (1, t11); (2, t11)]);
    ("decode::zicfiss_extension::bit_16::parse_rs1", [
       (0, t11)]);
    ("decode::zicfiss_extension::bit_16::parse_rs2", [
       (0, t11)]);
    ("decode::zicfiss_extension::bit_16::parse_imm", [
       (0, t11)]);
    ("decode::zicntr_extension::bit_32::parse_opcode", [
       (0, t6); (1, t6); (2, t6); (4, t6)]);
    ("decode::zicntr_extension::bit_32::parse_rd", [
       (0, t6); (1, t6)]);
    ("decode::zicntr_extension::bit_32::parse_rs1", [
       (0, t6); (1, t6)]);
    ("decode::zicntr_extension::bit_32::parse_rs2", [
       (0, t6); (1, t6)]);
    ("decode::zicntr_extension::bit_32::parse_imm", [
       (0, t6); (1, t6)]);
    ("decode::zicsr_extension::bit_32::parse_opcode", [
       (0, t4); (1, t4); (3, t4); (4, t4); (6, t4)]);
    ("decode::zicsr_extension::bit_32::parse_rd", [
       (0, t4); (1, t4)]);
    ("decode::zicsr_extension::bit_32::parse_rs1", [
       (0, t4); (1, t4); (2, t4)]);
    ("decode::zicsr_extension::bit_32::parse_rs2", [
       (0, t4); (1, t4)]);
    ("decode::zicsr_extension::bit_32::parse_imm", [
       (0, t4); (1, t4); (2, t4)]);
    ("decode::zifencei_extension::bit_32::parse_opcode", [
       (0, t3); (1, t3)]);
    ("decode::zifencei_extension::bit_32::parse_rd", [
       (0, t3); (1, t3)]);
    ("decode::zifencei_extension::bit_32::parse_rs1", [
       (0, t3); (1, t3)]);
    ("decode::zifencei_extension::bit_32::parse_rs2", [
       (0, t3); (1, t3)]);
    ("decode::zifencei_extension::bit_32::parse_imm", [
       (0, t3); (1, t3)]);
    ("Instruction.try_from", [
       (0, t9); (1, t9); (2, t9)]);
    ("u16.decode", [
       (0, t9)]);
    ("u32.decode", [
       (0, t9)]);
    ("OpcodeKind.get_format", [
       (0, t9); (1, t9); (4, t9)]);
    ("BaseIOpcode.get_format", [
       (0, t9); (6, t9)]);
    ("COpcode.get_format", [
       (0, t9); (11, t9)]) ]%nat.
Definition by_tests : list (branch * string) :=
  flat_map (fun kl => map (fun nt => ((fst kl, fst nt), snd nt)) (snd kl)) by_test.

Lemma by_all : map fst by_tests = tested.
Proof. vm_compute. reflexivity. Qed.
Lemma by_names : forallb (fun bt => existsb (String.eqb (snd bt)) (p_tests test_crate)) by_tests = true.
Proof. vm_compute. reflexivity. Qed.
Definition reaches (P : program) (t : string) : bool := hit (run P plat 12 t [] "").
Lemma reaches_means P t : reaches P t = true -> Calls P plat t [] "" (Dies (Says "reached")).
Proof.
  unfold reaches. intros H. destruct (run P plat 12 t [] "") as [v o|w|s] eqn:E; try discriminate H.
  destruct w as [w|s]; try discriminate H.
  apply String.eqb_eq in H. subst s. apply (run_means P plat 12 t [] "" _ plat_ok E); [discriminate|reflexivity].
Qed.
Lemma by_reach : forallb (fun bt => reaches (trapped [fst bt] test_crate) (snd bt)) by_tests = true.
Proof. vm_cast_no_check (eq_refl true). Qed.

Lemma by_one (f : branch * string -> bool) (Q : string -> bool) l b :
  forallb f l = true -> forallb (fun bt => Q (snd bt)) l = true -> In b (map fst l) ->
  exists t, f (b, t) = true /\ Q t = true.
Proof.
  intros F G I. apply in_map_iff in I. destruct I as ([c t] & E & I). cbn [fst] in E. subst c. exists t.
  rewrite forallb_forall in F, G. split; [exact (F _ I)|exact (G _ I)].
Qed.

Lemma entered T b : stands_for true true SrcText.source T -> In b tested ->
  exists t, In t (p_tests T) /\ Calls (trapped [b] T) plat t [] "" (Dies (Says "reached")).
Proof.
  intros S I. apply (proj2 (proj2 SrcLinked.crate_stands)) in S. subst T.
  rewrite <- by_all in I. destruct (by_one _ (fun t => existsb (String.eqb t) (p_tests test_crate)) _ b by_reach by_names I) as (t & F & G).
  exists t. split; [|exact (reaches_means _ _ F)].
  apply existsb_exists in G. destruct G as (u & J & E). apply String.eqb_eq in E. subst u. exact J.
Qed.

(** ** All the others at once *)

Definition quiet (a : ans) : bool :=
  match a with Done v o => match v with VUnit => o =? "" | _ => false end | _ => false end.
Lemma quiet_ok a : quiet a = true -> a = Done VUnit "".
Proof.
  destruct a as [v o| |]; try discriminate. destruct v; try discriminate. cbn [quiet]. intros H.
  apply String.eqb_eq in H. subst o. reflexivity.
Qed.
Definition pass_on (ts : list string) (P : program) (p : platform) : bool :=
  forallb (fun t => quiet (run P p 12 t [] "")) ts.
Definition platforms : list platform :=
  [ {| overflow_checks := false; usize_bits := 32 |}; {| overflow_checks := true; usize_bits := 32 |};
    {| overflow_checks := false; usize_bits := 64 |}; {| overflow_checks := true; usize_bits := 64 |} ].
Lemma in_platforms p : (usize_bits p = 32 \/ usize_bits p = 64)%Z -> In p platforms.
Proof. intros H. destruct p as [[] u]; cbn [usize_bits] in H; destruct H as [H|H]; rewrite H; cbn; tauto. Qed.
Lemma ok_platform p : (usize_bits p = 32 \/ usize_bits p = 64)%Z -> platform_ok p.
Proof. unfold platform_ok. lia. Qed.

Lemma one_pass ts P p t : pass_on ts P p = true -> In t ts -> run P p 12 t [] "" = Done VUnit "".
Proof. intros A I. unfold pass_on in A. rewrite forallb_forall in A. apply quiet_ok. exact (A _ I). Qed.
Lemma all_pass ts P p t : forallb (pass_on ts P) platforms = true -> (usize_bits p = 32 \/ usize_bits p = 64)%Z ->
  In t ts -> run P p 12 t [] "" = Done VUnit "".
Proof.
  intros A U I. rewrite forallb_forall in A. exact (one_pass ts P p t (A _ (in_platforms p U)) I).
Qed.
Lemma quiet_means P p t : (usize_bits p = 32 \/ usize_bits p = 64)%Z -> run P p 12 t [] "" = Done VUnit "" ->
  forall r, Calls P p t [] "" r <-> r = Gives VUnit "".
Proof.
  intros U E r. rewrite (run_means P p 12 t [] "" _ (ok_platform p U) E) by discriminate.
  split; [exact (answer_inj r (Gives VUnit ""))|intros ->; reflexivity].
Qed.

Lemma passes_untested : forallb (pass_on (p_tests test_crate) (trapped (untested crate) test_crate)) platforms = true.
Proof. vm_cast_no_check (eq_refl true). Qed.

Lemma not_entered P T p t : stands_for false false SrcText.source P -> stands_for true true SrcText.source T ->
  (usize_bits p = 32 \/ usize_bits p = 64)%Z -> In t (p_tests T) ->
  forall r, Calls (trapped (untested P) T) p t [] "" r <-> r = Gives VUnit "".
Proof.
  intros S S' U I. apply (proj1 SrcLinked.crate_stands) in S. subst P.
  apply (proj2 (proj2 SrcLinked.crate_stands)) in S'. subst T.
  exact (quiet_means _ p t U (all_pass _ _ p t passes_untested U I)).
Qed.

