(** [==] is equality (C39). *)
From Coq Require Import ZArith Bool Lia.
From Verif Require Import Types PartialEq.
Local Open Scope Z_scope.

Ltac discr a b := split; [destruct a, b; (reflexivity || discriminate) | intros ->; destruct b; reflexivity].
Lemma BaseIOpcode_eq_ok a b : BaseIOpcode_eq a b = true <-> a = b.
Proof. discr a b. Qed.
Lemma MOpcode_eq_ok a b : MOpcode_eq a b = true <-> a = b.
Proof. discr a b. Qed.
Lemma AOpcode_eq_ok a b : AOpcode_eq a b = true <-> a = b.
Proof. discr a b. Qed.
Lemma COpcode_eq_ok a b : COpcode_eq a b = true <-> a = b.
Proof. discr a b. Qed.
Lemma ZifenceiOpcode_eq_ok a b : ZifenceiOpcode_eq a b = true <-> a = b.
Proof. discr a b. Qed.
Lemma ZicbozOpcode_eq_ok a b : ZicbozOpcode_eq a b = true <-> a = b.
Proof. discr a b. Qed.
Lemma ZicsrOpcode_eq_ok a b : ZicsrOpcode_eq a b = true <-> a = b.
Proof. discr a b. Qed.
Lemma ZicfissOpcode_eq_ok a b : ZicfissOpcode_eq a b = true <-> a = b.
Proof. discr a b. Qed.
Lemma ZicntrOpcode_eq_ok a b : ZicntrOpcode_eq a b = true <-> a = b.
Proof. discr a b. Qed.
Lemma PrivOpcode_eq_ok a b : PrivOpcode_eq a b = true <-> a = b.
Proof. discr a b. Qed.
Lemma InstFormat_eq_ok a b : InstFormat_eq a b = true <-> a = b.
Proof. discr a b. Qed.
Lemma DecodingError_eq_ok a b : DecodingError_eq a b = true <-> a = b.
Proof. discr a b. Qed.

Lemma OpcodeKind_eq_ok a b : OpcodeKind_eq a b = true <-> a = b.
Proof.
  destruct a as [a|a|a|a|a|a|a|a|a|a], b as [b|b|b|b|b|b|b|b|b|b]; cbn [OpcodeKind_eq];
    try (split; discriminate);
    rewrite ?BaseIOpcode_eq_ok, ?MOpcode_eq_ok, ?AOpcode_eq_ok, ?COpcode_eq_ok, ?ZifenceiOpcode_eq_ok,
      ?ZicbozOpcode_eq_ok, ?ZicsrOpcode_eq_ok, ?ZicfissOpcode_eq_ok, ?ZicntrOpcode_eq_ok, ?PrivOpcode_eq_ok;
    split; congruence.
Qed.

Lemma option_eq_ok a b : option_eq a b = true <-> a = b.
Proof.
  destruct a as [a|], b as [b|]; cbn [option_eq]; try (split; (discriminate || reflexivity)).
  rewrite Z.eqb_eq. split; congruence.
Qed.

Lemma Instruction_eq_ok a b : Instruction_eq a b = true <->
  opc a = opc b /\ rd a = rd b /\ rs1 a = rs1 b /\ rs2 a = rs2 b /\ imm a = imm b /\
  inst_format a = inst_format b /\ is_compressed a = is_compressed b.
Proof.
  unfold Instruction_eq. rewrite !andb_true_iff, OpcodeKind_eq_ok, !option_eq_ok, InstFormat_eq_ok,
    eqb_true_iff. tauto.
Qed.

Lemma Instruction_eq_iff a b : Instruction_eq a b = true <-> a = b.
Proof.
  rewrite Instruction_eq_ok. destruct a, b. cbn. split; [|intros H; injection H; intros; subst; repeat split].
  intros [-> [-> [-> [-> [-> [-> ->]]]]]]. reflexivity.
Qed.

Lemma Instruction_eq_refl a : Instruction_eq a a = true.
Proof. apply Instruction_eq_iff. reflexivity. Qed.
Lemma Instruction_eq_sym a b : Instruction_eq a b = Instruction_eq b a.
Proof.
  destruct (Instruction_eq b a) eqn:E.
  - apply Instruction_eq_iff. symmetry. apply Instruction_eq_iff. assumption.
  - destruct (Instruction_eq a b) eqn:F; [|reflexivity].
    apply Instruction_eq_iff in F. subst. rewrite Instruction_eq_refl in E. discriminate.
Qed.
Lemma Instruction_eq_trans a b c : Instruction_eq a b = true -> Instruction_eq b c = true ->
  Instruction_eq a c = true.
Proof. rewrite !Instruction_eq_iff. congruence. Qed.
