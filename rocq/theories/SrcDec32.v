(** The functions of the [bit_32] modules, read from the source, do what Dec32.v says. *)
From Coq Require Import ZArith List Bool String.
From Verif Require Import Rust Types DecodeUtil Dec32 Debug SrcLink SrcSem SrcProg SrcEmbed SrcUtil.
Import ListNotations.
Local Open Scope Z_scope.
Local Open Scope string_scope.

Ltac opcode := norm_body; outcomes; tests.
Ltac opcode_isa isa := destruct isa; cbv [of_isa]; norm_body; outcomes; tests.
Ltac operand op := destruct op; norm_operand; outcomes; reflexivity.

(** ** base_i.rs *)

Lemma basei_opcode_leaf c p w isa o :
  leaf c p "decode::base_i::bit_32::parse_opcode" [VInt U32 w; of_isa isa] o =
  gives (of_result of_basei) o (basei_parse_opcode p w isa).
Proof. opcode_isa isa. Qed.
Lemma basei_opcode_run p n w isa o :
  run crate p (S (S n)) "decode::base_i::bit_32::parse_opcode" [VInt U32 w; of_isa isa] o =
  gives (of_result of_basei) o (basei_parse_opcode p w isa).
Proof. apply leaf_run; [reflexivity|]. intros c. apply basei_opcode_leaf. Qed.

Lemma basei_rd_leaf c p w op o :
  leaf c p "decode::base_i::bit_32::parse_rd" [VInt U32 w; of_basei op] o =
  gives (of_option (VInt Usize)) o (basei_parse_rd p w op).
Proof. operand op. Qed.
Lemma basei_rd_run p n w op o :
  run crate p (S (S n)) "decode::base_i::bit_32::parse_rd" [VInt U32 w; of_basei op] o =
  gives (of_option (VInt Usize)) o (basei_parse_rd p w op).
Proof. apply leaf_run; [reflexivity|]. intros c. apply basei_rd_leaf. Qed.

Lemma basei_rs1_leaf c p w op o :
  leaf c p "decode::base_i::bit_32::parse_rs1" [VInt U32 w; of_basei op] o =
  gives (of_option (VInt Usize)) o (basei_parse_rs1 p w op).
Proof. operand op. Qed.
Lemma basei_rs1_run p n w op o :
  run crate p (S (S n)) "decode::base_i::bit_32::parse_rs1" [VInt U32 w; of_basei op] o =
  gives (of_option (VInt Usize)) o (basei_parse_rs1 p w op).
Proof. apply leaf_run; [reflexivity|]. intros c. apply basei_rs1_leaf. Qed.

Lemma basei_rs2_leaf c p w op o :
  leaf c p "decode::base_i::bit_32::parse_rs2" [VInt U32 w; of_basei op] o =
  gives (of_option (VInt Usize)) o (basei_parse_rs2 p w op).
Proof. operand op. Qed.
Lemma basei_rs2_run p n w op o :
  run crate p (S (S n)) "decode::base_i::bit_32::parse_rs2" [VInt U32 w; of_basei op] o =
  gives (of_option (VInt Usize)) o (basei_parse_rs2 p w op).
Proof. apply leaf_run; [reflexivity|]. intros c. apply basei_rs2_leaf. Qed.

Lemma basei_imm_leaf c p w op isa o :
  leaf c p "decode::base_i::bit_32::parse_imm" [VInt U32 w; of_basei op; of_isa isa] o =
  gives (of_option (VInt I32)) o (basei_parse_imm p w op isa).
Proof. destruct isa; cbv [of_isa]; operand op. Qed.
Lemma basei_imm_run p n w op isa o :
  run crate p (S (S n)) "decode::base_i::bit_32::parse_imm" [VInt U32 w; of_basei op; of_isa isa] o =
  gives (of_option (VInt I32)) o (basei_parse_imm p w op isa).
Proof. apply leaf_run; [reflexivity|]. intros c. apply basei_imm_leaf. Qed.

(** ** m_extension.rs *)

Lemma m_opcode_leaf c p w isa o :
  leaf c p "decode::m_extension::bit_32::parse_opcode" [VInt U32 w; of_isa isa] o =
  gives (of_result of_m) o (m_parse_opcode p w isa).
Proof. opcode_isa isa. Qed.
Lemma m_opcode_run p n w isa o :
  run crate p (S (S n)) "decode::m_extension::bit_32::parse_opcode" [VInt U32 w; of_isa isa] o =
  gives (of_result of_m) o (m_parse_opcode p w isa).
Proof. apply leaf_run; [reflexivity|]. intros c. apply m_opcode_leaf. Qed.

Lemma m_rd_leaf c p w op o :
  leaf c p "decode::m_extension::bit_32::parse_rd" [VInt U32 w; of_m op] o =
  gives (of_option (VInt Usize)) o (m_parse_rd p w op).
Proof. operand op. Qed.
Lemma m_rd_run p n w op o :
  run crate p (S (S n)) "decode::m_extension::bit_32::parse_rd" [VInt U32 w; of_m op] o =
  gives (of_option (VInt Usize)) o (m_parse_rd p w op).
Proof. apply leaf_run; [reflexivity|]. intros c. apply m_rd_leaf. Qed.

Lemma m_rs1_leaf c p w op o :
  leaf c p "decode::m_extension::bit_32::parse_rs1" [VInt U32 w; of_m op] o =
  gives (of_option (VInt Usize)) o (m_parse_rs1 p w op).
Proof. operand op. Qed.
Lemma m_rs1_run p n w op o :
  run crate p (S (S n)) "decode::m_extension::bit_32::parse_rs1" [VInt U32 w; of_m op] o =
  gives (of_option (VInt Usize)) o (m_parse_rs1 p w op).
Proof. apply leaf_run; [reflexivity|]. intros c. apply m_rs1_leaf. Qed.

Lemma m_rs2_leaf c p w op o :
  leaf c p "decode::m_extension::bit_32::parse_rs2" [VInt U32 w; of_m op] o =
  gives (of_option (VInt Usize)) o (m_parse_rs2 p w op).
Proof. operand op. Qed.
Lemma m_rs2_run p n w op o :
  run crate p (S (S n)) "decode::m_extension::bit_32::parse_rs2" [VInt U32 w; of_m op] o =
  gives (of_option (VInt Usize)) o (m_parse_rs2 p w op).
Proof. apply leaf_run; [reflexivity|]. intros c. apply m_rs2_leaf. Qed.

Lemma m_imm_leaf c p w op o :
  leaf c p "decode::m_extension::bit_32::parse_imm" [VInt U32 w; of_m op] o =
  gives (of_option (VInt I32)) o (m_parse_imm p w op).
Proof. operand op. Qed.
Lemma m_imm_run p n w op o :
  run crate p (S (S n)) "decode::m_extension::bit_32::parse_imm" [VInt U32 w; of_m op] o =
  gives (of_option (VInt I32)) o (m_parse_imm p w op).
Proof. apply leaf_run; [reflexivity|]. intros c. apply m_imm_leaf. Qed.

(** ** a_extension.rs *)

Lemma a_opcode_leaf c p w isa o :
  leaf c p "decode::a_extension::bit_32::parse_opcode" [VInt U32 w; of_isa isa] o =
  gives (of_result of_a) o (a_parse_opcode p w isa).
Proof. opcode_isa isa. Qed.
Lemma a_opcode_run p n w isa o :
  run crate p (S (S n)) "decode::a_extension::bit_32::parse_opcode" [VInt U32 w; of_isa isa] o =
  gives (of_result of_a) o (a_parse_opcode p w isa).
Proof. apply leaf_run; [reflexivity|]. intros c. apply a_opcode_leaf. Qed.

Lemma a_rd_leaf c p w op o :
  leaf c p "decode::a_extension::bit_32::parse_rd" [VInt U32 w; of_a op] o =
  gives (of_option (VInt Usize)) o (a_parse_rd p w op).
Proof. operand op. Qed.
Lemma a_rd_run p n w op o :
  run crate p (S (S n)) "decode::a_extension::bit_32::parse_rd" [VInt U32 w; of_a op] o =
  gives (of_option (VInt Usize)) o (a_parse_rd p w op).
Proof. apply leaf_run; [reflexivity|]. intros c. apply a_rd_leaf. Qed.

Lemma a_rs1_leaf c p w op o :
  leaf c p "decode::a_extension::bit_32::parse_rs1" [VInt U32 w; of_a op] o =
  gives (of_option (VInt Usize)) o (a_parse_rs1 p w op).
Proof. operand op. Qed.
Lemma a_rs1_run p n w op o :
  run crate p (S (S n)) "decode::a_extension::bit_32::parse_rs1" [VInt U32 w; of_a op] o =
  gives (of_option (VInt Usize)) o (a_parse_rs1 p w op).
Proof. apply leaf_run; [reflexivity|]. intros c. apply a_rs1_leaf. Qed.

Lemma a_rs2_leaf c p w op o :
  leaf c p "decode::a_extension::bit_32::parse_rs2" [VInt U32 w; of_a op] o =
  gives (of_option (VInt Usize)) o (a_parse_rs2 p w op).
Proof. operand op. Qed.
Lemma a_rs2_run p n w op o :
  run crate p (S (S n)) "decode::a_extension::bit_32::parse_rs2" [VInt U32 w; of_a op] o =
  gives (of_option (VInt Usize)) o (a_parse_rs2 p w op).
Proof. apply leaf_run; [reflexivity|]. intros c. apply a_rs2_leaf. Qed.

Lemma a_imm_leaf c p w op o :
  leaf c p "decode::a_extension::bit_32::parse_imm" [VInt U32 w; of_a op] o =
  gives (of_option (VInt I32)) o (a_parse_imm p w op).
Proof. operand op. Qed.
Lemma a_imm_run p n w op o :
  run crate p (S (S n)) "decode::a_extension::bit_32::parse_imm" [VInt U32 w; of_a op] o =
  gives (of_option (VInt I32)) o (a_parse_imm p w op).
Proof. apply leaf_run; [reflexivity|]. intros c. apply a_imm_leaf. Qed.

(** ** zicsr_extension.rs *)

Lemma zicsr_opcode_leaf c p w o :
  leaf c p "decode::zicsr_extension::bit_32::parse_opcode" [VInt U32 w] o =
  gives (of_result of_zicsr) o (zicsr_parse_opcode p w).
Proof. opcode. Qed.
Lemma zicsr_opcode_run p n w o :
  run crate p (S (S n)) "decode::zicsr_extension::bit_32::parse_opcode" [VInt U32 w] o =
  gives (of_result of_zicsr) o (zicsr_parse_opcode p w).
Proof. apply leaf_run; [reflexivity|]. intros c. apply zicsr_opcode_leaf. Qed.

Lemma zicsr_rd_leaf c p w op o :
  leaf c p "decode::zicsr_extension::bit_32::parse_rd" [VInt U32 w; of_zicsr op] o =
  gives (of_option (VInt Usize)) o (zicsr_parse_rd p w op).
Proof. operand op. Qed.
Lemma zicsr_rd_run p n w op o :
  run crate p (S (S n)) "decode::zicsr_extension::bit_32::parse_rd" [VInt U32 w; of_zicsr op] o =
  gives (of_option (VInt Usize)) o (zicsr_parse_rd p w op).
Proof. apply leaf_run; [reflexivity|]. intros c. apply zicsr_rd_leaf. Qed.

Lemma zicsr_rs1_leaf c p w op o :
  leaf c p "decode::zicsr_extension::bit_32::parse_rs1" [VInt U32 w; of_zicsr op] o =
  gives (of_option (VInt Usize)) o (zicsr_parse_rs1 p w op).
Proof. operand op. Qed.
Lemma zicsr_rs1_run p n w op o :
  run crate p (S (S n)) "decode::zicsr_extension::bit_32::parse_rs1" [VInt U32 w; of_zicsr op] o =
  gives (of_option (VInt Usize)) o (zicsr_parse_rs1 p w op).
Proof. apply leaf_run; [reflexivity|]. intros c. apply zicsr_rs1_leaf. Qed.

Lemma zicsr_rs2_leaf c p w op o :
  leaf c p "decode::zicsr_extension::bit_32::parse_rs2" [VInt U32 w; of_zicsr op] o =
  gives (of_option (VInt Usize)) o (zicsr_parse_rs2 p w op).
Proof. operand op. Qed.
Lemma zicsr_rs2_run p n w op o :
  run crate p (S (S n)) "decode::zicsr_extension::bit_32::parse_rs2" [VInt U32 w; of_zicsr op] o =
  gives (of_option (VInt Usize)) o (zicsr_parse_rs2 p w op).
Proof. apply leaf_run; [reflexivity|]. intros c. apply zicsr_rs2_leaf. Qed.

Lemma zicsr_imm_leaf c p w op o :
  leaf c p "decode::zicsr_extension::bit_32::parse_imm" [VInt U32 w; of_zicsr op] o =
  gives (of_option (VInt I32)) o (zicsr_parse_imm p w op).
Proof. operand op. Qed.
Lemma zicsr_imm_run p n w op o :
  run crate p (S (S n)) "decode::zicsr_extension::bit_32::parse_imm" [VInt U32 w; of_zicsr op] o =
  gives (of_option (VInt I32)) o (zicsr_parse_imm p w op).
Proof. apply leaf_run; [reflexivity|]. intros c. apply zicsr_imm_leaf. Qed.

(** ** zifencei_extension.rs *)

Lemma zifencei_opcode_leaf c p w o :
  leaf c p "decode::zifencei_extension::bit_32::parse_opcode" [VInt U32 w] o =
  gives (of_result of_zifencei) o (zifencei_parse_opcode p w).
Proof. opcode. Qed.
Lemma zifencei_opcode_run p n w o :
  run crate p (S (S n)) "decode::zifencei_extension::bit_32::parse_opcode" [VInt U32 w] o =
  gives (of_result of_zifencei) o (zifencei_parse_opcode p w).
Proof. apply leaf_run; [reflexivity|]. intros c. apply zifencei_opcode_leaf. Qed.

Lemma zifencei_rd_leaf c p w op o :
  leaf c p "decode::zifencei_extension::bit_32::parse_rd" [VInt U32 w; of_zifencei op] o =
  gives (of_option (VInt Usize)) o (zifencei_parse_rd p w op).
Proof. operand op. Qed.
Lemma zifencei_rd_run p n w op o :
  run crate p (S (S n)) "decode::zifencei_extension::bit_32::parse_rd" [VInt U32 w; of_zifencei op] o =
  gives (of_option (VInt Usize)) o (zifencei_parse_rd p w op).
Proof. apply leaf_run; [reflexivity|]. intros c. apply zifencei_rd_leaf. Qed.

Lemma zifencei_rs1_leaf c p w op o :
  leaf c p "decode::zifencei_extension::bit_32::parse_rs1" [VInt U32 w; of_zifencei op] o =
  gives (of_option (VInt Usize)) o (zifencei_parse_rs1 p w op).
Proof. operand op. Qed.
Lemma zifencei_rs1_run p n w op o :
  run crate p (S (S n)) "decode::zifencei_extension::bit_32::parse_rs1" [VInt U32 w; of_zifencei op] o =
  gives (of_option (VInt Usize)) o (zifencei_parse_rs1 p w op).
Proof. apply leaf_run; [reflexivity|]. intros c. apply zifencei_rs1_leaf. Qed.

Lemma zifencei_rs2_leaf c p w op o :
  leaf c p "decode::zifencei_extension::bit_32::parse_rs2" [VInt U32 w; of_zifencei op] o =
  gives (of_option (VInt Usize)) o (zifencei_parse_rs2 p w op).
Proof. operand op. Qed.
Lemma zifencei_rs2_run p n w op o :
  run crate p (S (S n)) "decode::zifencei_extension::bit_32::parse_rs2" [VInt U32 w; of_zifencei op] o =
  gives (of_option (VInt Usize)) o (zifencei_parse_rs2 p w op).
Proof. apply leaf_run; [reflexivity|]. intros c. apply zifencei_rs2_leaf. Qed.

Lemma zifencei_imm_leaf c p w op o :
  leaf c p "decode::zifencei_extension::bit_32::parse_imm" [VInt U32 w; of_zifencei op] o =
  gives (of_option (VInt I32)) o (zifencei_parse_imm p w op).
Proof. operand op. Qed.
Lemma zifencei_imm_run p n w op o :
  run crate p (S (S n)) "decode::zifencei_extension::bit_32::parse_imm" [VInt U32 w; of_zifencei op] o =
  gives (of_option (VInt I32)) o (zifencei_parse_imm p w op).
Proof. apply leaf_run; [reflexivity|]. intros c. apply zifencei_imm_leaf. Qed.

(** ** zicfiss_extension.rs *)

Lemma zicfiss_opcode_leaf c p w o :
  leaf c p "decode::zicfiss_extension::bit_32::parse_opcode" [VInt U32 w] o =
  gives (of_result of_zicfiss) o (zicfiss_parse_opcode p w).
Proof. opcode. Qed.
Lemma zicfiss_opcode_run p n w o :
  run crate p (S (S n)) "decode::zicfiss_extension::bit_32::parse_opcode" [VInt U32 w] o =
  gives (of_result of_zicfiss) o (zicfiss_parse_opcode p w).
Proof. apply leaf_run; [reflexivity|]. intros c. apply zicfiss_opcode_leaf. Qed.

Lemma zicfiss_rd_leaf c p w op o :
  leaf c p "decode::zicfiss_extension::bit_32::parse_rd" [VInt U32 w; of_zicfiss op] o =
  gives (of_option (VInt Usize)) o (zicfiss_parse_rd p w op).
Proof. operand op. Qed.
Lemma zicfiss_rd_run p n w op o :
  run crate p (S (S n)) "decode::zicfiss_extension::bit_32::parse_rd" [VInt U32 w; of_zicfiss op] o =
  gives (of_option (VInt Usize)) o (zicfiss_parse_rd p w op).
Proof. apply leaf_run; [reflexivity|]. intros c. apply zicfiss_rd_leaf. Qed.

Lemma zicfiss_rs1_leaf c p w op o :
  leaf c p "decode::zicfiss_extension::bit_32::parse_rs1" [VInt U32 w; of_zicfiss op] o =
  gives (of_option (VInt Usize)) o (zicfiss_parse_rs1 p w op).
Proof. operand op. Qed.
Lemma zicfiss_rs1_run p n w op o :
  run crate p (S (S n)) "decode::zicfiss_extension::bit_32::parse_rs1" [VInt U32 w; of_zicfiss op] o =
  gives (of_option (VInt Usize)) o (zicfiss_parse_rs1 p w op).
Proof. apply leaf_run; [reflexivity|]. intros c. apply zicfiss_rs1_leaf. Qed.

Lemma zicfiss_rs2_leaf c p w op o :
  leaf c p "decode::zicfiss_extension::bit_32::parse_rs2" [VInt U32 w; of_zicfiss op] o =
  gives (of_option (VInt Usize)) o (zicfiss_parse_rs2 p w op).
Proof. operand op. Qed.
Lemma zicfiss_rs2_run p n w op o :
  run crate p (S (S n)) "decode::zicfiss_extension::bit_32::parse_rs2" [VInt U32 w; of_zicfiss op] o =
  gives (of_option (VInt Usize)) o (zicfiss_parse_rs2 p w op).
Proof. apply leaf_run; [reflexivity|]. intros c. apply zicfiss_rs2_leaf. Qed.

Lemma zicfiss_imm_leaf c p w op o :
  leaf c p "decode::zicfiss_extension::bit_32::parse_imm" [VInt U32 w; of_zicfiss op] o =
  gives (of_option (VInt I32)) o (zicfiss_parse_imm p w op).
Proof. operand op. Qed.
Lemma zicfiss_imm_run p n w op o :
  run crate p (S (S n)) "decode::zicfiss_extension::bit_32::parse_imm" [VInt U32 w; of_zicfiss op] o =
  gives (of_option (VInt I32)) o (zicfiss_parse_imm p w op).
Proof. apply leaf_run; [reflexivity|]. intros c. apply zicfiss_imm_leaf. Qed.

(** ** zicboz_extension.rs *)

Lemma zicboz_opcode_leaf c p w o :
  leaf c p "decode::zicboz_extension::bit_32::parse_opcode" [VInt U32 w] o =
  gives (of_result of_zicboz) o (zicboz_parse_opcode p w).
Proof. opcode. Qed.
Lemma zicboz_opcode_run p n w o :
  run crate p (S (S n)) "decode::zicboz_extension::bit_32::parse_opcode" [VInt U32 w] o =
  gives (of_result of_zicboz) o (zicboz_parse_opcode p w).
Proof. apply leaf_run; [reflexivity|]. intros c. apply zicboz_opcode_leaf. Qed.

Lemma zicboz_rd_leaf c p w op o :
  leaf c p "decode::zicboz_extension::bit_32::parse_rd" [VInt U32 w; of_zicboz op] o =
  gives (of_option (VInt Usize)) o (zicboz_parse_rd p w op).
Proof. operand op. Qed.
Lemma zicboz_rd_run p n w op o :
  run crate p (S (S n)) "decode::zicboz_extension::bit_32::parse_rd" [VInt U32 w; of_zicboz op] o =
  gives (of_option (VInt Usize)) o (zicboz_parse_rd p w op).
Proof. apply leaf_run; [reflexivity|]. intros c. apply zicboz_rd_leaf. Qed.

Lemma zicboz_rs1_leaf c p w op o :
  leaf c p "decode::zicboz_extension::bit_32::parse_rs1" [VInt U32 w; of_zicboz op] o =
  gives (of_option (VInt Usize)) o (zicboz_parse_rs1 p w op).
Proof. operand op. Qed.
Lemma zicboz_rs1_run p n w op o :
  run crate p (S (S n)) "decode::zicboz_extension::bit_32::parse_rs1" [VInt U32 w; of_zicboz op] o =
  gives (of_option (VInt Usize)) o (zicboz_parse_rs1 p w op).
Proof. apply leaf_run; [reflexivity|]. intros c. apply zicboz_rs1_leaf. Qed.

Lemma zicboz_rs2_leaf c p w op o :
  leaf c p "decode::zicboz_extension::bit_32::parse_rs2" [VInt U32 w; of_zicboz op] o =
  gives (of_option (VInt Usize)) o (zicboz_parse_rs2 p w op).
Proof. operand op. Qed.
Lemma zicboz_rs2_run p n w op o :
  run crate p (S (S n)) "decode::zicboz_extension::bit_32::parse_rs2" [VInt U32 w; of_zicboz op] o =
  gives (of_option (VInt Usize)) o (zicboz_parse_rs2 p w op).
Proof. apply leaf_run; [reflexivity|]. intros c. apply zicboz_rs2_leaf. Qed.

Lemma zicboz_imm_leaf c p w op o :
  leaf c p "decode::zicboz_extension::bit_32::parse_imm" [VInt U32 w; of_zicboz op] o =
  gives (of_option (VInt I32)) o (zicboz_parse_imm p w op).
Proof. operand op. Qed.
Lemma zicboz_imm_run p n w op o :
  run crate p (S (S n)) "decode::zicboz_extension::bit_32::parse_imm" [VInt U32 w; of_zicboz op] o =
  gives (of_option (VInt I32)) o (zicboz_parse_imm p w op).
Proof. apply leaf_run; [reflexivity|]. intros c. apply zicboz_imm_leaf. Qed.

(** ** zicntr_extension.rs *)

Lemma zicntr_opcode_leaf c p w o :
  leaf c p "decode::zicntr_extension::bit_32::parse_opcode" [VInt U32 w] o =
  gives (of_result of_zicntr) o (zicntr_parse_opcode p w).
Proof. opcode. Qed.
Lemma zicntr_opcode_run p n w o :
  run crate p (S (S n)) "decode::zicntr_extension::bit_32::parse_opcode" [VInt U32 w] o =
  gives (of_result of_zicntr) o (zicntr_parse_opcode p w).
Proof. apply leaf_run; [reflexivity|]. intros c. apply zicntr_opcode_leaf. Qed.

Lemma zicntr_rd_leaf c p w op o :
  leaf c p "decode::zicntr_extension::bit_32::parse_rd" [VInt U32 w; of_zicntr op] o =
  gives (of_option (VInt Usize)) o (zicntr_parse_rd p w op).
Proof. operand op. Qed.
Lemma zicntr_rd_run p n w op o :
  run crate p (S (S n)) "decode::zicntr_extension::bit_32::parse_rd" [VInt U32 w; of_zicntr op] o =
  gives (of_option (VInt Usize)) o (zicntr_parse_rd p w op).
Proof. apply leaf_run; [reflexivity|]. intros c. apply zicntr_rd_leaf. Qed.

Lemma zicntr_rs1_leaf c p w op o :
  leaf c p "decode::zicntr_extension::bit_32::parse_rs1" [VInt U32 w; of_zicntr op] o =
  gives (of_option (VInt Usize)) o (zicntr_parse_rs1 p w op).
Proof. operand op. Qed.
Lemma zicntr_rs1_run p n w op o :
  run crate p (S (S n)) "decode::zicntr_extension::bit_32::parse_rs1" [VInt U32 w; of_zicntr op] o =
  gives (of_option (VInt Usize)) o (zicntr_parse_rs1 p w op).
Proof. apply leaf_run; [reflexivity|]. intros c. apply zicntr_rs1_leaf. Qed.

Lemma zicntr_rs2_leaf c p w op o :
  leaf c p "decode::zicntr_extension::bit_32::parse_rs2" [VInt U32 w; of_zicntr op] o =
  gives (of_option (VInt Usize)) o (zicntr_parse_rs2 p w op).
Proof. operand op. Qed.
Lemma zicntr_rs2_run p n w op o :
  run crate p (S (S n)) "decode::zicntr_extension::bit_32::parse_rs2" [VInt U32 w; of_zicntr op] o =
  gives (of_option (VInt Usize)) o (zicntr_parse_rs2 p w op).
Proof. apply leaf_run; [reflexivity|]. intros c. apply zicntr_rs2_leaf. Qed.

Lemma zicntr_imm_leaf c p w op o :
  leaf c p "decode::zicntr_extension::bit_32::parse_imm" [VInt U32 w; of_zicntr op] o =
  gives (of_option (VInt I32)) o (zicntr_parse_imm p w op).
Proof. operand op. Qed.
Lemma zicntr_imm_run p n w op o :
  run crate p (S (S n)) "decode::zicntr_extension::bit_32::parse_imm" [VInt U32 w; of_zicntr op] o =
  gives (of_option (VInt I32)) o (zicntr_parse_imm p w op).
Proof. apply leaf_run; [reflexivity|]. intros c. apply zicntr_imm_leaf. Qed.

(** ** priv_extension.rs *)

Lemma priv_opcode_leaf c p w o :
  leaf c p "decode::priv_extension::bit_32::parse_opcode" [VInt U32 w] o =
  gives (of_result of_priv) o (priv_parse_opcode p w).
Proof. opcode. Qed.
Lemma priv_opcode_run p n w o :
  run crate p (S (S n)) "decode::priv_extension::bit_32::parse_opcode" [VInt U32 w] o =
  gives (of_result of_priv) o (priv_parse_opcode p w).
Proof. apply leaf_run; [reflexivity|]. intros c. apply priv_opcode_leaf. Qed.

Lemma priv_rd_leaf c p w op o :
  leaf c p "decode::priv_extension::bit_32::parse_rd" [VInt U32 w; of_priv op] o =
  gives (of_option (VInt Usize)) o (priv_parse_rd p w op).
Proof. operand op. Qed.
Lemma priv_rd_run p n w op o :
  run crate p (S (S n)) "decode::priv_extension::bit_32::parse_rd" [VInt U32 w; of_priv op] o =
  gives (of_option (VInt Usize)) o (priv_parse_rd p w op).
Proof. apply leaf_run; [reflexivity|]. intros c. apply priv_rd_leaf. Qed.

Lemma priv_rs1_leaf c p w op o :
  leaf c p "decode::priv_extension::bit_32::parse_rs1" [VInt U32 w; of_priv op] o =
  gives (of_option (VInt Usize)) o (priv_parse_rs1 p w op).
Proof. operand op. Qed.
Lemma priv_rs1_run p n w op o :
  run crate p (S (S n)) "decode::priv_extension::bit_32::parse_rs1" [VInt U32 w; of_priv op] o =
  gives (of_option (VInt Usize)) o (priv_parse_rs1 p w op).
Proof. apply leaf_run; [reflexivity|]. intros c. apply priv_rs1_leaf. Qed.

Lemma priv_rs2_leaf c p w op o :
  leaf c p "decode::priv_extension::bit_32::parse_rs2" [VInt U32 w; of_priv op] o =
  gives (of_option (VInt Usize)) o (priv_parse_rs2 p w op).
Proof. operand op. Qed.
Lemma priv_rs2_run p n w op o :
  run crate p (S (S n)) "decode::priv_extension::bit_32::parse_rs2" [VInt U32 w; of_priv op] o =
  gives (of_option (VInt Usize)) o (priv_parse_rs2 p w op).
Proof. apply leaf_run; [reflexivity|]. intros c. apply priv_rs2_leaf. Qed.

Lemma priv_imm_leaf c p w op o :
  leaf c p "decode::priv_extension::bit_32::parse_imm" [VInt U32 w; of_priv op] o =
  gives (of_option (VInt I32)) o (priv_parse_imm p w op).
Proof. operand op. Qed.
Lemma priv_imm_run p n w op o :
  run crate p (S (S n)) "decode::priv_extension::bit_32::parse_imm" [VInt U32 w; of_priv op] o =
  gives (of_option (VInt I32)) o (priv_parse_imm p w op).
Proof. apply leaf_run; [reflexivity|]. intros c. apply priv_imm_leaf. Qed.
