(** The functions of the [bit_16] modules, read from the source, do what Dec16.v says. *)
From Coq Require Import ZArith List Bool String.
From Verif Require Import Rust Types DecodeUtil Dec16 Debug SrcLink SrcSem SrcProg SrcEmbed SrcUtil.
Import ListNotations.
Local Open Scope Z_scope.
Local Open Scope string_scope.

Ltac opcode_isa isa := destruct isa; cbv [of_isa]; norm_body; outcomes; tests.
Ltac operand op := destruct op; norm_operand; outcomes; reflexivity.

(** ** c_extension.rs *)

Lemma quadrant0_leaf c p w m isa o :
  leaf c p "decode::c_extension::bit_16::quadrant0"
    [VInt U16 w; VInt U8 m; of_isa isa] o =
  gives (of_result of_c) o (quadrant0 w m isa).
Proof. opcode_isa isa. Qed.
Lemma quadrant0_run p n w m isa o :
  run crate p (S (S n)) "decode::c_extension::bit_16::quadrant0"
    [VInt U16 w; VInt U8 m; of_isa isa] o =
  gives (of_result of_c) o (quadrant0 w m isa).
Proof. apply leaf_run; [reflexivity|]. intros c. apply quadrant0_leaf. Qed.

Lemma quadrant1_leaf c p w m isa o :
  leaf c p "decode::c_extension::bit_16::quadrant1"
    [VInt U16 w; VInt U8 m; of_isa isa] o =
  gives (of_result of_c) o (quadrant1 p w m isa).
Proof. opcode_isa isa. Qed.
Lemma quadrant1_run p n w m isa o :
  run crate p (S (S n)) "decode::c_extension::bit_16::quadrant1"
    [VInt U16 w; VInt U8 m; of_isa isa] o =
  gives (of_result of_c) o (quadrant1 p w m isa).
Proof. apply leaf_run; [reflexivity|]. intros c. apply quadrant1_leaf. Qed.

Lemma quadrant2_leaf c p w m isa o :
  leaf c p "decode::c_extension::bit_16::quadrant2"
    [VInt U16 w; VInt U8 m; of_isa isa] o =
  gives (of_result of_c) o (quadrant2 p w m isa).
Proof. opcode_isa isa. Qed.
Lemma quadrant2_run p n w m isa o :
  run crate p (S (S n)) "decode::c_extension::bit_16::quadrant2"
    [VInt U16 w; VInt U8 m; of_isa isa] o =
  gives (of_result of_c) o (quadrant2 p w m isa).
Proof. apply leaf_run; [reflexivity|]. intros c. apply quadrant2_leaf. Qed.

Lemma c_opcode_run p n w isa o :
  run crate p (S (S (S n))) "decode::c_extension::bit_16::parse_opcode" [VInt U16 w; of_isa isa] o =
  gives (of_result of_c) o (c_parse_opcode p w isa).
Proof.
  rewrite run_body by reflexivity.
  lazy -[callr calls_of Z.pow Z.eqb Z.ltb of_c of_err of_isa gives slice_u16 quadrant0 quadrant1 quadrant2].
  outcomes. tests.
  - rewrite (callr_gives _ _ _ _ _ _ _ _ (quadrant0_run p n w a isa o)).
    destruct (quadrant0 w a isa) as [[]|]; reflexivity.
  - rewrite (callr_gives _ _ _ _ _ _ _ _ (quadrant1_run p n w a isa o)).
    destruct (quadrant1 p w a isa) as [[]|]; reflexivity.
  - rewrite (callr_gives _ _ _ _ _ _ _ _ (quadrant2_run p n w a isa o)).
    destruct (quadrant2 p w a isa) as [[]|]; reflexivity.
Qed.

Lemma c_rd_leaf c p w op o :
  leaf c p "decode::c_extension::bit_16::parse_rd" [VInt U16 w; of_c op] o =
  gives (of_option (VInt Usize)) o (c_parse_rd p w op).
Proof. operand op. Qed.
Lemma c_rd_run p n w op o :
  run crate p (S (S n)) "decode::c_extension::bit_16::parse_rd" [VInt U16 w; of_c op] o =
  gives (of_option (VInt Usize)) o (c_parse_rd p w op).
Proof. apply leaf_run; [reflexivity|]. intros c. apply c_rd_leaf. Qed.

Lemma c_rs1_leaf c p w op o :
  leaf c p "decode::c_extension::bit_16::parse_rs1" [VInt U16 w; of_c op] o =
  gives (of_option (VInt Usize)) o (c_parse_rs1 p w op).
Proof. operand op. Qed.
Lemma c_rs1_run p n w op o :
  run crate p (S (S n)) "decode::c_extension::bit_16::parse_rs1" [VInt U16 w; of_c op] o =
  gives (of_option (VInt Usize)) o (c_parse_rs1 p w op).
Proof. apply leaf_run; [reflexivity|]. intros c. apply c_rs1_leaf. Qed.

Lemma c_rs2_leaf c p w op o :
  leaf c p "decode::c_extension::bit_16::parse_rs2" [VInt U16 w; of_c op] o =
  gives (of_option (VInt Usize)) o (c_parse_rs2 p w op).
Proof. operand op. Qed.
Lemma c_rs2_run p n w op o :
  run crate p (S (S n)) "decode::c_extension::bit_16::parse_rs2" [VInt U16 w; of_c op] o =
  gives (of_option (VInt Usize)) o (c_parse_rs2 p w op).
Proof. apply leaf_run; [reflexivity|]. intros c. apply c_rs2_leaf. Qed.

Lemma c_imm_leaf c p w op o :
  leaf c p "decode::c_extension::bit_16::parse_imm" [VInt U16 w; of_c op] o =
  gives (of_option (VInt I32)) o (c_parse_imm p w op).
Proof. operand op. Qed.
Lemma c_imm_run p n w op o :
  run crate p (S (S n)) "decode::c_extension::bit_16::parse_imm" [VInt U16 w; of_c op] o =
  gives (of_option (VInt I32)) o (c_parse_imm p w op).
Proof. apply leaf_run; [reflexivity|]. intros c. apply c_imm_leaf. Qed.

(** ** zicfiss_extension.rs *)

Lemma zicfiss16_opcode_leaf c p w isa o :
  leaf c p "decode::zicfiss_extension::bit_16::parse_opcode" [VInt U16 w; of_isa isa] o =
  gives (of_result of_zicfiss) o (zicfiss16_parse_opcode w isa).
Proof. opcode_isa isa. Qed.
Lemma zicfiss16_opcode_run p n w isa o :
  run crate p (S (S n)) "decode::zicfiss_extension::bit_16::parse_opcode" [VInt U16 w; of_isa isa] o =
  gives (of_result of_zicfiss) o (zicfiss16_parse_opcode w isa).
Proof. apply leaf_run; [reflexivity|]. intros c. apply zicfiss16_opcode_leaf. Qed.

Lemma zicfiss16_rd_leaf c p w op o :
  leaf c p "decode::zicfiss_extension::bit_16::parse_rd" [VInt U16 w; of_zicfiss op] o =
  gives (of_option (VInt Usize)) o (zicfiss16_parse_rd w op).
Proof. operand op. Qed.
Lemma zicfiss16_rd_run p n w op o :
  run crate p (S (S n)) "decode::zicfiss_extension::bit_16::parse_rd" [VInt U16 w; of_zicfiss op] o =
  gives (of_option (VInt Usize)) o (zicfiss16_parse_rd w op).
Proof. apply leaf_run; [reflexivity|]. intros c. apply zicfiss16_rd_leaf. Qed.

Lemma zicfiss16_rs1_leaf c p w op o :
  leaf c p "decode::zicfiss_extension::bit_16::parse_rs1" [VInt U16 w; of_zicfiss op] o =
  gives (of_option (VInt Usize)) o (zicfiss16_parse_rs1 w op).
Proof. operand op. Qed.
Lemma zicfiss16_rs1_run p n w op o :
  run crate p (S (S n)) "decode::zicfiss_extension::bit_16::parse_rs1" [VInt U16 w; of_zicfiss op] o =
  gives (of_option (VInt Usize)) o (zicfiss16_parse_rs1 w op).
Proof. apply leaf_run; [reflexivity|]. intros c. apply zicfiss16_rs1_leaf. Qed.

Lemma zicfiss16_rs2_leaf c p w op o :
  leaf c p "decode::zicfiss_extension::bit_16::parse_rs2" [VInt U16 w; of_zicfiss op] o =
  gives (of_option (VInt Usize)) o (zicfiss16_parse_rs2 w op).
Proof. operand op. Qed.
Lemma zicfiss16_rs2_run p n w op o :
  run crate p (S (S n)) "decode::zicfiss_extension::bit_16::parse_rs2" [VInt U16 w; of_zicfiss op] o =
  gives (of_option (VInt Usize)) o (zicfiss16_parse_rs2 w op).
Proof. apply leaf_run; [reflexivity|]. intros c. apply zicfiss16_rs2_leaf. Qed.

Lemma zicfiss16_imm_leaf c p w op o :
  leaf c p "decode::zicfiss_extension::bit_16::parse_imm" [VInt U16 w; of_zicfiss op] o =
  gives (of_option (VInt I32)) o (zicfiss16_parse_imm w op).
Proof. operand op. Qed.
Lemma zicfiss16_imm_run p n w op o :
  run crate p (S (S n)) "decode::zicfiss_extension::bit_16::parse_imm" [VInt U16 w; of_zicfiss op] o =
  gives (of_option (VInt I32)) o (zicfiss16_parse_imm w op).
Proof. apply leaf_run; [reflexivity|]. intros c. apply zicfiss16_imm_leaf. Qed.
