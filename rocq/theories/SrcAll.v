(** Every function of the source does what its function of the model does. *)
From Coq Require Import ZArith List Bool String.
From Verif Require Import Rust Types DecodeUtil Dec32 Dec16 Decode Fmt SrcLink SrcSem SrcProg SrcEmbed
  SrcUtil SrcDec32 SrcDec16 SrcDecode SrcFmt SrcModel.
Import ListNotations.
Local Open Scope string_scope.

Lemma basei_format_run p n b o :
  run crate p (S n) "BaseIOpcode.get_format" [of_basei b] o = gives of_fmt o (Ret (BaseIOpcode_format b)).
Proof. destruct b; reflexivity. Qed.
Lemma basei_fmt_run p n b o :
  run crate p (S n) "BaseIOpcode.fmt" [of_basei b; VFmt] o = writes o (Ret (BaseIOpcode_display b)).
Proof. destruct b; reflexivity. Qed.
Lemma m_format_run p n b o :
  run crate p (S n) "MOpcode.get_format" [of_m b] o = gives of_fmt o (Ret (MOpcode_format b)).
Proof. destruct b; reflexivity. Qed.
Lemma m_fmt_run p n b o :
  run crate p (S n) "MOpcode.fmt" [of_m b; VFmt] o = writes o (Ret (MOpcode_display b)).
Proof. destruct b; reflexivity. Qed.
Lemma a_format_run p n b o :
  run crate p (S n) "AOpcode.get_format" [of_a b] o = gives of_fmt o (Ret (AOpcode_format b)).
Proof. destruct b; reflexivity. Qed.
Lemma a_fmt_run p n b o :
  run crate p (S n) "AOpcode.fmt" [of_a b; VFmt] o = writes o (Ret (AOpcode_display b)).
Proof. destruct b; reflexivity. Qed.
Lemma c_format_run p n b o :
  run crate p (S n) "COpcode.get_format" [of_c b] o = gives of_fmt o (Ret (COpcode_format b)).
Proof. destruct b; reflexivity. Qed.
Lemma c_fmt_run p n b o :
  run crate p (S n) "COpcode.fmt" [of_c b; VFmt] o = writes o (Ret (COpcode_display b)).
Proof. destruct b; reflexivity. Qed.
Lemma zifencei_format_run p n b o :
  run crate p (S n) "ZifenceiOpcode.get_format" [of_zifencei b] o = gives of_fmt o (Ret (ZifenceiOpcode_format b)).
Proof. destruct b; reflexivity. Qed.
Lemma zifencei_fmt_run p n b o :
  run crate p (S n) "ZifenceiOpcode.fmt" [of_zifencei b; VFmt] o = writes o (Ret (ZifenceiOpcode_display b)).
Proof. destruct b; reflexivity. Qed.
Lemma zicboz_format_run p n b o :
  run crate p (S n) "ZicbozOpcode.get_format" [of_zicboz b] o = gives of_fmt o (Ret (ZicbozOpcode_format b)).
Proof. destruct b; reflexivity. Qed.
Lemma zicboz_fmt_run p n b o :
  run crate p (S n) "ZicbozOpcode.fmt" [of_zicboz b; VFmt] o = writes o (Ret (ZicbozOpcode_display b)).
Proof. destruct b; reflexivity. Qed.
Lemma zicsr_format_run p n b o :
  run crate p (S n) "ZicsrOpcode.get_format" [of_zicsr b] o = gives of_fmt o (Ret (ZicsrOpcode_format b)).
Proof. destruct b; reflexivity. Qed.
Lemma zicsr_fmt_run p n b o :
  run crate p (S n) "ZicsrOpcode.fmt" [of_zicsr b; VFmt] o = writes o (Ret (ZicsrOpcode_display b)).
Proof. destruct b; reflexivity. Qed.
Lemma zicfiss_format_run p n b o :
  run crate p (S n) "ZicfissOpcode.get_format" [of_zicfiss b] o = gives of_fmt o (Ret (ZicfissOpcode_format b)).
Proof. destruct b; reflexivity. Qed.
Lemma zicfiss_fmt_run p n b o :
  run crate p (S n) "ZicfissOpcode.fmt" [of_zicfiss b; VFmt] o = writes o (Ret (ZicfissOpcode_display b)).
Proof. destruct b; reflexivity. Qed.
Lemma zicntr_format_run p n b o :
  run crate p (S n) "ZicntrOpcode.get_format" [of_zicntr b] o = gives of_fmt o (Ret (ZicntrOpcode_format b)).
Proof. destruct b; reflexivity. Qed.
Lemma zicntr_fmt_run p n b o :
  run crate p (S n) "ZicntrOpcode.fmt" [of_zicntr b; VFmt] o = writes o (Ret (ZicntrOpcode_display b)).
Proof. destruct b; reflexivity. Qed.
Lemma priv_format_run p n b o :
  run crate p (S n) "PrivOpcode.get_format" [of_priv b] o = gives of_fmt o (Ret (PrivOpcode_format b)).
Proof. destruct b; reflexivity. Qed.
Lemma priv_fmt_run p n b o :
  run crate p (S n) "PrivOpcode.fmt" [of_priv b; VFmt] o = writes o (Ret (PrivOpcode_display b)).
Proof. destruct b; reflexivity. Qed.

Lemma models_run p key vs o a n : models p key vs o a ->
  run crate p (S (S (S (S (S (S n)))))) key vs o = a.
Proof.
  intros H. destruct H.
  - exact (slice32_run p (S (S (S (S (S n))))) w a b o).
  - exact (slice16_run p (S (S (S (S (S n))))) w a b o).
  - exact (signed32_run p (S (S (S (S (S n))))) w v b o).
  - exact (signed16_run p (S (S (S (S (S n))))) w v b o).
  - exact (set32_run p (S (S (S (S (S n))))) w ms o).
  - exact (set16_run p (S (S (S (S (S n))))) w ms o).
  - exact (only_rv64_run p (S (S (S (S (S n))))) v isa o).
  - exact (basei_opcode_run p (S (S (S (S n)))) w isa o).
  - exact (basei_rd_run p (S (S (S (S n)))) w op o).
  - exact (basei_rs1_run p (S (S (S (S n)))) w op o).
  - exact (basei_rs2_run p (S (S (S (S n)))) w op o).
  - exact (basei_imm_run p (S (S (S (S n)))) w op isa o).
  - exact (m_opcode_run p (S (S (S (S n)))) w isa o).
  - exact (m_rd_run p (S (S (S (S n)))) w op o).
  - exact (m_rs1_run p (S (S (S (S n)))) w op o).
  - exact (m_rs2_run p (S (S (S (S n)))) w op o).
  - exact (m_imm_run p (S (S (S (S n)))) w op o).
  - exact (a_opcode_run p (S (S (S (S n)))) w isa o).
  - exact (a_rd_run p (S (S (S (S n)))) w op o).
  - exact (a_rs1_run p (S (S (S (S n)))) w op o).
  - exact (a_rs2_run p (S (S (S (S n)))) w op o).
  - exact (a_imm_run p (S (S (S (S n)))) w op o).
  - exact (zicsr_opcode_run p (S (S (S (S n)))) w o).
  - exact (zicsr_rd_run p (S (S (S (S n)))) w op o).
  - exact (zicsr_rs1_run p (S (S (S (S n)))) w op o).
  - exact (zicsr_rs2_run p (S (S (S (S n)))) w op o).
  - exact (zicsr_imm_run p (S (S (S (S n)))) w op o).
  - exact (zifencei_opcode_run p (S (S (S (S n)))) w o).
  - exact (zifencei_rd_run p (S (S (S (S n)))) w op o).
  - exact (zifencei_rs1_run p (S (S (S (S n)))) w op o).
  - exact (zifencei_rs2_run p (S (S (S (S n)))) w op o).
  - exact (zifencei_imm_run p (S (S (S (S n)))) w op o).
  - exact (zicfiss_opcode_run p (S (S (S (S n)))) w o).
  - exact (zicfiss_rd_run p (S (S (S (S n)))) w op o).
  - exact (zicfiss_rs1_run p (S (S (S (S n)))) w op o).
  - exact (zicfiss_rs2_run p (S (S (S (S n)))) w op o).
  - exact (zicfiss_imm_run p (S (S (S (S n)))) w op o).
  - exact (zicboz_opcode_run p (S (S (S (S n)))) w o).
  - exact (zicboz_rd_run p (S (S (S (S n)))) w op o).
  - exact (zicboz_rs1_run p (S (S (S (S n)))) w op o).
  - exact (zicboz_rs2_run p (S (S (S (S n)))) w op o).
  - exact (zicboz_imm_run p (S (S (S (S n)))) w op o).
  - exact (zicntr_opcode_run p (S (S (S (S n)))) w o).
  - exact (zicntr_rd_run p (S (S (S (S n)))) w op o).
  - exact (zicntr_rs1_run p (S (S (S (S n)))) w op o).
  - exact (zicntr_rs2_run p (S (S (S (S n)))) w op o).
  - exact (zicntr_imm_run p (S (S (S (S n)))) w op o).
  - exact (priv_opcode_run p (S (S (S (S n)))) w o).
  - exact (priv_rd_run p (S (S (S (S n)))) w op o).
  - exact (priv_rs1_run p (S (S (S (S n)))) w op o).
  - exact (priv_rs2_run p (S (S (S (S n)))) w op o).
  - exact (priv_imm_run p (S (S (S (S n)))) w op o).
  - exact (quadrant0_run p (S (S (S (S n)))) w m isa o).
  - exact (quadrant1_run p (S (S (S (S n)))) w m isa o).
  - exact (quadrant2_run p (S (S (S (S n)))) w m isa o).
  - exact (c_opcode_run p (S (S (S n))) w isa o).
  - exact (c_rd_run p (S (S (S (S n)))) w op o).
  - exact (c_rs1_run p (S (S (S (S n)))) w op o).
  - exact (c_rs2_run p (S (S (S (S n)))) w op o).
  - exact (c_imm_run p (S (S (S (S n)))) w op o).
  - exact (zicfiss16_opcode_run p (S (S (S (S n)))) w isa o).
  - exact (zicfiss16_rd_run p (S (S (S (S n)))) w op o).
  - exact (zicfiss16_rs1_run p (S (S (S (S n)))) w op o).
  - exact (zicfiss16_rs2_run p (S (S (S (S n)))) w op o).
  - exact (zicfiss16_imm_run p (S (S (S (S n)))) w op o).
  - exact (extension32_run p (S (S (S (S n)))) w o).
  - exact (extension16_run p (S (S (S (S n)))) w o).
  - exact (opcode32_run p (S (S (S n))) w isa o).
  - exact (opcode16_run p (S (S n)) w isa o).
  - exact (rd32_run p (S (S (S n))) w op o).
  - exact (rs132_run p (S (S (S n))) w op o).
  - exact (rs232_run p (S (S (S n))) w op o).
  - exact (imm32_run p (S (S (S n))) w op isa o).
  - exact (rd16_run p (S (S (S n))) w op o).
  - exact (rs116_run p (S (S (S n))) w op o).
  - exact (rs216_run p (S (S (S n))) w op o).
  - exact (imm16_run p (S (S (S n))) w op isa o).
  - exact (format_run p (S (S (S (S n)))) op o).
  - exact (decode32_run p (S (S n)) w isa o).
  - exact (decode16_run p (S n) w isa o).
  - exact (try_from_run p n w o).
  - exact (op_fmt_run p (S (S (S (S n)))) op o).
  - exact (reg2str_run p (S (S (S (S (S n))))) r o).
  - exact (fmt_run p (S (S (S n))) i o).
  - exact (basei_format_run p (S (S (S (S (S n))))) b o).
  - exact (basei_fmt_run p (S (S (S (S (S n))))) b o).
  - exact (m_format_run p (S (S (S (S (S n))))) b o).
  - exact (m_fmt_run p (S (S (S (S (S n))))) b o).
  - exact (a_format_run p (S (S (S (S (S n))))) b o).
  - exact (a_fmt_run p (S (S (S (S (S n))))) b o).
  - exact (c_format_run p (S (S (S (S (S n))))) b o).
  - exact (c_fmt_run p (S (S (S (S (S n))))) b o).
  - exact (zifencei_format_run p (S (S (S (S (S n))))) b o).
  - exact (zifencei_fmt_run p (S (S (S (S (S n))))) b o).
  - exact (zicboz_format_run p (S (S (S (S (S n))))) b o).
  - exact (zicboz_fmt_run p (S (S (S (S (S n))))) b o).
  - exact (zicsr_format_run p (S (S (S (S (S n))))) b o).
  - exact (zicsr_fmt_run p (S (S (S (S (S n))))) b o).
  - exact (zicfiss_format_run p (S (S (S (S (S n))))) b o).
  - exact (zicfiss_fmt_run p (S (S (S (S (S n))))) b o).
  - exact (zicntr_format_run p (S (S (S (S (S n))))) b o).
  - exact (zicntr_fmt_run p (S (S (S (S (S n))))) b o).
  - exact (priv_format_run p (S (S (S (S (S n))))) b o).
  - exact (priv_fmt_run p (S (S (S (S (S n))))) b o).
Qed.
