(** The unit tests found in /repo/src, replayed on the model: a check of the translation
    (the tests pass on the real code), not a claim about all inputs.
    Each line is (isa, word, opcode, rd, rs1, rs2, imm) of one [test_32]/[test_16] call. *)
From Coq Require Import ZArith List Bool String.
From Verif Require Import Rust Types DecodeUtil Dec32 Dec16 Decode Fmt.
Import ListNotations.
Local Open Scope Z_scope.

Definition debug64 : platform := {| overflow_checks := true; usize_bits := 64 |}.

Definition vector : Type := Isa * Z * OpcodeKind * option Z * option Z * option Z * option Z.

Definition run (dec : platform -> Z -> Isa -> outcome (result Instruction DecodingError))
  (v : vector) :=
  let '(isa, w, _, _, _, _, _) := v in
  match dec debug64 w isa with
  | Ret (Ok i) => Some (isa, w, opc i, rd i, rs1 i, rs2 i, imm i)
  | _ => None
  end.

Definition vectors_32 : list vector := [
  (Rv64, 0x4d727af, OA A_AMOADD_W, Some (15), Some (14), Some (13), Some (2)); (* src/decode/a_extension.rs:177 *)
  (Rv64, 0x1007b62f, OA A_LR_D, Some (12), Some (15), None, Some (0)); (* src/decode/a_extension.rs:185 *)
  (Rv64, 0x60f6302f, OA A_AMOAND_D, Some (0), Some (12), Some (15), Some (0)); (* src/decode/a_extension.rs:193 *)
  (Rv64, 0xfdead737, OBaseI I_LUI, Some (14), None, None, Some (1040045)); (* src/decode/base_i.rs:350 *)
  (Rv64, 0x1597, OBaseI I_AUIPC, Some (11), None, None, Some (1)); (* src/decode/base_i.rs:358 *)
  (Rv64, 0x13f9517, OBaseI I_AUIPC, Some (10), None, None, Some (5113)); (* src/decode/base_i.rs:366 *)
  (Rv64, 0x9bc097, OBaseI I_AUIPC, Some (1), None, None, Some (2492)); (* src/decode/base_i.rs:374 *)
  (Rv64, 0x9d3ff0ef, OBaseI I_JAL, Some (1), None, None, Some (-1582)); (* src/decode/base_i.rs:382 *)
  (Rv64, 0x2e78263, OBaseI I_BEQ, None, Some (15), Some (14), Some (36)); (* src/decode/base_i.rs:390 *)
  (Rv64, 0xfe208ea3, OBaseI I_SB, None, Some (1), Some (2), Some (-3)); (* src/decode/base_i.rs:398 *)
  (Rv64, 0xeec28293, OBaseI I_ADDI, Some (5), Some (5), None, Some (-276)); (* src/decode/base_i.rs:406 *)
  (Rv64, 0x73, OBaseI I_ECALL, None, None, None, None); (* src/decode/base_i.rs:414 *)
  (Rv64, 0x54c63, OBaseI I_BLT, None, Some (10), Some (0), Some (24)); (* src/decode/base_i.rs:422 *)
  (Rv64, 0x100513, OBaseI I_ADDI, Some (10), Some (0), None, Some (1)); (* src/decode/base_i.rs:430 *)
  (Rv64, 0x417004b3, OBaseI I_SUB, Some (9), Some (0), Some (23), None); (* src/decode/base_i.rs:438 *)
  (Rv64, 0x33073983, OBaseI I_LD, Some (19), Some (14), None, Some (816)); (* src/decode/base_i.rs:446 *)
  (Rv64, 0x10eceb63, OBaseI I_BLTU, None, Some (25), Some (14), Some (278)); (* src/decode/base_i.rs:454 *)
  (Rv64, 0x31e160ef, OBaseI I_JAL, Some (1), None, None, Some (90910)); (* src/decode/base_i.rs:462 *)
  (Rv64, 0x194913, OBaseI I_XORI, Some (18), Some (18), None, Some (1)); (* src/decode/base_i.rs:470 *)
  (Rv64, 0xa93933, OBaseI I_SLTU, Some (18), Some (18), Some (10), None); (* src/decode/base_i.rs:478 *)
  (Rv64, 0x2d706b3, OM M_MUL, Some (13), Some (14), Some (13), None); (* src/decode/m_extension.rs:113 *)
  (Rv64, 0x2897933, OM M_REMU, Some (18), Some (18), Some (8), None); (* src/decode/m_extension.rs:121 *)
  (Rv64, 0x2895933, OM M_DIVU, Some (18), Some (18), Some (8), None); (* src/decode/m_extension.rs:129 *)
  (Rv64, 0x10200073, OPriv P_SRET, None, None, None, None); (* src/decode/priv_extension.rs:60 *)
  (Rv64, 0x10500073, OPriv P_WFI, None, None, None, None); (* src/decode/priv_extension.rs:68 *)
  (Rv64, 0x4aa00f, OZicboz Cbo_CBO_ZERO, None, Some (21), None, None); (* src/decode/zicboz_extension.rs:60 *)
  (Rv64, 0x48200f, OZicboz Cbo_CBO_ZERO, None, Some (16), None, None); (* src/decode/zicboz_extension.rs:69 *)
  (Rv64, 0xce504073, OZicfiss Ss_SSPUSH, Some (0), Some (0), Some (5), None); (* src/decode/zicfiss_extension.rs:130 *)
  (Rv64, 0xce104073, OZicfiss Ss_SSPUSH, Some (0), Some (0), Some (1), None); (* src/decode/zicfiss_extension.rs:139 *)
  (Rv64, 0xcdc0c073, OZicfiss Ss_SSPOPCHK, Some (0), Some (1), None, None); (* src/decode/zicfiss_extension.rs:148 *)
  (Rv64, 0xcdc2c073, OZicfiss Ss_SSPOPCHK, Some (0), Some (5), None, None); (* src/decode/zicfiss_extension.rs:157 *)
  (Rv64, 0x48c2a1af, OZicfiss Ss_SSAMOSWAP_W, Some (3), Some (5), Some (12), None); (* src/decode/zicfiss_extension.rs:166 *)
  (Rv64, 0x48c731af, OZicfiss Ss_SSAMOSWAP_D, Some (3), Some (14), Some (12), None); (* src/decode/zicfiss_extension.rs:175 *)
  (Rv64, 0xcdc0c073, OZicfiss Ss_SSPOPCHK, Some (0), Some (1), None, None); (* src/decode/zicfiss_extension.rs:184 *)
  (Rv64, 0xc01027f3, OZicntr Cnt_RDTIME, Some (15), None, None, None); (* src/decode/zicntr_extension.rs:87 *)
  (Rv64, 0x10083073, OZicsr Csr_CSRRC, Some (0), Some (16), Some (256), None); (* src/decode/zicsr_extension.rs:81 *)
  (Rv64, 0x10082073, OZicsr Csr_CSRRS, Some (0), Some (16), Some (256), None); (* src/decode/zicsr_extension.rs:89 *)
  (Rv64, 0x10016073, OZicsr Csr_CSRRSI, Some (0), None, Some (256), Some (2)); (* src/decode/zicsr_extension.rs:97 *)
  (Rv64, 0x330000f, OZifencei Fe_FENCE, Some (0), Some (0), None, Some (51)) (* src/decode/zifencei_extension.rs:58 *)
].

Example vectors_32_pass : map (run decode_u32) vectors_32 = map Some vectors_32.
Proof. vm_compute. reflexivity. Qed.

Definition vectors_16 : list vector := [
  (Rv64, 0x1, OC C_NOP, None, None, None, Some (0)); (* src/decode/c_extension.rs:275 *)
  (Rv64, 0x6381, OC C_LUI, Some (7), None, None, Some (0)); (* src/decode/c_extension.rs:283 *)
  (Rv64, 0x82c1, OC C_SRLI, Some (13), Some (13), None, Some (16)); (* src/decode/c_extension.rs:291 *)
  (Rv64, 0x4521, OC C_LI, Some (10), None, None, Some (8)); (* src/decode/c_extension.rs:299 *)
  (Rv64, 0xb5e5, OC C_J, None, None, None, Some (-280)); (* src/decode/c_extension.rs:307 *)
  (Rv64, 0x6105, OC C_ADDI16SP, Some (2), Some (2), None, Some (32)); (* src/decode/c_extension.rs:315 *)
  (Rv64, 0x8082, OC C_JR, None, Some (1), Some (0), None); (* src/decode/c_extension.rs:323 *)
  (Rv64, 0xe29d, OC C_BNEZ, None, Some (13), None, Some (38)); (* src/decode/c_extension.rs:331 *)
  (Rv64, 0xc05c, OC C_SW, None, Some (8), Some (15), Some (4)); (* src/decode/c_extension.rs:339 *)
  (Rv64, 0x9002, OC C_EBREAK, None, None, None, None); (* src/decode/c_extension.rs:347 *)
  (Rv64, 0x880a, OC C_MV, Some (16), None, Some (2), None); (* src/decode/c_extension.rs:355 *)
  (Rv64, 0x8585, OC C_SRAI, Some (11), Some (11), None, Some (1)); (* src/decode/c_extension.rs:363 *)
  (Rv64, 0x6081, OZicfiss Ss_C_SSPUSH, Some (1), None, None, None); (* src/decode/zicfiss_extension.rs:213 *)
  (Rv64, 0x6281, OZicfiss Ss_C_SSPOPCHK, Some (5), None, None, None) (* src/decode/zicfiss_extension.rs:222 *)
].

Example vectors_16_pass : map (run decode_u16) vectors_16 = map Some vectors_16.
Proof. vm_compute. reflexivity. Qed.

(** src/lib.rs:97-108 and 110-121 *)
Example try_from_jal :
  try_from_usize debug64 0xff9ff06f =
  Ret (Ok {| opc := OBaseI I_JAL; rd := Some 0; rs1 := None; rs2 := None; imm := Some (-8);
             inst_format := JFormat; is_compressed := false |}).
Proof. vm_compute. reflexivity. Qed.

Example try_from_mv :
  try_from_usize debug64 0x880a =
  Ret (Ok {| opc := OC C_MV; rd := Some 16; rs1 := None; rs2 := Some 2; imm := None;
             inst_format := CrFormat; is_compressed := true |}).
Proof. vm_compute. reflexivity. Qed.

(** src/decode.rs:30-45 (documentation test) *)
Example doc_illegal : decode_u32 debug64 0 Rv64 = Ret (Err InvalidOpcode).
Proof. vm_compute. reflexivity. Qed.
Example doc_rv64 : decode_u32 debug64 0x20113423 Rv32 = Ret (Err OnlyRv64Inst).
Proof. vm_compute. reflexivity. Qed.

(** src/lib.rs:123-134 *)
Example try_from_not_mv :
  try_from_usize debug64 0x880b <>
  Ret (Ok {| opc := OC C_MV; rd := Some 16; rs1 := None; rs2 := Some 2; imm := None;
             inst_format := CrFormat; is_compressed := true |}).
Proof. vm_compute. discriminate. Qed.

(** src/lib.rs:11-26 and README.md (documentation test; the output is the one given in the comment) *)
Example doc_addi : exists i, decode_u32 debug64 0xeec28293 Rv32 = Ret (Ok i) /\ opc i = OBaseI I_ADDI /\
  Instruction_display i = Ret "addi t0, t0, -276"%string.
Proof. eexists. split; [vm_compute; reflexivity|]. split; vm_compute; reflexivity. Qed.
