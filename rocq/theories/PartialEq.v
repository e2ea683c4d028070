(** [#[derive(PartialEq)]]: the [==] of the public types.
    The derived code compares the discriminants (position in the declaration), then the
    payloads; for a struct it compares the fields in order with [&&]. *)
From Coq Require Import ZArith Bool.
From Verif Require Import Types.
Local Open Scope Z_scope.

(** src/instruction/base_i.rs:8 *)
Definition BaseIOpcode_discr (o : BaseIOpcode) : Z :=
  match o with
  | I_LUI => 0 | I_AUIPC => 1 | I_JAL => 2 | I_JALR => 3 | I_BEQ => 4 | I_BNE => 5
  | I_BLT => 6 | I_BGE => 7 | I_BLTU => 8 | I_BGEU => 9 | I_LB => 10 | I_LH => 11
  | I_LW => 12 | I_LBU => 13 | I_LHU => 14 | I_SB => 15 | I_SH => 16 | I_SW => 17
  | I_ADDI => 18 | I_SLTI => 19 | I_SLTIU => 20 | I_XORI => 21 | I_ORI => 22 | I_ANDI => 23
  | I_SLLI => 24 | I_SRLI => 25 | I_SRAI => 26 | I_ADD => 27 | I_SUB => 28 | I_SLL => 29
  | I_SLT => 30 | I_SLTU => 31 | I_XOR => 32 | I_SRL => 33 | I_SRA => 34 | I_OR => 35
  | I_AND => 36 | I_ECALL => 37 | I_EBREAK => 38 | I_LWU => 39 | I_LD => 40 | I_SD => 41
  | I_ADDIW => 42 | I_SLLIW => 43 | I_SRLIW => 44 | I_SRAIW => 45 | I_ADDW => 46
  | I_SUBW => 47 | I_SLLW => 48 | I_SRLW => 49 | I_SRAW => 50
  end.
Definition BaseIOpcode_eq (a b : BaseIOpcode) : bool := BaseIOpcode_discr a =? BaseIOpcode_discr b.

(** src/instruction/m_extension.rs:8 *)
Definition MOpcode_discr (o : MOpcode) : Z :=
  match o with
  | M_MUL => 0 | M_MULH => 1 | M_MULHSU => 2 | M_MULHU => 3 | M_DIV => 4 | M_DIVU => 5
  | M_REM => 6 | M_REMU => 7 | M_MULW => 8 | M_DIVW => 9 | M_DIVUW => 10 | M_REMW => 11
  | M_REMUW => 12
  end.
Definition MOpcode_eq (a b : MOpcode) : bool := MOpcode_discr a =? MOpcode_discr b.

(** src/instruction/a_extension.rs:8 *)
Definition AOpcode_discr (o : AOpcode) : Z :=
  match o with
  | A_LR_W => 0 | A_SC_W => 1 | A_AMOSWAP_W => 2 | A_AMOADD_W => 3 | A_AMOXOR_W => 4
  | A_AMOAND_W => 5 | A_AMOOR_W => 6 | A_AMOMIN_W => 7 | A_AMOMAX_W => 8 | A_AMOMINU_W => 9
  | A_AMOMAXU_W => 10 | A_LR_D => 11 | A_SC_D => 12 | A_AMOSWAP_D => 13 | A_AMOADD_D => 14
  | A_AMOXOR_D => 15 | A_AMOAND_D => 16 | A_AMOOR_D => 17 | A_AMOMIN_D => 18
  | A_AMOMAX_D => 19 | A_AMOMINU_D => 20 | A_AMOMAXU_D => 21
  end.
Definition AOpcode_eq (a b : AOpcode) : bool := AOpcode_discr a =? AOpcode_discr b.

(** src/instruction/c_extension.rs:8 *)
Definition COpcode_discr (o : COpcode) : Z :=
  match o with
  | C_ADDI4SPN => 0 | C_LW => 1 | C_SW => 2 | C_NOP => 3 | C_ADDI => 4 | C_JAL => 5
  | C_LI => 6 | C_ADDI16SP => 7 | C_LUI => 8 | C_SRLI => 9 | C_SRAI => 10 | C_ANDI => 11
  | C_SUB => 12 | C_XOR => 13 | C_OR => 14 | C_AND => 15 | C_J => 16 | C_BEQZ => 17
  | C_BNEZ => 18 | C_SLLI => 19 | C_LWSP => 20 | C_JR => 21 | C_MV => 22 | C_EBREAK => 23
  | C_JALR => 24 | C_ADD => 25 | C_SWSP => 26 | C_LD => 27 | C_SD => 28 | C_ADDIW => 29
  | C_SUBW => 30 | C_ADDW => 31 | C_LDSP => 32 | C_SDSP => 33
  end.
Definition COpcode_eq (a b : COpcode) : bool := COpcode_discr a =? COpcode_discr b.

(** src/instruction/zifencei_extension.rs:8 *)
Definition ZifenceiOpcode_discr (o : ZifenceiOpcode) : Z :=
  match o with
  | Fe_FENCE => 0
  end.
Definition ZifenceiOpcode_eq (a b : ZifenceiOpcode) : bool := ZifenceiOpcode_discr a =? ZifenceiOpcode_discr b.

(** src/instruction/zicboz_extension.rs:10 *)
Definition ZicbozOpcode_discr (o : ZicbozOpcode) : Z :=
  match o with
  | Cbo_CBO_ZERO => 0
  end.
Definition ZicbozOpcode_eq (a b : ZicbozOpcode) : bool := ZicbozOpcode_discr a =? ZicbozOpcode_discr b.

(** src/instruction/zicsr_extension.rs:8 *)
Definition ZicsrOpcode_discr (o : ZicsrOpcode) : Z :=
  match o with
  | Csr_CSRRW => 0 | Csr_CSRRS => 1 | Csr_CSRRC => 2 | Csr_CSRRWI => 3 | Csr_CSRRSI => 4
  | Csr_CSRRCI => 5
  end.
Definition ZicsrOpcode_eq (a b : ZicsrOpcode) : bool := ZicsrOpcode_discr a =? ZicsrOpcode_discr b.

(** src/instruction/zicfiss_extension.rs:8 *)
Definition ZicfissOpcode_discr (o : ZicfissOpcode) : Z :=
  match o with
  | Ss_SSPUSH => 0 | Ss_C_SSPUSH => 1 | Ss_SSPOPCHK => 2 | Ss_C_SSPOPCHK => 3
  | Ss_SSRDP => 4 | Ss_SSAMOSWAP_W => 5 | Ss_SSAMOSWAP_D => 6
  end.
Definition ZicfissOpcode_eq (a b : ZicfissOpcode) : bool := ZicfissOpcode_discr a =? ZicfissOpcode_discr b.

(** src/instruction/zicntr_extension.rs:8 *)
Definition ZicntrOpcode_discr (o : ZicntrOpcode) : Z :=
  match o with
  | Cnt_RDCYCLE_H => 0 | Cnt_RDTIME_H => 1 | Cnt_RDINSTRET_H => 2 | Cnt_RDCYCLE => 3
  | Cnt_RDTIME => 4 | Cnt_RDINSTRET => 5
  end.
Definition ZicntrOpcode_eq (a b : ZicntrOpcode) : bool := ZicntrOpcode_discr a =? ZicntrOpcode_discr b.

(** src/instruction/priv_extension.rs:8 *)
Definition PrivOpcode_discr (o : PrivOpcode) : Z :=
  match o with
  | P_MRET => 0 | P_SRET => 1 | P_WFI => 2 | P_SFENCE_VMA => 3
  end.
Definition PrivOpcode_eq (a b : PrivOpcode) : bool := PrivOpcode_discr a =? PrivOpcode_discr b.

(** src/instruction.rs:268 *)
Definition InstFormat_discr (o : InstFormat) : Z :=
  match o with
  | RFormat => 0 | RShamtFormat => 1 | IFormat => 2 | SFormat => 3 | BFormat => 4
  | UFormat => 5 | JFormat => 6 | CrFormat => 7 | CiFormat => 8 | CssFormat => 9
  | CiwFormat => 10 | ClFormat => 11 | CsFormat => 12 | CaFormat => 13 | CbFormat => 14
  | CjFormat => 15 | CsrFormat => 16 | CsrUiFormat => 17 | MFormat => 18 | AFormat => 19
  | ALrFormat => 20 | NoOperand => 21 | OnlyRd => 22 | OnlyRs1 => 23 | OnlyRs2 => 24
  end.
Definition InstFormat_eq (a b : InstFormat) : bool := InstFormat_discr a =? InstFormat_discr b.

(** src/decode.rs:46 *)
Definition DecodingError_discr (o : DecodingError) : Z :=
  match o with
  | Not16BitInst => 0 | Not32BitInst => 1 | InvalidFunct3 => 2 | InvalidFunct5 => 3
  | InvalidFunct6 => 4 | InvalidFunct7 => 5 | InvalidOpcode => 6 | UnknownExtension => 7
  | IllegalInstruction => 8 | OnlyRv64Inst => 9
  end.
Definition DecodingError_eq (a b : DecodingError) : bool := DecodingError_discr a =? DecodingError_discr b.

(** src/instruction.rs:439 *)
Definition OpcodeKind_eq (a b : OpcodeKind) : bool :=
  match a, b with
  | OBaseI x, OBaseI y => BaseIOpcode_eq x y
  | OM x, OM y => MOpcode_eq x y
  | OA x, OA y => AOpcode_eq x y
  | OC x, OC y => COpcode_eq x y
  | OZifencei x, OZifencei y => ZifenceiOpcode_eq x y
  | OZicboz x, OZicboz y => ZicbozOpcode_eq x y
  | OZicsr x, OZicsr y => ZicsrOpcode_eq x y
  | OZicfiss x, OZicfiss y => ZicfissOpcode_eq x y
  | OZicntr x, OZicntr y => ZicntrOpcode_eq x y
  | OPriv x, OPriv y => PrivOpcode_eq x y
  | _, _ => false
  end.

(** [Option<usize>], [Option<i32>]: [==] of core *)
Definition option_eq (a b : option Z) : bool :=
  match a, b with
  | Some x, Some y => x =? y
  | None, None => true
  | _, _ => false
  end.

(** src/instruction.rs:28-44 *)
Definition Instruction_eq (a b : Instruction) : bool :=
  OpcodeKind_eq (opc a) (opc b) && option_eq (rd a) (rd b) && option_eq (rs1 a) (rs1 b)
  && option_eq (rs2 a) (rs2 b) && option_eq (imm a) (imm b)
  && InstFormat_eq (inst_format a) (inst_format b)
  && Bool.eqb (is_compressed a) (is_compressed b).
