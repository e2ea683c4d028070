(** Data types of the crate: target ISA, opcodes, formats, the decoded instruction,
    the decoding errors, and [get_format].
    Constructor names carry a prefix per Rust enum ([BaseIOpcode::LW] is [I_LW],
    [COpcode::LW] is [C_LW]); otherwise the enums are copied as they are. *)
From Coq Require Import ZArith List.
Local Open Scope Z_scope.

(** src/lib.rs:43-48 *)
Inductive Isa := Rv32 | Rv64.

(** src/lib.rs:52-73 (private enum) *)
Inductive Extensions :=
| EBaseI | EM | EA | EC | EZifencei | EZicboz | EZicsr | EZicfiss | EZicntr | EPriv.

(** src/instruction/base_i.rs:9-63 *)
Inductive BaseIOpcode :=
| I_LUI | I_AUIPC | I_JAL | I_JALR | I_BEQ | I_BNE | I_BLT | I_BGE | I_BLTU | I_BGEU
| I_LB | I_LH | I_LW | I_LBU | I_LHU | I_SB | I_SH | I_SW | I_ADDI | I_SLTI | I_SLTIU
| I_XORI | I_ORI | I_ANDI | I_SLLI | I_SRLI | I_SRAI | I_ADD | I_SUB | I_SLL | I_SLT
| I_SLTU | I_XOR | I_SRL | I_SRA | I_OR | I_AND | I_ECALL | I_EBREAK | I_LWU | I_LD
| I_SD | I_ADDIW | I_SLLIW | I_SRLIW | I_SRAIW | I_ADDW | I_SUBW | I_SLLW | I_SRLW
| I_SRAW.

(** src/instruction/m_extension.rs:9-25 *)
Inductive MOpcode :=
| M_MUL | M_MULH | M_MULHSU | M_MULHU | M_DIV | M_DIVU | M_REM | M_REMU | M_MULW
| M_DIVW | M_DIVUW | M_REMW | M_REMUW.

(** src/instruction/a_extension.rs:9-34 *)
Inductive AOpcode :=
| A_LR_W | A_SC_W | A_AMOSWAP_W | A_AMOADD_W | A_AMOXOR_W | A_AMOAND_W | A_AMOOR_W
| A_AMOMIN_W | A_AMOMAX_W | A_AMOMINU_W | A_AMOMAXU_W | A_LR_D | A_SC_D | A_AMOSWAP_D
| A_AMOADD_D | A_AMOXOR_D | A_AMOAND_D | A_AMOOR_D | A_AMOMIN_D | A_AMOMAX_D
| A_AMOMINU_D | A_AMOMAXU_D.

(** src/instruction/c_extension.rs:9-46 *)
Inductive COpcode :=
| C_ADDI4SPN | C_LW | C_SW | C_NOP | C_ADDI | C_JAL | C_LI | C_ADDI16SP | C_LUI
| C_SRLI | C_SRAI | C_ANDI | C_SUB | C_XOR | C_OR | C_AND | C_J | C_BEQZ | C_BNEZ
| C_SLLI | C_LWSP | C_JR | C_MV | C_EBREAK | C_JALR | C_ADD | C_SWSP | C_LD | C_SD
| C_ADDIW | C_SUBW | C_ADDW | C_LDSP | C_SDSP.

(** src/instruction/zifencei_extension.rs:9-11 *)
Inductive ZifenceiOpcode :=
| Fe_FENCE.

(** src/instruction/zicboz_extension.rs:11-13 *)
Inductive ZicbozOpcode :=
| Cbo_CBO_ZERO.

(** src/instruction/zicsr_extension.rs:9-16 *)
Inductive ZicsrOpcode :=
| Csr_CSRRW | Csr_CSRRS | Csr_CSRRC | Csr_CSRRWI | Csr_CSRRSI | Csr_CSRRCI.

(** src/instruction/zicfiss_extension.rs:9-24 *)
Inductive ZicfissOpcode :=
| Ss_SSPUSH | Ss_C_SSPUSH | Ss_SSPOPCHK | Ss_C_SSPOPCHK | Ss_SSRDP | Ss_SSAMOSWAP_W
| Ss_SSAMOSWAP_D.

(** src/instruction/zicntr_extension.rs:9-21 *)
Inductive ZicntrOpcode :=
| Cnt_RDCYCLE_H | Cnt_RDTIME_H | Cnt_RDINSTRET_H | Cnt_RDCYCLE | Cnt_RDTIME
| Cnt_RDINSTRET.

(** src/instruction/priv_extension.rs:9-14 *)
Inductive PrivOpcode :=
| P_MRET | P_SRET | P_WFI | P_SFENCE_VMA.

(** src/instruction.rs:269-429 *)
Inductive InstFormat :=
| RFormat | RShamtFormat | IFormat | SFormat | BFormat | UFormat | JFormat
| CrFormat | CiFormat | CssFormat | CiwFormat | ClFormat | CsFormat | CaFormat
| CbFormat | CjFormat | CsrFormat | CsrUiFormat | MFormat | AFormat | ALrFormat
| NoOperand | OnlyRd | OnlyRs1 | OnlyRs2.

(** src/instruction.rs:440-461 *)
Inductive OpcodeKind :=
| OBaseI (o : BaseIOpcode)
| OM (o : MOpcode)
| OA (o : AOpcode)
| OC (o : COpcode)
| OZifencei (o : ZifenceiOpcode)
| OZicboz (o : ZicbozOpcode)
| OZicsr (o : ZicsrOpcode)
| OZicfiss (o : ZicfissOpcode)
| OZicntr (o : ZicntrOpcode)
| OPriv (o : PrivOpcode).

(** src/instruction.rs:29-44.  The [Option<usize>] and [Option<i32>] fields are
    [option Z]. *)
Record Instruction := {
  opc : OpcodeKind;
  rd : option Z;
  rs1 : option Z;
  rs2 : option Z;
  imm : option Z;
  inst_format : InstFormat;
  is_compressed : bool
}.

(** src/decode.rs:47-68 *)
Inductive DecodingError :=
| Not16BitInst | Not32BitInst
| InvalidFunct3 | InvalidFunct5 | InvalidFunct6 | InvalidFunct7
| InvalidOpcode | UnknownExtension | IllegalInstruction | OnlyRv64Inst.

(** ** [Opcode::get_format] of each opcode enum *)

(** src/instruction/base_i.rs:124-174 *)
Definition BaseIOpcode_format (o : BaseIOpcode) : InstFormat :=
  match o with
  | I_BEQ | I_BNE | I_BLT | I_BGE | I_BLTU | I_BGEU => BFormat
  | I_JALR | I_LB | I_LH | I_LW | I_LBU | I_LHU | I_ADDI | I_SLTI | I_SLTIU
  | I_XORI | I_ORI | I_ANDI | I_LWU | I_LD | I_ADDIW => IFormat
  | I_SLLI | I_SRLI | I_SRAI | I_SLLIW | I_SRLIW | I_SRAIW => RShamtFormat
  | I_ADD | I_SUB | I_SLL | I_SLT | I_SLTU | I_XOR | I_SRL | I_SRA | I_OR | I_AND
  | I_ADDW | I_SUBW | I_SLLW | I_SRLW | I_SRAW => RFormat
  | I_SB | I_SH | I_SW | I_SD => SFormat
  | I_JAL => JFormat
  | I_LUI | I_AUIPC => UFormat
  | I_ECALL | I_EBREAK => NoOperand
  end.

(** src/instruction/m_extension.rs:48-63 *)
Definition MOpcode_format (o : MOpcode) : InstFormat :=
  match o with
  | M_MUL | M_MULH | M_MULHSU | M_MULHU | M_DIV | M_DIVU | M_REM | M_REMU | M_MULW
  | M_DIVW | M_DIVUW | M_REMW | M_REMUW => MFormat
  end.

(** src/instruction/a_extension.rs:66-90 *)
Definition AOpcode_format (o : AOpcode) : InstFormat :=
  match o with
  | A_LR_W => ALrFormat
  | A_SC_W | A_AMOSWAP_W | A_AMOADD_W | A_AMOXOR_W | A_AMOAND_W | A_AMOOR_W
  | A_AMOMIN_W | A_AMOMAX_W | A_AMOMINU_W | A_AMOMAXU_W | A_LR_D | A_SC_D
  | A_AMOSWAP_D | A_AMOADD_D | A_AMOXOR_D | A_AMOAND_D | A_AMOOR_D | A_AMOMIN_D
  | A_AMOMAX_D | A_AMOMINU_D | A_AMOMAXU_D => AFormat
  end.

(** src/instruction/c_extension.rs:91-119 *)
Definition COpcode_format (o : COpcode) : InstFormat :=
  match o with
  | C_LW | C_LD => ClFormat
  | C_ADDI4SPN => CiwFormat
  | C_SW | C_SD => CsFormat
  | C_JAL | C_J => CjFormat
  | C_BEQZ | C_ANDI | C_SRLI | C_SRAI | C_BNEZ => CbFormat
  | C_LI | C_ADDI | C_ADDIW | C_ADDI16SP | C_LUI => CiFormat
  | C_NOP => NoOperand
  | C_SUB | C_XOR | C_OR | C_AND | C_SUBW | C_ADDW => CaFormat
  | C_LDSP | C_SLLI | C_LWSP => CiFormat
  | C_SDSP | C_SWSP => CssFormat
  | C_JR | C_JALR | C_MV | C_ADD => CrFormat
  | C_EBREAK => NoOperand
  end.

(** src/instruction/zifencei_extension.rs:22-25 *)
Definition ZifenceiOpcode_format (o : ZifenceiOpcode) : InstFormat :=
  match o with
  | Fe_FENCE => NoOperand
  end.

(** src/instruction/zicboz_extension.rs:24-27 *)
Definition ZicbozOpcode_format (o : ZicbozOpcode) : InstFormat :=
  match o with
  | Cbo_CBO_ZERO => OnlyRs1
  end.

(** src/instruction/zicsr_extension.rs:32-38 *)
Definition ZicsrOpcode_format (o : ZicsrOpcode) : InstFormat :=
  match o with
  | Csr_CSRRW | Csr_CSRRS | Csr_CSRRC => CsrFormat
  | Csr_CSRRWI | Csr_CSRRSI | Csr_CSRRCI => CsrUiFormat
  end.

(** src/instruction/zicfiss_extension.rs:41-48 *)
Definition ZicfissOpcode_format (o : ZicfissOpcode) : InstFormat :=
  match o with
  | Ss_SSPUSH => OnlyRs1
  | Ss_SSPOPCHK => OnlyRs2
  | Ss_SSRDP => OnlyRd
  | Ss_SSAMOSWAP_W | Ss_SSAMOSWAP_D => AFormat
  | Ss_C_SSPUSH | Ss_C_SSPOPCHK => NoOperand
  end.

(** src/instruction/zicntr_extension.rs:37-45 *)
Definition ZicntrOpcode_format (o : ZicntrOpcode) : InstFormat :=
  match o with
  | Cnt_RDCYCLE_H | Cnt_RDTIME_H | Cnt_RDINSTRET_H | Cnt_RDCYCLE | Cnt_RDTIME
  | Cnt_RDINSTRET => OnlyRd
  end.

(** src/instruction/priv_extension.rs:28-32 *)
Definition PrivOpcode_format (o : PrivOpcode) : InstFormat :=
  match o with
  | P_SRET | P_MRET | P_WFI => NoOperand
  | P_SFENCE_VMA => RFormat
  end.

(** src/instruction.rs:482-495 *)
Definition get_format (k : OpcodeKind) : InstFormat :=
  match k with
  | OBaseI o => BaseIOpcode_format o
  | OM o => MOpcode_format o
  | OA o => AOpcode_format o
  | OC o => COpcode_format o
  | OZifencei o => ZifenceiOpcode_format o
  | OZicboz o => ZicbozOpcode_format o
  | OZicsr o => ZicsrOpcode_format o
  | OZicfiss o => ZicfissOpcode_format o
  | OZicntr o => ZicntrOpcode_format o
  | OPriv o => PrivOpcode_format o
  end.
