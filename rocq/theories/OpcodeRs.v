(** src/instruction/opcode.rs.  No [mod] declaration names this file, so it is not compiled; it belongs to an
    earlier version of the crate, in which [OpcodeKind] was one flat enum.  Modelled for comparison with the
    compiled code (C59).  The two enums themselves are no longer in the source: their constructors are the names
    used in the three functions. *)
From Coq Require Import String.
From Verif Require Import Types.
Local Open Scope string_scope.

(** The names after [OpcodeKind::], src/instruction/opcode.rs:290-421 *)
Inductive FlatOpcode :=
| F_LUI | F_AUIPC | F_JAL | F_JALR | F_BEQ | F_BNE | F_BLT | F_BGE | F_BLTU | F_BGEU | F_LB | F_LH | F_LW
| F_LBU | F_LHU | F_SB | F_SH | F_SW | F_ADDI | F_SLTI | F_SLTIU | F_XORI | F_ORI | F_ANDI | F_SLLI
| F_SRLI | F_SRAI | F_ADD | F_SUB | F_SLL | F_SLT | F_SLTU | F_XOR | F_SRL | F_SRA | F_OR | F_AND
| F_FENCE | F_ECALL | F_EBREAK | F_LWU | F_LD | F_SD | F_ADDIW | F_SLLIW | F_SRLIW | F_SRAIW | F_ADDW
| F_SUBW | F_SLLW | F_SRLW | F_SRAW | F_CSRRW | F_CSRRS | F_CSRRC | F_CSRRWI | F_CSRRSI | F_CSRRCI
| F_SRET | F_MRET | F_WFI | F_SFENCE_VMA | F_MUL | F_MULH | F_MULHSU | F_MULHU | F_DIV | F_DIVU | F_REM
| F_REMU | F_MULW | F_DIVW | F_DIVUW | F_REMW | F_REMUW | F_LR_W | F_SC_W | F_AMOSWAP_W | F_AMOADD_W
| F_AMOXOR_W | F_AMOAND_W | F_AMOOR_W | F_AMOMIN_W | F_AMOMAX_W | F_AMOMINU_W | F_AMOMAXU_W | F_LR_D
| F_SC_D | F_AMOSWAP_D | F_AMOADD_D | F_AMOXOR_D | F_AMOAND_D | F_AMOOR_D | F_AMOMIN_D | F_AMOMAX_D
| F_AMOMINU_D | F_AMOMAXU_D | F_C_ADDI4SPN | F_C_LW | F_C_SW | F_C_NOP | F_C_ADDI | F_C_JAL | F_C_LI
| F_C_ADDI16SP | F_C_LUI | F_C_SRLI | F_C_SRAI | F_C_ANDI | F_C_SUB | F_C_XOR | F_C_OR | F_C_AND | F_C_J
| F_C_BEQZ | F_C_BNEZ | F_C_SLLI | F_C_LWSP | F_C_JR | F_C_MV | F_C_EBREAK | F_C_JALR | F_C_ADD
| F_C_SWSP | F_C_LD | F_C_SD | F_C_ADDIW | F_C_SUBW | F_C_ADDW | F_C_LDSP | F_C_SDSP.

(** The names after [InstFormat::], src/instruction/opcode.rs:6-137 *)
Inductive FlatFormat :=
| Old_Bformat | Old_Iformat | Old_R_SHAMTformat | Old_Rformat | Old_Sformat | Old_Jformat | Old_Uformat
| Old_NoOperand | Old_CSRformat | Old_CSRuiformat | Old_Mformat | Old_A_LRformat | Old_Aformat
| Old_CLformat | Old_CIWformat | Old_CSformat | Old_CJformat | Old_CBformat | Old_CIformat | Old_CAformat
| Old_CSSformat | Old_CRformat.

(** src/instruction/opcode.rs:6-137 *)
Definition flat_get_format (self : FlatOpcode) : FlatFormat :=
  match self with
  | F_BEQ | F_BNE | F_BLT | F_BGE | F_BLTU | F_BGEU => Old_Bformat
  | F_JALR | F_LB | F_LH | F_LW | F_LBU | F_LHU | F_ADDI | F_SLTI | F_SLTIU | F_XORI | F_ORI
  | F_ANDI | F_LWU | F_LD | F_ADDIW => Old_Iformat
  | F_SLLI | F_SRLI | F_SRAI | F_SLLIW | F_SRLIW | F_SRAIW => Old_R_SHAMTformat
  | F_ADD | F_SUB | F_SLL | F_SLT | F_SLTU | F_XOR | F_SRL | F_SRA | F_OR | F_AND | F_ADDW
  | F_SUBW | F_SLLW | F_SRLW | F_SRAW => Old_Rformat
  | F_SB | F_SH | F_SW | F_SD => Old_Sformat
  | F_JAL => Old_Jformat
  | F_LUI | F_AUIPC => Old_Uformat
  | F_ECALL | F_FENCE | F_EBREAK => Old_NoOperand
  | F_CSRRW | F_CSRRS | F_CSRRC => Old_CSRformat
  | F_CSRRWI | F_CSRRSI | F_CSRRCI => Old_CSRuiformat
  | F_SRET | F_MRET | F_WFI => Old_NoOperand
  | F_SFENCE_VMA => Old_Rformat
  | F_MUL | F_MULH | F_MULHSU | F_MULHU | F_DIV | F_DIVU | F_REM | F_REMU | F_MULW | F_DIVW
  | F_DIVUW | F_REMW | F_REMUW => Old_Mformat
  | F_LR_W => Old_A_LRformat
  | F_SC_W | F_AMOSWAP_W | F_AMOADD_W | F_AMOXOR_W | F_AMOAND_W | F_AMOOR_W | F_AMOMIN_W
  | F_AMOMAX_W | F_AMOMINU_W | F_AMOMAXU_W | F_LR_D | F_SC_D | F_AMOSWAP_D | F_AMOADD_D
  | F_AMOXOR_D | F_AMOAND_D | F_AMOOR_D | F_AMOMIN_D | F_AMOMAX_D | F_AMOMINU_D | F_AMOMAXU_D => Old_Aformat
  | F_C_LW | F_C_LD => Old_CLformat
  | F_C_ADDI4SPN => Old_CIWformat
  | F_C_SW | F_C_SD => Old_CSformat
  | F_C_JAL | F_C_J => Old_CJformat
  | F_C_BEQZ | F_C_ANDI | F_C_SRLI | F_C_SRAI | F_C_BNEZ => Old_CBformat
  | F_C_LI | F_C_ADDI | F_C_ADDIW | F_C_ADDI16SP | F_C_LUI => Old_CIformat
  | F_C_NOP => Old_NoOperand
  | F_C_SUB | F_C_XOR | F_C_OR | F_C_AND | F_C_SUBW | F_C_ADDW => Old_CAformat
  | F_C_LDSP | F_C_SLLI | F_C_LWSP => Old_CIformat
  | F_C_SDSP | F_C_SWSP => Old_CSSformat
  | F_C_JR | F_C_JALR | F_C_MV | F_C_ADD => Old_CRformat
  | F_C_EBREAK => Old_NoOperand
  end.

(** src/instruction/opcode.rs:141-285 *)
Definition flat_get_extension (self : FlatOpcode) : Extensions :=
  match self with
  | F_LUI | F_AUIPC | F_JAL | F_JALR | F_BEQ | F_BNE | F_BLT | F_BGE | F_BLTU | F_BGEU | F_LB
  | F_LH | F_LW | F_LBU | F_LHU | F_SB | F_SH | F_SW | F_ADDI | F_SLTI | F_SLTIU | F_XORI | F_ORI
  | F_ANDI | F_SLLI | F_SRLI | F_SRAI | F_ADD | F_SUB | F_SLL | F_SLT | F_SLTU | F_XOR | F_SRL
  | F_SRA | F_OR | F_AND | F_FENCE | F_ECALL | F_EBREAK | F_LWU | F_LD | F_SD | F_ADDIW | F_SLLIW
  | F_SRLIW | F_SRAIW | F_ADDW | F_SUBW | F_SLLW | F_SRLW | F_SRAW => EBaseI
  | F_CSRRW | F_CSRRS | F_CSRRC | F_CSRRWI | F_CSRRSI | F_CSRRCI => EZicsr
  | F_SRET | F_MRET | F_WFI | F_SFENCE_VMA => EPriv
  | F_MUL | F_MULH | F_MULHSU | F_MULHU | F_DIV | F_DIVU | F_REM | F_REMU | F_MULW | F_DIVW
  | F_DIVUW | F_REMW | F_REMUW => EM
  | F_LR_W | F_SC_W | F_AMOSWAP_W | F_AMOADD_W | F_AMOXOR_W | F_AMOAND_W | F_AMOOR_W | F_AMOMIN_W
  | F_AMOMAX_W | F_AMOMINU_W | F_AMOMAXU_W | F_LR_D | F_SC_D | F_AMOSWAP_D | F_AMOADD_D
  | F_AMOXOR_D | F_AMOAND_D | F_AMOOR_D | F_AMOMIN_D | F_AMOMAX_D | F_AMOMINU_D | F_AMOMAXU_D => EA
  | F_C_ADDI4SPN | F_C_LW | F_C_SW | F_C_NOP | F_C_ADDI | F_C_JAL | F_C_LI | F_C_ADDI16SP
  | F_C_LUI | F_C_SRLI | F_C_SRAI | F_C_ANDI | F_C_SUB | F_C_XOR | F_C_OR | F_C_AND | F_C_J
  | F_C_BEQZ | F_C_BNEZ | F_C_SLLI | F_C_LWSP | F_C_JR | F_C_MV | F_C_EBREAK | F_C_JALR | F_C_ADD
  | F_C_SWSP | F_C_LD | F_C_SD | F_C_ADDIW | F_C_SUBW | F_C_ADDW | F_C_LDSP | F_C_SDSP => EC
  end.

(** src/instruction/opcode.rs:289-422 *)
Definition flat_to_string (self : FlatOpcode) : string :=
  match self with
  | F_LUI => "lui"
  | F_AUIPC => "auipc"
  | F_JAL => "jal"
  | F_JALR => "jalr"
  | F_BEQ => "beq"
  | F_BNE => "bne"
  | F_BLT => "blt"
  | F_BGE => "bge"
  | F_BLTU => "bltu"
  | F_BGEU => "bgeu"
  | F_LB => "lb"
  | F_LH => "lh"
  | F_LW => "lw"
  | F_LBU => "lbu"
  | F_LHU => "lhu"
  | F_SB => "sb"
  | F_SH => "sh"
  | F_SW => "sw"
  | F_ADDI => "addi"
  | F_SLTI => "slti"
  | F_SLTIU => "sltiu"
  | F_XORI => "xori"
  | F_ORI => "ori"
  | F_ANDI => "andi"
  | F_SLLI => "slli"
  | F_SRLI => "srli"
  | F_SRAI => "srai"
  | F_ADD => "add"
  | F_SUB => "sub"
  | F_SLL => "sll"
  | F_SLT => "slt"
  | F_SLTU => "sltu"
  | F_XOR => "xor"
  | F_SRL => "srl"
  | F_SRA => "sra"
  | F_OR => "or"
  | F_AND => "and"
  | F_FENCE => "fence"
  | F_ECALL => "ecall"
  | F_EBREAK => "ebreak"
  | F_LWU => "lwu"
  | F_LD => "ld"
  | F_SD => "sd"
  | F_ADDIW => "addiw"
  | F_SLLIW => "slliw"
  | F_SRLIW => "srliw"
  | F_SRAIW => "sraiw"
  | F_ADDW => "addw"
  | F_SUBW => "subw"
  | F_SLLW => "sllw"
  | F_SRLW => "srlw"
  | F_SRAW => "sraw"
  | F_CSRRW => "csrrw"
  | F_CSRRS => "csrrs"
  | F_CSRRC => "csrrc"
  | F_CSRRWI => "csrrwi"
  | F_CSRRSI => "csrrsi"
  | F_CSRRCI => "csrrci"
  | F_SRET => "sret"
  | F_MRET => "mret"
  | F_WFI => "wfi"
  | F_SFENCE_VMA => "sfence.vma"
  | F_MUL => "mul"
  | F_MULH => "mulh"
  | F_MULHSU => "mulhsu"
  | F_MULHU => "mulhu"
  | F_DIV => "div"
  | F_DIVU => "divu"
  | F_REM => "rem"
  | F_REMU => "remu"
  | F_MULW => "mulw"
  | F_DIVW => "divw"
  | F_DIVUW => "divuw"
  | F_REMW => "remw"
  | F_REMUW => "remuw"
  | F_LR_W => "lr.w"
  | F_SC_W => "sc.w"
  | F_AMOSWAP_W => "amoswap.w"
  | F_AMOADD_W => "amoadd.w"
  | F_AMOXOR_W => "amoxor.w"
  | F_AMOAND_W => "amoand.w"
  | F_AMOOR_W => "amoor.w"
  | F_AMOMIN_W => "amomin.w"
  | F_AMOMAX_W => "amomax.w"
  | F_AMOMINU_W => "amominu.w"
  | F_AMOMAXU_W => "amomaxu.w"
  | F_LR_D => "lr.d"
  | F_SC_D => "sc.d"
  | F_AMOSWAP_D => "amoswap.d"
  | F_AMOADD_D => "amoadd.d"
  | F_AMOXOR_D => "amoxor.d"
  | F_AMOAND_D => "amoand.d"
  | F_AMOOR_D => "amoor.d"
  | F_AMOMIN_D => "amomin.d"
  | F_AMOMAX_D => "amomax.d"
  | F_AMOMINU_D => "amominu.d"
  | F_AMOMAXU_D => "amomaxu.d"
  | F_C_ADDI4SPN => "C.addi4spn"
  | F_C_LW => "C.lw"
  | F_C_SW => "C.sw"
  | F_C_NOP => "C.nop"
  | F_C_ADDI => "C.addi"
  | F_C_JAL => "C.jal"
  | F_C_LI => "C.li"
  | F_C_ADDI16SP => "C.addi16sp"
  | F_C_LUI => "C.lui"
  | F_C_SRLI => "C.srli"
  | F_C_SRAI => "C.srai"
  | F_C_ANDI => "C.andi"
  | F_C_SUB => "C.sub"
  | F_C_XOR => "C.xor"
  | F_C_OR => "C.or"
  | F_C_AND => "C.and"
  | F_C_J => "C.j"
  | F_C_BEQZ => "C.beqz"
  | F_C_BNEZ => "C.bnez"
  | F_C_SLLI => "C.slli"
  | F_C_LWSP => "C.lwsp"
  | F_C_JR => "C.jr"
  | F_C_MV => "C.mv"
  | F_C_EBREAK => "C.ebreak"
  | F_C_JALR => "C.jalr"
  | F_C_ADD => "C.add"
  | F_C_SWSP => "C.swsp"
  | F_C_LD => "C.ld"
  | F_C_SD => "C.sd"
  | F_C_ADDIW => "C.addiw"
  | F_C_SUBW => "C.subw"
  | F_C_ADDW => "C.addw"
  | F_C_LDSP => "C.ldsp"
  | F_C_SDSP => "C.sdsp"
  end.
