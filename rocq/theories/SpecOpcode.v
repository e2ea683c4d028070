(** The correspondence of names between the flat opcode enum of src/instruction/opcode.rs and the compiled enums. *)
From Verif Require Import Types OpcodeRs.

(** The opcode of the same name. *)
Definition compiled (f : FlatOpcode) : OpcodeKind :=
  match f with
  | F_LUI => OBaseI I_LUI
  | F_AUIPC => OBaseI I_AUIPC
  | F_JAL => OBaseI I_JAL
  | F_JALR => OBaseI I_JALR
  | F_BEQ => OBaseI I_BEQ
  | F_BNE => OBaseI I_BNE
  | F_BLT => OBaseI I_BLT
  | F_BGE => OBaseI I_BGE
  | F_BLTU => OBaseI I_BLTU
  | F_BGEU => OBaseI I_BGEU
  | F_LB => OBaseI I_LB
  | F_LH => OBaseI I_LH
  | F_LW => OBaseI I_LW
  | F_LBU => OBaseI I_LBU
  | F_LHU => OBaseI I_LHU
  | F_SB => OBaseI I_SB
  | F_SH => OBaseI I_SH
  | F_SW => OBaseI I_SW
  | F_ADDI => OBaseI I_ADDI
  | F_SLTI => OBaseI I_SLTI
  | F_SLTIU => OBaseI I_SLTIU
  | F_XORI => OBaseI I_XORI
  | F_ORI => OBaseI I_ORI
  | F_ANDI => OBaseI I_ANDI
  | F_SLLI => OBaseI I_SLLI
  | F_SRLI => OBaseI I_SRLI
  | F_SRAI => OBaseI I_SRAI
  | F_ADD => OBaseI I_ADD
  | F_SUB => OBaseI I_SUB
  | F_SLL => OBaseI I_SLL
  | F_SLT => OBaseI I_SLT
  | F_SLTU => OBaseI I_SLTU
  | F_XOR => OBaseI I_XOR
  | F_SRL => OBaseI I_SRL
  | F_SRA => OBaseI I_SRA
  | F_OR => OBaseI I_OR
  | F_AND => OBaseI I_AND
  | F_FENCE => OZifencei Fe_FENCE
  | F_ECALL => OBaseI I_ECALL
  | F_EBREAK => OBaseI I_EBREAK
  | F_LWU => OBaseI I_LWU
  | F_LD => OBaseI I_LD
  | F_SD => OBaseI I_SD
  | F_ADDIW => OBaseI I_ADDIW
  | F_SLLIW => OBaseI I_SLLIW
  | F_SRLIW => OBaseI I_SRLIW
  | F_SRAIW => OBaseI I_SRAIW
  | F_ADDW => OBaseI I_ADDW
  | F_SUBW => OBaseI I_SUBW
  | F_SLLW => OBaseI I_SLLW
  | F_SRLW => OBaseI I_SRLW
  | F_SRAW => OBaseI I_SRAW
  | F_CSRRW => OZicsr Csr_CSRRW
  | F_CSRRS => OZicsr Csr_CSRRS
  | F_CSRRC => OZicsr Csr_CSRRC
  | F_CSRRWI => OZicsr Csr_CSRRWI
  | F_CSRRSI => OZicsr Csr_CSRRSI
  | F_CSRRCI => OZicsr Csr_CSRRCI
  | F_SRET => OPriv P_SRET
  | F_MRET => OPriv P_MRET
  | F_WFI => OPriv P_WFI
  | F_SFENCE_VMA => OPriv P_SFENCE_VMA
  | F_MUL => OM M_MUL
  | F_MULH => OM M_MULH
  | F_MULHSU => OM M_MULHSU
  | F_MULHU => OM M_MULHU
  | F_DIV => OM M_DIV
  | F_DIVU => OM M_DIVU
  | F_REM => OM M_REM
  | F_REMU => OM M_REMU
  | F_MULW => OM M_MULW
  | F_DIVW => OM M_DIVW
  | F_DIVUW => OM M_DIVUW
  | F_REMW => OM M_REMW
  | F_REMUW => OM M_REMUW
  | F_LR_W => OA A_LR_W
  | F_SC_W => OA A_SC_W
  | F_AMOSWAP_W => OA A_AMOSWAP_W
  | F_AMOADD_W => OA A_AMOADD_W
  | F_AMOXOR_W => OA A_AMOXOR_W
  | F_AMOAND_W => OA A_AMOAND_W
  | F_AMOOR_W => OA A_AMOOR_W
  | F_AMOMIN_W => OA A_AMOMIN_W
  | F_AMOMAX_W => OA A_AMOMAX_W
  | F_AMOMINU_W => OA A_AMOMINU_W
  | F_AMOMAXU_W => OA A_AMOMAXU_W
  | F_LR_D => OA A_LR_D
  | F_SC_D => OA A_SC_D
  | F_AMOSWAP_D => OA A_AMOSWAP_D
  | F_AMOADD_D => OA A_AMOADD_D
  | F_AMOXOR_D => OA A_AMOXOR_D
  | F_AMOAND_D => OA A_AMOAND_D
  | F_AMOOR_D => OA A_AMOOR_D
  | F_AMOMIN_D => OA A_AMOMIN_D
  | F_AMOMAX_D => OA A_AMOMAX_D
  | F_AMOMINU_D => OA A_AMOMINU_D
  | F_AMOMAXU_D => OA A_AMOMAXU_D
  | F_C_ADDI4SPN => OC C_ADDI4SPN
  | F_C_LW => OC C_LW
  | F_C_SW => OC C_SW
  | F_C_NOP => OC C_NOP
  | F_C_ADDI => OC C_ADDI
  | F_C_JAL => OC C_JAL
  | F_C_LI => OC C_LI
  | F_C_ADDI16SP => OC C_ADDI16SP
  | F_C_LUI => OC C_LUI
  | F_C_SRLI => OC C_SRLI
  | F_C_SRAI => OC C_SRAI
  | F_C_ANDI => OC C_ANDI
  | F_C_SUB => OC C_SUB
  | F_C_XOR => OC C_XOR
  | F_C_OR => OC C_OR
  | F_C_AND => OC C_AND
  | F_C_J => OC C_J
  | F_C_BEQZ => OC C_BEQZ
  | F_C_BNEZ => OC C_BNEZ
  | F_C_SLLI => OC C_SLLI
  | F_C_LWSP => OC C_LWSP
  | F_C_JR => OC C_JR
  | F_C_MV => OC C_MV
  | F_C_EBREAK => OC C_EBREAK
  | F_C_JALR => OC C_JALR
  | F_C_ADD => OC C_ADD
  | F_C_SWSP => OC C_SWSP
  | F_C_LD => OC C_LD
  | F_C_SD => OC C_SD
  | F_C_ADDIW => OC C_ADDIW
  | F_C_SUBW => OC C_SUBW
  | F_C_ADDW => OC C_ADDW
  | F_C_LDSP => OC C_LDSP
  | F_C_SDSP => OC C_SDSP
  end.

(** The format of the same name, in today's spelling. *)
Definition today (f : FlatFormat) : InstFormat :=
  match f with
  | Old_Bformat => BFormat
  | Old_Iformat => IFormat
  | Old_R_SHAMTformat => RShamtFormat
  | Old_Rformat => RFormat
  | Old_Sformat => SFormat
  | Old_Jformat => JFormat
  | Old_Uformat => UFormat
  | Old_NoOperand => NoOperand
  | Old_CSRformat => CsrFormat
  | Old_CSRuiformat => CsrUiFormat
  | Old_Mformat => MFormat
  | Old_A_LRformat => ALrFormat
  | Old_Aformat => AFormat
  | Old_CLformat => ClFormat
  | Old_CIWformat => CiwFormat
  | Old_CSformat => CsFormat
  | Old_CJformat => CjFormat
  | Old_CBformat => CbFormat
  | Old_CIformat => CiFormat
  | Old_CAformat => CaFormat
  | Old_CSSformat => CssFormat
  | Old_CRformat => CrFormat
  end.

(** Extensions that the flat enum does not have. *)
Definition newer (op : OpcodeKind) : Prop :=
  match op with OZicboz _ | OZicfiss _ | OZicntr _ => True | _ => False end.
