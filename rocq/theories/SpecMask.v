(** The encodings once more, as pairs of constants: an instruction is recognised by
    [w & mask = match].  The constants are those of the MATCH_x and MASK_x macros which
    the riscv-opcodes project generates from the manual (encoding.h).  Nothing here uses
    Spec.v, so that the two descriptions of the encodings check each other. *)
From Coq Require Import ZArith List.
From Verif Require Import Types.
Import ListNotations.
Local Open Scope Z_scope.

Record entry := { e_op : OpcodeKind; e_isas : list Isa; e_mask : Z; e_match : Z }.

(** Entry [e] recognises [w]. *)
Definition hits (e : entry) (isa : Isa) (w : Z) : Prop :=
  In isa (e_isas e) /\ Z.land w (e_mask e) = e_match e.

(** The mask of [e'] looks at no bit that the mask of [e] does not look at. *)
Definition coarser (e' e : entry) : Prop := Z.land (e_mask e') (e_mask e) = e_mask e'.

(** [e] recognises [w], and all entries recognising [w] are coarser than [e]. *)
Definition most_specific (t : list entry) (isa : Isa) (w : Z) (e : entry) : Prop :=
  In e t /\ hits e isa w /\ forall e', In e' t -> hits e' isa w -> coarser e' e.

Definition both : list Isa := [Rv32; Rv64].
Definition ent (isas : list Isa) (mask : Z) (l : list (OpcodeKind * Z)) : list entry :=
  map (fun x => {| e_op := fst x; e_isas := isas; e_mask := mask; e_match := snd x |}) l.

(** ** 32-bit instructions *)

Definition masks32 : list entry :=
  ent both 0x7f
    [(OBaseI I_LUI, 0x37); (OBaseI I_AUIPC, 0x17); (OBaseI I_JAL, 0x6f)]
  ++ ent both 0x707f
    [(OBaseI I_JALR, 0x67);
     (OBaseI I_BEQ, 0x63); (OBaseI I_BNE, 0x1063); (OBaseI I_BLT, 0x4063);
     (OBaseI I_BGE, 0x5063); (OBaseI I_BLTU, 0x6063); (OBaseI I_BGEU, 0x7063);
     (OBaseI I_LB, 0x3); (OBaseI I_LH, 0x1003); (OBaseI I_LW, 0x2003);
     (OBaseI I_LBU, 0x4003); (OBaseI I_LHU, 0x5003);
     (OBaseI I_SB, 0x23); (OBaseI I_SH, 0x1023); (OBaseI I_SW, 0x2023);
     (OBaseI I_ADDI, 0x13); (OBaseI I_SLTI, 0x2013); (OBaseI I_SLTIU, 0x3013);
     (OBaseI I_XORI, 0x4013); (OBaseI I_ORI, 0x6013); (OBaseI I_ANDI, 0x7013);
     (OZifencei Fe_FENCE, 0xf);
     (OZicsr Csr_CSRRW, 0x1073); (OZicsr Csr_CSRRS, 0x2073); (OZicsr Csr_CSRRC, 0x3073);
     (OZicsr Csr_CSRRWI, 0x5073); (OZicsr Csr_CSRRSI, 0x6073); (OZicsr Csr_CSRRCI, 0x7073)]
  ++ ent [Rv64] 0x707f
    [(OBaseI I_LD, 0x3003); (OBaseI I_LWU, 0x6003); (OBaseI I_SD, 0x3023); (OBaseI I_ADDIW, 0x1b)]
  ++ ent both 0xfe00707f
    [(OBaseI I_ADD, 0x33); (OBaseI I_SUB, 0x40000033); (OBaseI I_SLL, 0x1033);
     (OBaseI I_SLT, 0x2033); (OBaseI I_SLTU, 0x3033); (OBaseI I_XOR, 0x4033);
     (OBaseI I_SRL, 0x5033); (OBaseI I_SRA, 0x40005033); (OBaseI I_OR, 0x6033);
     (OBaseI I_AND, 0x7033);
     (OM M_MUL, 0x2000033); (OM M_MULH, 0x2001033); (OM M_MULHSU, 0x2002033);
     (OM M_MULHU, 0x2003033); (OM M_DIV, 0x2004033); (OM M_DIVU, 0x2005033);
     (OM M_REM, 0x2006033); (OM M_REMU, 0x2007033)]
  ++ ent [Rv64] 0xfe00707f
    [(OBaseI I_SLLIW, 0x101b); (OBaseI I_SRLIW, 0x501b); (OBaseI I_SRAIW, 0x4000501b);
     (OBaseI I_ADDW, 0x3b); (OBaseI I_SUBW, 0x4000003b); (OBaseI I_SLLW, 0x103b);
     (OBaseI I_SRLW, 0x503b); (OBaseI I_SRAW, 0x4000503b);
     (OM M_MULW, 0x200003b); (OM M_DIVW, 0x200403b); (OM M_DIVUW, 0x200503b);
     (OM M_REMW, 0x200603b); (OM M_REMUW, 0x200703b)]
  ++ ent [Rv32] 0xfe00707f
    [(OBaseI I_SLLI, 0x1013); (OBaseI I_SRLI, 0x5013); (OBaseI I_SRAI, 0x40005013)]
  ++ ent [Rv64] 0xfc00707f
    [(OBaseI I_SLLI, 0x1013); (OBaseI I_SRLI, 0x5013); (OBaseI I_SRAI, 0x40005013)]
  ++ ent both 0xf9f0707f [(OA A_LR_W, 0x1000202f)]
  ++ ent [Rv64] 0xf9f0707f [(OA A_LR_D, 0x1000302f)]
  ++ ent both 0xf800707f
    [(OA A_SC_W, 0x1800202f); (OA A_AMOSWAP_W, 0x800202f); (OA A_AMOADD_W, 0x202f);
     (OA A_AMOXOR_W, 0x2000202f); (OA A_AMOAND_W, 0x6000202f); (OA A_AMOOR_W, 0x4000202f);
     (OA A_AMOMIN_W, 0x8000202f); (OA A_AMOMAX_W, 0xa000202f); (OA A_AMOMINU_W, 0xc000202f);
     (OA A_AMOMAXU_W, 0xe000202f); (OZicfiss Ss_SSAMOSWAP_W, 0x4800202f)]
  ++ ent [Rv64] 0xf800707f
    [(OA A_SC_D, 0x1800302f); (OA A_AMOSWAP_D, 0x800302f); (OA A_AMOADD_D, 0x302f);
     (OA A_AMOXOR_D, 0x2000302f); (OA A_AMOAND_D, 0x6000302f); (OA A_AMOOR_D, 0x4000302f);
     (OA A_AMOMIN_D, 0x8000302f); (OA A_AMOMAX_D, 0xa000302f); (OA A_AMOMINU_D, 0xc000302f);
     (OA A_AMOMAXU_D, 0xe000302f); (OZicfiss Ss_SSAMOSWAP_D, 0x4800302f)]
  ++ ent both 0xfffff07f
    [(OZicntr Cnt_RDCYCLE, 0xc0002073); (OZicntr Cnt_RDTIME, 0xc0102073);
     (OZicntr Cnt_RDINSTRET, 0xc0202073); (OZicfiss Ss_SSRDP, 0xcdc04073)]
  ++ ent [Rv32] 0xfffff07f
    [(OZicntr Cnt_RDCYCLE_H, 0xc8002073); (OZicntr Cnt_RDTIME_H, 0xc8102073);
     (OZicntr Cnt_RDINSTRET_H, 0xc8202073)]
  ++ ent both 0xfff07fff [(OZicboz Cbo_CBO_ZERO, 0x40200f)]
  ++ ent both 0xfe007fff [(OPriv P_SFENCE_VMA, 0x12000073)]
  ++ ent both 0xffffffff
    [(OBaseI I_ECALL, 0x73); (OBaseI I_EBREAK, 0x100073);
     (OPriv P_SRET, 0x10200073); (OPriv P_MRET, 0x30200073); (OPriv P_WFI, 0x10500073);
     (OZicfiss Ss_SSPUSH, 0xce104073); (OZicfiss Ss_SSPUSH, 0xce504073);
     (OZicfiss Ss_SSPOPCHK, 0xcdc0c073); (OZicfiss Ss_SSPOPCHK, 0xcdc2c073)].

(** What the crate accepts beyond that: bits it does not look at, and instructions it
    also accepts for the other ISA. *)
Definition wider32 : list entry :=
  ent both 0x7f [(OBaseI I_JALR, 0x67)]                                   (* any funct3 *)
  ++ ent both 0x707f                                                      (* any funct7 *)
    [(OBaseI I_SLL, 0x1033); (OBaseI I_SLT, 0x2033); (OBaseI I_SLTU, 0x3033);
     (OBaseI I_XOR, 0x4033); (OBaseI I_OR, 0x6033); (OBaseI I_AND, 0x7033)]
  ++ ent [Rv64] 0x707f [(OBaseI I_SLLIW, 0x101b)]                         (* any funct7 *)
  ++ ent [Rv64] 0xbe00707f [(OBaseI I_SLLW, 0x103b)]                      (* any bit 30 *)
  ++ ent both 0xf800707f [(OA A_LR_W, 0x1000202f)]                        (* any rs2 *)
  ++ ent [Rv64] 0xf800707f [(OA A_LR_D, 0x1000302f)]                      (* any rs2 *)
  ++ ent both 0xfff0707f                                                  (* any rd, rs1 *)
    [(OBaseI I_ECALL, 0x73); (OBaseI I_EBREAK, 0x100073);
     (OZicfiss Ss_SSPUSH, 0xce104073); (OZicfiss Ss_SSPUSH, 0xce504073);
     (OZicfiss Ss_SSPOPCHK, 0xcdc04073);
     (OZicntr Cnt_RDCYCLE, 0xc0002073); (OZicntr Cnt_RDTIME, 0xc0102073);
     (OZicntr Cnt_RDINSTRET, 0xc0202073); (OZicntr Cnt_RDCYCLE_H, 0xc8002073);
     (OZicntr Cnt_RDTIME_H, 0xc8102073); (OZicntr Cnt_RDINSTRET_H, 0xc8202073)]
  ++ ent both 0xfe00707f [(OPriv P_SFENCE_VMA, 0x12000073)]               (* any rd *)
  ++ ent [Rv32] 0xf800707f [(OZicfiss Ss_SSAMOSWAP_D, 0x4800302f)].       (* not only RV64 *)

(** ** 16-bit instructions *)

Definition masks16 : list entry :=
  ent both 0xe003
    [(OC C_ADDI4SPN, 0x0); (OC C_LW, 0x4000); (OC C_SW, 0xc000);
     (OC C_ADDI, 0x1); (OC C_LI, 0x4001); (OC C_LUI, 0x6001); (OC C_J, 0xa001);
     (OC C_BEQZ, 0xc001); (OC C_BNEZ, 0xe001); (OC C_LWSP, 0x4002); (OC C_SWSP, 0xc002)]
  ++ ent [Rv32] 0xe003 [(OC C_JAL, 0x2001)]
  ++ ent [Rv64] 0xe003
    [(OC C_LD, 0x6000); (OC C_SD, 0xe000); (OC C_ADDIW, 0x2001); (OC C_SLLI, 0x2);
     (OC C_LDSP, 0x6002); (OC C_SDSP, 0xe002)]
  ++ ent [Rv32] 0xf003 [(OC C_SLLI, 0x2)]
  ++ ent [Rv32] 0xfc03 [(OC C_SRLI, 0x8001); (OC C_SRAI, 0x8401)]
  ++ ent [Rv64] 0xec03 [(OC C_SRLI, 0x8001); (OC C_SRAI, 0x8401)]
  ++ ent both 0xec03 [(OC C_ANDI, 0x8801)]
  ++ ent both 0xef83 [(OC C_NOP, 0x1); (OC C_ADDI16SP, 0x6101)]
  ++ ent both 0xfc63
    [(OC C_SUB, 0x8c01); (OC C_XOR, 0x8c21); (OC C_OR, 0x8c41); (OC C_AND, 0x8c61)]
  ++ ent [Rv64] 0xfc63 [(OC C_SUBW, 0x9c01); (OC C_ADDW, 0x9c21)]
  ++ ent both 0xf003 [(OC C_MV, 0x8002); (OC C_ADD, 0x9002)]
  ++ ent both 0xf07f [(OC C_JR, 0x8002); (OC C_JALR, 0x9002)]
  ++ ent both 0xffff
    [(OC C_EBREAK, 0x9002); (OZicfiss Ss_C_SSPUSH, 0x6081); (OZicfiss Ss_C_SSPOPCHK, 0x6281)].

Definition wider16 : list entry :=
  ent [Rv32] 0xe003 [(OC C_SLLI, 0x2)]                                    (* any bit 12 *)
  ++ ent [Rv32] 0xec03 [(OC C_SRLI, 0x8001); (OC C_SRAI, 0x8401)]         (* any bit 12 *)
  ++ ent both 0xff83 [(OC C_EBREAK, 0x9002)].                             (* any bits 6..2 *)
