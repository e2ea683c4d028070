(** Text output: [Display] of the opcode enums, of [OpcodeKind] and of [Instruction].
    The result is the text written to a sink that never fails.  In [write!] all arguments
    are evaluated before anything is written, so a panicking argument gives [Panic].
    Formatter flags ([{:>8}], [{:#}], ..) given to the outer call do not reach the inner
    [write!] calls and so do not change the text. *)
From Coq Require Import ZArith List Bool String Ascii.
From Verif Require Import Rust Types.
Local Open Scope Z_scope.
Local Open Scope string_scope.

(** ** Integers ([core::fmt], not part of /repo) *)

Definition digit_char (d : Z) : ascii :=
  match d with
  | 0 => "0" | 1 => "1" | 2 => "2" | 3 => "3" | 4 => "4" | 5 => "5" | 6 => "6"
  | 7 => "7" | 8 => "8" | 9 => "9" | 10 => "a" | 11 => "b" | 12 => "c" | 13 => "d"
  | 14 => "e" | _ => "f"
  end%char.

(** Digits of [n] in [base], most significant first, in front of [acc]. *)
Fixpoint digits (fuel : nat) (base n : Z) (acc : string) : string :=
  match fuel with
  | O => acc
  | S fuel' =>
      let acc' := String (digit_char (n mod base)) acc in
      if (n / base =? 0)%Z then acc' else digits fuel' base (n / base) acc'
  end.

(** As many steps as [n] has bits: enough for any base >= 2. *)
Definition unsigned_str (base n : Z) : string :=
  digits (S (Z.to_nat (Z.log2 n))) base n "".

(** [{}] of an integer ([i32] or [usize]). *)
Definition dec_str (v : Z) : string :=
  if (v <? 0)%Z then "-" ++ unsigned_str 10 (- v) else unsigned_str 10 v.

(** [{:x}] of an [i32]: the two's complement 32-bit pattern. *)
Definition hex_i32 (v : Z) : string := unsigned_str 16 (v mod 2 ^ 32).

(** [{:x}] of an [usize]. *)
Definition hex_usize (v : Z) : string := unsigned_str 16 v.

(** ** Mnemonics *)

(** src/instruction/base_i.rs:65-121 *)
Definition BaseIOpcode_display (o : BaseIOpcode) : string :=
  match o with
  | I_LUI => "lui"
  | I_AUIPC => "auipc"
  | I_JAL => "jal"
  | I_JALR => "jalr"
  | I_BEQ => "beq"
  | I_BNE => "bne"
  | I_BLT => "blt"
  | I_BGE => "bge"
  | I_BLTU => "bltu"
  | I_BGEU => "bgeu"
  | I_LB => "lb"
  | I_LH => "lh"
  | I_LW => "lw"
  | I_LBU => "lbu"
  | I_LHU => "lhu"
  | I_SB => "sb"
  | I_SH => "sh"
  | I_SW => "sw"
  | I_ADDI => "addi"
  | I_SLTI => "slti"
  | I_SLTIU => "sltiu"
  | I_XORI => "xori"
  | I_ORI => "ori"
  | I_ANDI => "andi"
  | I_SLLI => "slli"
  | I_SRLI => "srli"
  | I_SRAI => "srai"
  | I_ADD => "add"
  | I_SUB => "sub"
  | I_SLL => "sll"
  | I_SLT => "slt"
  | I_SLTU => "sltu"
  | I_XOR => "xor"
  | I_SRL => "srl"
  | I_SRA => "sra"
  | I_OR => "or"
  | I_AND => "and"
  | I_ECALL => "ecall"
  | I_EBREAK => "ebreak"
  | I_LWU => "lwu"
  | I_LD => "ld"
  | I_SD => "sd"
  | I_ADDIW => "addiw"
  | I_SLLIW => "slliw"
  | I_SRLIW => "srliw"
  | I_SRAIW => "sraiw"
  | I_ADDW => "addw"
  | I_SUBW => "subw"
  | I_SLLW => "sllw"
  | I_SRLW => "srlw"
  | I_SRAW => "sraw"
  end.

(** src/instruction/m_extension.rs:27-45 *)
Definition MOpcode_display (o : MOpcode) : string :=
  match o with
  | M_MUL => "mul"
  | M_MULH => "mulh"
  | M_MULHSU => "mulhsu,"
  | M_MULHU => "mulhu"
  | M_DIV => "div"
  | M_DIVU => "divu"
  | M_REM => "rem"
  | M_REMU => "remu"
  | M_MULW => "mulw"
  | M_DIVW => "divw"
  | M_DIVUW => "divuw"
  | M_REMW => "remw"
  | M_REMUW => "remuw"
  end.

(** src/instruction/a_extension.rs:36-63 *)
Definition AOpcode_display (o : AOpcode) : string :=
  match o with
  | A_LR_W => "lr.w"
  | A_SC_W => "sc.w"
  | A_AMOSWAP_W => "amoswap.w"
  | A_AMOADD_W => "amoadd.w"
  | A_AMOXOR_W => "amoxor.w"
  | A_AMOAND_W => "amoand.w"
  | A_AMOOR_W => "amoor.w"
  | A_AMOMIN_W => "amomin.w"
  | A_AMOMAX_W => "amomax.w"
  | A_AMOMINU_W => "amominu.w"
  | A_AMOMAXU_W => "amomaxu.w"
  | A_LR_D => "lr.d"
  | A_SC_D => "sc.d"
  | A_AMOSWAP_D => "amoswap.d"
  | A_AMOADD_D => "amoadd.d"
  | A_AMOXOR_D => "amoxor.d"
  | A_AMOAND_D => "amoand.d"
  | A_AMOOR_D => "amoor.d"
  | A_AMOMIN_D => "amomin.d"
  | A_AMOMAX_D => "amomax.d"
  | A_AMOMINU_D => "amominu.d"
  | A_AMOMAXU_D => "amomaxu.d"
  end.

(** src/instruction/c_extension.rs:48-87 *)
Definition COpcode_display (o : COpcode) : string :=
  match o with
  | C_ADDI4SPN => "C.addi4spn"
  | C_LW => "C.lw"
  | C_SW => "C.sw"
  | C_NOP => "C.nop"
  | C_ADDI => "C.addi"
  | C_JAL => "C.jal"
  | C_LI => "C.li"
  | C_ADDI16SP => "C.addi16sp"
  | C_LUI => "C.lui"
  | C_SRLI => "C.srli"
  | C_SRAI => "C.srai"
  | C_ANDI => "C.andi"
  | C_SUB => "C.sub"
  | C_XOR => "C.xor"
  | C_OR => "C.or"
  | C_AND => "C.and"
  | C_J => "C.j"
  | C_BEQZ => "C.beqz"
  | C_BNEZ => "C.bnez"
  | C_SLLI => "C.slli"
  | C_LWSP => "C.lwsp"
  | C_JR => "C.jr"
  | C_MV => "C.mv"
  | C_EBREAK => "C.ebreak"
  | C_JALR => "C.jalr"
  | C_ADD => "C.add"
  | C_SWSP => "C.swsp"
  | C_LD => "C.ld"
  | C_SD => "C.sd"
  | C_ADDIW => "C.addiw"
  | C_SUBW => "C.subw"
  | C_ADDW => "C.addw"
  | C_LDSP => "C.ldsp"
  | C_SDSP => "C.sdsp"
  end.

(** src/instruction/zifencei_extension.rs:13-19 *)
Definition ZifenceiOpcode_display (o : ZifenceiOpcode) : string :=
  match o with
  | Fe_FENCE => "fence.i"
  end.

(** src/instruction/zicboz_extension.rs:15-21 *)
Definition ZicbozOpcode_display (o : ZicbozOpcode) : string :=
  match o with
  | Cbo_CBO_ZERO => "cbo.zero"
  end.

(** src/instruction/zicsr_extension.rs:18-29 *)
Definition ZicsrOpcode_display (o : ZicsrOpcode) : string :=
  match o with
  | Csr_CSRRW => "csrrw"
  | Csr_CSRRS => "csrrs"
  | Csr_CSRRC => "csrrc"
  | Csr_CSRRWI => "csrrwi"
  | Csr_CSRRSI => "csrrsi"
  | Csr_CSRRCI => "csrrci"
  end.

(** src/instruction/zicfiss_extension.rs:26-38 *)
Definition ZicfissOpcode_display (o : ZicfissOpcode) : string :=
  match o with
  | Ss_SSPUSH => "sspush"
  | Ss_C_SSPUSH => "c.sspush"
  | Ss_SSPOPCHK => "sspopchk"
  | Ss_C_SSPOPCHK => "c.sspopchk"
  | Ss_SSRDP => "ssrdp"
  | Ss_SSAMOSWAP_W => "ssamoswap.w"
  | Ss_SSAMOSWAP_D => "ssamoswap.d"
  end.

(** src/instruction/zicntr_extension.rs:23-34 *)
Definition ZicntrOpcode_display (o : ZicntrOpcode) : string :=
  match o with
  | Cnt_RDCYCLE_H => "rdcycleh"
  | Cnt_RDTIME_H => "rdtimeh"
  | Cnt_RDINSTRET_H => "rdinstreth"
  | Cnt_RDCYCLE => "rdcycle"
  | Cnt_RDTIME => "rdtime"
  | Cnt_RDINSTRET => "rdinstret"
  end.

(** src/instruction/priv_extension.rs:16-25 *)
Definition PrivOpcode_display (o : PrivOpcode) : string :=
  match o with
  | P_SRET => "sret"
  | P_MRET => "mret"
  | P_WFI => "wfi"
  | P_SFENCE_VMA => "sfence.vma"
  end.

(** src/instruction.rs:463-478 *)
Definition OpcodeKind_display (k : OpcodeKind) : string :=
  match k with
  | OBaseI o => BaseIOpcode_display o
  | OM o => MOpcode_display o
  | OA o => AOpcode_display o
  | OC o => COpcode_display o
  | OZifencei o => ZifenceiOpcode_display o
  | OZicboz o => ZicbozOpcode_display o
  | OZicsr o => ZicsrOpcode_display o
  | OZicfiss o => ZicfissOpcode_display o
  | OZicntr o => ZicntrOpcode_display o
  | OPriv o => PrivOpcode_display o
  end.

(** ** Registers and instructions *)

(** src/instruction.rs:228-264 *)
Definition reg2str (rd_value : Z) : outcome string :=
  match rd_value with
  | 0 => Ret "zero" | 1 => Ret "ra" | 2 => Ret "sp" | 3 => Ret "gp" | 4 => Ret "tp"
  | 5 => Ret "t0" | 6 => Ret "t1" | 7 => Ret "t2" | 8 => Ret "s0" | 9 => Ret "s1"
  | 10 => Ret "a0" | 11 => Ret "a1" | 12 => Ret "a2" | 13 => Ret "a3" | 14 => Ret "a4"
  | 15 => Ret "a5" | 16 => Ret "a6" | 17 => Ret "a7" | 18 => Ret "s2" | 19 => Ret "s3"
  | 20 => Ret "s4" | 21 => Ret "s5" | 22 => Ret "s6" | 23 => Ret "s7" | 24 => Ret "s8"
  | 25 => Ret "s9" | 26 => Ret "s10" | 27 => Ret "s11" | 28 => Ret "t3" | 29 => Ret "t4"
  | 30 => Ret "t5" | 31 => Ret "t6"
  | _ => Panic PUnknownReg
  end.

(** [reg2str(self.x.unwrap())] *)
Definition reg_arg (o : option Z) : outcome string :=
  let! r := unwrap o in reg2str r.

(** src/instruction.rs:46-225 *)
Definition Instruction_display (self : Instruction) : outcome string :=
  let o := OpcodeKind_display (opc self) in
  match inst_format self with
  | RFormat | MFormat =>
      let! a := reg_arg (rd self) in
      let! b := reg_arg (rs1 self) in
      let! c := reg_arg (rs2 self) in
      Ret (o ++ " " ++ a ++ ", " ++ b ++ ", " ++ c)
  | AFormat =>
      match opc self with
      | OA A_LR_W | OA A_LR_D =>
          let! a := reg_arg (rd self) in
          let! b := reg_arg (rs1 self) in
          Ret (o ++ " " ++ a ++ ", " ++ b)
      | _ =>
          let! a := reg_arg (rd self) in
          let! b := reg_arg (rs1 self) in
          let! c := reg_arg (rs2 self) in
          Ret (o ++ " " ++ a ++ ", " ++ b ++ ", " ++ c)
      end
  | RShamtFormat =>
      let! a := reg_arg (rd self) in
      let! b := reg_arg (rs1 self) in
      Ret (o ++ " " ++ a ++ ", " ++ b)
  | ClFormat | ALrFormat | IFormat =>
      let! a := reg_arg (rd self) in
      let! b := reg_arg (rs1 self) in
      let! i := unwrap (imm self) in
      Ret (o ++ " " ++ a ++ ", " ++ b ++ ", " ++ dec_str i)
  | CsFormat | SFormat | BFormat =>
      let! a := reg_arg (rs1 self) in
      let! i := unwrap (imm self) in
      let! b := reg_arg (rs2 self) in
      Ret (o ++ " " ++ a ++ ", " ++ dec_str i ++ "(" ++ b ++ ")")
  | CiwFormat =>
      let! a := reg_arg (rd self) in
      let! i := unwrap (imm self) in
      Ret (o ++ " " ++ a ++ ", sp, " ++ hex_i32 i)
  | CssFormat =>
      let! a := reg_arg (rs2 self) in
      let! i := unwrap (imm self) in
      Ret (o ++ " " ++ a ++ ", " ++ dec_str i ++ "(sp)")
  | UFormat | JFormat =>
      let! a := reg_arg (rd self) in
      let! i := unwrap (imm self) in
      Ret (o ++ " " ++ a ++ ", 0x" ++ hex_i32 i)
  | CjFormat =>
      let! i := unwrap (imm self) in
      Ret (o ++ " " ++ dec_str i)
  | CiFormat =>
      let! a := reg_arg (rd self) in
      let! b := reg_arg (rd self) in
      let! i := unwrap (imm self) in
      Ret (o ++ " " ++ a ++ ", " ++ b ++ ", " ++ dec_str i)
  | CrFormat =>
      match opc self with
      | OC C_JR =>
          let! a := reg_arg (rs1 self) in
          Ret (o ++ " zero, 0(" ++ a ++ ")")
      | OC C_JALR =>
          let! a := reg_arg (rs1 self) in
          Ret (o ++ " ra, 0(" ++ a ++ ")")
      | OC C_MV =>
          let! a := reg_arg (rd self) in
          let! b := reg_arg (rs2 self) in
          Ret (o ++ " " ++ a ++ ", " ++ b)
      | OC C_ADD =>
          let! a := reg_arg (rd self) in
          let! b := reg_arg (rd self) in
          let! c := reg_arg (rs2 self) in
          Ret (o ++ " " ++ a ++ ", " ++ b ++ ", " ++ c)
      | _ => Panic PUnreachable
      end
  | CaFormat =>
      let! a := reg_arg (rd self) in
      let! b := reg_arg (rd self) in
      let! c := reg_arg (rs2 self) in
      Ret (o ++ " " ++ a ++ ", " ++ b ++ ", " ++ c)
  | CbFormat =>
      let! a := unwrap (rs1 self) in
      let! i := unwrap (imm self) in
      Ret (o ++ " " ++ dec_str a ++ ", " ++ dec_str i)
  | CsrFormat =>
      let! a := reg_arg (rd self) in
      let! c := unwrap (rs2 self) in
      let! b := reg_arg (rs1 self) in
      Ret (o ++ " " ++ a ++ ", 0x" ++ hex_usize c ++ ", " ++ b)
  | CsrUiFormat =>
      let! a := reg_arg (rd self) in
      let! c := unwrap (rs2 self) in
      let! i := unwrap (imm self) in
      Ret (o ++ " " ++ a ++ ", " ++ dec_str c ++ ", " ++ dec_str i)
  | OnlyRd =>
      let! a := reg_arg (rd self) in
      Ret (o ++ " " ++ a)
  | OnlyRs1 =>
      let! a := reg_arg (rs1 self) in
      Ret (o ++ " " ++ a)
  | OnlyRs2 =>
      let! a := reg_arg (rs2 self) in
      Ret (o ++ " " ++ a)
  | NoOperand =>
      match opc self with
      | OBaseI I_ECALL | OBaseI I_EBREAK
      | OZifencei Fe_FENCE
      | OC C_NOP | OC C_EBREAK
      | OPriv P_MRET | OPriv P_SRET | OPriv P_WFI | OPriv P_SFENCE_VMA => Ret o
      | _ => Panic PUnreachable
      end
  end.
