(** Specification of the text output, independent of the printing functions of the model.
    A text is described by a list of items; an item relates a piece of text to a field of the
    instruction by how that piece is *read*. *)
From Coq Require Import ZArith List Bool String Ascii.
From Verif Require Import Types Spec SpecOps.
Import ListNotations.
Local Open Scope string_scope.
Local Open Scope Z_scope.

(** ** Numerals *)

Definition digit_value (base : Z) (c : ascii) : option Z :=
  let n := Z.of_N (N_of_ascii c) in
  let v := if (48 <=? n) && (n <=? 57) then n - 48           (* '0'..'9' *)
           else if (97 <=? n) && (n <=? 122) then n - 87     (* 'a'..'z' *)
           else -1 in
  if (0 <=? v) && (v <? base) then Some v else None.

(** Value of a string of digits, most significant first, after digits of value [acc]. *)
Fixpoint value (base : Z) (s : string) (acc : Z) : option Z :=
  match s with
  | EmptyString => Some acc
  | String c s' =>
      match digit_value base c with
      | Some d => value base s' (acc * base + d)
      | None => None
      end
  end.

(** Not empty and no superfluous leading zero. *)
Definition canonical (s : string) : Prop :=
  match s with
  | EmptyString => False
  | String c s' => c = "0"%char -> s' = ""
  end.

Definition numeral (base : Z) (s : string) (v : Z) : Prop :=
  canonical s /\ value base s 0 = Some v.

Definition decimal (s : string) (v : Z) : Prop :=
  0 <= v /\ numeral 10 s v \/ v < 0 /\ exists t, s = "-" ++ t /\ numeral 10 t (- v).

(** Two's complement in 32 bits. *)
Definition hexadecimal32 (s : string) (v : Z) : Prop := numeral 16 s (v mod 2 ^ 32).

(** ** Registers *)

(** ABI names of x0..x31 (RISC-V psABI). *)
Definition abi_names : list string :=
  ["zero"; "ra"; "sp"; "gp"; "tp"; "t0"; "t1"; "t2"; "s0"; "s1"; "a0"; "a1"; "a2"; "a3"; "a4"; "a5";
   "a6"; "a7"; "s2"; "s3"; "s4"; "s5"; "s6"; "s7"; "s8"; "s9"; "s10"; "s11"; "t3"; "t4"; "t5"; "t6"].
Definition register (s : string) (r : Z) : Prop :=
  0 <= r /\ nth_error abi_names (Z.to_nat r) = Some s.

(** ** Items *)

Inductive operand := ORd | ORs1 | ORs2 | OImm.
Definition get (o : operand) (i : Instruction) : option Z :=
  match o with ORd => rd i | ORs1 => rs1 i | ORs2 => rs2 i | OImm => imm i end.

Inductive item :=
| Lit (s : string)       (* fixed text *)
| Reg (o : operand)      (* register by ABI name *)
| Dec (o : operand)      (* decimal *)
| Hex (o : operand)      (* hexadecimal, lower case, no prefix *)
| Num (o : operand).     (* decimal, or hexadecimal with prefix 0x *)

(** Immediates are signed, all others unsigned. *)
Definition hexadecimal (o : operand) (s : string) (v : Z) : Prop :=
  match o with OImm => hexadecimal32 s v | _ => numeral 16 s v end.

Definition shows (it : item) (i : Instruction) (s : string) : Prop :=
  match it with
  | Lit l => s = l
  | Reg o => exists r, get o i = Some r /\ register s r
  | Dec o => exists v, get o i = Some v /\ decimal s v
  | Hex o => exists v, get o i = Some v /\ hexadecimal o s v
  | Num o => exists v, get o i = Some v /\
               (decimal s v \/ exists t, s = "0x" ++ t /\ hexadecimal o t v)
  end.

Fixpoint reads_as (t : list item) (i : Instruction) (s : string) : Prop :=
  match t with
  | [] => s = ""
  | it :: t' => exists a b, s = a ++ b /\ shows it i a /\ reads_as t' i b
  end.

(** The operands that appear in a text. *)
Definition item_operand (it : item) : option operand :=
  match it with Lit _ => None | Reg o | Dec o | Hex o | Num o => Some o end.
Definition shown_in (t : list item) (o : operand) : Prop :=
  exists it, In it t /\ item_operand it = Some o.

(** ** Mnemonics *)

(** The manual's mnemonics, in lower case. *)
Definition mnemonic (op : OpcodeKind) : string :=
  match op with
  | OBaseI o =>
      match o with
      | I_LUI => "lui" | I_AUIPC => "auipc" | I_JAL => "jal" | I_JALR => "jalr"
      | I_BEQ => "beq" | I_BNE => "bne" | I_BLT => "blt" | I_BGE => "bge"
      | I_BLTU => "bltu" | I_BGEU => "bgeu"
      | I_LB => "lb" | I_LH => "lh" | I_LW => "lw" | I_LBU => "lbu" | I_LHU => "lhu"
      | I_SB => "sb" | I_SH => "sh" | I_SW => "sw"
      | I_ADDI => "addi" | I_SLTI => "slti" | I_SLTIU => "sltiu" | I_XORI => "xori"
      | I_ORI => "ori" | I_ANDI => "andi" | I_SLLI => "slli" | I_SRLI => "srli" | I_SRAI => "srai"
      | I_ADD => "add" | I_SUB => "sub" | I_SLL => "sll" | I_SLT => "slt" | I_SLTU => "sltu"
      | I_XOR => "xor" | I_SRL => "srl" | I_SRA => "sra" | I_OR => "or" | I_AND => "and"
      | I_ECALL => "ecall" | I_EBREAK => "ebreak"
      | I_LWU => "lwu" | I_LD => "ld" | I_SD => "sd"
      | I_ADDIW => "addiw" | I_SLLIW => "slliw" | I_SRLIW => "srliw" | I_SRAIW => "sraiw"
      | I_ADDW => "addw" | I_SUBW => "subw" | I_SLLW => "sllw" | I_SRLW => "srlw" | I_SRAW => "sraw"
      end
  | OM o =>
      match o with
      | M_MUL => "mul" | M_MULH => "mulh" | M_MULHSU => "mulhsu" | M_MULHU => "mulhu"
      | M_DIV => "div" | M_DIVU => "divu" | M_REM => "rem" | M_REMU => "remu"
      | M_MULW => "mulw" | M_DIVW => "divw" | M_DIVUW => "divuw" | M_REMW => "remw"
      | M_REMUW => "remuw"
      end
  | OA o =>
      match o with
      | A_LR_W => "lr.w" | A_SC_W => "sc.w" | A_AMOSWAP_W => "amoswap.w" | A_AMOADD_W => "amoadd.w"
      | A_AMOXOR_W => "amoxor.w" | A_AMOAND_W => "amoand.w" | A_AMOOR_W => "amoor.w"
      | A_AMOMIN_W => "amomin.w" | A_AMOMAX_W => "amomax.w" | A_AMOMINU_W => "amominu.w"
      | A_AMOMAXU_W => "amomaxu.w"
      | A_LR_D => "lr.d" | A_SC_D => "sc.d" | A_AMOSWAP_D => "amoswap.d" | A_AMOADD_D => "amoadd.d"
      | A_AMOXOR_D => "amoxor.d" | A_AMOAND_D => "amoand.d" | A_AMOOR_D => "amoor.d"
      | A_AMOMIN_D => "amomin.d" | A_AMOMAX_D => "amomax.d" | A_AMOMINU_D => "amominu.d"
      | A_AMOMAXU_D => "amomaxu.d"
      end
  | OC o =>
      match o with
      | C_ADDI4SPN => "c.addi4spn" | C_LW => "c.lw" | C_SW => "c.sw" | C_NOP => "c.nop"
      | C_ADDI => "c.addi" | C_JAL => "c.jal" | C_LI => "c.li" | C_ADDI16SP => "c.addi16sp"
      | C_LUI => "c.lui" | C_SRLI => "c.srli" | C_SRAI => "c.srai" | C_ANDI => "c.andi"
      | C_SUB => "c.sub" | C_XOR => "c.xor" | C_OR => "c.or" | C_AND => "c.and" | C_J => "c.j"
      | C_BEQZ => "c.beqz" | C_BNEZ => "c.bnez" | C_SLLI => "c.slli" | C_LWSP => "c.lwsp"
      | C_JR => "c.jr" | C_MV => "c.mv" | C_EBREAK => "c.ebreak" | C_JALR => "c.jalr"
      | C_ADD => "c.add" | C_SWSP => "c.swsp" | C_LD => "c.ld" | C_SD => "c.sd"
      | C_ADDIW => "c.addiw" | C_SUBW => "c.subw" | C_ADDW => "c.addw" | C_LDSP => "c.ldsp"
      | C_SDSP => "c.sdsp"
      end
  | OZifencei Fe_FENCE => "fence"
  | OZicboz Cbo_CBO_ZERO => "cbo.zero"
  | OZicsr o =>
      match o with
      | Csr_CSRRW => "csrrw" | Csr_CSRRS => "csrrs" | Csr_CSRRC => "csrrc"
      | Csr_CSRRWI => "csrrwi" | Csr_CSRRSI => "csrrsi" | Csr_CSRRCI => "csrrci"
      end
  | OZicfiss o =>
      match o with
      | Ss_SSPUSH => "sspush" | Ss_C_SSPUSH => "c.sspush" | Ss_SSPOPCHK => "sspopchk"
      | Ss_C_SSPOPCHK => "c.sspopchk" | Ss_SSRDP => "ssrdp"
      | Ss_SSAMOSWAP_W => "ssamoswap.w" | Ss_SSAMOSWAP_D => "ssamoswap.d"
      end
  | OZicntr o =>
      match o with
      | Cnt_RDCYCLE => "rdcycle" | Cnt_RDTIME => "rdtime" | Cnt_RDINSTRET => "rdinstret"
      | Cnt_RDCYCLE_H => "rdcycleh" | Cnt_RDTIME_H => "rdtimeh" | Cnt_RDINSTRET_H => "rdinstreth"
      end
  | OPriv o =>
      match o with
      | P_SRET => "sret" | P_MRET => "mret" | P_WFI => "wfi" | P_SFENCE_VMA => "sfence.vma"
      end
  end.

Definition lower_char (c : ascii) : ascii :=
  let n := N_of_ascii c in
  if ((65 <=? n) && (n <=? 90))%N then ascii_of_N (n + 32) else c.
Fixpoint lower (s : string) : string :=
  match s with EmptyString => "" | String c s' => String (lower_char c) (lower s') end.

(** The crate writes the opcodes of [COpcode] with a capital C. *)
Definition spelled (op : OpcodeKind) : string :=
  match op, mnemonic op with
  | OC _, String _ m => String "C" m
  | _, m => m
  end.

(** What the crate prints as mnemonic where that is not the manual's (up to case). *)
Definition odd_mnemonic (op : OpcodeKind) : option string :=
  match op with
  | OM M_MULHSU => Some "mulhsu,"
  | OZifencei Fe_FENCE => Some "fence.i"
  | _ => None
  end.

(** ** Operands as documented

    src/instruction.rs:269-429 gives an example per format; README.md gives
    [addi t0, t0, -276] for the arithmetic instructions of the I format.  An immediate may be
    in decimal or in hexadecimal with 0x.  The operand of sspush/sspopchk is the link register
    that is pushed or checked. *)

Definition rrr : list item := [Lit " "; Reg ORd; Lit ", "; Reg ORs1; Lit ", "; Reg ORs2].
Definition rdr : list item := [Lit " "; Reg ORd; Lit ", "; Reg ORd; Lit ", "; Reg ORs2].
Definition mem (a b : operand) : list item :=
  [Lit " "; Reg a; Lit ", "; Num OImm; Lit "("; Reg b; Lit ")"].

Definition documented (op : OpcodeKind) : list item :=
  match op with
  | OBaseI o =>
      match o with
      | I_LUI | I_AUIPC | I_JAL => [Lit " "; Reg ORd; Lit ", "; Num OImm]
      | I_JALR | I_LB | I_LH | I_LW | I_LBU | I_LHU | I_LWU | I_LD => mem ORd ORs1
      | I_SB | I_SH | I_SW | I_SD => mem ORs2 ORs1
      | I_BEQ | I_BNE | I_BLT | I_BGE | I_BLTU | I_BGEU =>
          [Lit " "; Reg ORs1; Lit ", "; Reg ORs2; Lit ", "; Num OImm]
      | I_ADDI | I_SLTI | I_SLTIU | I_XORI | I_ORI | I_ANDI | I_ADDIW =>
          [Lit " "; Reg ORd; Lit ", "; Reg ORs1; Lit ", "; Num OImm]
      | I_SLLI | I_SRLI | I_SRAI | I_SLLIW | I_SRLIW | I_SRAIW =>
          [Lit " "; Reg ORd; Lit ", "; Reg ORs1]
      | I_ADD | I_SUB | I_SLL | I_SLT | I_SLTU | I_XOR | I_SRL | I_SRA | I_OR | I_AND
      | I_ADDW | I_SUBW | I_SLLW | I_SRLW | I_SRAW => rrr
      | I_ECALL | I_EBREAK => []
      end
  | OM _ => rrr
  | OA A_LR_W | OA A_LR_D => [Lit " "; Reg ORd; Lit ", ("; Reg ORs1; Lit ")"]
  | OA _ | OZicfiss Ss_SSAMOSWAP_W | OZicfiss Ss_SSAMOSWAP_D =>
      [Lit " "; Reg ORd; Lit ", "; Reg ORs2; Lit ", ("; Reg ORs1; Lit ")"]
  | OC o =>
      match o with
      | C_NOP | C_EBREAK => []
      | C_ADDI | C_ADDIW | C_LI | C_LUI | C_ADDI16SP | C_SLLI | C_LWSP | C_LDSP =>
          [Lit " "; Reg ORd; Lit ", "; Reg ORd; Lit ", "; Num OImm]
      | C_ADDI4SPN => [Lit " "; Reg ORd; Lit ", sp, "; Num OImm]
      | C_LW | C_LD => mem ORd ORs1
      | C_SW | C_SD => mem ORs2 ORs1
      | C_SWSP | C_SDSP => [Lit " "; Reg ORs2; Lit ", "; Num OImm; Lit "(sp)"]
      | C_SUB | C_XOR | C_OR | C_AND | C_SUBW | C_ADDW | C_ADD => rdr
      | C_MV => [Lit " "; Reg ORd; Lit ", "; Reg ORs2]
      | C_JR => [Lit " zero, 0("; Reg ORs1; Lit ")"]
      | C_JALR => [Lit " ra, 0("; Reg ORs1; Lit ")"]
      | C_BEQZ | C_BNEZ => [Lit " "; Reg ORs1; Lit ", "; Num OImm]
      | C_SRLI | C_SRAI | C_ANDI => [Lit " "; Reg ORd; Lit ", "; Reg ORd; Lit ", "; Num OImm]
      | C_J | C_JAL => [Lit " "; Num OImm]
      end
  | OZifencei _ => []
  | OZicboz _ => [Lit " "; Reg ORs1]
  | OZicsr o =>
      match o with
      | Csr_CSRRW | Csr_CSRRS | Csr_CSRRC => [Lit " "; Reg ORd; Lit ", "; Num ORs2; Lit ", "; Reg ORs1]
      | _ => [Lit " "; Reg ORd; Lit ", "; Num ORs2; Lit ", "; Num OImm]
      end
  | OZicfiss Ss_SSPUSH => [Lit " "; Reg ORs2]
  | OZicfiss Ss_SSPOPCHK => [Lit " "; Reg ORs1]
  | OZicfiss Ss_SSRDP => [Lit " "; Reg ORd]
  | OZicfiss Ss_C_SSPUSH | OZicfiss Ss_C_SSPOPCHK => []
  | OZicntr _ => [Lit " "; Reg ORd]
  | OPriv P_SFENCE_VMA => [Lit " "; Reg ORs1; Lit ", "; Reg ORs2]
  | OPriv _ => []
  end.

(** ** Operands as printed; [None] where printing panics *)

Definition rri : list item := [Lit " "; Reg ORd; Lit ", "; Reg ORs1; Lit ", "; Dec OImm].

Definition printed (op : OpcodeKind) : option (list item) :=
  match op with
  | OBaseI o =>
      match o with
      | I_LUI | I_AUIPC | I_JAL => Some [Lit " "; Reg ORd; Lit ", 0x"; Hex OImm]
      | I_JALR | I_LB | I_LH | I_LW | I_LBU | I_LHU | I_LWU | I_LD
      | I_ADDI | I_SLTI | I_SLTIU | I_XORI | I_ORI | I_ANDI | I_ADDIW => Some rri
      | I_SB | I_SH | I_SW | I_SD | I_BEQ | I_BNE | I_BLT | I_BGE | I_BLTU | I_BGEU =>
          Some [Lit " "; Reg ORs1; Lit ", "; Dec OImm; Lit "("; Reg ORs2; Lit ")"]
      | I_SLLI | I_SRLI | I_SRAI | I_SLLIW | I_SRLIW | I_SRAIW =>
          Some [Lit " "; Reg ORd; Lit ", "; Reg ORs1]
      | I_ADD | I_SUB | I_SLL | I_SLT | I_SLTU | I_XOR | I_SRL | I_SRA | I_OR | I_AND
      | I_ADDW | I_SUBW | I_SLLW | I_SRLW | I_SRAW => Some rrr
      | I_ECALL | I_EBREAK => Some []
      end
  | OM _ => Some rrr
  | OA A_LR_W => Some rri
  | OA A_LR_D => Some [Lit " "; Reg ORd; Lit ", "; Reg ORs1]
  | OA _ | OZicfiss Ss_SSAMOSWAP_W | OZicfiss Ss_SSAMOSWAP_D => Some rrr
  | OC o =>
      match o with
      | C_NOP | C_EBREAK => Some []
      | C_ADDI | C_ADDIW | C_LI | C_LUI | C_ADDI16SP | C_SLLI | C_LWSP | C_LDSP =>
          Some [Lit " "; Reg ORd; Lit ", "; Reg ORd; Lit ", "; Dec OImm]
      | C_ADDI4SPN => Some [Lit " "; Reg ORd; Lit ", sp, "; Hex OImm]
      | C_LW | C_LD => Some rri
      | C_SW | C_SD => Some [Lit " "; Reg ORs1; Lit ", "; Dec OImm; Lit "("; Reg ORs2; Lit ")"]
      | C_SWSP | C_SDSP => Some [Lit " "; Reg ORs2; Lit ", "; Dec OImm; Lit "(sp)"]
      | C_SUB | C_XOR | C_OR | C_AND | C_SUBW | C_ADDW | C_ADD => Some rdr
      | C_MV => Some [Lit " "; Reg ORd; Lit ", "; Reg ORs2]
      | C_JR => Some [Lit " zero, 0("; Reg ORs1; Lit ")"]
      | C_JALR => Some [Lit " ra, 0("; Reg ORs1; Lit ")"]
      | C_BEQZ | C_BNEZ | C_SRLI | C_SRAI | C_ANDI => Some [Lit " "; Dec ORs1; Lit ", "; Dec OImm]
      | C_J | C_JAL => Some [Lit " "; Dec OImm]
      end
  | OZifencei _ => Some []
  | OZicboz _ => Some [Lit " "; Reg ORs1]
  | OZicsr o =>
      match o with
      | Csr_CSRRW | Csr_CSRRS | Csr_CSRRC =>
          Some [Lit " "; Reg ORd; Lit ", 0x"; Hex ORs2; Lit ", "; Reg ORs1]
      | _ => Some [Lit " "; Reg ORd; Lit ", "; Dec ORs2; Lit ", "; Dec OImm]
      end
  | OZicfiss Ss_SSPUSH => Some [Lit " "; Reg ORs1]
  | OZicfiss Ss_SSPOPCHK => None
  | OZicfiss Ss_SSRDP => Some [Lit " "; Reg ORd]
  | OZicfiss Ss_C_SSPUSH | OZicfiss Ss_C_SSPOPCHK => None
  | OZicntr _ => Some [Lit " "; Reg ORd]
  | OPriv P_SFENCE_VMA => None
  | OPriv _ => Some []
  end.

Local Open Scope list_scope.

(** Opcodes whose text follows the documentation. *)
Definition as_documented : list OpcodeKind :=
  map OBaseI [I_LUI; I_AUIPC; I_JAL; I_ADDI; I_SLTI; I_SLTIU; I_XORI; I_ORI; I_ANDI; I_ADDIW;
    I_SLLI; I_SRLI; I_SRAI; I_SLLIW; I_SRLIW; I_SRAIW;
    I_ADD; I_SUB; I_SLL; I_SLT; I_SLTU; I_XOR; I_SRL; I_SRA; I_OR; I_AND;
    I_ADDW; I_SUBW; I_SLLW; I_SRLW; I_SRAW; I_ECALL; I_EBREAK]
  ++ map OM [M_MUL; M_MULH; M_MULHSU; M_MULHU; M_DIV; M_DIVU; M_REM; M_REMU; M_MULW; M_DIVW;
    M_DIVUW; M_REMW; M_REMUW]
  ++ map OC [C_NOP; C_EBREAK; C_ADDI; C_ADDIW; C_LI; C_LUI; C_ADDI16SP; C_SLLI; C_LWSP; C_LDSP;
    C_SWSP; C_SDSP; C_SUB; C_XOR; C_OR; C_AND; C_SUBW; C_ADDW; C_ADD; C_MV; C_JR; C_JALR; C_J; C_JAL]
  ++ [OZifencei Fe_FENCE; OZicboz Cbo_CBO_ZERO]
  ++ map OZicsr [Csr_CSRRW; Csr_CSRRS; Csr_CSRRC; Csr_CSRRWI; Csr_CSRRSI; Csr_CSRRCI]
  ++ [OZicfiss Ss_SSRDP]
  ++ map OZicntr [Cnt_RDCYCLE; Cnt_RDTIME; Cnt_RDINSTRET; Cnt_RDCYCLE_H; Cnt_RDTIME_H;
    Cnt_RDINSTRET_H]
  ++ map OPriv [P_SRET; P_MRET; P_WFI].

(** Opcodes whose text does not show all operand bits. *)
Definition lossy32 : list OpcodeKind :=
  map OBaseI [I_SLLI; I_SRLI; I_SRAI; I_SLLIW; I_SRLIW; I_SRAIW]              (* shift amount *)
  ++ map OA [A_SC_W; A_AMOSWAP_W; A_AMOADD_W; A_AMOXOR_W; A_AMOAND_W; A_AMOOR_W; A_AMOMIN_W;
     A_AMOMAX_W; A_AMOMINU_W; A_AMOMAXU_W; A_LR_D; A_SC_D; A_AMOSWAP_D; A_AMOADD_D; A_AMOXOR_D;
     A_AMOAND_D; A_AMOOR_D; A_AMOMIN_D; A_AMOMAX_D; A_AMOMINU_D; A_AMOMAXU_D]  (* aq, rl *)
  ++ [OZifencei Fe_FENCE; OZicfiss Ss_SSPUSH].                    (* everything; register *)
Definition lossy16 : list OpcodeKind := [OC C_NOP].                            (* immediate *)

(** Opcodes for which printing panics. *)
Definition unprintable : list OpcodeKind :=
  [OPriv P_SFENCE_VMA; OZicfiss Ss_SSPOPCHK; OZicfiss Ss_C_SSPUSH; OZicfiss Ss_C_SSPOPCHK].

(** ** Operands that can be read back (C34) *)

Fixpoint ends_0x (s : string) : bool :=
  match s with
  | EmptyString => false
  | String c s' => (s =? "0x")%string || ends_0x s'
  end.

(** Registers by name; other numbers in decimal, or in hexadecimal after 0x. *)
Definition is_register (op : OpcodeKind) (o : operand) : bool :=
  match o with OImm => false | ORs2 => negb (is_zicsr op) | _ => true end.
Fixpoint readable (op : OpcodeKind) (prefixed : bool) (t : list item) : bool :=
  match t with
  | [] => true
  | Lit l :: t' => readable op (ends_0x l) t'
  | Reg o :: t' => is_register op o && readable op false t'
  | Dec o :: t' => negb (is_register op o) && negb prefixed && readable op false t'
  | Hex o :: t' => negb (is_register op o) && prefixed && readable op false t'
  | Num o :: t' => false
  end.

(** Opcodes printed with a register as a bare number (first five) or an immediate in
    hexadecimal without prefix (the last). *)
Definition unreadable : list OpcodeKind :=
  map OC [C_BEQZ; C_BNEZ; C_SRLI; C_SRAI; C_ANDI; C_ADDI4SPN].

(** [n] occurs in [s]. *)
Definition occurs (n s : string) : Prop := exists a b, s = (a ++ n ++ b)%string.
