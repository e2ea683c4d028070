(** [Debug] text ([{:?}] and [{:#?}]) of the results.  The implementations are derived
    ([#[derive(Debug)]]), so they are not in /repo: the macro prints the names of the variants and
    of the fields, by way of [Formatter::debug_struct] and [debug_tuple] of [core::fmt], modelled by
    [node], [compact] and [pretty].  The text is the one written to a sink that never fails; other
    flags ([{:x?}], [{:5?}]) and sinks are in DebugSink.v. *)
From Coq Require Import ZArith List Bool String Ascii.
From Verif Require Import Rust Types Fmt.
Import ListNotations.
Local Open Scope string_scope.

(** ** [core::fmt] *)

(** What a derived implementation prints: a name, a number, a [bool]; a tuple variant or a struct
    with its fields.  The lists are not empty. *)
Inductive int_type := Usize | I32.
Inductive node :=
| Leaf (s : string)
| Int (ty : int_type) (v : Z)
| Flag (b : bool)
| Tuple (name : string) (args : list node)
| Struct (name : string) (fields : list (string * node)).

(** [{:?}] *)
Fixpoint compact (t : node) : string :=
  match t with
  | Leaf s => s
  | Int _ v => dec_str v
  | Flag b => if b then "true" else "false"
  | Tuple n l =>
      n ++ "(" ++ (fix go (l : list node) : string :=
        match l with
        | [] => ""
        | [x] => compact x
        | x :: l' => compact x ++ ", " ++ go l'
        end) l ++ ")"
  | Struct n l =>
      n ++ " { " ++ (fix go (l : list (string * node)) : string :=
        match l with
        | [] => ""
        | [(f, x)] => f ++ ": " ++ compact x
        | (f, x) :: l' => f ++ ": " ++ compact x ++ ", " ++ go l'
        end) l ++ " }"
  end.

Definition newline : string := String (ascii_of_nat 10) "".
Fixpoint indent (n : nat) : string := match n with O => "" | S n => "    " ++ indent n end.

(** [{:#?}]: one line per field, indented by four spaces per level, with a trailing comma. *)
Fixpoint pretty (n : nat) (t : node) : string :=
  match t with
  | Leaf s => s
  | Int _ v => dec_str v
  | Flag b => if b then "true" else "false"
  | Tuple c l =>
      c ++ "(" ++ newline ++ (fix go (l : list node) : string :=
        match l with
        | [] => ""
        | x :: l' => indent (S n) ++ pretty (S n) x ++ "," ++ newline ++ go l'
        end) l ++ indent n ++ ")"
  | Struct c l =>
      c ++ " {" ++ newline ++ (fix go (l : list (string * node)) : string :=
        match l with
        | [] => ""
        | (f, x) :: l' => indent (S n) ++ f ++ ": " ++ pretty (S n) x ++ "," ++ newline ++ go l'
        end) l ++ indent n ++ "}"
  end.

(** [Option], [usize]/[i32], [bool], [Result] ([core]) *)
Definition usize_debug (v : Z) : node := Int Usize v.
Definition i32_debug (v : Z) : node := Int I32 v.
Definition bool_debug (b : bool) : node := Flag b.
Definition option_debug {A} (f : A -> node) (o : option A) : node :=
  match o with None => Leaf "None" | Some a => Tuple "Some" [f a] end.
Definition result_debug {T E} (f : T -> node) (g : E -> node) (r : result T E) : node :=
  match r with Ok t => Tuple "Ok" [f t] | Err e => Tuple "Err" [g e] end.

(** ** The derived implementations *)

(** src/instruction/base_i.rs:8-63 *)
Definition BaseIOpcode_debug (o : BaseIOpcode) : node :=
  Leaf match o with
    | I_LUI => "LUI" | I_AUIPC => "AUIPC" | I_JAL => "JAL" | I_JALR => "JALR" | I_BEQ => "BEQ"
    | I_BNE => "BNE" | I_BLT => "BLT" | I_BGE => "BGE" | I_BLTU => "BLTU" | I_BGEU => "BGEU"
    | I_LB => "LB" | I_LH => "LH" | I_LW => "LW" | I_LBU => "LBU" | I_LHU => "LHU"
    | I_SB => "SB" | I_SH => "SH" | I_SW => "SW" | I_ADDI => "ADDI" | I_SLTI => "SLTI"
    | I_SLTIU => "SLTIU" | I_XORI => "XORI" | I_ORI => "ORI" | I_ANDI => "ANDI"
    | I_SLLI => "SLLI" | I_SRLI => "SRLI" | I_SRAI => "SRAI" | I_ADD => "ADD" | I_SUB => "SUB"
    | I_SLL => "SLL" | I_SLT => "SLT" | I_SLTU => "SLTU" | I_XOR => "XOR" | I_SRL => "SRL"
    | I_SRA => "SRA" | I_OR => "OR" | I_AND => "AND" | I_ECALL => "ECALL" | I_EBREAK => "EBREAK"
    | I_LWU => "LWU" | I_LD => "LD" | I_SD => "SD" | I_ADDIW => "ADDIW" | I_SLLIW => "SLLIW"
    | I_SRLIW => "SRLIW" | I_SRAIW => "SRAIW" | I_ADDW => "ADDW" | I_SUBW => "SUBW"
    | I_SLLW => "SLLW" | I_SRLW => "SRLW" | I_SRAW => "SRAW"
    end.

(** src/instruction/m_extension.rs:8-25 *)
Definition MOpcode_debug (o : MOpcode) : node :=
  Leaf match o with
    | M_MUL => "MUL" | M_MULH => "MULH" | M_MULHSU => "MULHSU" | M_MULHU => "MULHU"
    | M_DIV => "DIV" | M_DIVU => "DIVU" | M_REM => "REM" | M_REMU => "REMU" | M_MULW => "MULW"
    | M_DIVW => "DIVW" | M_DIVUW => "DIVUW" | M_REMW => "REMW" | M_REMUW => "REMUW"
    end.

(** src/instruction/a_extension.rs:8-34 *)
Definition AOpcode_debug (o : AOpcode) : node :=
  Leaf match o with
    | A_LR_W => "LR_W" | A_SC_W => "SC_W" | A_AMOSWAP_W => "AMOSWAP_W"
    | A_AMOADD_W => "AMOADD_W" | A_AMOXOR_W => "AMOXOR_W" | A_AMOAND_W => "AMOAND_W"
    | A_AMOOR_W => "AMOOR_W" | A_AMOMIN_W => "AMOMIN_W" | A_AMOMAX_W => "AMOMAX_W"
    | A_AMOMINU_W => "AMOMINU_W" | A_AMOMAXU_W => "AMOMAXU_W" | A_LR_D => "LR_D"
    | A_SC_D => "SC_D" | A_AMOSWAP_D => "AMOSWAP_D" | A_AMOADD_D => "AMOADD_D"
    | A_AMOXOR_D => "AMOXOR_D" | A_AMOAND_D => "AMOAND_D" | A_AMOOR_D => "AMOOR_D"
    | A_AMOMIN_D => "AMOMIN_D" | A_AMOMAX_D => "AMOMAX_D" | A_AMOMINU_D => "AMOMINU_D"
    | A_AMOMAXU_D => "AMOMAXU_D"
    end.

(** src/instruction/c_extension.rs:8-46 *)
Definition COpcode_debug (o : COpcode) : node :=
  Leaf match o with
    | C_ADDI4SPN => "ADDI4SPN" | C_LW => "LW" | C_SW => "SW" | C_NOP => "NOP" | C_ADDI => "ADDI"
    | C_JAL => "JAL" | C_LI => "LI" | C_ADDI16SP => "ADDI16SP" | C_LUI => "LUI"
    | C_SRLI => "SRLI" | C_SRAI => "SRAI" | C_ANDI => "ANDI" | C_SUB => "SUB" | C_XOR => "XOR"
    | C_OR => "OR" | C_AND => "AND" | C_J => "J" | C_BEQZ => "BEQZ" | C_BNEZ => "BNEZ"
    | C_SLLI => "SLLI" | C_LWSP => "LWSP" | C_JR => "JR" | C_MV => "MV" | C_EBREAK => "EBREAK"
    | C_JALR => "JALR" | C_ADD => "ADD" | C_SWSP => "SWSP" | C_LD => "LD" | C_SD => "SD"
    | C_ADDIW => "ADDIW" | C_SUBW => "SUBW" | C_ADDW => "ADDW" | C_LDSP => "LDSP"
    | C_SDSP => "SDSP"
    end.

(** src/instruction/zifencei_extension.rs:8-11 *)
Definition ZifenceiOpcode_debug (o : ZifenceiOpcode) : node :=
  Leaf match o with
    | Fe_FENCE => "FENCE"
    end.

(** src/instruction/zicboz_extension.rs:10-13 *)
Definition ZicbozOpcode_debug (o : ZicbozOpcode) : node :=
  Leaf match o with
    | Cbo_CBO_ZERO => "CBO_ZERO"
    end.

(** src/instruction/zicsr_extension.rs:8-16 *)
Definition ZicsrOpcode_debug (o : ZicsrOpcode) : node :=
  Leaf match o with
    | Csr_CSRRW => "CSRRW" | Csr_CSRRS => "CSRRS" | Csr_CSRRC => "CSRRC"
    | Csr_CSRRWI => "CSRRWI" | Csr_CSRRSI => "CSRRSI" | Csr_CSRRCI => "CSRRCI"
    end.

(** src/instruction/zicfiss_extension.rs:8-24 *)
Definition ZicfissOpcode_debug (o : ZicfissOpcode) : node :=
  Leaf match o with
    | Ss_SSPUSH => "SSPUSH" | Ss_C_SSPUSH => "C_SSPUSH" | Ss_SSPOPCHK => "SSPOPCHK"
    | Ss_C_SSPOPCHK => "C_SSPOPCHK" | Ss_SSRDP => "SSRDP" | Ss_SSAMOSWAP_W => "SSAMOSWAP_W"
    | Ss_SSAMOSWAP_D => "SSAMOSWAP_D"
    end.

(** src/instruction/zicntr_extension.rs:8-21 *)
Definition ZicntrOpcode_debug (o : ZicntrOpcode) : node :=
  Leaf match o with
    | Cnt_RDCYCLE_H => "RDCYCLE_H" | Cnt_RDTIME_H => "RDTIME_H"
    | Cnt_RDINSTRET_H => "RDINSTRET_H" | Cnt_RDCYCLE => "RDCYCLE" | Cnt_RDTIME => "RDTIME"
    | Cnt_RDINSTRET => "RDINSTRET"
    end.

(** src/instruction/priv_extension.rs:8-14 *)
Definition PrivOpcode_debug (o : PrivOpcode) : node :=
  Leaf match o with
    | P_MRET => "MRET" | P_SRET => "SRET" | P_WFI => "WFI" | P_SFENCE_VMA => "SFENCE_VMA"
    end.

(** src/instruction.rs:268-429 *)
Definition InstFormat_debug (o : InstFormat) : node :=
  Leaf match o with
    | RFormat => "RFormat" | RShamtFormat => "RShamtFormat" | IFormat => "IFormat"
    | SFormat => "SFormat" | BFormat => "BFormat" | UFormat => "UFormat" | JFormat => "JFormat"
    | CrFormat => "CrFormat" | CiFormat => "CiFormat" | CssFormat => "CssFormat"
    | CiwFormat => "CiwFormat" | ClFormat => "ClFormat" | CsFormat => "CsFormat"
    | CaFormat => "CaFormat" | CbFormat => "CbFormat" | CjFormat => "CjFormat"
    | CsrFormat => "CsrFormat" | CsrUiFormat => "CsrUiFormat" | MFormat => "MFormat"
    | AFormat => "AFormat" | ALrFormat => "ALrFormat" | NoOperand => "NoOperand"
    | OnlyRd => "OnlyRd" | OnlyRs1 => "OnlyRs1" | OnlyRs2 => "OnlyRs2"
    end.

(** src/decode.rs:46-68 *)
Definition DecodingError_debug (o : DecodingError) : node :=
  Leaf match o with
    | Not16BitInst => "Not16BitInst" | Not32BitInst => "Not32BitInst"
    | InvalidFunct3 => "InvalidFunct3" | InvalidFunct5 => "InvalidFunct5"
    | InvalidFunct6 => "InvalidFunct6" | InvalidFunct7 => "InvalidFunct7"
    | InvalidOpcode => "InvalidOpcode" | UnknownExtension => "UnknownExtension"
    | IllegalInstruction => "IllegalInstruction" | OnlyRv64Inst => "OnlyRv64Inst"
    end.

(** src/instruction.rs:439-461 *)
Definition OpcodeKind_debug (op : OpcodeKind) : node :=
  match op with
  | OBaseI o => Tuple "BaseI" [BaseIOpcode_debug o]
  | OM o => Tuple "M" [MOpcode_debug o]
  | OA o => Tuple "A" [AOpcode_debug o]
  | OC o => Tuple "C" [COpcode_debug o]
  | OZifencei o => Tuple "Zifencei" [ZifenceiOpcode_debug o]
  | OZicboz o => Tuple "Zicboz" [ZicbozOpcode_debug o]
  | OZicsr o => Tuple "Zicsr" [ZicsrOpcode_debug o]
  | OZicfiss o => Tuple "Zicfiss" [ZicfissOpcode_debug o]
  | OZicntr o => Tuple "Zicntr" [ZicntrOpcode_debug o]
  | OPriv o => Tuple "Priv" [PrivOpcode_debug o]
  end.

(** src/instruction.rs:28-44 *)
Definition Instruction_debug (i : Instruction) : node :=
  Struct "Instruction" [
    ("opc", OpcodeKind_debug (opc i));
    ("rd", option_debug usize_debug (rd i));
    ("rs1", option_debug usize_debug (rs1 i));
    ("rs2", option_debug usize_debug (rs2 i));
    ("imm", option_debug i32_debug (imm i));
    ("inst_format", InstFormat_debug (inst_format i));
    ("is_compressed", bool_debug (is_compressed i))].

(** [println!("{:?}", inst.decode(isa))] of src/decode.rs:80. *)
Definition decode_debug (r : result Instruction DecodingError) : node :=
  result_debug Instruction_debug DecodingError_debug r.
