(** src/instruction/opcode.rs as a program of its own: it is not part of the crate. *)
From Coq Require Import List Bool String Strings.Byte.
From Verif Require Import Rust Types SrcLine SrcText SrcLex SrcAst SrcLink SrcSem SrcDoc OpcodeRs.
Import ListNotations.
Local Open Scope string_scope.

(** The names [x] of the paths [t::x] in the text. *)
Fixpoint names_after (t : string) (ts : list tok) : list string :=
  match ts with
  | TId a :: ((TP ColonColon :: TId x :: _) as r) => if a =? t then x :: names_after t r else names_after t r
  | _ :: r => names_after t r
  | [] => []
  end.

(** The enum [t] the file uses, with the variants it names.  (The declarations themselves are gone.) *)
Definition enum_text (t : string) : line :=
  let toks := match lex_lines instruction__opcode_rs with Some ts => ts | None => [] end in
  as_line ("enum " ++ t ++ " { " ++ String.concat ", " (nodup string_dec (names_after t toks)) ++ " }").

Definition old_source : list (line * list line) :=
  [(as_line "lib.rs",
    [as_line "mod opcode;"; enum_text "OpcodeKind"; enum_text "InstFormat"; enum_text "Extensions"]);
   (as_line "opcode.rs", instruction__opcode_rs)].

(** The opcodes and formats of OpcodeRs.v as values. *)
Definition flat_name (f : FlatOpcode) : string :=
  match f with
  | F_LUI => "LUI" | F_AUIPC => "AUIPC" | F_JAL => "JAL" | F_JALR => "JALR" | F_BEQ => "BEQ"
  | F_BNE => "BNE" | F_BLT => "BLT" | F_BGE => "BGE" | F_BLTU => "BLTU" | F_BGEU => "BGEU" | F_LB => "LB"
  | F_LH => "LH" | F_LW => "LW" | F_LBU => "LBU" | F_LHU => "LHU" | F_SB => "SB" | F_SH => "SH"
  | F_SW => "SW" | F_ADDI => "ADDI" | F_SLTI => "SLTI" | F_SLTIU => "SLTIU" | F_XORI => "XORI"
  | F_ORI => "ORI" | F_ANDI => "ANDI" | F_SLLI => "SLLI" | F_SRLI => "SRLI" | F_SRAI => "SRAI"
  | F_ADD => "ADD" | F_SUB => "SUB" | F_SLL => "SLL" | F_SLT => "SLT" | F_SLTU => "SLTU" | F_XOR => "XOR"
  | F_SRL => "SRL" | F_SRA => "SRA" | F_OR => "OR" | F_AND => "AND" | F_FENCE => "FENCE"
  | F_ECALL => "ECALL" | F_EBREAK => "EBREAK" | F_LWU => "LWU" | F_LD => "LD" | F_SD => "SD"
  | F_ADDIW => "ADDIW" | F_SLLIW => "SLLIW" | F_SRLIW => "SRLIW" | F_SRAIW => "SRAIW" | F_ADDW => "ADDW"
  | F_SUBW => "SUBW" | F_SLLW => "SLLW" | F_SRLW => "SRLW" | F_SRAW => "SRAW" | F_CSRRW => "CSRRW"
  | F_CSRRS => "CSRRS" | F_CSRRC => "CSRRC" | F_CSRRWI => "CSRRWI" | F_CSRRSI => "CSRRSI"
  | F_CSRRCI => "CSRRCI" | F_SRET => "SRET" | F_MRET => "MRET" | F_WFI => "WFI"
  | F_SFENCE_VMA => "SFENCE_VMA" | F_MUL => "MUL" | F_MULH => "MULH" | F_MULHSU => "MULHSU"
  | F_MULHU => "MULHU" | F_DIV => "DIV" | F_DIVU => "DIVU" | F_REM => "REM" | F_REMU => "REMU"
  | F_MULW => "MULW" | F_DIVW => "DIVW" | F_DIVUW => "DIVUW" | F_REMW => "REMW" | F_REMUW => "REMUW"
  | F_LR_W => "LR_W" | F_SC_W => "SC_W" | F_AMOSWAP_W => "AMOSWAP_W" | F_AMOADD_W => "AMOADD_W"
  | F_AMOXOR_W => "AMOXOR_W" | F_AMOAND_W => "AMOAND_W" | F_AMOOR_W => "AMOOR_W" | F_AMOMIN_W => "AMOMIN_W"
  | F_AMOMAX_W => "AMOMAX_W" | F_AMOMINU_W => "AMOMINU_W" | F_AMOMAXU_W => "AMOMAXU_W" | F_LR_D => "LR_D"
  | F_SC_D => "SC_D" | F_AMOSWAP_D => "AMOSWAP_D" | F_AMOADD_D => "AMOADD_D" | F_AMOXOR_D => "AMOXOR_D"
  | F_AMOAND_D => "AMOAND_D" | F_AMOOR_D => "AMOOR_D" | F_AMOMIN_D => "AMOMIN_D" | F_AMOMAX_D => "AMOMAX_D"
  | F_AMOMINU_D => "AMOMINU_D" | F_AMOMAXU_D => "AMOMAXU_D" | F_C_ADDI4SPN => "C_ADDI4SPN"
  | F_C_LW => "C_LW" | F_C_SW => "C_SW" | F_C_NOP => "C_NOP" | F_C_ADDI => "C_ADDI" | F_C_JAL => "C_JAL"
  | F_C_LI => "C_LI" | F_C_ADDI16SP => "C_ADDI16SP" | F_C_LUI => "C_LUI" | F_C_SRLI => "C_SRLI"
  | F_C_SRAI => "C_SRAI" | F_C_ANDI => "C_ANDI" | F_C_SUB => "C_SUB" | F_C_XOR => "C_XOR"
  | F_C_OR => "C_OR" | F_C_AND => "C_AND" | F_C_J => "C_J" | F_C_BEQZ => "C_BEQZ" | F_C_BNEZ => "C_BNEZ"
  | F_C_SLLI => "C_SLLI" | F_C_LWSP => "C_LWSP" | F_C_JR => "C_JR" | F_C_MV => "C_MV"
  | F_C_EBREAK => "C_EBREAK" | F_C_JALR => "C_JALR" | F_C_ADD => "C_ADD" | F_C_SWSP => "C_SWSP"
  | F_C_LD => "C_LD" | F_C_SD => "C_SD" | F_C_ADDIW => "C_ADDIW" | F_C_SUBW => "C_SUBW"
  | F_C_ADDW => "C_ADDW" | F_C_LDSP => "C_LDSP" | F_C_SDSP => "C_SDSP"
  end.
Definition flat_format_name (f : FlatFormat) : string :=
  match f with
  | Old_Bformat => "Bformat" | Old_Iformat => "Iformat" | Old_R_SHAMTformat => "R_SHAMTformat"
  | Old_Rformat => "Rformat" | Old_Sformat => "Sformat" | Old_Jformat => "Jformat"
  | Old_Uformat => "Uformat" | Old_NoOperand => "NoOperand" | Old_CSRformat => "CSRformat"
  | Old_CSRuiformat => "CSRuiformat" | Old_Mformat => "Mformat" | Old_A_LRformat => "A_LRformat"
  | Old_Aformat => "Aformat" | Old_CLformat => "CLformat" | Old_CIWformat => "CIWformat"
  | Old_CSformat => "CSformat" | Old_CJformat => "CJformat" | Old_CBformat => "CBformat"
  | Old_CIformat => "CIformat" | Old_CAformat => "CAformat" | Old_CSSformat => "CSSformat"
  | Old_CRformat => "CRformat"
  end.
Definition of_flat (f : FlatOpcode) : value := VEnum "OpcodeKind" (flat_name f) [].
Definition of_flat_format (f : FlatFormat) : value := VEnum "InstFormat" (flat_format_name f) [].

(** The function [key] of the file, called with [vs], comes to [a]. *)
Definition old_evaluates (p : platform) (key : string) (vs : list value) (a : ans) : Prop :=
  exists P, load false old_source = Some P /\ forall fuel, (1 <= fuel)%nat -> run P p fuel key vs "" = a.
