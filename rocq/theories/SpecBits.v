(** Specification of changes of single bits: bits a decoded instruction does not depend on, pairs of
    opcodes one bit apart, and what the decoders can return at all. *)
From Coq Require Import ZArith List Bool.
From Verif Require Import Types Spec SpecOps SpecText SpecAsm.
Import ListNotations.
Local Open Scope Z_scope.

(** The word with bit [k] inverted. *)
Definition flip (w k : Z) : Z := Z.lxor w (2 ^ k).

(** Bit [k] of an [op] instruction holds a bit of operand [o]. *)
Definition bit_of (t : list row) (isa : Isa) (op : OpcodeKind) (o : operand) (k : Z) : Prop :=
  exists r h l b, In r t /\ r_op r = op /\ In (o, (h, l, b)) (slots (r_cls r isa)) /\
    b - (h - l) <= k <= b.

(** Bits hi..lo. *)
Definition bits (hi lo : Z) : list Z := map (fun n => lo + Z.of_nat n) (seq 0 (Z.to_nat (hi - lo + 1))).

(** ** Bits whose corruption goes unnoticed *)

(** Bits that the manual fixes, or (aq and rl of ssamoswap) gives a meaning, and that can be inverted
    in any legal encoding without the decoded instruction changing. *)
Definition blind (op : OpcodeKind) : list Z :=
  match op with
  | OBaseI I_JALR => bits 14 12                                           (* funct3 *)
  | OBaseI (I_SLL | I_SLT | I_SLTU | I_XOR | I_OR | I_AND) => bits 31 26  (* funct7 *)
  | OBaseI I_SLLIW => bits 31 25
  | OBaseI I_SLLW => [30]
  | OBaseI (I_ECALL | I_EBREAK) => bits 11 7 ++ bits 19 15                (* rd, rs1 *)
  | OA (A_LR_W | A_LR_D) => bits 24 20                                    (* rs2 *)
  | OZicntr _ => bits 19 15                                               (* rs1 *)
  | OZicfiss Ss_SSPUSH => bits 11 7 ++ bits 19 15
  | OZicfiss Ss_SSPOPCHK => bits 11 7
  | OZicfiss (Ss_SSAMOSWAP_W | Ss_SSAMOSWAP_D) => bits 26 25              (* aq, rl *)
  | OPriv P_SFENCE_VMA => bits 11 7
  | OC C_EBREAK => bits 6 2
  | _ => []
  end.

(** ** Opcodes one bit apart *)

(** [(a, b, k)]: an [a] instruction with bit [k] inverted is the [b] instruction with the same
    operands, and conversely. *)
Definition siblings : list (OpcodeKind * OpcodeKind * Z) :=
  (* condition and negated condition *)
  [(OBaseI I_BEQ, OBaseI I_BNE, 12); (OBaseI I_BLT, OBaseI I_BGE, 12); (OBaseI I_BLTU, OBaseI I_BGEU, 12);
  (* signed and unsigned *)
   (OBaseI I_BLT, OBaseI I_BLTU, 13); (OBaseI I_BGE, OBaseI I_BGEU, 13);
   (OBaseI I_SLT, OBaseI I_SLTU, 12); (OBaseI I_SLTI, OBaseI I_SLTIU, 12);
   (OBaseI I_LB, OBaseI I_LBU, 14); (OBaseI I_LH, OBaseI I_LHU, 14); (OBaseI I_LW, OBaseI I_LWU, 14);
   (OM M_DIV, OM M_DIVU, 12); (OM M_REM, OM M_REMU, 12);
   (OM M_DIVW, OM M_DIVUW, 12); (OM M_REMW, OM M_REMUW, 12);
   (OA A_AMOMIN_W, OA A_AMOMINU_W, 30); (OA A_AMOMAX_W, OA A_AMOMAXU_W, 30);
   (OA A_AMOMIN_D, OA A_AMOMINU_D, 30); (OA A_AMOMAX_D, OA A_AMOMAXU_D, 30);
  (* minimum and maximum *)
   (OA A_AMOMIN_W, OA A_AMOMAX_W, 29); (OA A_AMOMINU_W, OA A_AMOMAXU_W, 29);
   (OA A_AMOMIN_D, OA A_AMOMAX_D, 29); (OA A_AMOMINU_D, OA A_AMOMAXU_D, 29);
  (* logical and arithmetic, add and subtract *)
   (OBaseI I_SRL, OBaseI I_SRA, 30); (OBaseI I_SRLI, OBaseI I_SRAI, 30);
   (OBaseI I_SRLW, OBaseI I_SRAW, 30); (OBaseI I_SRLIW, OBaseI I_SRAIW, 30);
   (OBaseI I_ADD, OBaseI I_SUB, 30); (OBaseI I_ADDW, OBaseI I_SUBW, 30);
  (* all bits and the low 32 *)
   (OBaseI I_ADD, OBaseI I_ADDW, 3); (OBaseI I_SUB, OBaseI I_SUBW, 3); (OBaseI I_SLL, OBaseI I_SLLW, 3);
   (OBaseI I_SRL, OBaseI I_SRLW, 3); (OBaseI I_SRA, OBaseI I_SRAW, 3); (OBaseI I_ADDI, OBaseI I_ADDIW, 3);
   (OM M_MUL, OM M_MULW, 3); (OM M_DIV, OM M_DIVW, 3); (OM M_DIVU, OM M_DIVUW, 3);
   (OM M_REM, OM M_REMW, 3); (OM M_REMU, OM M_REMUW, 3);
  (* word and doubleword *)
   (OBaseI I_LW, OBaseI I_LD, 12); (OBaseI I_SW, OBaseI I_SD, 12);
   (OA A_LR_W, OA A_LR_D, 12); (OA A_SC_W, OA A_SC_D, 12); (OA A_AMOSWAP_W, OA A_AMOSWAP_D, 12);
   (OA A_AMOADD_W, OA A_AMOADD_D, 12); (OA A_AMOXOR_W, OA A_AMOXOR_D, 12);
   (OA A_AMOAND_W, OA A_AMOAND_D, 12); (OA A_AMOOR_W, OA A_AMOOR_D, 12);
   (OA A_AMOMIN_W, OA A_AMOMIN_D, 12); (OA A_AMOMAX_W, OA A_AMOMAX_D, 12);
   (OA A_AMOMINU_W, OA A_AMOMINU_D, 12); (OA A_AMOMAXU_W, OA A_AMOMAXU_D, 12);
   (OZicfiss Ss_SSAMOSWAP_W, OZicfiss Ss_SSAMOSWAP_D, 12);
  (* byte and halfword *)
   (OBaseI I_LB, OBaseI I_LH, 12); (OBaseI I_LBU, OBaseI I_LHU, 12); (OBaseI I_SB, OBaseI I_SH, 12)].

(** The same for shifts by an immediate, where the shift of all 64 bits has one more bit of shift
    amount. *)
Definition shift_siblings : list (OpcodeKind * OpcodeKind) :=
  [(OBaseI I_SLLI, OBaseI I_SLLIW); (OBaseI I_SRLI, OBaseI I_SRLIW); (OBaseI I_SRAI, OBaseI I_SRAIW)].

(** Pairs that should have one format tag but have not. *)
Definition tagged_apart : list (OpcodeKind * OpcodeKind) := [(OA A_LR_W, OA A_LR_D)].

(** [j] is the [op] instruction with the operands of [i]. *)
Definition twin (i : Instruction) (op : OpcodeKind) (j : Instruction) : Prop :=
  opc j = op /\ rd j = rd i /\ rs1 j = rs1 i /\ rs2 j = rs2 i /\ imm j = imm i /\
  is_compressed j = is_compressed i.

(** ** What can be returned *)

(** Opcodes that u32::decode never returns on an ISA (with those of other widths). *)
Definition unreturned32 (isa : Isa) : list OpcodeKind :=
  match isa with
  | Rv32 => rv64_base_i ++ rv64_m ++ rv64_a
  | Rv64 => []
  end.
Definition unreturned16 (isa : Isa) : list OpcodeKind :=
  match isa with Rv32 => rv64_c | Rv64 => rv32_c end.

Definition errors_seen32 (isa : Isa) : list DecodingError :=
  [InvalidFunct3; InvalidFunct5; InvalidFunct7; InvalidOpcode; UnknownExtension] ++
  match isa with Rv32 => [OnlyRv64Inst] | Rv64 => [InvalidFunct6] end.
Definition errors_seen16 (isa : Isa) : list DecodingError :=
  [InvalidOpcode; IllegalInstruction] ++
  match isa with Rv32 => [OnlyRv64Inst] | Rv64 => [] end.

Definition formats32 : list InstFormat :=
  [RFormat; RShamtFormat; IFormat; SFormat; BFormat; UFormat; JFormat; CsrFormat; CsrUiFormat; MFormat;
   AFormat; ALrFormat; NoOperand; OnlyRd; OnlyRs1; OnlyRs2].
Definition formats16 : list InstFormat :=
  [CrFormat; CiFormat; CssFormat; CiwFormat; ClFormat; CsFormat; CaFormat; CbFormat; CjFormat; NoOperand].
