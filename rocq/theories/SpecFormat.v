(** Specification of the format tags: the operands the documentation of a tag names, and the bits of
    the word each bit of an operand comes from.  Written from the documentation and from the manual's
    figures, without the tables of Spec.v. *)
From Coq Require Import ZArith List Bool.
From Verif Require Import Types SpecText.
Import ListNotations.
Local Open Scope Z_scope.

(** ** Operands named by a format *)

(** src/instruction.rs:266-429, the comments of InstFormat.  The CSR number is rs2, the destination
    of  "c.add rd, rd, rs2"  is named once, the alternatives of a tag ("c.nop", "c.srai rd, rd, shamt",
    "csrrwi rd, csr, imm") are left out. *)
Definition named (f : InstFormat) : list operand :=
  match f with
  | RFormat | MFormat | AFormat | CsrFormat => [ORd; ORs1; ORs2]
  | RShamtFormat | ALrFormat => [ORd; ORs1]
  | IFormat | ClFormat => [ORd; ORs1; OImm]
  | SFormat | BFormat | CsFormat => [ORs1; ORs2; OImm]
  | UFormat | JFormat | CiFormat | CiwFormat => [ORd; OImm]
  | CrFormat | CaFormat => [ORd; ORs2]
  | CssFormat => [ORs2; OImm]
  | CbFormat => [ORs1; OImm]
  | CjFormat => [OImm]
  | CsrUiFormat => [ORd; ORs2; OImm]
  | NoOperand => []
  | OnlyRd => [ORd]
  | OnlyRs1 => [ORs1]
  | OnlyRs2 => [ORs2]
  end.

(** Operands named by the tag of an instruction that the instruction does not have. *)
Definition lacking : list (OpcodeKind * operand) :=
  [(OA A_LR_D, ORs2); (OZicfiss Ss_SSPOPCHK, ORs2); (OPriv P_SFENCE_VMA, ORd);
   (OC C_JR, ORd); (OC C_JALR, ORd)].

(** Operands that an instruction has and its tag does not name. *)
Definition unnamed : list (OpcodeKind * operand) :=
  (* the shift amount *)
  map (fun o => (OBaseI o, OImm)) [I_SLLI; I_SRLI; I_SRAI; I_SLLIW; I_SRLIW; I_SRAIW]
  (* the aq and rl bits *)
  ++ map (fun o => (OA o, OImm))
    [A_LR_W; A_SC_W; A_AMOSWAP_W; A_AMOADD_W; A_AMOXOR_W; A_AMOAND_W; A_AMOOR_W; A_AMOMIN_W;
     A_AMOMAX_W; A_AMOMINU_W; A_AMOMAXU_W;
     A_LR_D; A_SC_D; A_AMOSWAP_D; A_AMOADD_D; A_AMOXOR_D; A_AMOAND_D; A_AMOOR_D; A_AMOMIN_D;
     A_AMOMAX_D; A_AMOMINU_D; A_AMOMAXU_D]
  ++ map (fun o => (OZifencei Fe_FENCE, o)) [ORd; ORs1; OImm]
  ++ [(OZicfiss Ss_SSPUSH, ORd); (OZicfiss Ss_SSPUSH, ORs2);
      (OZicfiss Ss_SSPOPCHK, ORd); (OZicfiss Ss_SSPOPCHK, ORs1);
      (OZicfiss Ss_C_SSPUSH, ORd); (OZicfiss Ss_C_SSPOPCHK, ORd); (OC C_NOP, OImm)]
  (* the destination, which is also the first source *)
  ++ map (fun o => (OC o, ORs1))
    [C_ADDI; C_ADDIW; C_ADDI16SP; C_SLLI; C_SUB; C_XOR; C_OR; C_AND; C_SUBW; C_ADDW; C_ADD]
  ++ map (fun o => (OC o, ORd)) [C_SRLI; C_SRAI; C_ANDI]
  ++ map (fun o => (OC o, ORs1)) [C_JR; C_JALR].

(** ** Where the bits of an operand come from *)

Inductive source := At (n : Z) | Zero | One.
Definition bit_from (w : Z) (s : source) : bool :=
  match s with At n => Z.testbit w n | Zero => false | One => true end.

(** The sources of the bits of a value, least significant first, and of all the bits beyond: [Zero]
    for a value that is not negative, the sign bit for one in two's complement. *)
Definition sources : Type := list source * source.
Definition drawn (s : sources) (w v : Z) : Prop :=
  forall k, 0 <= k -> Z.testbit v k = bit_from w (nth (Z.to_nat k) (fst s) (snd s)).

(** Bits n, n+1, .. of the word, [len] of them. *)
Fixpoint run (n : Z) (len : nat) : list source :=
  match len with O => [] | S len' => At n :: run (n + 1) len' end.
Definition at_ (ns : list Z) : list source := map At ns.
Definition reg5 (n : Z) : sources := (run n 5, Zero).
(** x8..x15 *)
Definition reg3 (n : Z) : sources := (run n 3 ++ [One], Zero).

(** *** 32-bit instructions: the tag determines the immediate.
    Manual, volume I, 2.3 "Immediate Encoding Variants", and the formats of Zicsr and A; upper
    immediates are reported unshifted. *)
Definition narrow_shift (isa : Isa) (op : OpcodeKind) : bool :=
  match isa, op with
  | Rv32, _ => true
  | _, OBaseI (I_SLLIW | I_SRLIW | I_SRAIW) => true
  | _, _ => false
  end.

Definition imm_bits32 (isa : Isa) (op : OpcodeKind) (f : InstFormat) : option sources :=
  match f with
  | IFormat => Some (run 20 11, At 31)
  | SFormat => Some (run 7 5 ++ run 25 6, At 31)
  | BFormat => Some (Zero :: run 8 4 ++ run 25 6 ++ [At 7], At 31)
  | UFormat => Some (run 12 20, Zero)
  | JFormat => Some (Zero :: run 21 10 ++ [At 20] ++ run 12 8, At 31)
  | RShamtFormat => Some (run 20 (if narrow_shift isa op then 5 else 6), Zero)
  | AFormat | ALrFormat => Some ([At 25; At 26], Zero)
  | CsrUiFormat => Some (run 15 5, Zero)
  | NoOperand => Some (run 20 12, Zero)      (* fence *)
  | _ => None
  end.

(** The registers are in the same place in every format, except for the implied x0 of the shadow
    stack instructions. *)
Definition sources32 (isa : Isa) (op : OpcodeKind) (f : InstFormat) (o : operand) : option sources :=
  match o with
  | ORd => match op with
           | OZicfiss (Ss_SSPUSH | Ss_SSPOPCHK) => Some ([], Zero)
           | _ => Some (reg5 7)
           end
  | ORs1 => match op with OZicfiss Ss_SSPUSH => Some ([], Zero) | _ => Some (reg5 15) end
  | ORs2 => match f with CsrFormat | CsrUiFormat => Some (run 20 12, Zero) | _ => Some (reg5 20) end
  | OImm => imm_bits32 isa op f
  end.

(** *** 16-bit instructions: the tag determines the registers, the opcode the immediate.
    Manual, volume I, "C" Extension, 26.2 and 26.8. *)
Definition imm_bits16 (op : OpcodeKind) : option sources :=
  match op with
  | OC C_ADDI4SPN => Some ([Zero; Zero] ++ at_ [6; 5; 11; 12; 7; 8; 9; 10], Zero)
  | OC (C_LW | C_SW) => Some ([Zero; Zero] ++ at_ [6; 10; 11; 12; 5], Zero)
  | OC (C_LD | C_SD) => Some ([Zero; Zero; Zero] ++ at_ [10; 11; 12; 5; 6], Zero)
  | OC (C_NOP | C_ADDI | C_ADDIW | C_LI | C_ANDI) => Some (at_ [2; 3; 4; 5; 6], At 12)
  | OC (C_SRLI | C_SRAI | C_SLLI) => Some (at_ [2; 3; 4; 5; 6; 12], Zero)
  | OC (C_J | C_JAL) => Some (Zero :: at_ [3; 4; 5; 11; 2; 7; 6; 9; 10; 8], At 12)
  | OC C_ADDI16SP => Some ([Zero; Zero; Zero; Zero] ++ at_ [6; 2; 5; 3; 4], At 12)
  | OC C_LUI => Some (repeat Zero 12 ++ at_ [2; 3; 4; 5; 6], At 12)
  | OC (C_BEQZ | C_BNEZ) => Some (Zero :: at_ [3; 4; 10; 11; 2; 5; 6], At 12)
  | OC C_LWSP => Some ([Zero; Zero] ++ at_ [4; 5; 6; 12; 2; 3], Zero)
  | OC C_LDSP => Some ([Zero; Zero; Zero] ++ at_ [5; 6; 12; 2; 3; 4], Zero)
  | OC C_SWSP => Some ([Zero; Zero] ++ at_ [9; 10; 11; 12; 7; 8], Zero)
  | OC C_SDSP => Some ([Zero; Zero; Zero] ++ at_ [10; 11; 12; 7; 8; 9], Zero)
  | _ => None
  end.

Definition sources16 (op : OpcodeKind) (f : InstFormat) (o : operand) : option sources :=
  match o, f with
  | ORd, (CiFormat | CrFormat) => Some (reg5 7)
  | ORd, (CiwFormat | ClFormat) => Some (reg3 2)
  | ORd, (CaFormat | CbFormat) => Some (reg3 7)
  | ORd, _ => match op with
              | OZicfiss Ss_C_SSPUSH => Some ([One], Zero)              (* x1 *)
              | OZicfiss Ss_C_SSPOPCHK => Some ([One; Zero; One], Zero) (* x5 *)
              | _ => None
              end
  | ORs1, (CiFormat | CrFormat) => Some (reg5 7)
  | ORs1, (ClFormat | CsFormat | CaFormat | CbFormat) => Some (reg3 7)
  | ORs2, (CrFormat | CssFormat) => Some (reg5 2)
  | ORs2, (CsFormat | CaFormat) => Some (reg3 2)
  | OImm, _ => imm_bits16 op
  | _, _ => None
  end.
