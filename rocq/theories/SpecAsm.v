(** Specification of the encoder: the word that the manual assigns to an opcode with given operands,
    the operand values it allows, and the expansion of compressed instructions. *)
From Coq Require Import ZArith List Bool.
From Verif Require Import Types Spec SpecOps SpecText.
Import ListNotations.
Local Open Scope Z_scope.

(** ** Where the operands are stored *)

(** [(o, (h, l, b))]: bits h..l of operand [o] are the instruction bits b, b-1, .. *)
Definition slot : Type := operand * chunk.

Definition reg_slots (o : operand) (s : reg_src) : list slot :=
  match s with
  | RBits hi lo | RPrime hi lo => [(o, (hi - lo, 0, hi))]
  | RNone | RConst _ => []
  end.
Definition imm_slots (s : imm_src) : list slot :=
  match s with
  | INone => []
  | IUns cs | ISig _ cs => map (fun c => (OImm, c)) cs
  end.
Definition slots (c : class) : list slot :=
  reg_slots ORd (c_rd c) ++ reg_slots ORs1 (c_rs1 c) ++ reg_slots ORs2 (c_rs2 c)
  ++ imm_slots (c_imm c).

(** Which bit of which operand instruction bit [k] holds. *)
Fixpoint holder (l : list slot) (k : Z) : option (operand * Z) :=
  match l with
  | [] => None
  | (o, (h, lo, b)) :: l' =>
      if (b - (h - lo) <=? k) && (k <=? b) then Some (o, h - (b - k)) else holder l' k
  end.

Definition reg_source (c : class) (o : operand) : reg_src :=
  match o with ORd => c_rd c | ORs1 => c_rs1 c | ORs2 => c_rs2 c | OImm => RNone end.
(** The number stored for an operand value: x8..x15 are stored as 0..7. *)
Definition stored (c : class) (o : operand) (v : Z) : Z :=
  match reg_source c o with RPrime _ _ => v - 8 | _ => v end.

(** ** The encoded word *)

Definition pattern_bit (p : pattern) (k : Z) : option bool :=
  match nth_error p (Z.to_nat k) with Some o => o | None => None end.

(** Bit [k]: the bit of the operand stored there, or else the opcode's fixed bit. *)
Definition encoded_bit (c : class) (e : enc) (i : Instruction) (k : Z) : bool :=
  match holder (slots c) k with
  | Some (o, j) =>
      match get o i with Some v => Z.testbit (stored c o v) j | None => false end
  | None =>
      match incl e with
      | p :: _ => match pattern_bit p k with Some b => b | None => false end
      | [] => false
      end
  end.

Fixpoint word (n : nat) (f : Z -> bool) : Z :=
  match n with
  | O => 0
  | S m => word m f + (if f (Z.of_nat m) then 2 ^ Z.of_nat m else 0)
  end.

(** [w] is the manual's encoding of instruction [i]. *)
Definition encodes32 (isa : Isa) (i : Instruction) (w : Z) : Prop :=
  exists r, In r table32 /\ r_op r = opc i /\
    w = word 32 (encoded_bit (r_cls r isa) (r_man r isa) i).
Definition encodes16 (isa : Isa) (i : Instruction) (w : Z) : Prop :=
  exists r, In r table16 /\ r_op r = opc i /\
    w = word 16 (encoded_bit (r_cls r isa) (r_man r isa) i).

(** ** Operand values *)

Definition reg_ok (s : reg_src) (v : option Z) : Prop :=
  match s with
  | RNone => v = None
  | RConst n => v = Some n
  | RBits hi lo => exists x, v = Some x /\ 0 <= x < 2 ^ (hi - lo + 1)
  | RPrime _ _ => exists x, v = Some x /\ 8 <= x <= 15
  end.

(** Two register operands with the same place in the word are the same register (rd and rs1 of the
    two-address instructions). *)
Definition two_address (c : class) (i : Instruction) : Prop :=
  match c_rd c, c_rs1 c with
  | RBits h l, RBits h' l' | RPrime h l, RPrime h' l' => h = h' /\ l = l' -> rd i = rs1 i
  | _, _ => True
  end.

(** Further restrictions of the manual. *)
Inductive cond :=
| Among (o : operand) (vs : list Z)         (* the operand has one of these values *)
| Unless (l : list (operand * Z)).          (* not all of these operands have these values *)

Definition has_value (i : Instruction) (ov : operand * Z) : bool :=
  match get (fst ov) i with Some x => x =? snd ov | None => false end.
Definition holds (i : Instruction) (c : cond) : bool :=
  match c with
  | Among o vs => existsb (fun v => has_value i (o, v)) vs
  | Unless l => negb (forallb (has_value i) l)
  end.

Definition nonzero (o : operand) : cond := Unless [(o, 0)].
Definition upto31 : list Z := map Z.of_nat (seq 0 32).

Definition conds32 (isa : Isa) (op : OpcodeKind) : list cond :=
  match op with
  | OZicsr Csr_CSRRS =>
      (* the counter reads have opcodes of their own *)
      map (fun c => Unless [(ORs1, 0); (ORs2, c)])
        (match isa with
         | Rv32 => [0xC00; 0xC01; 0xC02; 0xC80; 0xC81; 0xC82]
         | Rv64 => [0xC00; 0xC01; 0xC02]
         end)
  | OZicfiss Ss_SSPUSH => [Among ORs2 [1; 5]]
  | OZicfiss Ss_SSPOPCHK => [Among ORs1 [1; 5]]
  | OZicfiss Ss_SSRDP => [nonzero ORd]
  | _ => []
  end.

Definition conds16 (isa : Isa) (op : OpcodeKind) : list cond :=
  match op with
  | OC o =>
      match o with
      | C_ADDI4SPN => [nonzero OImm]
      | C_ADDI | C_ADDIW | C_LWSP | C_LDSP => [nonzero ORd]
      | C_ADDI16SP => [Among ORd [2]; nonzero OImm]
      | C_LUI => [Unless [(ORd, 2)]; nonzero OImm]
      | C_SRLI | C_SRAI | C_SLLI =>
          match isa with Rv32 => [Among OImm upto31] | Rv64 => [] end
      | C_JR | C_JALR => [nonzero ORs1; Among ORs2 [0]]
      | C_MV | C_ADD => [nonzero ORs2]
      | _ => []
      end
  | _ => []
  end.

(** The opcode exists on the ISA. *)
Definition available32 (isa : Isa) (op : OpcodeKind) : Prop :=
  match isa with
  | Rv32 => ~ In op (rv64_base_i ++ rv64_m ++ rv64_a ++ rv64_ss)
  | Rv64 => ~ In op rv32_counters
  end.
Definition available16 (isa : Isa) (op : OpcodeKind) : Prop :=
  match isa with Rv32 => ~ In op rv64_c | Rv64 => ~ In op rv32_c end.

(** [i] is an instruction of the manual with operands as the manual allows them. *)
Definition valid32 (isa : Isa) (i : Instruction) : Prop :=
  available32 isa (opc i) /\ is_compressed i = false /\
  imm_in (imm_range32 isa (opc i)) (imm i) /\
  Forall (fun c => holds i c = true) (conds32 isa (opc i)) /\
  exists r, In r table32 /\ r_op r = opc i /\
    reg_ok (c_rd (r_cls r isa)) (rd i) /\ reg_ok (c_rs1 (r_cls r isa)) (rs1 i) /\
    reg_ok (c_rs2 (r_cls r isa)) (rs2 i) /\ two_address (r_cls r isa) i /\
    inst_format i = c_fmt (r_cls r isa).
Definition valid16 (isa : Isa) (i : Instruction) : Prop :=
  available16 isa (opc i) /\ is_compressed i = true /\
  imm_in (imm_range16 (opc i)) (imm i) /\
  Forall (fun c => holds i c = true) (conds16 isa (opc i)) /\
  exists r, In r table16 /\ r_op r = opc i /\
    reg_ok (c_rd (r_cls r isa)) (rd i) /\ reg_ok (c_rs1 (r_cls r isa)) (rs1 i) /\
    reg_ok (c_rs2 (r_cls r isa)) (rs2 i) /\ two_address (r_cls r isa) i /\
    inst_format i = c_fmt (r_cls r isa).

(** Opcodes of which the manual has two operand bits (aq, rl) that the crate does not report. *)
Definition unreported : list OpcodeKind := [OZicfiss Ss_SSAMOSWAP_W; OZicfiss Ss_SSAMOSWAP_D].

(** Valid instructions whose encoding is decoded as another opcode: csrrs of a counter (decoded as a
    counter read) and the HINT c.add x0, rs2 (decoded as c.ebreak). *)
Definition misread (i : Instruction) : Prop :=
  opc i = OZicsr Csr_CSRRS /\ (exists c, rs2 i = Some c /\ In c counter_csrs) \/
  opc i = OC C_ADD /\ rd i = Some 0.

(** Bit [k] of an [op] instruction holds a bit of an operand. *)
Definition operand_bit (t : list row) (isa : Isa) (op : OpcodeKind) (k : Z) : Prop :=
  exists r o h l b, In r t /\ r_op r = op /\ In (o, (h, l, b)) (slots (r_cls r isa)) /\
    b - (h - l) <= k <= b.

(** ** Expansion of compressed instructions *)

Definition inst (op : OpcodeKind) (d s t m : option Z) (f : InstFormat) : Instruction :=
  {| opc := op; rd := d; rs1 := s; rs2 := t; imm := m; inst_format := f; is_compressed := false |}.

Definition zero := Some 0.
Definition ra := Some 1.
Definition sp := Some 2.

Definition expand (i : Instruction) : option Instruction :=
  match opc i with
  | OC o =>
      Some match o with
      | C_ADDI4SPN => inst (OBaseI I_ADDI) (rd i) sp None (imm i) IFormat
      | C_LW => inst (OBaseI I_LW) (rd i) (rs1 i) None (imm i) IFormat
      | C_LD => inst (OBaseI I_LD) (rd i) (rs1 i) None (imm i) IFormat
      | C_SW => inst (OBaseI I_SW) None (rs1 i) (rs2 i) (imm i) SFormat
      | C_SD => inst (OBaseI I_SD) None (rs1 i) (rs2 i) (imm i) SFormat
      | C_NOP => inst (OBaseI I_ADDI) zero zero None (imm i) IFormat
      | C_ADDI => inst (OBaseI I_ADDI) (rd i) (rd i) None (imm i) IFormat
      | C_JAL => inst (OBaseI I_JAL) ra None None (imm i) JFormat
      | C_ADDIW => inst (OBaseI I_ADDIW) (rd i) (rd i) None (imm i) IFormat
      | C_LI => inst (OBaseI I_ADDI) (rd i) zero None (imm i) IFormat
      | C_ADDI16SP => inst (OBaseI I_ADDI) sp sp None (imm i) IFormat
      | C_LUI =>
          (* the upper 20 bits *)
          inst (OBaseI I_LUI) (rd i) None None
            (option_map (fun v => (v / 2 ^ 12) mod 2 ^ 20) (imm i)) UFormat
      | C_SRLI => inst (OBaseI I_SRLI) (rd i) (rd i) None (imm i) RShamtFormat
      | C_SRAI => inst (OBaseI I_SRAI) (rd i) (rd i) None (imm i) RShamtFormat
      | C_ANDI => inst (OBaseI I_ANDI) (rd i) (rd i) None (imm i) IFormat
      | C_SUB => inst (OBaseI I_SUB) (rd i) (rd i) (rs2 i) None RFormat
      | C_XOR => inst (OBaseI I_XOR) (rd i) (rd i) (rs2 i) None RFormat
      | C_OR => inst (OBaseI I_OR) (rd i) (rd i) (rs2 i) None RFormat
      | C_AND => inst (OBaseI I_AND) (rd i) (rd i) (rs2 i) None RFormat
      | C_SUBW => inst (OBaseI I_SUBW) (rd i) (rd i) (rs2 i) None RFormat
      | C_ADDW => inst (OBaseI I_ADDW) (rd i) (rd i) (rs2 i) None RFormat
      | C_J => inst (OBaseI I_JAL) zero None None (imm i) JFormat
      | C_BEQZ => inst (OBaseI I_BEQ) None (rs1 i) zero (imm i) BFormat
      | C_BNEZ => inst (OBaseI I_BNE) None (rs1 i) zero (imm i) BFormat
      | C_SLLI => inst (OBaseI I_SLLI) (rd i) (rd i) None (imm i) RShamtFormat
      | C_LWSP => inst (OBaseI I_LW) (rd i) sp None (imm i) IFormat
      | C_LDSP => inst (OBaseI I_LD) (rd i) sp None (imm i) IFormat
      | C_JR => inst (OBaseI I_JALR) zero (rs1 i) None (Some 0) IFormat
      | C_MV => inst (OBaseI I_ADD) (rd i) zero (rs2 i) None RFormat
      | C_EBREAK => inst (OBaseI I_EBREAK) None None None None NoOperand
      | C_JALR => inst (OBaseI I_JALR) ra (rs1 i) None (Some 0) IFormat
      | C_ADD => inst (OBaseI I_ADD) (rd i) (rd i) (rs2 i) None RFormat
      | C_SWSP => inst (OBaseI I_SW) None sp (rs2 i) (imm i) SFormat
      | C_SDSP => inst (OBaseI I_SD) None sp (rs2 i) (imm i) SFormat
      end
  | OZicfiss Ss_C_SSPUSH => Some (inst (OZicfiss Ss_SSPUSH) zero zero ra None OnlyRs1)
  | OZicfiss Ss_C_SSPOPCHK => Some (inst (OZicfiss Ss_SSPOPCHK) zero (Some 5) None None OnlyRs2)
  | _ => None
  end.
