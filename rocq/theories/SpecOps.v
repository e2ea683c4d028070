(** Specification of the opcode-level claims: which opcodes belong to one ISA only, which
    encodings are accepted although the manual does not assign them, operand ranges. *)
From Coq Require Import ZArith List Bool String.
From Verif Require Import Types Spec.
Import ListNotations.
Local Open Scope Z_scope.

(** ** Opcodes of one ISA only (manual) *)

Definition rv64_base_i : list OpcodeKind := map OBaseI
  [I_LWU; I_LD; I_SD; I_ADDIW; I_SLLIW; I_SRLIW; I_SRAIW; I_ADDW; I_SUBW; I_SLLW; I_SRLW; I_SRAW].
Definition rv64_m : list OpcodeKind := map OM [M_MULW; M_DIVW; M_DIVUW; M_REMW; M_REMUW].
Definition rv64_a : list OpcodeKind := map OA
  [A_LR_D; A_SC_D; A_AMOSWAP_D; A_AMOADD_D; A_AMOXOR_D; A_AMOAND_D; A_AMOOR_D; A_AMOMIN_D;
   A_AMOMAX_D; A_AMOMINU_D; A_AMOMAXU_D].
Definition rv64_c : list OpcodeKind := map OC
  [C_LD; C_SD; C_ADDIW; C_SUBW; C_ADDW; C_LDSP; C_SDSP].
Definition rv64_ss : list OpcodeKind := [OZicfiss Ss_SSAMOSWAP_D].

Definition rv32_c : list OpcodeKind := [OC C_JAL].
Definition rv32_counters : list OpcodeKind :=
  map OZicntr [Cnt_RDCYCLE_H; Cnt_RDTIME_H; Cnt_RDINSTRET_H].

(** ** Legal encodings *)

(** The manual assigns [w] to instruction [op]. *)
Definition legal32 (isa : Isa) (op : OpcodeKind) (w : Z) : Prop :=
  exists r, In r table32 /\ r_op r = op /\ in_enc (r_man r isa) w = true.
Definition legal16 (isa : Isa) (op : OpcodeKind) (w : Z) : Prop :=
  exists r, In r table16 /\ r_op r = op /\ in_enc (r_man r isa) w = true.

(** ** Encodings accepted although the manual does not assign them to the instruction *)

Local Open Scope string_scope.

Definition lenient32 : list (OpcodeKind * (Isa -> enc)) := [
  (OBaseI I_JALR, on_both (but ["....... ..... ..... ... ..... 1100111"]
                               ["....... ..... ..... 000 ..... 1100111"]));
  (OBaseI I_SLL,  on_both (but ["....... ..... ..... 001 ..... 0110011"]
                               ["000000. ..... ..... 001 ..... 0110011"]));
  (OBaseI I_SLT,  on_both (but ["....... ..... ..... 010 ..... 0110011"]
                               ["000000. ..... ..... 010 ..... 0110011"]));
  (OBaseI I_SLTU, on_both (but ["....... ..... ..... 011 ..... 0110011"]
                               ["000000. ..... ..... 011 ..... 0110011"]));
  (OBaseI I_XOR,  on_both (but ["....... ..... ..... 100 ..... 0110011"]
                               ["000000. ..... ..... 100 ..... 0110011"]));
  (OBaseI I_OR,   on_both (but ["....... ..... ..... 110 ..... 0110011"]
                               ["000000. ..... ..... 110 ..... 0110011"]));
  (OBaseI I_AND,  on_both (but ["....... ..... ..... 111 ..... 0110011"]
                               ["000000. ..... ..... 111 ..... 0110011"]));
  (OBaseI I_ECALL,  on_both (but ["0000000 00000 ..... 000 ..... 1110011"]
                                 ["0000000 00000 00000 000 00000 1110011"]));
  (OBaseI I_EBREAK, on_both (but ["0000000 00001 ..... 000 ..... 1110011"]
                                 ["0000000 00001 00000 000 00000 1110011"]));
  (OBaseI I_SLLIW, on_rv64 (but ["....... ..... ..... 001 ..... 0011011"]
                                ["0000000 ..... ..... 001 ..... 0011011"]));
  (OBaseI I_SLLW,  on_rv64 (only ["0100000 ..... ..... 001 ..... 0111011"]));
  (OA A_LR_W, on_both (but ["00010.. ..... ..... 010 ..... 0101111"]
                           ["00010.. 00000 ..... 010 ..... 0101111"]));
  (OA A_LR_D, on_rv64 (but ["00010.. ..... ..... 011 ..... 0101111"]
                           ["00010.. 00000 ..... 011 ..... 0101111"]));
  (OZicntr Cnt_RDCYCLE,   on_both (but ["1100000 00000 ..... 010 ..... 1110011"]
                                       ["1100000 00000 00000 010 ..... 1110011"]));
  (OZicntr Cnt_RDTIME,    on_both (but ["1100000 00001 ..... 010 ..... 1110011"]
                                       ["1100000 00001 00000 010 ..... 1110011"]));
  (OZicntr Cnt_RDINSTRET, on_both (but ["1100000 00010 ..... 010 ..... 1110011"]
                                       ["1100000 00010 00000 010 ..... 1110011"]));
  (OZicntr Cnt_RDCYCLE_H,   by_isa (but ["1100100 00000 ..... 010 ..... 1110011"]
                                        ["1100100 00000 00000 010 ..... 1110011"])
                                   (only ["1100100 00000 ..... 010 ..... 1110011"]));
  (OZicntr Cnt_RDTIME_H,    by_isa (but ["1100100 00001 ..... 010 ..... 1110011"]
                                        ["1100100 00001 00000 010 ..... 1110011"])
                                   (only ["1100100 00001 ..... 010 ..... 1110011"]));
  (OZicntr Cnt_RDINSTRET_H, by_isa (but ["1100100 00010 ..... 010 ..... 1110011"]
                                        ["1100100 00010 00000 010 ..... 1110011"])
                                   (only ["1100100 00010 ..... 010 ..... 1110011"]));
  (OZicfiss Ss_SSPUSH,
    on_both (but ["1100111 00.01 ..... 100 ..... 1110011"]
                 ["1100111 00.01 00000 100 00000 1110011"]));
  (OZicfiss Ss_SSPOPCHK,
    on_both (but ["1100110 11100 ..... 100 ..... 1110011"]
                 ["1100110 11100 00000 100 ..... 1110011";
                  "1100110 11100 00.01 100 00000 1110011"]));
  (OZicfiss Ss_SSRDP, on_both (only ["1100110 11100 00000 100 00000 1110011"]));
  (OZicfiss Ss_SSAMOSWAP_D, on_rv32 (only ["01001.. ..... ..... 011 ..... 0101111"]));
  (OPriv P_SFENCE_VMA, on_both (but ["0001001 ..... ..... 000 ..... 1110011"]
                                    ["0001001 ..... ..... 000 00000 1110011"]))
].

Definition lenient16 : list (OpcodeKind * (Isa -> enc)) := [
  (* c.addi4spn rd', 0 *)
  (OC C_ADDI4SPN, on_both (but ["000 00000000 ... 00"] ["000 00000000 000 00"]));
  (* c.addiw x0, imm *)
  (OC C_ADDIW, on_rv64 (only ["001 . 00000 ..... 01"]));
  (* c.addi16sp 0 and c.lui rd, 0 *)
  (OC C_ADDI16SP, on_both (only ["011 0 00010 00000 01"]));
  (OC C_LUI, on_both (but ["011 0 ..... 00000 01"]
                          ["011 0 00010 00000 01"; "011 0 00001 00000 01"; "011 0 00101 00000 01"]));
  (* shift amounts of 32 and more on Rv32 *)
  (OC C_SRLI, on_rv32 (only ["100 1 00 ... ..... 01"]));
  (OC C_SRAI, on_rv32 (only ["100 1 01 ... ..... 01"]));
  (OC C_SLLI, on_rv32 (only ["000 1 ..... ..... 10"]));
  (* rd = x0 *)
  (OC C_LWSP, on_both (only ["010 . 00000 ..... 10"]));
  (OC C_LDSP, on_rv64 (only ["011 . 00000 ..... 10"]));
  (OC C_JR, on_both (only ["100 0 00000 00000 10"]));
  (* the HINT c.add x0, rs2 *)
  (OC C_EBREAK, on_both (but ["100 1 00000 ..... 10"] ["100 1 00000 00000 10"]))
].

Definition lenient (l : list (OpcodeKind * (Isa -> enc))) (isa : Isa) (op : OpcodeKind) (w : Z)
  : Prop :=
  exists e, In (op, e) l /\ in_enc (e isa) w = true.

(** ** Immediates *)
Local Open Scope Z_scope.

(** Smallest and largest value and the step between values, [None] for no immediate. *)
Definition imm_range32 (isa : Isa) (op : OpcodeKind) : option (Z * Z * Z) :=
  match op with
  | OBaseI o =>
      match o with
      | I_LUI | I_AUIPC => Some (0, 2 ^ 20 - 1, 1)
      | I_JAL => Some (- 2 ^ 20, 2 ^ 20 - 2, 2)
      | I_BEQ | I_BNE | I_BLT | I_BGE | I_BLTU | I_BGEU => Some (-4096, 4094, 2)
      | I_JALR | I_LB | I_LH | I_LW | I_LD | I_LBU | I_LHU | I_LWU
      | I_SB | I_SH | I_SW | I_SD
      | I_ADDI | I_SLTI | I_SLTIU | I_XORI | I_ORI | I_ANDI | I_ADDIW => Some (-2048, 2047, 1)
      | I_SLLI | I_SRLI | I_SRAI =>
          match isa with Rv32 => Some (0, 31, 1) | Rv64 => Some (0, 63, 1) end
      | I_SLLIW | I_SRLIW | I_SRAIW => Some (0, 31, 1)
      | _ => None
      end
  | OA _ => Some (0, 3, 1)                                     (* aq, rl *)
  | OZicsr Csr_CSRRWI | OZicsr Csr_CSRRSI | OZicsr Csr_CSRRCI => Some (0, 31, 1)
  | OZifencei _ => Some (0, 4095, 1)                           (* fm, pred, succ *)
  | _ => None
  end.

Definition imm_range16 (op : OpcodeKind) : option (Z * Z * Z) :=
  match op with
  | OC o =>
      match o with
      | C_ADDI4SPN => Some (0, 1020, 4)
      | C_LW | C_SW => Some (0, 124, 4)
      | C_LD | C_SD => Some (0, 248, 8)
      | C_NOP | C_ADDI | C_ADDIW | C_LI | C_ANDI => Some (-32, 31, 1)
      | C_JAL | C_J => Some (-2048, 2046, 2)
      | C_ADDI16SP => Some (-512, 496, 16)
      | C_LUI => Some (-131072, 126976, 4096)
      | C_SRLI | C_SRAI | C_SLLI => Some (0, 63, 1)
      | C_BEQZ | C_BNEZ => Some (-256, 254, 2)
      | C_LWSP | C_SWSP => Some (0, 252, 4)
      | C_LDSP | C_SDSP => Some (0, 504, 8)
      | _ => None
      end
  | _ => None
  end.

Definition imm_in (range : option (Z * Z * Z)) (v : option Z) : Prop :=
  match range with
  | None => v = None
  | Some (lo, hi, step) => exists x, v = Some x /\ lo <= x <= hi /\ x mod step = 0
  end.

(** Instruction bits that hold the immediate (hi, lo). *)
Definition imm_bits32 (isa : Isa) (op : OpcodeKind) : list (Z * Z) :=
  match op with
  | OBaseI o =>
      match o with
      | I_LUI | I_AUIPC | I_JAL => [(31, 12)]
      | I_BEQ | I_BNE | I_BLT | I_BGE | I_BLTU | I_BGEU | I_SB | I_SH | I_SW | I_SD =>
          [(31, 25); (11, 7)]
      | I_JALR | I_LB | I_LH | I_LW | I_LD | I_LBU | I_LHU | I_LWU
      | I_ADDI | I_SLTI | I_SLTIU | I_XORI | I_ORI | I_ANDI | I_ADDIW => [(31, 20)]
      | I_SLLI | I_SRLI | I_SRAI =>
          match isa with Rv32 => [(24, 20)] | Rv64 => [(25, 20)] end
      | I_SLLIW | I_SRLIW | I_SRAIW => [(24, 20)]
      | _ => []
      end
  | OA _ => [(26, 25)]
  | OZicsr Csr_CSRRWI | OZicsr Csr_CSRRSI | OZicsr Csr_CSRRCI => [(19, 15)]
  | OZifencei _ => [(31, 20)]
  | _ => []
  end.

Definition imm_bits16 (op : OpcodeKind) : list (Z * Z) :=
  match op with
  | OC o =>
      match o with
      | C_ADDI4SPN => [(12, 5)]
      | C_LW | C_SW | C_LD | C_SD => [(12, 10); (6, 5)]
      | C_NOP | C_ADDI | C_ADDIW | C_LI | C_ANDI | C_ADDI16SP | C_LUI | C_SRLI | C_SRAI
      | C_SLLI | C_LWSP | C_LDSP => [(12, 12); (6, 2)]
      | C_JAL | C_J => [(12, 2)]
      | C_BEQZ | C_BNEZ => [(12, 10); (6, 2)]
      | C_SWSP | C_SDSP => [(12, 7)]
      | _ => []
      end
  | _ => []
  end.

Definition same_bits (ranges : list (Z * Z)) (w w' : Z) : Prop :=
  forall hi lo k, In (hi, lo) ranges -> lo <= k <= hi -> Z.testbit w k = Z.testbit w' k.

(** ** Registers *)

(** Opcodes whose three-bit register fields name x8..x15. *)
Definition prime_rd : list OpcodeKind := map OC
  [C_ADDI4SPN; C_LW; C_LD; C_SRLI; C_SRAI; C_ANDI; C_SUB; C_XOR; C_OR; C_AND; C_SUBW; C_ADDW].
Definition prime_rs1 : list OpcodeKind := map OC
  [C_LW; C_LD; C_SW; C_SD; C_SRLI; C_SRAI; C_ANDI; C_SUB; C_XOR; C_OR; C_AND; C_SUBW; C_ADDW;
   C_BEQZ; C_BNEZ].
Definition prime_rs2 : list OpcodeKind := map OC
  [C_SW; C_SD; C_SUB; C_XOR; C_OR; C_AND; C_SUBW; C_ADDW].

Definition is_zicsr (op : OpcodeKind) : bool := match op with OZicsr _ => true | _ => false end.

(** [o], if present, is below [n]. *)
Definition below (n : Z) (o : option Z) : Prop := forall r, o = Some r -> 0 <= r < n.

(** ** Lists used in the statements *)
Local Open Scope list_scope.
Local Open Scope Z_scope.

(** CSR numbers of the counters (cycle, time, instret and their upper halves). *)
Definition counter_csrs : list Z := [0xC00; 0xC01; 0xC02; 0xC80; 0xC81; 0xC82].
(** The counter-read instruction of each of them. *)
Definition counter_reads : list (Z * ZicntrOpcode) :=
  [(0xC00, Cnt_RDCYCLE); (0xC01, Cnt_RDTIME); (0xC02, Cnt_RDINSTRET);
   (0xC80, Cnt_RDCYCLE_H); (0xC81, Cnt_RDTIME_H); (0xC82, Cnt_RDINSTRET_H)].
(** Opcodes of RV64 only that the crate gates. *)
Definition gated32 : list OpcodeKind := rv64_base_i ++ rv64_m ++ rv64_a.
(** Shifts by an immediate whose width depends on the ISA. *)
Definition shift_ops : list OpcodeKind := map OBaseI [I_SLLI; I_SRLI; I_SRAI].
(** Opcodes of 16-bit instructions. *)
Definition op_is_16 (op : OpcodeKind) : bool :=
  match op with OC _ | OZicfiss Ss_C_SSPUSH | OZicfiss Ss_C_SSPOPCHK => true | _ => false end.
Definition is_zicfiss (op : OpcodeKind) : bool :=
  match op with OZicfiss _ => true | _ => false end.
