(** Specification of the encodings, independent of the model: it uses the data types of
    Types.v (which are part of the public API) and no function of the model.

    [table32]/[table16] have one row per opcode.  A row gives, for each ISA,
    - [r_man]: the words the RISC-V manual assigns to the instruction;
    - [r_acc]: the words the crate accepts as that instruction.  It is the same set
      ([same]) or a different one ([differs]), so every deviation is visible here;
    - [r_cls]: where the operands are found and the format tag.
    [errors32]/[errors16] give the error for the remaining words.

    Manual: The RISC-V Instruction Set Manual, volumes I and II, 20240411, chapters
    "RV32/64G Instruction Set Listings", "C", "Zicsr", "Zicntr", "Zicfiss", "CMO",
    "Privileged instructions". *)
From Coq Require Import ZArith List Bool String Ascii.
From Verif Require Import Types.
Import ListNotations.
Local Open Scope Z_scope.

(** ** Bit patterns *)

(** A pattern is a list of bits, least significant first; [None] matches both. *)
Definition pattern := list (option bool).

(** Read from left (most significant bit) to right; '0' and '1' are fixed bits, '.' is a
    free bit, spaces only separate fields. *)
Fixpoint parse_bits (s : string) (acc : pattern) : pattern :=
  match s with
  | EmptyString => acc
  | String c s' =>
      if (c =? "0")%char then parse_bits s' (Some false :: acc)
      else if (c =? "1")%char then parse_bits s' (Some true :: acc)
      else if (c =? ".")%char then parse_bits s' (None :: acc)
      else parse_bits s' acc
  end.
Definition pat (s : string) : pattern := parse_bits s [].

Fixpoint matches_at (k : Z) (p : pattern) (w : Z) : bool :=
  match p with
  | [] => true
  | None :: p' => matches_at (k + 1) p' w
  | Some b :: p' => if Bool.eqb (Z.testbit w k) b then matches_at (k + 1) p' w else false
  end.
Definition matches (p : pattern) (w : Z) : bool := matches_at 0 p w.

(** A set of words: some pattern of [incl] matches and none of [excl] does. *)
Record enc := { incl : list pattern; excl : list pattern }.
Definition in_enc (e : enc) (w : Z) : bool :=
  if existsb (fun p => matches p w) (incl e)
  then negb (existsb (fun p => matches p w) (excl e)) else false.

Definition nothing : enc := {| incl := []; excl := [] |}.
Definition only (ss : list string) : enc := {| incl := map pat ss; excl := [] |}.
Definition but (ss xs : list string) : enc := {| incl := map pat ss; excl := map pat xs |}.

Definition on_both (e : enc) : Isa -> enc := fun _ => e.
Definition on_rv32 (e : enc) : Isa -> enc :=
  fun isa => match isa with Rv32 => e | Rv64 => nothing end.
Definition on_rv64 (e : enc) : Isa -> enc :=
  fun isa => match isa with Rv32 => nothing | Rv64 => e end.
Definition by_isa {A} (a32 a64 : A) : Isa -> A :=
  fun isa => match isa with Rv32 => a32 | Rv64 => a64 end.

(** ** Operands *)

(** Bits [hi..lo] of a word, as an unsigned number. *)
Definition field (w hi lo : Z) : Z := (w / 2 ^ lo) mod 2 ^ (hi - lo + 1).

Inductive reg_src :=
| RNone                 (* no such operand *)
| RConst (n : Z)        (* implied register *)
| RBits (hi lo : Z)     (* register (or CSR) number in bits hi..lo *)
| RPrime (hi lo : Z).   (* three-bit field naming x8..x15 *)

Definition reg_of (s : reg_src) (w : Z) : option Z :=
  match s with
  | RNone => None
  | RConst n => Some n
  | RBits hi lo => Some (field w hi lo)
  | RPrime hi lo => Some (8 + field w hi lo)
  end.

(** [(h, l, b)]: bits imm[h:l] are the instruction bits b, b-1, .. *)
Definition chunk : Type := Z * Z * Z.

Definition chunk_val (w : Z) (c : chunk) : Z :=
  let '(h, l, b) := c in field w b (b - (h - l)) * 2 ^ l.

Definition chunks_val (w : Z) (cs : list chunk) : Z :=
  fold_right (fun c acc => chunk_val w c + acc) 0 cs.

Inductive imm_src :=
| INone
| IUns (cs : list chunk)                 (* zero-extended *)
| ISig (width : Z) (cs : list chunk).    (* sign-extended from [width] bits *)

(** Two's complement value of an [n]-bit number. *)
Definition sext (n v : Z) : Z := if v <? 2 ^ (n - 1) then v else v - 2 ^ n.

Definition imm_of (s : imm_src) (w : Z) : option Z :=
  match s with
  | INone => None
  | IUns cs => Some (chunks_val w cs)
  | ISig n cs => Some (sext n (chunks_val w cs))
  end.

(** Operand positions and format tag shared by the instructions of a class. *)
Record class := {
  c_rd : reg_src; c_rs1 : reg_src; c_rs2 : reg_src; c_imm : imm_src; c_fmt : InstFormat
}.

Definition cls (d s t : reg_src) (i : imm_src) (f : InstFormat) : class :=
  {| c_rd := d; c_rs1 := s; c_rs2 := t; c_imm := i; c_fmt := f |}.

(** ** Rows *)

Record row := {
  r_op : OpcodeKind;
  r_cls : Isa -> class;
  r_man : Isa -> enc;
  r_acc : Isa -> enc
}.

Definition same (op : OpcodeKind) (c : class) (e : Isa -> enc) : row :=
  {| r_op := op; r_cls := fun _ => c; r_man := e; r_acc := e |}.
Definition differs (op : OpcodeKind) (c : class) (man acc : Isa -> enc) : row :=
  {| r_op := op; r_cls := fun _ => c; r_man := man; r_acc := acc |}.
Definition isa_cls (op : OpcodeKind) (c : Isa -> class) (e : Isa -> enc) : row :=
  {| r_op := op; r_cls := c; r_man := e; r_acc := e |}.

(** What an instruction of row [r] reads from the word [w]. *)
Definition reads (r : row) (isa : Isa) (compressed : bool) (w : Z) : Instruction :=
  let c := r_cls r isa in
  {| opc := r_op r;
     rd := reg_of (c_rd c) w; rs1 := reg_of (c_rs1 c) w; rs2 := reg_of (c_rs2 c) w;
     imm := imm_of (c_imm c) w; inst_format := c_fmt c; is_compressed := compressed |}.

(** ** 32-bit instructions *)

Definition d32 := RBits 11 7.
Definition s32 := RBits 19 15.
Definition t32 := RBits 24 20.

Definition cR := cls d32 s32 t32 INone RFormat.
Definition cM := cls d32 s32 t32 INone MFormat.
Definition cI := cls d32 s32 RNone (ISig 12 [(11, 0, 31)]) IFormat.
Definition cS := cls RNone s32 t32 (ISig 12 [(11, 5, 31); (4, 0, 11)]) SFormat.
Definition cB := cls RNone s32 t32
  (ISig 13 [(12, 12, 31); (10, 5, 30); (4, 1, 11); (11, 11, 7)]) BFormat.
(** Upper immediates are reported unshifted. *)
Definition cU := cls d32 RNone RNone (IUns [(19, 0, 31)]) UFormat.
Definition cJ := cls d32 RNone RNone
  (ISig 21 [(20, 20, 31); (10, 1, 30); (11, 11, 20); (19, 12, 19)]) JFormat.
Definition cSh5 := cls d32 s32 RNone (IUns [(4, 0, 24)]) RShamtFormat.
Definition cSh6 := cls d32 s32 RNone (IUns [(5, 0, 25)]) RShamtFormat.
Definition cNone := cls RNone RNone RNone INone NoOperand.
(** Atomics: the aq and rl bits are the immediate. *)
Definition cA := cls d32 s32 t32 (IUns [(1, 0, 26)]) AFormat.
Definition cLrW := cls d32 s32 RNone (IUns [(1, 0, 26)]) ALrFormat.
Definition cLrD := cls d32 s32 RNone (IUns [(1, 0, 26)]) AFormat.
(** The CSR number is reported in rs2. *)
Definition cCsr := cls d32 s32 (RBits 31 20) INone CsrFormat.
Definition cCsrI := cls d32 RNone (RBits 31 20) (IUns [(4, 0, 19)]) CsrUiFormat.
Definition cCounter := cls d32 RNone RNone INone OnlyRd.
(** fm, pred, succ are the immediate. *)
Definition cFence := cls d32 s32 RNone (IUns [(11, 0, 31)]) NoOperand.
Definition cCbo := cls RNone s32 RNone INone OnlyRs1.
Definition cSspush := cls (RConst 0) (RConst 0) t32 INone OnlyRs1.
Definition cSspopchk := cls (RConst 0) s32 RNone INone OnlyRs2.
Definition cSsrdp := cls d32 RNone RNone INone OnlyRd.
(** aq and rl are not reported. *)
Definition cSsamo := cls d32 s32 t32 INone AFormat.
Definition cSfence := cls RNone s32 t32 INone RFormat.

Local Open Scope string_scope.

(** rd, funct3 and opcode of a 32-bit pattern with the rest free, and so on: patterns are
    written  funct7 rs2 rs1 funct3 rd opcode. *)

Definition base_i : list row := [
  same (OBaseI I_LUI)   cU (on_both (only ["....... ..... ..... ... ..... 0110111"]));
  same (OBaseI I_AUIPC) cU (on_both (only ["....... ..... ..... ... ..... 0010111"]));
  same (OBaseI I_JAL)   cJ (on_both (only ["....... ..... ..... ... ..... 1101111"]));
  differs (OBaseI I_JALR) cI (on_both (only ["....... ..... ..... 000 ..... 1100111"]))
                             (on_both (only ["....... ..... ..... ... ..... 1100111"]));
  same (OBaseI I_BEQ)   cB (on_both (only ["....... ..... ..... 000 ..... 1100011"]));
  same (OBaseI I_BNE)   cB (on_both (only ["....... ..... ..... 001 ..... 1100011"]));
  same (OBaseI I_BLT)   cB (on_both (only ["....... ..... ..... 100 ..... 1100011"]));
  same (OBaseI I_BGE)   cB (on_both (only ["....... ..... ..... 101 ..... 1100011"]));
  same (OBaseI I_BLTU)  cB (on_both (only ["....... ..... ..... 110 ..... 1100011"]));
  same (OBaseI I_BGEU)  cB (on_both (only ["....... ..... ..... 111 ..... 1100011"]));
  same (OBaseI I_LB)    cI (on_both (only ["....... ..... ..... 000 ..... 0000011"]));
  same (OBaseI I_LH)    cI (on_both (only ["....... ..... ..... 001 ..... 0000011"]));
  same (OBaseI I_LW)    cI (on_both (only ["....... ..... ..... 010 ..... 0000011"]));
  same (OBaseI I_LD)    cI (on_rv64 (only ["....... ..... ..... 011 ..... 0000011"]));
  same (OBaseI I_LBU)   cI (on_both (only ["....... ..... ..... 100 ..... 0000011"]));
  same (OBaseI I_LHU)   cI (on_both (only ["....... ..... ..... 101 ..... 0000011"]));
  same (OBaseI I_LWU)   cI (on_rv64 (only ["....... ..... ..... 110 ..... 0000011"]));
  same (OBaseI I_SB)    cS (on_both (only ["....... ..... ..... 000 ..... 0100011"]));
  same (OBaseI I_SH)    cS (on_both (only ["....... ..... ..... 001 ..... 0100011"]));
  same (OBaseI I_SW)    cS (on_both (only ["....... ..... ..... 010 ..... 0100011"]));
  same (OBaseI I_SD)    cS (on_rv64 (only ["....... ..... ..... 011 ..... 0100011"]));
  same (OBaseI I_ADDI)  cI (on_both (only ["....... ..... ..... 000 ..... 0010011"]));
  same (OBaseI I_SLTI)  cI (on_both (only ["....... ..... ..... 010 ..... 0010011"]));
  same (OBaseI I_SLTIU) cI (on_both (only ["....... ..... ..... 011 ..... 0010011"]));
  same (OBaseI I_XORI)  cI (on_both (only ["....... ..... ..... 100 ..... 0010011"]));
  same (OBaseI I_ORI)   cI (on_both (only ["....... ..... ..... 110 ..... 0010011"]));
  same (OBaseI I_ANDI)  cI (on_both (only ["....... ..... ..... 111 ..... 0010011"]));
  isa_cls (OBaseI I_SLLI) (by_isa cSh5 cSh6)
    (by_isa (only ["0000000 ..... ..... 001 ..... 0010011"])
            (only ["000000. ..... ..... 001 ..... 0010011"]));
  isa_cls (OBaseI I_SRLI) (by_isa cSh5 cSh6)
    (by_isa (only ["0000000 ..... ..... 101 ..... 0010011"])
            (only ["000000. ..... ..... 101 ..... 0010011"]));
  isa_cls (OBaseI I_SRAI) (by_isa cSh5 cSh6)
    (by_isa (only ["0100000 ..... ..... 101 ..... 0010011"])
            (only ["010000. ..... ..... 101 ..... 0010011"]));
  same (OBaseI I_ADD)   cR (on_both (only ["0000000 ..... ..... 000 ..... 0110011"]));
  same (OBaseI I_SUB)   cR (on_both (only ["0100000 ..... ..... 000 ..... 0110011"]));
  differs (OBaseI I_SLL)  cR (on_both (only ["0000000 ..... ..... 001 ..... 0110011"]))
    (on_both (but ["....... ..... ..... 001 ..... 0110011"] ["0000001 ..... ..... 001 ..... 0110011"]));
  differs (OBaseI I_SLT)  cR (on_both (only ["0000000 ..... ..... 010 ..... 0110011"]))
    (on_both (but ["....... ..... ..... 010 ..... 0110011"] ["0000001 ..... ..... 010 ..... 0110011"]));
  differs (OBaseI I_SLTU) cR (on_both (only ["0000000 ..... ..... 011 ..... 0110011"]))
    (on_both (but ["....... ..... ..... 011 ..... 0110011"] ["0000001 ..... ..... 011 ..... 0110011"]));
  differs (OBaseI I_XOR)  cR (on_both (only ["0000000 ..... ..... 100 ..... 0110011"]))
    (on_both (but ["....... ..... ..... 100 ..... 0110011"] ["0000001 ..... ..... 100 ..... 0110011"]));
  same (OBaseI I_SRL)   cR (on_both (only ["0000000 ..... ..... 101 ..... 0110011"]));
  same (OBaseI I_SRA)   cR (on_both (only ["0100000 ..... ..... 101 ..... 0110011"]));
  differs (OBaseI I_OR)   cR (on_both (only ["0000000 ..... ..... 110 ..... 0110011"]))
    (on_both (but ["....... ..... ..... 110 ..... 0110011"] ["0000001 ..... ..... 110 ..... 0110011"]));
  differs (OBaseI I_AND)  cR (on_both (only ["0000000 ..... ..... 111 ..... 0110011"]))
    (on_both (but ["....... ..... ..... 111 ..... 0110011"] ["0000001 ..... ..... 111 ..... 0110011"]));
  differs (OBaseI I_ECALL)  cNone (on_both (only ["0000000 00000 00000 000 00000 1110011"]))
                                  (on_both (only ["0000000 00000 ..... 000 ..... 1110011"]));
  differs (OBaseI I_EBREAK) cNone (on_both (only ["0000000 00001 00000 000 00000 1110011"]))
                                  (on_both (only ["0000000 00001 ..... 000 ..... 1110011"]));
  same (OBaseI I_ADDIW) cI (on_rv64 (only ["....... ..... ..... 000 ..... 0011011"]));
  differs (OBaseI I_SLLIW) cSh5 (on_rv64 (only ["0000000 ..... ..... 001 ..... 0011011"]))
                                (on_rv64 (only ["....... ..... ..... 001 ..... 0011011"]));
  same (OBaseI I_SRLIW) cSh5 (on_rv64 (only ["0000000 ..... ..... 101 ..... 0011011"]));
  same (OBaseI I_SRAIW) cSh5 (on_rv64 (only ["0100000 ..... ..... 101 ..... 0011011"]));
  same (OBaseI I_ADDW)  cR (on_rv64 (only ["0000000 ..... ..... 000 ..... 0111011"]));
  same (OBaseI I_SUBW)  cR (on_rv64 (only ["0100000 ..... ..... 000 ..... 0111011"]));
  differs (OBaseI I_SLLW) cR (on_rv64 (only ["0000000 ..... ..... 001 ..... 0111011"]))
                             (on_rv64 (only ["0.00000 ..... ..... 001 ..... 0111011"]));
  same (OBaseI I_SRLW)  cR (on_rv64 (only ["0000000 ..... ..... 101 ..... 0111011"]));
  same (OBaseI I_SRAW)  cR (on_rv64 (only ["0100000 ..... ..... 101 ..... 0111011"]))
].

Definition m_ext : list row := [
  same (OM M_MUL)    cM (on_both (only ["0000001 ..... ..... 000 ..... 0110011"]));
  same (OM M_MULH)   cM (on_both (only ["0000001 ..... ..... 001 ..... 0110011"]));
  same (OM M_MULHSU) cM (on_both (only ["0000001 ..... ..... 010 ..... 0110011"]));
  same (OM M_MULHU)  cM (on_both (only ["0000001 ..... ..... 011 ..... 0110011"]));
  same (OM M_DIV)    cM (on_both (only ["0000001 ..... ..... 100 ..... 0110011"]));
  same (OM M_DIVU)   cM (on_both (only ["0000001 ..... ..... 101 ..... 0110011"]));
  same (OM M_REM)    cM (on_both (only ["0000001 ..... ..... 110 ..... 0110011"]));
  same (OM M_REMU)   cM (on_both (only ["0000001 ..... ..... 111 ..... 0110011"]));
  same (OM M_MULW)   cM (on_rv64 (only ["0000001 ..... ..... 000 ..... 0111011"]));
  same (OM M_DIVW)   cM (on_rv64 (only ["0000001 ..... ..... 100 ..... 0111011"]));
  same (OM M_DIVUW)  cM (on_rv64 (only ["0000001 ..... ..... 101 ..... 0111011"]));
  same (OM M_REMW)   cM (on_rv64 (only ["0000001 ..... ..... 110 ..... 0111011"]));
  same (OM M_REMUW)  cM (on_rv64 (only ["0000001 ..... ..... 111 ..... 0111011"]))
].

Definition a_ext : list row := [
  differs (OA A_LR_W) cLrW (on_both (only ["00010.. 00000 ..... 010 ..... 0101111"]))
                           (on_both (only ["00010.. ..... ..... 010 ..... 0101111"]));
  same (OA A_SC_W)      cA (on_both (only ["00011.. ..... ..... 010 ..... 0101111"]));
  same (OA A_AMOSWAP_W) cA (on_both (only ["00001.. ..... ..... 010 ..... 0101111"]));
  same (OA A_AMOADD_W)  cA (on_both (only ["00000.. ..... ..... 010 ..... 0101111"]));
  same (OA A_AMOXOR_W)  cA (on_both (only ["00100.. ..... ..... 010 ..... 0101111"]));
  same (OA A_AMOAND_W)  cA (on_both (only ["01100.. ..... ..... 010 ..... 0101111"]));
  same (OA A_AMOOR_W)   cA (on_both (only ["01000.. ..... ..... 010 ..... 0101111"]));
  same (OA A_AMOMIN_W)  cA (on_both (only ["10000.. ..... ..... 010 ..... 0101111"]));
  same (OA A_AMOMAX_W)  cA (on_both (only ["10100.. ..... ..... 010 ..... 0101111"]));
  same (OA A_AMOMINU_W) cA (on_both (only ["11000.. ..... ..... 010 ..... 0101111"]));
  same (OA A_AMOMAXU_W) cA (on_both (only ["11100.. ..... ..... 010 ..... 0101111"]));
  differs (OA A_LR_D) cLrD (on_rv64 (only ["00010.. 00000 ..... 011 ..... 0101111"]))
                           (on_rv64 (only ["00010.. ..... ..... 011 ..... 0101111"]));
  same (OA A_SC_D)      cA (on_rv64 (only ["00011.. ..... ..... 011 ..... 0101111"]));
  same (OA A_AMOSWAP_D) cA (on_rv64 (only ["00001.. ..... ..... 011 ..... 0101111"]));
  same (OA A_AMOADD_D)  cA (on_rv64 (only ["00000.. ..... ..... 011 ..... 0101111"]));
  same (OA A_AMOXOR_D)  cA (on_rv64 (only ["00100.. ..... ..... 011 ..... 0101111"]));
  same (OA A_AMOAND_D)  cA (on_rv64 (only ["01100.. ..... ..... 011 ..... 0101111"]));
  same (OA A_AMOOR_D)   cA (on_rv64 (only ["01000.. ..... ..... 011 ..... 0101111"]));
  same (OA A_AMOMIN_D)  cA (on_rv64 (only ["10000.. ..... ..... 011 ..... 0101111"]));
  same (OA A_AMOMAX_D)  cA (on_rv64 (only ["10100.. ..... ..... 011 ..... 0101111"]));
  same (OA A_AMOMINU_D) cA (on_rv64 (only ["11000.. ..... ..... 011 ..... 0101111"]));
  same (OA A_AMOMAXU_D) cA (on_rv64 (only ["11100.. ..... ..... 011 ..... 0101111"]))
].

(** The counter reads [csrrs rd, counter, x0]. *)
Definition rdcycle    := "1100000 00000 00000 010 ..... 1110011".
Definition rdtime     := "1100000 00001 00000 010 ..... 1110011".
Definition rdinstret  := "1100000 00010 00000 010 ..... 1110011".
Definition rdcycleh   := "1100100 00000 00000 010 ..... 1110011".
Definition rdtimeh    := "1100100 00001 00000 010 ..... 1110011".
Definition rdinstreth := "1100100 00010 00000 010 ..... 1110011".
(** The same with any rs1. *)
Definition any_cycle    := "1100000 00000 ..... 010 ..... 1110011".
Definition any_time     := "1100000 00001 ..... 010 ..... 1110011".
Definition any_instret  := "1100000 00010 ..... 010 ..... 1110011".
Definition any_cycleh   := "1100100 00000 ..... 010 ..... 1110011".
Definition any_timeh    := "1100100 00001 ..... 010 ..... 1110011".
Definition any_instreth := "1100100 00010 ..... 010 ..... 1110011".

Definition zicsr_ext : list row := [
  same (OZicsr Csr_CSRRW)  cCsr  (on_both (only ["....... ..... ..... 001 ..... 1110011"]));
  differs (OZicsr Csr_CSRRS) cCsr
    (by_isa (but ["....... ..... ..... 010 ..... 1110011"]
                 [rdcycle; rdtime; rdinstret; rdcycleh; rdtimeh; rdinstreth])
            (but ["....... ..... ..... 010 ..... 1110011"] [rdcycle; rdtime; rdinstret]))
    (on_both (but ["....... ..... ..... 010 ..... 1110011"]
                  [any_cycle; any_time; any_instret; any_cycleh; any_timeh; any_instreth]));
  same (OZicsr Csr_CSRRC)  cCsr  (on_both (only ["....... ..... ..... 011 ..... 1110011"]));
  same (OZicsr Csr_CSRRWI) cCsrI (on_both (only ["....... ..... ..... 101 ..... 1110011"]));
  same (OZicsr Csr_CSRRSI) cCsrI (on_both (only ["....... ..... ..... 110 ..... 1110011"]));
  same (OZicsr Csr_CSRRCI) cCsrI (on_both (only ["....... ..... ..... 111 ..... 1110011"]))
].

Definition zicntr_ext : list row := [
  differs (OZicntr Cnt_RDCYCLE)   cCounter (on_both (only [rdcycle]))   (on_both (only [any_cycle]));
  differs (OZicntr Cnt_RDTIME)    cCounter (on_both (only [rdtime]))    (on_both (only [any_time]));
  differs (OZicntr Cnt_RDINSTRET) cCounter (on_both (only [rdinstret])) (on_both (only [any_instret]));
  differs (OZicntr Cnt_RDCYCLE_H)   cCounter (on_rv32 (only [rdcycleh]))   (on_both (only [any_cycleh]));
  differs (OZicntr Cnt_RDTIME_H)    cCounter (on_rv32 (only [rdtimeh]))    (on_both (only [any_timeh]));
  differs (OZicntr Cnt_RDINSTRET_H) cCounter (on_rv32 (only [rdinstreth])) (on_both (only [any_instreth]))
].

Definition zifencei_ext : list row := [
  same (OZifencei Fe_FENCE) cFence (on_both (only ["....... ..... ..... 000 ..... 0001111"]))
].

Definition zicboz_ext : list row := [
  same (OZicboz Cbo_CBO_ZERO) cCbo (on_both (only ["0000000 00100 ..... 010 00000 0001111"]))
].

Definition zicfiss_ext : list row := [
  differs (OZicfiss Ss_SSPUSH) cSspush
    (on_both (only ["1100111 00001 00000 100 00000 1110011"; "1100111 00101 00000 100 00000 1110011"]))
    (on_both (only ["1100111 00001 ..... 100 ..... 1110011"; "1100111 00101 ..... 100 ..... 1110011"]));
  differs (OZicfiss Ss_SSPOPCHK) cSspopchk
    (on_both (only ["1100110 11100 00001 100 00000 1110011"; "1100110 11100 00101 100 00000 1110011"]))
    (on_both (but ["1100110 11100 ..... 100 ..... 1110011"] ["1100110 11100 00000 100 ..... 1110011"]));
  differs (OZicfiss Ss_SSRDP) cSsrdp
    (on_both (but ["1100110 11100 00000 100 ..... 1110011"] ["1100110 11100 00000 100 00000 1110011"]))
    (on_both (only ["1100110 11100 00000 100 ..... 1110011"]));
  same (OZicfiss Ss_SSAMOSWAP_W) cSsamo (on_both (only ["01001.. ..... ..... 010 ..... 0101111"]));
  differs (OZicfiss Ss_SSAMOSWAP_D) cSsamo
    (on_rv64 (only ["01001.. ..... ..... 011 ..... 0101111"]))
    (on_both (only ["01001.. ..... ..... 011 ..... 0101111"]))
].

Definition priv_ext : list row := [
  same (OPriv P_SRET) cNone (on_both (only ["0001000 00010 00000 000 00000 1110011"]));
  same (OPriv P_MRET) cNone (on_both (only ["0011000 00010 00000 000 00000 1110011"]));
  same (OPriv P_WFI)  cNone (on_both (only ["0001000 00101 00000 000 00000 1110011"]));
  differs (OPriv P_SFENCE_VMA) cSfence
    (on_both (only ["0001001 ..... ..... 000 00000 1110011"]))
    (on_both (only ["0001001 ..... ..... 000 ..... 1110011"]))
].

Definition table32 : list row :=
  base_i ++ m_ext ++ a_ext ++ zicsr_ext ++ zicntr_ext ++ zifencei_ext ++ zicboz_ext
  ++ zicfiss_ext ++ priv_ext.

(** An instruction of the advertised Zifencei extension for which there is no opcode. *)
Definition fence_i : enc := only ["....... ..... ..... 001 ..... 0001111"].

Record error_row := { e_err : DecodingError; e_enc : Isa -> enc }.
Definition err (e : DecodingError) (s : Isa -> enc) : error_row :=
  {| e_err := e; e_enc := s |}.

Definition errors32 : list error_row := [
  (* major opcodes that are not decoded, including every word not ending in 11 *)
  err InvalidOpcode (on_both (but ["....... ..... ..... ... ..... ......."]
    ["....... ..... ..... ... ..... 0110111"; "....... ..... ..... ... ..... 0010111";
     "....... ..... ..... ... ..... 1101111"; "....... ..... ..... ... ..... 1100111";
     "....... ..... ..... ... ..... 1100011"; "....... ..... ..... ... ..... 0000011";
     "....... ..... ..... ... ..... 0100011"; "....... ..... ..... ... ..... 0010011";
     "....... ..... ..... ... ..... 0110011"; "....... ..... ..... ... ..... 1110011";
     "....... ..... ..... ... ..... 0011011"; "....... ..... ..... ... ..... 0111011";
     "....... ..... ..... ... ..... 0101111"; "....... ..... ..... ... ..... 0001111"]));
  (* branches, loads, stores *)
  err InvalidFunct3 (on_both (only ["....... ..... ..... 01. ..... 1100011";
                                    "....... ..... ..... 111 ..... 0000011";
                                    "....... ..... ..... 1.. ..... 0100011"]));
  err OnlyRv64Inst (on_rv32 (only ["....... ..... ..... 011 ..... 0000011";
                                   "....... ..... ..... 110 ..... 0000011";
                                   "....... ..... ..... 011 ..... 0100011"]));
  (* immediate shifts *)
  err InvalidFunct7 (on_rv32
    (but ["....... ..... ..... 001 ..... 0010011"; "....... ..... ..... 101 ..... 0010011"]
         ["0000000 ..... ..... 001 ..... 0010011"; "0000000 ..... ..... 101 ..... 0010011";
          "0100000 ..... ..... 101 ..... 0010011"]));
  err InvalidFunct6 (on_rv64
    (but ["....... ..... ..... 001 ..... 0010011"; "....... ..... ..... 101 ..... 0010011"]
         ["000000. ..... ..... 001 ..... 0010011"; "000000. ..... ..... 101 ..... 0010011";
          "010000. ..... ..... 101 ..... 0010011"]));
  (* add, sub, srl, sra *)
  err InvalidFunct7 (on_both
    (but ["....... ..... ..... 000 ..... 0110011"; "....... ..... ..... 101 ..... 0110011"]
         ["0000000 ..... ..... ... ..... 0110011"; "0000001 ..... ..... ... ..... 0110011";
          "0100000 ..... ..... ... ..... 0110011"]));
  (* immediate word operations *)
  err InvalidFunct3 (on_both
    (but ["....... ..... ..... ... ..... 0011011"]
         ["....... ..... ..... 000 ..... 0011011"; "....... ..... ..... 001 ..... 0011011";
          "....... ..... ..... 101 ..... 0011011"]));
  err InvalidFunct7 (on_both
    (but ["....... ..... ..... 101 ..... 0011011"]
         ["0.00000 ..... ..... 101 ..... 0011011"]));
  err OnlyRv64Inst (on_rv32 (only ["....... ..... ..... 000 ..... 0011011";
                                   "....... ..... ..... 001 ..... 0011011";
                                   "0.00000 ..... ..... 101 ..... 0011011"]));
  (* word operations *)
  err UnknownExtension (on_both
    (but ["....... ..... ..... ... ..... 0111011"]
         ["0.00000 ..... ..... ... ..... 0111011"; "0000001 ..... ..... ... ..... 0111011"]));
  err InvalidFunct3 (on_both
    (but ["0.00000 ..... ..... ... ..... 0111011"]
         ["0.00000 ..... ..... 000 ..... 0111011"; "0.00000 ..... ..... 001 ..... 0111011";
          "0.00000 ..... ..... 101 ..... 0111011"]));
  err InvalidFunct3 (on_both (only ["0000001 ..... ..... 001 ..... 0111011";
                                    "0000001 ..... ..... 01. ..... 0111011"]));
  err OnlyRv64Inst (on_rv32 (only ["0.00000 ..... ..... 000 ..... 0111011";
                                   "0.00000 ..... ..... 001 ..... 0111011";
                                   "0.00000 ..... ..... 101 ..... 0111011";
                                   "0000001 ..... ..... 000 ..... 0111011";
                                   "0000001 ..... ..... 1.. ..... 0111011"]));
  (* atomics *)
  err UnknownExtension (on_both
    (but ["....... ..... ..... ... ..... 0101111"]
         ["000.... ..... ..... ... ..... 0101111"; "..100.. ..... ..... ... ..... 0101111";
          "..000.. ..... ..... ... ..... 0101111"; "01001.. ..... ..... ... ..... 0101111"]));
  err InvalidFunct3 (on_both
    (but ["000.... ..... ..... ... ..... 0101111"; "..100.. ..... ..... ... ..... 0101111";
          "..000.. ..... ..... ... ..... 0101111"; "01001.. ..... ..... ... ..... 0101111"]
         ["....... ..... ..... 01. ..... 0101111"]));
  err OnlyRv64Inst (on_rv32 (only ["000.... ..... ..... 011 ..... 0101111";
                                   "..100.. ..... ..... 011 ..... 0101111";
                                   "..000.. ..... ..... 011 ..... 0101111"]));
  (* fences and cache-block operations *)
  err UnknownExtension (on_both
    (but ["....... ..... ..... ... ..... 0001111"]
         ["....... ..... ..... 000 ..... 0001111"; "....... ..... ..... 010 ..... 0001111"]));
  err InvalidOpcode (on_both
    (but ["....... ..... ..... 010 ..... 0001111"] ["0000000 00100 ..... 010 00000 0001111"]));
  (* system *)
  err InvalidFunct5 (on_both
    (but ["0000000 ..... ..... 000 ..... 1110011"] ["0000000 0000. ..... 000 ..... 1110011"]));
  err InvalidFunct7 (on_both
    (but ["....... ..... ..... 000 ..... 1110011"]
         ["0000000 ..... ..... 000 ..... 1110011"; "0001001 ..... ..... 000 ..... 1110011";
          "0001000 00010 00000 000 00000 1110011"; "0011000 00010 00000 000 00000 1110011";
          "0001000 00101 00000 000 00000 1110011"]));
  err InvalidOpcode (on_both
    (but ["....... ..... ..... 100 ..... 1110011"]
         ["1100111 00001 ..... 100 ..... 1110011"; "1100111 00101 ..... 100 ..... 1110011";
          "1100110 11100 ..... 100 ..... 1110011"]))
].

(** ** 16-bit instructions *)

Definition dq := RPrime 4 2.     (* rd' or rs2' in bits 4..2 *)
Definition sq := RPrime 9 7.     (* rs1' or rd'/rs1' in bits 9..7 *)
Definition dw := RBits 11 7.     (* rd or rd/rs1 in bits 11..7 *)
Definition tw := RBits 6 2.      (* rs2 in bits 6..2 *)

Definition imm6 : list chunk := [(5, 5, 12); (4, 0, 6)].

Definition cAddi4spn := cls dq RNone RNone
  (IUns [(5, 4, 12); (9, 6, 10); (2, 2, 6); (3, 3, 5)]) CiwFormat.
Definition off_w : list chunk := [(5, 3, 12); (2, 2, 6); (6, 6, 5)].
Definition off_d : list chunk := [(5, 3, 12); (7, 6, 6)].
Definition cLw16 := cls dq sq RNone (IUns off_w) ClFormat.
Definition cLd16 := cls dq sq RNone (IUns off_d) ClFormat.
Definition cSw16 := cls RNone sq dq (IUns off_w) CsFormat.
Definition cSd16 := cls RNone sq dq (IUns off_d) CsFormat.
Definition cNop := cls RNone RNone RNone (ISig 6 imm6) NoOperand.
Definition cAddi := cls dw dw RNone (ISig 6 imm6) CiFormat.
Definition cLi := cls dw RNone RNone (ISig 6 imm6) CiFormat.
Definition cJ16 := cls RNone RNone RNone
  (ISig 12 [(11, 11, 12); (4, 4, 11); (9, 8, 10); (10, 10, 8); (6, 6, 7); (7, 7, 6);
            (3, 1, 5); (5, 5, 2)]) CjFormat.
Definition cAddi16sp := cls dw dw RNone
  (ISig 10 [(9, 9, 12); (4, 4, 6); (6, 6, 5); (8, 7, 4); (5, 5, 2)]) CiFormat.
(** c.lui's immediate is reported shifted, unlike lui's. *)
Definition cLui16 := cls dw RNone RNone (ISig 18 [(17, 17, 12); (16, 12, 6)]) CiFormat.
Definition cShr16 := cls sq sq RNone (IUns imm6) CbFormat.
Definition cAndi16 := cls sq sq RNone (ISig 6 imm6) CbFormat.
Definition cCa := cls sq sq dq INone CaFormat.
Definition cB16 := cls RNone sq RNone
  (ISig 9 [(8, 8, 12); (4, 3, 11); (7, 6, 6); (2, 1, 4); (5, 5, 2)]) CbFormat.
Definition cSlli16 := cls dw dw RNone (IUns imm6) CiFormat.
Definition cLwsp := cls dw RNone RNone (IUns [(5, 5, 12); (4, 2, 6); (7, 6, 3)]) CiFormat.
Definition cLdsp := cls dw RNone RNone (IUns [(5, 5, 12); (4, 3, 6); (8, 6, 4)]) CiFormat.
(** rs2 (always x0) is reported for c.jr and c.jalr. *)
Definition cJr := cls RNone dw tw INone CrFormat.
Definition cMv := cls dw RNone tw INone CrFormat.
Definition cAdd := cls dw dw tw INone CrFormat.
Definition cSwsp := cls RNone RNone tw (IUns [(5, 2, 12); (7, 6, 8)]) CssFormat.
Definition cSdsp := cls RNone RNone tw (IUns [(5, 3, 12); (8, 6, 9)]) CssFormat.
Definition cSs16 (r : Z) := cls (RConst r) RNone RNone INone NoOperand.

(** Patterns are written with bits 15..13, 12, 11..7, 6..2, 1..0 (or the fields of the
    format).  The manual's HINTs are part of the instruction, its reserved (RES, NSE)
    encodings are not. *)
Definition c_ext : list row := [
  differs (OC C_ADDI4SPN) cAddi4spn
    (on_both (but ["000 ........ ... 00"] ["000 00000000 ... 00"]))
    (on_both (but ["000 ........ ... 00"] ["000 00000000 000 00"]));
  same (OC C_LW) cLw16 (on_both (only ["010 ... ... .. ... 00"]));
  same (OC C_LD) cLd16 (on_rv64 (only ["011 ... ... .. ... 00"]));
  same (OC C_SW) cSw16 (on_both (only ["110 ... ... .. ... 00"]));
  same (OC C_SD) cSd16 (on_rv64 (only ["111 ... ... .. ... 00"]));
  same (OC C_NOP) cNop (on_both (only ["000 . 00000 ..... 01"]));
  same (OC C_ADDI) cAddi (on_both (but ["000 . ..... ..... 01"] ["000 . 00000 ..... 01"]));
  same (OC C_JAL) cJ16 (on_rv32 (only ["001 ........... 01"]));
  differs (OC C_ADDIW) cAddi
    (on_rv64 (but ["001 . ..... ..... 01"] ["001 . 00000 ..... 01"]))
    (on_rv64 (only ["001 . ..... ..... 01"]));
  same (OC C_LI) cLi (on_both (only ["010 . ..... ..... 01"]));
  differs (OC C_ADDI16SP) cAddi16sp
    (on_both (but ["011 . 00010 ..... 01"] ["011 0 00010 00000 01"]))
    (on_both (only ["011 . 00010 ..... 01"]));
  differs (OC C_LUI) cLui16
    (on_both (but ["011 . ..... ..... 01"] ["011 . 00010 ..... 01"; "011 0 ..... 00000 01"]))
    (on_both (but ["011 . ..... ..... 01"]
                  ["011 . 00010 ..... 01"; "011 0 00001 00000 01"; "011 0 00101 00000 01"]));
  differs (OC C_SRLI) cShr16
    (by_isa (only ["100 0 00 ... ..... 01"]) (only ["100 . 00 ... ..... 01"]))
    (on_both (only ["100 . 00 ... ..... 01"]));
  differs (OC C_SRAI) cShr16
    (by_isa (only ["100 0 01 ... ..... 01"]) (only ["100 . 01 ... ..... 01"]))
    (on_both (only ["100 . 01 ... ..... 01"]));
  same (OC C_ANDI) cAndi16 (on_both (only ["100 . 10 ... ..... 01"]));
  same (OC C_SUB) cCa (on_both (only ["100 0 11 ... 00 ... 01"]));
  same (OC C_XOR) cCa (on_both (only ["100 0 11 ... 01 ... 01"]));
  same (OC C_OR)  cCa (on_both (only ["100 0 11 ... 10 ... 01"]));
  same (OC C_AND) cCa (on_both (only ["100 0 11 ... 11 ... 01"]));
  same (OC C_SUBW) cCa (on_rv64 (only ["100 1 11 ... 00 ... 01"]));
  same (OC C_ADDW) cCa (on_rv64 (only ["100 1 11 ... 01 ... 01"]));
  same (OC C_J) cJ16 (on_both (only ["101 ........... 01"]));
  same (OC C_BEQZ) cB16 (on_both (only ["110 ... ... ..... 01"]));
  same (OC C_BNEZ) cB16 (on_both (only ["111 ... ... ..... 01"]));
  differs (OC C_SLLI) cSlli16
    (by_isa (only ["000 0 ..... ..... 10"]) (only ["000 . ..... ..... 10"]))
    (on_both (only ["000 . ..... ..... 10"]));
  differs (OC C_LWSP) cLwsp
    (on_both (but ["010 . ..... ..... 10"] ["010 . 00000 ..... 10"]))
    (on_both (only ["010 . ..... ..... 10"]));
  differs (OC C_LDSP) cLdsp
    (on_rv64 (but ["011 . ..... ..... 10"] ["011 . 00000 ..... 10"]))
    (on_rv64 (only ["011 . ..... ..... 10"]));
  differs (OC C_JR) cJr
    (on_both (but ["100 0 ..... 00000 10"] ["100 0 00000 00000 10"]))
    (on_both (only ["100 0 ..... 00000 10"]));
  same (OC C_MV) cMv (on_both (but ["100 0 ..... ..... 10"] ["100 0 ..... 00000 10"]));
  differs (OC C_EBREAK) cNone
    (on_both (only ["100 1 00000 00000 10"]))
    (on_both (only ["100 1 00000 ..... 10"]));
  same (OC C_JALR) cJr (on_both (but ["100 1 ..... 00000 10"] ["100 1 00000 00000 10"]));
  differs (OC C_ADD) cAdd
    (on_both (but ["100 1 ..... ..... 10"] ["100 1 ..... 00000 10"]))
    (on_both (but ["100 1 ..... ..... 10"] ["100 1 ..... 00000 10"; "100 1 00000 ..... 10"]));
  same (OC C_SWSP) cSwsp (on_both (only ["110 ...... ..... 10"]));
  same (OC C_SDSP) cSdsp (on_rv64 (only ["111 ...... ..... 10"]))
].

Definition zicfiss16_ext : list row := [
  same (OZicfiss Ss_C_SSPUSH)   (cSs16 1) (on_both (only ["011 0 00001 00000 01"]));
  same (OZicfiss Ss_C_SSPOPCHK) (cSs16 5) (on_both (only ["011 0 00101 00000 01"]))
].

Definition table16 : list row := c_ext ++ zicfiss16_ext.

Definition errors16 : list error_row := [
  err IllegalInstruction (on_both (only ["000 0 00000 00000 00"]));
  (* not a compressed instruction *)
  err InvalidOpcode (on_both (only ["... . ..... ..... 11"]));
  (* unassigned or floating-point *)
  err InvalidOpcode (on_both (only ["001 . ..... ..... 00"; "10. . ..... ..... 00";
                                    "100 1 11 ... 1. ... 01";
                                    "001 . ..... ..... 10"; "101 . ..... ..... 10"]));
  err OnlyRv64Inst (on_rv32 (only ["011 ... ... .. ... 00"; "111 ... ... .. ... 00";
                                   "100 1 11 ... 00 ... 01"; "100 1 11 ... 01 ... 01";
                                   "011 . ..... ..... 10"; "111 . ..... ..... 10"]))
].

(** ** Ranges *)
Local Open Scope Z_scope.
Definition is_u32 (w : Z) : Prop := 0 <= w < 2 ^ 32.
Definition is_u16 (w : Z) : Prop := 0 <= w < 2 ^ 16.
