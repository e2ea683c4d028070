(** How many words are decoded, and how many are rejected with each error.
    Counted by hand: 2^25 words share a major opcode, 2^22 also funct3, 2^15 also funct7; 2^11 half-words share bits
    15..13 and 1..0. *)
From Coq Require Import ZArith List.
From Verif Require Import Types.
Import ListNotations.
Local Open Scope Z_scope.

(** Exactly [n] numbers have the property. *)
Definition exactly (n : Z) (P : Z -> Prop) : Prop :=
  exists l, NoDup l /\ (forall w, In w l <-> P w) /\ Z.of_nat (length l) = n.

Definition words_of (isa : Isa) (x : Extensions) : Z :=
  match x with
  | EBaseI =>
      4 * 2 ^ 25                          (* lui, auipc, jal, jalr with any funct3 *)
      + 6 * 2 ^ 22                        (* branches *)
      + (5 + 3) * 2 ^ 22                  (* loads, stores *)
      + 6 * 2 ^ 22                        (* addi, slti, sltiu, xori, ori, andi *)
      + 4 * 2 ^ 15                        (* add, sub, srl, sra *)
      + 6 * (2 ^ 22 - 2 ^ 15)             (* sll, slt, sltu, xor, or, and: any funct7 but that of M *)
      + 2 * 2 ^ 10                        (* ecall, ebreak with any rd, rs1 *)
      + match isa with
        | Rv32 => 3 * 2 ^ 15              (* slli, srli, srai *)
        | Rv64 => 3 * 2 ^ 16
                  + 3 * 2 ^ 22            (* lwu, ld, sd *)
                  + 2 * 2 ^ 22            (* addiw, slliw with any funct7 *)
                  + (2 + 2 + 2 + 2) * 2 ^ 15 (* srliw sraiw; addw, subw; sllw with funct7 0 and 0x20; srlw, sraw *)
        end
  | EM => match isa with Rv32 => 8 | Rv64 => 13 end * 2 ^ 15
  | EA => match isa with Rv32 => 11 | Rv64 => 22 end * 2 ^ 17   (* aq and rl; lr with any rs2 *)
  | EC => 0
  | EZifencei => 2 ^ 22
  | EZicboz => 2 ^ 5
  | EZicsr => 6 * 2 ^ 22 - 6 * 2 ^ 10     (* without the counters *)
  | EZicfiss => 2 * 2 ^ 17 + 2 * 2 ^ 10 + 2 ^ 10
  | EZicntr => 6 * 2 ^ 10                 (* any rd, rs1 *)
  | EPriv => 2 ^ 15 + 3                   (* sfence.vma with any rd; sret, mret, wfi *)
  end.
Definition rejected (isa : Isa) (e : DecodingError) : Z :=
  match e with
  | InvalidOpcode =>
      2 ^ 32 - 14 * 2 ^ 25                (* 14 major opcodes *)
      + (2 ^ 22 - 2 ^ 5)                  (* not cbo.zero *)
      + (2 ^ 22 - 2 * 2 ^ 10 - 2 ^ 10)    (* not sspush, sspopchk, ssrdp *)
  | InvalidFunct3 =>
      (2 + 1 + 4) * 2 ^ 22                (* branches, loads, stores *)
      + 5 * 2 ^ 22                        (* OP-IMM-32 *)
      + 2 * 5 * 2 ^ 15 + 3 * 2 ^ 15       (* OP-32 *)
      + 12 * 6 * 2 ^ 17                   (* atomics and ssamoswap *)
  | InvalidFunct5 => 30 * 2 ^ 10          (* ecall, ebreak *)
  | InvalidFunct6 => match isa with Rv32 => 0 | Rv64 => (63 + 62) * 2 ^ 16 end
  | InvalidFunct7 =>
      match isa with Rv32 => (127 + 126) * 2 ^ 15 | Rv64 => 0 end
      + 2 * 125 * 2 ^ 15                  (* add, sub, mul; srl, sra, divu *)
      + 126 * 2 ^ 15                      (* srliw, sraiw *)
      + (126 * 2 ^ 15 - 3)                (* SYSTEM: not ecall.., sfence.vma, sret, mret, wfi *)
  | UnknownExtension =>
      125 * 2 ^ 18                        (* OP-32 *)
      + 20 * 2 ^ 20                       (* AMO *)
      + 6 * 2 ^ 22                        (* MISC-MEM *)
  | OnlyRv64Inst =>
      match isa with
      | Rv32 => 3 * 2 ^ 22                (* lwu, ld, sd *)
                + 2 * 2 ^ 22 + 2 * 2 ^ 15 (* addiw, slliw, srliw, sraiw *)
                + (6 + 5) * 2 ^ 15        (* OP-32 *)
                + 11 * 2 ^ 17             (* AMO *)
      | Rv64 => 0
      end
  | _ => 0
  end.

Definition half_words_of (isa : Isa) (x : Extensions) : Z :=
  match x with
  | EC =>
      match isa with Rv32 => 15 | Rv64 => 19 end * 2 ^ 11
      - 1                                 (* the zero half-word *)
      - 2                                 (* c.sspush, c.sspopchk *)
      - match isa with Rv32 => 4 | Rv64 => 2 end * 2 ^ 6   (* unassigned, c.subw, c.addw *)
  | EZicfiss => 2
  | _ => 0
  end.
Definition half_rejected (isa : Isa) (e : DecodingError) : Z :=
  match e with
  | IllegalInstruction => 1
  | InvalidOpcode => 2 ^ 14 + 5 * 2 ^ 11 + 2 * 2 ^ 6
  | OnlyRv64Inst => match isa with Rv32 => 4 * 2 ^ 11 + 2 * 2 ^ 6 | Rv64 => 0 end
  | _ => 0
  end.
