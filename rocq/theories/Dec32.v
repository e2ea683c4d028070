(** The [bit_32] modules of src/decode/*.rs: opcode selection and operand extraction of
    every 32-bit extension.  Binary literals of the source are written in hexadecimal.
    Rust closures ([let I_type = || ..]) are lazily evaluated computations: here they are
    [let]-bound [outcome] values, which only take effect where they are bound with [let!]. *)
From Coq Require Import ZArith List Bool.
From Verif Require Import Rust Types DecodeUtil.
Import ListNotations.
Local Open Scope Z_scope.

(** ** Base I *)

(** src/decode/base_i.rs:7-132 *)
Definition basei_parse_opcode (p : platform) (inst : Z) (isa : Isa)
  : outcome (result BaseIOpcode DecodingError) :=
  let! s1 := slice_u32 p inst 6 0 in
  let! opmap := u8_try_from_unwrap s1 in
  let! s2 := slice_u32 p inst 14 12 in
  let! funct3 := u8_try_from_unwrap s2 in
  let! s3 := slice_u32 p inst 24 20 in
  let! funct5 := u8_try_from_unwrap s3 in
  let! s4 := slice_u32 p inst 31 26 in
  let! funct6 := u8_try_from_unwrap s4 in
  let! s5 := slice_u32 p inst 31 25 in
  let! funct7 := u8_try_from_unwrap s5 in
  match opmap with
  | 0x37 => Ret (Ok I_LUI)      (* 0b011_0111 *)
  | 0x17 => Ret (Ok I_AUIPC)    (* 0b001_0111 *)
  | 0x6f => Ret (Ok I_JAL)      (* 0b110_1111 *)
  | 0x67 => Ret (Ok I_JALR)     (* 0b110_0111 *)
  | 0x63 =>                     (* 0b110_0011 *)
      match funct3 with
      | 0 => Ret (Ok I_BEQ)
      | 1 => Ret (Ok I_BNE)
      | 4 => Ret (Ok I_BLT)
      | 5 => Ret (Ok I_BGE)
      | 6 => Ret (Ok I_BLTU)
      | 7 => Ret (Ok I_BGEU)
      | _ => Ret (Err InvalidFunct3)
      end
  | 0x03 =>                     (* 0b000_0011 *)
      match funct3 with
      | 0 => Ret (Ok I_LB)
      | 1 => Ret (Ok I_LH)
      | 2 => Ret (Ok I_LW)
      | 3 => only_rv64 I_LD isa
      | 4 => Ret (Ok I_LBU)
      | 5 => Ret (Ok I_LHU)
      | 6 => only_rv64 I_LWU isa
      | _ => Ret (Err InvalidFunct3)
      end
  | 0x23 =>                     (* 0b010_0011 *)
      match funct3 with
      | 0 => Ret (Ok I_SB)
      | 1 => Ret (Ok I_SH)
      | 2 => Ret (Ok I_SW)
      | 3 => only_rv64 I_SD isa
      | _ => Ret (Err InvalidFunct3)
      end
  | 0x13 =>                     (* 0b001_0011 *)
      match funct3 with
      | 0 => Ret (Ok I_ADDI)
      | 1 =>
          match isa with
          | Rv32 =>
              match funct7 with
              | 0x00 => Ret (Ok I_SLLI)
              | _ => Ret (Err InvalidFunct7)
              end
          | Rv64 =>
              match funct6 with
              | 0x00 => Ret (Ok I_SLLI)
              | _ => Ret (Err InvalidFunct6)
              end
          end
      | 2 => Ret (Ok I_SLTI)
      | 3 => Ret (Ok I_SLTIU)
      | 4 => Ret (Ok I_XORI)
      | 5 =>
          match isa with
          | Rv32 =>
              match funct7 with
              | 0x00 => Ret (Ok I_SRLI)
              | 0x20 => Ret (Ok I_SRAI)
              | _ => Ret (Err InvalidFunct7)
              end
          | Rv64 =>
              match funct6 with
              | 0x00 => Ret (Ok I_SRLI)
              | 0x10 => Ret (Ok I_SRAI)
              | _ => Ret (Err InvalidFunct6)
              end
          end
      | 6 => Ret (Ok I_ORI)
      | 7 => Ret (Ok I_ANDI)
      | _ => Ret (Err InvalidFunct3)
      end
  | 0x33 =>                     (* 0b011_0011 *)
      match funct3 with
      | 0 =>
          match funct7 with
          | 0x00 => Ret (Ok I_ADD)
          | 0x20 => Ret (Ok I_SUB)
          | _ => Ret (Err InvalidFunct7)
          end
      | 1 => Ret (Ok I_SLL)
      | 2 => Ret (Ok I_SLT)
      | 3 => Ret (Ok I_SLTU)
      | 4 => Ret (Ok I_XOR)
      | 5 =>
          match funct7 with
          | 0x00 => Ret (Ok I_SRL)
          | 0x20 => Ret (Ok I_SRA)
          | _ => Ret (Err InvalidFunct7)
          end
      | 6 => Ret (Ok I_OR)
      | 7 => Ret (Ok I_AND)
      | _ => Ret (Err InvalidFunct3)
      end
  | 0x73 =>                     (* 0b111_0011 *)
      match funct3 with
      | 0 =>
          match funct7 with
          | 0x00 =>
              match funct5 with
              | 0x00 => Ret (Ok I_ECALL)
              | 0x01 => Ret (Ok I_EBREAK)
              | _ => Ret (Err InvalidFunct5)
              end
          | _ => Ret (Err InvalidFunct7)
          end
      | _ => Ret (Err InvalidFunct3)
      end
  | 0x1b =>                     (* 0b001_1011 *)
      match funct3 with
      | 0 => only_rv64 I_ADDIW isa
      | 1 => only_rv64 I_SLLIW isa
      | 5 =>
          match funct7 with
          | 0x00 => only_rv64 I_SRLIW isa
          | 0x20 => only_rv64 I_SRAIW isa
          | _ => Ret (Err InvalidFunct7)
          end
      | _ => Ret (Err InvalidFunct3)
      end
  | 0x3b =>                     (* 0b011_1011 *)
      match funct3 with
      | 0 =>
          match funct7 with
          | 0x00 => only_rv64 I_ADDW isa
          | 0x20 => only_rv64 I_SUBW isa
          | _ => Ret (Err InvalidFunct7)
          end
      | 1 => only_rv64 I_SLLW isa
      | 5 =>
          match funct7 with
          | 0x00 => only_rv64 I_SRLW isa
          | 0x20 => only_rv64 I_SRAW isa
          | _ => Ret (Err InvalidFunct7)
          end
      | _ => Ret (Err InvalidFunct3)
      end
  | _ => Ret (Err InvalidOpcode)
  end.

(** src/decode/base_i.rs:134-180 *)
Definition basei_parse_rd (p : platform) (inst : Z) (opkind : BaseIOpcode)
  : outcome (option Z) :=
  let! s := slice_u32 p inst 11 7 in
  let r := as_usize p s in
  match opkind with
  | I_LUI | I_AUIPC | I_JAL | I_JALR | I_LB | I_LH | I_LW | I_LBU | I_LHU | I_ADDI
  | I_SLTI | I_SLTIU | I_XORI | I_ORI | I_ANDI | I_SLLI | I_SRLI | I_SRAI | I_ADD
  | I_SUB | I_SLL | I_SLT | I_SLTU | I_XOR | I_SRL | I_SRA | I_OR | I_AND | I_LWU
  | I_LD | I_ADDIW | I_SLLIW | I_SRLIW | I_SRAIW | I_ADDW | I_SUBW | I_SLLW
  | I_SRLW | I_SRAW => Ret (Some r)
  | _ => Ret None
  end.

(** src/decode/base_i.rs:182-235 *)
Definition basei_parse_rs1 (p : platform) (inst : Z) (opkind : BaseIOpcode)
  : outcome (option Z) :=
  let! s := slice_u32 p inst 19 15 in
  let r := as_usize p s in
  match opkind with
  | I_JALR | I_BEQ | I_BNE | I_BLT | I_BGE | I_BLTU | I_BGEU | I_LB | I_LH | I_LW
  | I_LBU | I_LHU | I_SB | I_SH | I_SW | I_ADDI | I_SLTI | I_SLTIU | I_XORI | I_ORI
  | I_ANDI | I_SLLI | I_SRLI | I_SRAI | I_ADD | I_SUB | I_SLL | I_SLT | I_SLTU
  | I_XOR | I_SRL | I_SRA | I_OR | I_AND | I_LWU | I_LD | I_SD | I_ADDIW | I_SLLIW
  | I_SRLIW | I_SRAIW | I_ADDW | I_SUBW | I_SLLW | I_SRLW | I_SRAW => Ret (Some r)
  | _ => Ret None
  end.

(** src/decode/base_i.rs:237-271 *)
Definition basei_parse_rs2 (p : platform) (inst : Z) (opkind : BaseIOpcode)
  : outcome (option Z) :=
  let! s := slice_u32 p inst 24 20 in
  let r := as_usize p s in
  match opkind with
  | I_BEQ | I_BNE | I_BLT | I_BGE | I_BLTU | I_BGEU | I_SB | I_SH | I_SW | I_ADD
  | I_SUB | I_SLL | I_SLT | I_SLTU | I_XOR | I_SRL | I_SRA | I_OR | I_AND | I_SD
  | I_ADDW | I_SUBW | I_SLLW | I_SRLW | I_SRAW => Ret (Some r)
  | _ => Ret None
  end.

(** src/decode/base_i.rs:276 (closure U_type) *)
Definition imm_U (p : platform) (inst : Z) : outcome Z :=
  let! s := slice_u32 p inst 31 12 in Ret (as_i32 s).

(** src/decode/base_i.rs:277-280 (closure I_type) *)
Definition imm_I (p : platform) (inst : Z) : outcome Z :=
  let! s := slice_u32 p inst 31 20 in
  let imm32 := as_i32 s in
  to_signed_nbit p imm32 12.

(** src/decode/base_i.rs:281-285 (closure S_type) *)
Definition imm_S (p : platform) (inst : Z) : outcome Z :=
  let! a := slice_u32 p inst 11 7 in
  let! a' := set_u32 p a [4; 3; 2; 1; 0] in
  let! b := slice_u32 p inst 31 25 in
  let! b' := set_u32 p b [11; 10; 9; 8; 7; 6; 5] in
  let imm32 := as_i32 (Z.lor a' b') in
  to_signed_nbit p imm32 12.

(** src/decode/base_i.rs:286-290 (closure B_type) *)
Definition imm_B (p : platform) (inst : Z) : outcome Z :=
  let! a := slice_u32 p inst 11 7 in
  let! a' := set_u32 p a [4; 3; 2; 1; 11] in
  let! b := slice_u32 p inst 31 25 in
  let! b' := set_u32 p b [12; 10; 9; 8; 7; 6; 5] in
  let imm32 := as_i32 (Z.lor a' b') in
  to_signed_nbit p imm32 13.

(** src/decode/base_i.rs:291-296 (closure J_type) *)
Definition imm_J (p : platform) (inst : Z) : outcome Z :=
  let! a := slice_u32 p inst 31 12 in
  let! a' := set_u32 p a [20; 10; 9; 8; 7; 6; 5; 4; 3; 2; 1; 11; 19; 18; 17; 16; 15; 14;
                          13; 12] in
  let imm32 := as_i32 a' in
  to_signed_nbit p imm32 21.

(** src/decode/base_i.rs:275-337 *)
Definition basei_parse_imm (p : platform) (inst : Z) (opkind : BaseIOpcode) (isa : Isa)
  : outcome (option Z) :=
  let shamt5 := slice_u32 p inst 24 20 in
  let shamt6 := slice_u32 p inst 25 20 in
  match opkind with
  | I_LUI | I_AUIPC => let! v := imm_U p inst in Ret (Some v)
  | I_JAL => let! v := imm_J p inst in Ret (Some v)
  | I_BEQ | I_BNE | I_BLT | I_BGE | I_BLTU | I_BGEU =>
      let! v := imm_B p inst in Ret (Some v)
  | I_JALR | I_LB | I_LH | I_LW | I_LBU | I_LHU | I_ADDI | I_SLTI | I_SLTIU
  | I_XORI | I_ORI | I_ANDI | I_LWU | I_ADDIW | I_LD =>
      let! v := imm_I p inst in Ret (Some v)
  | I_SD | I_SB | I_SH | I_SW => let! v := imm_S p inst in Ret (Some v)
  | I_SRAI | I_SLLI | I_SRLI =>
      match isa with
      | Rv32 => let! v := shamt5 in Ret (Some (as_i32 v))
      | Rv64 => let! v := shamt6 in Ret (Some (as_i32 v))
      end
  | I_SLLIW | I_SRLIW | I_SRAIW => let! v := shamt5 in Ret (Some (as_i32 v))
  | _ => Ret None
  end.

(** ** M *)

(** src/decode/m_extension.rs:6-32 *)
Definition m_parse_opcode (p : platform) (inst : Z) (isa : Isa)
  : outcome (result MOpcode DecodingError) :=
  let! s1 := slice_u32 p inst 6 0 in
  let! opmap := u8_try_from_unwrap s1 in
  let! s2 := slice_u32 p inst 14 12 in
  let! funct3 := u8_try_from_unwrap s2 in
  match opmap with
  | 0x33 => (* 0b011_0011 *)
      match funct3 with
      | 0 => Ret (Ok M_MUL)
      | 1 => Ret (Ok M_MULH)
      | 2 => Ret (Ok M_MULHSU)
      | 3 => Ret (Ok M_MULHU)
      | 4 => Ret (Ok M_DIV)
      | 5 => Ret (Ok M_DIVU)
      | 6 => Ret (Ok M_REM)
      | 7 => Ret (Ok M_REMU)
      | _ => Ret (Err InvalidFunct3)
      end
  | 0x3b => (* 0b011_1011 *)
      match funct3 with
      | 0 => only_rv64 M_MULW isa
      | 4 => only_rv64 M_DIVW isa
      | 5 => only_rv64 M_DIVUW isa
      | 6 => only_rv64 M_REMW isa
      | 7 => only_rv64 M_REMUW isa
      | _ => Ret (Err InvalidFunct3)
      end
  | _ => Ret (Err InvalidOpcode)
  end.

(** src/decode/m_extension.rs:35-53 *)
Definition m_parse_rd (p : platform) (inst : Z) (opkind : MOpcode) : outcome (option Z) :=
  let! s := slice_u32 p inst 11 7 in
  let r := as_usize p s in
  match opkind with
  | M_MUL | M_MULH | M_MULHSU | M_MULHU | M_DIV | M_DIVU | M_REM | M_REMU | M_MULW
  | M_DIVW | M_DIVUW | M_REMW | M_REMUW => Ret (Some r)
  end.

(** src/decode/m_extension.rs:56-74 *)
Definition m_parse_rs1 (p : platform) (inst : Z) (opkind : MOpcode) : outcome (option Z) :=
  let! s := slice_u32 p inst 19 15 in
  let r := as_usize p s in
  match opkind with
  | M_MUL | M_MULH | M_MULHSU | M_MULHU | M_DIV | M_DIVU | M_REM | M_REMU | M_MULW
  | M_DIVW | M_DIVUW | M_REMW | M_REMUW => Ret (Some r)
  end.

(** src/decode/m_extension.rs:77-95 *)
Definition m_parse_rs2 (p : platform) (inst : Z) (opkind : MOpcode) : outcome (option Z) :=
  let! s := slice_u32 p inst 24 20 in
  let r := as_usize p s in
  match opkind with
  | M_MUL | M_MULH | M_MULHSU | M_MULHU | M_DIV | M_DIVU | M_REM | M_REMU | M_MULW
  | M_DIVW | M_DIVUW | M_REMW | M_REMUW => Ret (Some r)
  end.

(** src/decode/m_extension.rs:98-100 *)
Definition m_parse_imm (p : platform) (inst : Z) (opkind : MOpcode) : outcome (option Z) :=
  Ret None.

(** ** A *)

(** src/decode/a_extension.rs:6-45.  The variable called [funct7] in the source is
    bits 31..27. *)
Definition a_parse_opcode (p : platform) (inst : Z) (isa : Isa)
  : outcome (result AOpcode DecodingError) :=
  let! s1 := slice_u32 p inst 6 0 in
  let! opmap := u8_try_from_unwrap s1 in
  let! s2 := slice_u32 p inst 14 12 in
  let! funct3 := u8_try_from_unwrap s2 in
  let! s3 := slice_u32 p inst 31 27 in
  let! funct7 := u8_try_from_unwrap s3 in
  match opmap with
  | 0x2f => (* 0b010_1111 *)
      match funct3 with
      | 2 =>
          match funct7 with
          | 0x02 => Ret (Ok A_LR_W)
          | 0x03 => Ret (Ok A_SC_W)
          | 0x01 => Ret (Ok A_AMOSWAP_W)
          | 0x00 => Ret (Ok A_AMOADD_W)
          | 0x04 => Ret (Ok A_AMOXOR_W)
          | 0x0c => Ret (Ok A_AMOAND_W)
          | 0x08 => Ret (Ok A_AMOOR_W)
          | 0x10 => Ret (Ok A_AMOMIN_W)
          | 0x14 => Ret (Ok A_AMOMAX_W)
          | 0x18 => Ret (Ok A_AMOMINU_W)
          | 0x1c => Ret (Ok A_AMOMAXU_W)
          | _ => Ret (Err InvalidFunct7)
          end
      | 3 =>
          match funct7 with
          | 0x02 => only_rv64 A_LR_D isa
          | 0x03 => only_rv64 A_SC_D isa
          | 0x01 => only_rv64 A_AMOSWAP_D isa
          | 0x00 => only_rv64 A_AMOADD_D isa
          | 0x04 => only_rv64 A_AMOXOR_D isa
          | 0x0c => only_rv64 A_AMOAND_D isa
          | 0x08 => only_rv64 A_AMOOR_D isa
          | 0x10 => only_rv64 A_AMOMIN_D isa
          | 0x14 => only_rv64 A_AMOMAX_D isa
          | 0x18 => only_rv64 A_AMOMINU_D isa
          | 0x1c => only_rv64 A_AMOMAXU_D isa
          | _ => Ret (Err InvalidFunct7)
          end
      | _ => Ret (Err InvalidFunct3)
      end
  | _ => Ret (Err InvalidOpcode)
  end.

(** src/decode/a_extension.rs:48-75 *)
Definition a_parse_rd (p : platform) (inst : Z) (opkind : AOpcode) : outcome (option Z) :=
  let! s := slice_u32 p inst 11 7 in
  let r := as_usize p s in
  match opkind with
  | A_LR_W | A_SC_W | A_AMOSWAP_W | A_AMOADD_W | A_AMOXOR_W | A_AMOAND_W
  | A_AMOOR_W | A_AMOMIN_W | A_AMOMAX_W | A_AMOMINU_W | A_AMOMAXU_W | A_LR_D
  | A_SC_D | A_AMOSWAP_D | A_AMOADD_D | A_AMOXOR_D | A_AMOAND_D | A_AMOOR_D
  | A_AMOMIN_D | A_AMOMAX_D | A_AMOMINU_D | A_AMOMAXU_D => Ret (Some r)
  end.

(** src/decode/a_extension.rs:78-105 *)
Definition a_parse_rs1 (p : platform) (inst : Z) (opkind : AOpcode) : outcome (option Z) :=
  let! s := slice_u32 p inst 19 15 in
  let r := as_usize p s in
  match opkind with
  | A_LR_W | A_SC_W | A_AMOSWAP_W | A_AMOADD_W | A_AMOXOR_W | A_AMOAND_W
  | A_AMOOR_W | A_AMOMIN_W | A_AMOMAX_W | A_AMOMINU_W | A_AMOMAXU_W | A_LR_D
  | A_SC_D | A_AMOSWAP_D | A_AMOADD_D | A_AMOXOR_D | A_AMOAND_D | A_AMOOR_D
  | A_AMOMIN_D | A_AMOMAX_D | A_AMOMINU_D | A_AMOMAXU_D => Ret (Some r)
  end.

(** src/decode/a_extension.rs:107-133 *)
Definition a_parse_rs2 (p : platform) (inst : Z) (opkind : AOpcode) : outcome (option Z) :=
  let! s := slice_u32 p inst 24 20 in
  let r := as_usize p s in
  match opkind with
  | A_SC_W | A_AMOSWAP_W | A_AMOADD_W | A_AMOXOR_W | A_AMOAND_W | A_AMOOR_W
  | A_AMOMIN_W | A_AMOMAX_W | A_AMOMINU_W | A_AMOMAXU_W | A_SC_D | A_AMOSWAP_D
  | A_AMOADD_D | A_AMOXOR_D | A_AMOAND_D | A_AMOOR_D | A_AMOMIN_D | A_AMOMAX_D
  | A_AMOMINU_D | A_AMOMAXU_D => Ret (Some r)
  | _ => Ret None
  end.

(** src/decode/a_extension.rs:137-164 *)
Definition a_parse_imm (p : platform) (inst : Z) (opkind : AOpcode) : outcome (option Z) :=
  let aq_and_rl := let! s := slice_u32 p inst 26 25 in Ret (as_i32 s) in
  match opkind with
  | A_LR_W | A_SC_W | A_AMOSWAP_W | A_AMOADD_W | A_AMOXOR_W | A_AMOAND_W
  | A_AMOOR_W | A_AMOMIN_W | A_AMOMAX_W | A_AMOMINU_W | A_AMOMAXU_W | A_LR_D
  | A_SC_D | A_AMOSWAP_D | A_AMOADD_D | A_AMOXOR_D | A_AMOAND_D | A_AMOOR_D
  | A_AMOMIN_D | A_AMOMAX_D | A_AMOMINU_D | A_AMOMAXU_D =>
      let! v := aq_and_rl in Ret (Some v)
  end.

(** ** Zicsr *)

(** src/decode/zicsr_extension.rs:5-21 *)
Definition zicsr_parse_opcode (p : platform) (inst : Z)
  : outcome (result ZicsrOpcode DecodingError) :=
  let! s1 := slice_u32 p inst 6 0 in
  let! opmap := u8_try_from_unwrap s1 in
  let! s2 := slice_u32 p inst 14 12 in
  let! funct3 := u8_try_from_unwrap s2 in
  match opmap with
  | 0x73 => (* 0b111_0011 *)
      match funct3 with
      | 1 => Ret (Ok Csr_CSRRW)
      | 2 => Ret (Ok Csr_CSRRS)
      | 3 => Ret (Ok Csr_CSRRC)
      | 5 => Ret (Ok Csr_CSRRWI)
      | 6 => Ret (Ok Csr_CSRRSI)
      | 7 => Ret (Ok Csr_CSRRCI)
      | _ => Ret (Err InvalidFunct3)
      end
  | _ => Ret (Err InvalidOpcode)
  end.

(** src/decode/zicsr_extension.rs:24-35 *)
Definition zicsr_parse_rd (p : platform) (inst : Z) (opkind : ZicsrOpcode)
  : outcome (option Z) :=
  let! s := slice_u32 p inst 11 7 in
  let r := as_usize p s in
  match opkind with
  | Csr_CSRRW | Csr_CSRRS | Csr_CSRRC | Csr_CSRRWI | Csr_CSRRSI | Csr_CSRRCI =>
      Ret (Some r)
  end.

(** src/decode/zicsr_extension.rs:37-45 *)
Definition zicsr_parse_rs1 (p : platform) (inst : Z) (opkind : ZicsrOpcode)
  : outcome (option Z) :=
  let! s := slice_u32 p inst 19 15 in
  let r := as_usize p s in
  match opkind with
  | Csr_CSRRW | Csr_CSRRS | Csr_CSRRC => Ret (Some r)
  | _ => Ret None
  end.

(** src/decode/zicsr_extension.rs:48-59 *)
Definition zicsr_parse_rs2 (p : platform) (inst : Z) (opkind : ZicsrOpcode)
  : outcome (option Z) :=
  let! s := slice_u32 p inst 31 20 in
  let csr := as_usize p s in
  match opkind with
  | Csr_CSRRW | Csr_CSRRS | Csr_CSRRC | Csr_CSRRWI | Csr_CSRRSI | Csr_CSRRCI =>
      Ret (Some csr)
  end.

(** src/decode/zicsr_extension.rs:62-68 *)
Definition zicsr_parse_imm (p : platform) (inst : Z) (opkind : ZicsrOpcode)
  : outcome (option Z) :=
  let! uimm := slice_u32 p inst 19 15 in
  match opkind with
  | Csr_CSRRWI | Csr_CSRRSI | Csr_CSRRCI => Ret (Some (as_i32 uimm))
  | _ => Ret None
  end.

(** ** Zifencei *)

(** src/decode/zifencei_extension.rs:5-12 *)
Definition zifencei_parse_opcode (p : platform) (inst : Z)
  : outcome (result ZifenceiOpcode DecodingError) :=
  let! s1 := slice_u32 p inst 6 0 in
  let! opmap := u8_try_from_unwrap s1 in
  match opmap with
  | 0x0f => Ret (Ok Fe_FENCE) (* 0b000_1111 *)
  | _ => Ret (Err InvalidOpcode)
  end.

(** src/decode/zifencei_extension.rs:15-21 *)
Definition zifencei_parse_rd (p : platform) (inst : Z) (opkind : ZifenceiOpcode)
  : outcome (option Z) :=
  let! s := slice_u32 p inst 11 7 in
  let r := as_usize p s in
  match opkind with Fe_FENCE => Ret (Some r) end.

(** src/decode/zifencei_extension.rs:24-30 *)
Definition zifencei_parse_rs1 (p : platform) (inst : Z) (opkind : ZifenceiOpcode)
  : outcome (option Z) :=
  let! s := slice_u32 p inst 19 15 in
  let r := as_usize p s in
  match opkind with Fe_FENCE => Ret (Some r) end.

(** src/decode/zifencei_extension.rs:33-37 *)
Definition zifencei_parse_rs2 (p : platform) (inst : Z) (opkind : ZifenceiOpcode)
  : outcome (option Z) :=
  match opkind with Fe_FENCE => Ret None end.

(** src/decode/zifencei_extension.rs:40-45 *)
Definition zifencei_parse_imm (p : platform) (inst : Z) (opkind : ZifenceiOpcode)
  : outcome (option Z) :=
  let! fm_pred_succ := slice_u32 p inst 31 20 in
  match opkind with Fe_FENCE => Ret (Some (as_i32 fm_pred_succ)) end.

(** ** Zicfiss (32-bit part) *)

(** src/decode/zicfiss_extension.rs:5-30 *)
Definition zicfiss_parse_opcode (p : platform) (inst : Z)
  : outcome (result ZicfissOpcode DecodingError) :=
  let! s1 := slice_u32 p inst 6 0 in
  let! opmap := u8_try_from_unwrap s1 in
  let! s2 := slice_u32 p inst 14 12 in
  let! funct3 := u8_try_from_unwrap s2 in
  let! s3 := slice_u32 p inst 19 15 in
  let! rs1 := u8_try_from_unwrap s3 in
  let! s4 := slice_u32 p inst 31 20 in
  let! funct7_rs2 := u16_try_from_unwrap s4 in
  match opmap with
  | 0x73 => (* 0b111_0011 *)
      match funct3 with
      | 4 =>
          match funct7_rs2 with
          | 0xce1 | 0xce5 => Ret (Ok Ss_SSPUSH) (* 0b1100_1110_0001 | 0b1100_1110_0101 *)
          | 0xcdc =>                            (* 0b1100_1101_1100 *)
              match rs1 with
              | 0 => Ret (Ok Ss_SSRDP)
              | _ => Ret (Ok Ss_SSPOPCHK)
              end
          | _ => Ret (Err InvalidOpcode)
          end
      | _ => Ret (Err InvalidFunct3)
      end
  | 0x2f => (* 0b010_1111 *)
      match funct3 with
      | 2 => Ret (Ok Ss_SSAMOSWAP_W)
      | 3 => Ret (Ok Ss_SSAMOSWAP_D)
      | _ => Ret (Err InvalidFunct3)
      end
  | _ => Ret (Err InvalidOpcode)
  end.

(** src/decode/zicfiss_extension.rs:33-42 *)
Definition zicfiss_parse_rd (p : platform) (inst : Z) (opkind : ZicfissOpcode)
  : outcome (option Z) :=
  let! s := slice_u32 p inst 11 7 in
  let r := as_usize p s in
  match opkind with
  | Ss_SSPUSH | Ss_SSPOPCHK => Ret (Some 0)
  | Ss_SSRDP | Ss_SSAMOSWAP_W | Ss_SSAMOSWAP_D => Ret (Some r)
  | Ss_C_SSPUSH | Ss_C_SSPOPCHK => Panic PUnreachable
  end.

(** src/decode/zicfiss_extension.rs:45-55 *)
Definition zicfiss_parse_rs1 (p : platform) (inst : Z) (opkind : ZicfissOpcode)
  : outcome (option Z) :=
  let! s := slice_u32 p inst 19 15 in
  let r := as_usize p s in
  match opkind with
  | Ss_SSPUSH => Ret (Some 0)
  | Ss_SSPOPCHK | Ss_SSAMOSWAP_W | Ss_SSAMOSWAP_D => Ret (Some r)
  | Ss_SSRDP => Ret None
  | Ss_C_SSPUSH | Ss_C_SSPOPCHK => Panic PUnreachable
  end.

(** src/decode/zicfiss_extension.rs:58-67 *)
Definition zicfiss_parse_rs2 (p : platform) (inst : Z) (opkind : ZicfissOpcode)
  : outcome (option Z) :=
  let! s := slice_u32 p inst 24 20 in
  let r := as_usize p s in
  match opkind with
  | Ss_SSPUSH | Ss_SSAMOSWAP_W | Ss_SSAMOSWAP_D => Ret (Some r)
  | Ss_SSPOPCHK | Ss_SSRDP => Ret None
  | Ss_C_SSPUSH | Ss_C_SSPOPCHK => Panic PUnreachable
  end.

(** src/decode/zicfiss_extension.rs:70-79 *)
Definition zicfiss_parse_imm (p : platform) (inst : Z) (opkind : ZicfissOpcode)
  : outcome (option Z) :=
  match opkind with
  | Ss_SSPUSH | Ss_SSPOPCHK | Ss_SSRDP | Ss_SSAMOSWAP_W | Ss_SSAMOSWAP_D => Ret None
  | Ss_C_SSPUSH | Ss_C_SSPOPCHK => Panic PUnreachable
  end.

(** ** Zicboz *)

(** src/decode/zicboz_extension.rs:5-24 *)
Definition zicboz_parse_opcode (p : platform) (inst : Z)
  : outcome (result ZicbozOpcode DecodingError) :=
  let! s1 := slice_u32 p inst 6 0 in
  let! opmap := u8_try_from_unwrap s1 in
  let! s2 := slice_u32 p inst 14 12 in
  let! funct3 := u8_try_from_unwrap s2 in
  let! s3 := slice_u32 p inst 11 7 in
  let! field_11_7 := u8_try_from_unwrap s3 in
  let! s4 := slice_u32 p inst 31 20 in
  let! cbo_num := u16_try_from_unwrap s4 in
  match opmap with
  | 0x0f => (* 0b000_1111 *)
      match funct3 with
      | 2 =>
          match cbo_num with
          | 4 => (* 0b100 *)
              match field_11_7 with
              | 0 => Ret (Ok Cbo_CBO_ZERO)
              | _ => Ret (Err InvalidOpcode)
              end
          | _ => Ret (Err InvalidOpcode)
          end
      | _ => Ret (Err InvalidFunct3)
      end
  | _ => Ret (Err InvalidOpcode)
  end.

(** src/decode/zicboz_extension.rs:27-29 *)
Definition zicboz_parse_rd (p : platform) (inst : Z) (opkind : ZicbozOpcode)
  : outcome (option Z) := Ret None.

(** src/decode/zicboz_extension.rs:32-37.  [rs1.into()] widens u8 to usize. *)
Definition zicboz_parse_rs1 (p : platform) (inst : Z) (opkind : ZicbozOpcode)
  : outcome (option Z) :=
  let! s := slice_u32 p inst 19 15 in
  let! r := u8_try_from_unwrap s in
  match opkind with Cbo_CBO_ZERO => Ret (Some r) end.

(** src/decode/zicboz_extension.rs:40-42 *)
Definition zicboz_parse_rs2 (p : platform) (inst : Z) (opkind : ZicbozOpcode)
  : outcome (option Z) := Ret None.

(** src/decode/zicboz_extension.rs:45-47 *)
Definition zicboz_parse_imm (p : platform) (inst : Z) (opkind : ZicbozOpcode)
  : outcome (option Z) := Ret None.

(** ** Zicntr *)

(** src/decode/zicntr_extension.rs:5-25 *)
Definition zicntr_parse_opcode (p : platform) (inst : Z)
  : outcome (result ZicntrOpcode DecodingError) :=
  let! s1 := slice_u32 p inst 6 0 in
  let! opmap := u8_try_from_unwrap s1 in
  let! s2 := slice_u32 p inst 14 12 in
  let! funct3 := u8_try_from_unwrap s2 in
  let! s3 := slice_u32 p inst 31 20 in
  let! csr_num := u16_try_from_unwrap s3 in
  match opmap with
  | 0x73 => (* 0b111_0011 *)
      match funct3 with
      | 2 =>
          match csr_num with
          | 0xc00 => Ret (Ok Cnt_RDCYCLE)
          | 0xc01 => Ret (Ok Cnt_RDTIME)
          | 0xc02 => Ret (Ok Cnt_RDINSTRET)
          | 0xc80 => Ret (Ok Cnt_RDCYCLE_H)
          | 0xc81 => Ret (Ok Cnt_RDTIME_H)
          | 0xc82 => Ret (Ok Cnt_RDINSTRET_H)
          | _ => Ret (Err InvalidOpcode)
          end
      | _ => Ret (Err InvalidFunct3)
      end
  | _ => Ret (Err InvalidOpcode)
  end.

(** src/decode/zicntr_extension.rs:28-38 *)
Definition zicntr_parse_rd (p : platform) (inst : Z) (opkind : ZicntrOpcode)
  : outcome (option Z) :=
  let! s := slice_u32 p inst 11 7 in
  let r := as_usize p s in
  match opkind with
  | Cnt_RDCYCLE | Cnt_RDTIME | Cnt_RDINSTRET | Cnt_RDCYCLE_H | Cnt_RDTIME_H
  | Cnt_RDINSTRET_H => Ret (Some r)
  end.

(** src/decode/zicntr_extension.rs:41-50 *)
Definition zicntr_parse_rs1 (p : platform) (inst : Z) (opkind : ZicntrOpcode)
  : outcome (option Z) :=
  match opkind with
  | Cnt_RDCYCLE | Cnt_RDTIME | Cnt_RDINSTRET | Cnt_RDCYCLE_H | Cnt_RDTIME_H
  | Cnt_RDINSTRET_H => Ret None
  end.

(** src/decode/zicntr_extension.rs:53-62 *)
Definition zicntr_parse_rs2 (p : platform) (inst : Z) (opkind : ZicntrOpcode)
  : outcome (option Z) :=
  match opkind with
  | Cnt_RDCYCLE | Cnt_RDTIME | Cnt_RDINSTRET | Cnt_RDCYCLE_H | Cnt_RDTIME_H
  | Cnt_RDINSTRET_H => Ret None
  end.

(** src/decode/zicntr_extension.rs:65-74 *)
Definition zicntr_parse_imm (p : platform) (inst : Z) (opkind : ZicntrOpcode)
  : outcome (option Z) :=
  match opkind with
  | Cnt_RDCYCLE | Cnt_RDTIME | Cnt_RDINSTRET | Cnt_RDCYCLE_H | Cnt_RDTIME_H
  | Cnt_RDINSTRET_H => Ret None
  end.

(** ** Privileged *)

(** src/decode/priv_extension.rs:5-19.  The unused slices of the source are kept: they
    could panic. *)
Definition priv_parse_opcode (p : platform) (inst : Z)
  : outcome (result PrivOpcode DecodingError) :=
  let! s1 := slice_u32 p inst 6 0 in
  let! _opmap := u8_try_from_unwrap s1 in
  let! s2 := slice_u32 p inst 14 12 in
  let! _funct3 := u8_try_from_unwrap s2 in
  let! s3 := slice_u32 p inst 31 25 in
  let! funct7 := u8_try_from_unwrap s3 in
  match inst with
  | 0x10200073 => Ret (Ok P_SRET) (* 0b0001_0000_0010_0000_0000_0000_0111_0011 *)
  | 0x30200073 => Ret (Ok P_MRET) (* 0b0011_0000_0010_0000_0000_0000_0111_0011 *)
  | 0x10500073 => Ret (Ok P_WFI)  (* 0b0001_0000_0101_0000_0000_0000_0111_0011 *)
  | _ =>
      match funct7 with
      | 0x09 => Ret (Ok P_SFENCE_VMA) (* 0b000_1001 *)
      | _ => Ret (Err InvalidFunct7)
      end
  end.

(** src/decode/priv_extension.rs:22-24 *)
Definition priv_parse_rd (p : platform) (inst : Z) (opkind : PrivOpcode)
  : outcome (option Z) := Ret None.

(** src/decode/priv_extension.rs:26-33 *)
Definition priv_parse_rs1 (p : platform) (inst : Z) (opkind : PrivOpcode)
  : outcome (option Z) :=
  let! s := slice_u32 p inst 19 15 in
  let r := as_usize p s in
  match opkind with
  | P_SFENCE_VMA => Ret (Some r)
  | _ => Ret None
  end.

(** src/decode/priv_extension.rs:35-42 *)
Definition priv_parse_rs2 (p : platform) (inst : Z) (opkind : PrivOpcode)
  : outcome (option Z) :=
  let! s := slice_u32 p inst 24 20 in
  let r := as_usize p s in
  match opkind with
  | P_SFENCE_VMA => Ret (Some r)
  | _ => Ret None
  end.

(** src/decode/priv_extension.rs:45-47 *)
Definition priv_parse_imm (p : platform) (inst : Z) (opkind : PrivOpcode)
  : outcome (option Z) := Ret None.
