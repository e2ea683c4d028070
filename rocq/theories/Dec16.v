(** The [bit_16] modules of src/decode/c_extension.rs and zicfiss_extension.rs. *)
From Coq Require Import ZArith List Bool.
From Verif Require Import Rust Types DecodeUtil.
Import ListNotations.
Local Open Scope Z_scope.

(** ** C *)

(** src/decode/c_extension.rs:6-15 *)
Definition quadrant0 (inst opmap : Z) (isa : Isa) : outcome (result COpcode DecodingError) :=
  match opmap with
  | 0 => Ret (Ok C_ADDI4SPN)
  | 2 => Ret (Ok C_LW)
  | 3 => only_rv64 C_LD isa
  | 6 => Ret (Ok C_SW)
  | 7 => only_rv64 C_SD isa
  | _ => Ret (Err InvalidOpcode)
  end.

(** src/decode/c_extension.rs:17-63 *)
Definition quadrant1 (p : platform) (inst opmap : Z) (isa : Isa)
  : outcome (result COpcode DecodingError) :=
  let! s1 := slice_u16 p inst 11 10 in
  let! sr_flag := u8_try_from_unwrap s1 in
  let! s2 := slice_u16 p inst 6 5 in
  let! lo_flag := u8_try_from_unwrap s2 in
  let! s3 := slice_u16 p inst 11 7 in
  let! mi_flag := u8_try_from_unwrap s3 in
  let! s4 := slice_u16 p inst 12 12 in
  let! bit_12 := u8_try_from_unwrap s4 in
  match opmap with
  | 0 =>
      match mi_flag with
      | 0 => Ret (Ok C_NOP)
      | _ => Ret (Ok C_ADDI)
      end
  | 1 =>
      match isa with
      | Rv32 => Ret (Ok C_JAL)
      | Rv64 => Ret (Ok C_ADDIW)
      end
  | 2 => Ret (Ok C_LI)
  | 3 =>
      match mi_flag with
      | 2 => Ret (Ok C_ADDI16SP)
      | _ => Ret (Ok C_LUI)
      end
  | 4 =>
      match sr_flag with
      | 0 => Ret (Ok C_SRLI)
      | 1 => Ret (Ok C_SRAI)
      | 2 => Ret (Ok C_ANDI)
      | 3 =>
          match bit_12 with
          | 0 =>
              match lo_flag with
              | 0 => Ret (Ok C_SUB)
              | 1 => Ret (Ok C_XOR)
              | 2 => Ret (Ok C_OR)
              | 3 => Ret (Ok C_AND)
              | _ => Ret (Err InvalidOpcode)
              end
          | 1 =>
              match lo_flag with
              | 0 => only_rv64 C_SUBW isa
              | 1 => only_rv64 C_ADDW isa
              | _ => Ret (Err InvalidOpcode)
              end
          | _ => Panic PUnreachable
          end
      | _ => Ret (Err InvalidOpcode)
      end
  | 5 => Ret (Ok C_J)
  | 6 => Ret (Ok C_BEQZ)
  | 7 => Ret (Ok C_BNEZ)
  | _ => Ret (Err InvalidOpcode)
  end.

(** src/decode/c_extension.rs:65-92 *)
Definition quadrant2 (p : platform) (inst opmap : Z) (isa : Isa)
  : outcome (result COpcode DecodingError) :=
  let! s1 := slice_u16 p inst 6 2 in
  let! lo_flag := u8_try_from_unwrap s1 in
  let! s2 := slice_u16 p inst 11 7 in
  let! mi_flag := u8_try_from_unwrap s2 in
  let! s3 := slice_u16 p inst 12 12 in
  let! hi_flag := u8_try_from_unwrap s3 in
  match opmap with
  | 0 => Ret (Ok C_SLLI)
  | 2 => Ret (Ok C_LWSP)
  | 3 => only_rv64 C_LDSP isa
  | 4 =>
      match hi_flag with
      | 0 =>
          match lo_flag with
          | 0 => Ret (Ok C_JR)
          | _ => Ret (Ok C_MV)
          end
      | 1 =>
          match mi_flag with
          | 0 => Ret (Ok C_EBREAK)
          | _ =>
              match lo_flag with
              | 0 => Ret (Ok C_JALR)
              | _ => Ret (Ok C_ADD)
              end
          end
      | _ => Ret (Err InvalidOpcode)
      end
  | 6 => Ret (Ok C_SWSP)
  | 7 => only_rv64 C_SDSP isa
  | _ => Ret (Err InvalidOpcode)
  end.

(** src/decode/c_extension.rs:94-108 *)
Definition c_parse_opcode (p : platform) (inst : Z) (isa : Isa)
  : outcome (result COpcode DecodingError) :=
  let! s1 := slice_u16 p inst 15 13 in
  let! opmap := u8_try_from_unwrap s1 in
  let! s2 := slice_u16 p inst 1 0 in
  let! quadrant := u8_try_from_unwrap s2 in
  if inst =? 0 then Ret (Err InvalidOpcode)
  else
    match quadrant with
    | 0 => quadrant0 inst opmap isa
    | 1 => quadrant1 p inst opmap isa
    | 2 => quadrant2 p inst opmap isa
    | _ => Ret (Err InvalidOpcode)
    end.

(** [(inst.slice(hi, lo) + 8) as usize]: u16 addition, then a cast. *)
Definition prime_reg (p : platform) (inst hi lo : Z) : outcome Z :=
  let! s := slice_u16 p inst hi lo in
  let! r := ck_u 16 p (s + 8) in
  Ret (as_usize p r).

(** [inst.slice(hi, lo) as usize] *)
Definition wide_reg (p : platform) (inst hi lo : Z) : outcome Z :=
  let! s := slice_u16 p inst hi lo in Ret (as_usize p s).

(** src/decode/c_extension.rs:110-139 *)
Definition c_parse_rd (p : platform) (inst : Z) (opkind : COpcode) : outcome (option Z) :=
  let! q0_rd := prime_reg p inst 4 2 in
  let! q1_rd := prime_reg p inst 9 7 in
  let! q1_wide_rd := wide_reg p inst 11 7 in
  let! q2_rd := wide_reg p inst 11 7 in
  match opkind with
  | C_ADDI4SPN | C_LW | C_LD => Ret (Some q0_rd)
  | C_SRLI | C_SRAI | C_ANDI | C_SUB | C_XOR | C_OR | C_AND | C_ADDW | C_SUBW =>
      Ret (Some q1_rd)
  | C_LI | C_LUI | C_ADDI | C_ADDIW | C_ADDI16SP => Ret (Some q1_wide_rd)
  | C_SLLI | C_LWSP | C_LDSP | C_MV | C_ADD => Ret (Some q2_rd)
  | _ => Ret None
  end.

(** src/decode/c_extension.rs:141-168 *)
Definition c_parse_rs1 (p : platform) (inst : Z) (opkind : COpcode) : outcome (option Z) :=
  let! q0_rs1 := prime_reg p inst 9 7 in
  let! q1_rs1 := prime_reg p inst 9 7 in
  let! q1_addi_rs1 := wide_reg p inst 11 7 in
  let! q2_rs1 := wide_reg p inst 11 7 in
  match opkind with
  | C_LW | C_LD | C_SW | C_SD => Ret (Some q0_rs1)
  | C_ADDI | C_ADDIW | C_ADDI16SP => Ret (Some q1_addi_rs1)
  | C_SRLI | C_SRAI | C_ANDI | C_SUB | C_XOR | C_OR | C_AND | C_BEQZ | C_BNEZ
  | C_SUBW | C_ADDW => Ret (Some q1_rs1)
  | C_SLLI | C_JR | C_JALR | C_ADD => Ret (Some q2_rs1)
  | _ => Ret None
  end.

(** src/decode/c_extension.rs:170-195 *)
Definition c_parse_rs2 (p : platform) (inst : Z) (opkind : COpcode) : outcome (option Z) :=
  let! q0_rs2 := prime_reg p inst 4 2 in
  let! q1_rs2 := prime_reg p inst 4 2 in
  let! q2_rs2 := wide_reg p inst 6 2 in
  match opkind with
  | C_SW | C_SD => Ret (Some q0_rs2)
  | C_SUB | C_XOR | C_OR | C_AND | C_SUBW | C_ADDW => Ret (Some q1_rs2)
  | C_JR | C_JALR | C_MV | C_ADD | C_SWSP | C_SDSP => Ret (Some q2_rs2)
  | _ => Ret None
  end.

(** [inst.slice(hi, lo).set(&mask)] on u16 *)
Definition slice_set (p : platform) (inst hi lo : Z) (mask : list Z) : outcome Z :=
  let! s := slice_u16 p inst hi lo in set_u16 p s mask.

(** [inst.slice(h1, l1).set(&m1) | inst.slice(h2, l2).set(&m2)] *)
Definition slice_set2 (p : platform) (inst h1 l1 : Z) (m1 : list Z) (h2 l2 : Z) (m2 : list Z)
  : outcome Z :=
  let! a := slice_set p inst h1 l1 m1 in
  let! b := slice_set p inst h2 l2 m2 in
  Ret (Z.lor a b).

(** src/decode/c_extension.rs:199-263.  The closures are [let]-bound computations. *)
Definition c_parse_imm (p : platform) (inst : Z) (opkind : COpcode) : outcome (option Z) :=
  let q0_uimm := slice_set2 p inst 12 10 [5; 4; 3] 6 5 [2; 6] in
  let q0_uimm_64 := slice_set2 p inst 12 10 [5; 4; 3] 6 5 [7; 6] in
  let q0_nzuimm := slice_set p inst 12 5 [5; 4; 9; 8; 7; 6; 2; 3] in
  let q1_nzuimm := slice_set2 p inst 6 2 [4; 3; 2; 1; 0] 12 12 [5] in
  let q1_nzimm :=
    let! v := slice_set2 p inst 6 2 [4; 3; 2; 1; 0] 12 12 [5] in
    to_signed_nbit p (as_i32 v) 6 in
  let q1_imm :=
    let! v := slice_set2 p inst 6 2 [4; 3; 2; 1; 0] 12 12 [5] in
    to_signed_nbit p (as_i32 v) 6 in
  let q1_j_imm :=
    let! v := slice_set p inst 12 2 [11; 4; 9; 8; 10; 6; 7; 3; 2; 1; 5] in
    to_signed_nbit p (as_i32 v) 12 in
  let q1_b_imm :=
    let! v := slice_set2 p inst 6 2 [7; 6; 2; 1; 5] 12 10 [8; 4; 3] in
    to_signed_nbit p (as_i32 v) 9 in
  let q1_16sp_nzimm :=
    let! v := slice_set2 p inst 6 2 [4; 6; 8; 7; 5] 12 12 [9] in
    to_signed_nbit p (as_i32 v) 10 in
  let q1_lui_imm :=
    let! v := slice_set2 p inst 6 2 [16; 15; 14; 13; 12] 12 12 [17] in
    to_signed_nbit p (as_i32 v) 18 in
  let q2_imm :=
    let! v := slice_set2 p inst 6 2 [4; 3; 2; 1; 0] 12 12 [5] in Ret (as_i32 v) in
  let q2_lwsp_imm :=
    let! v := slice_set2 p inst 6 2 [4; 3; 2; 7; 6] 12 12 [5] in Ret (as_i32 v) in
  let q2_ldsp_imm :=
    let! v := slice_set2 p inst 6 2 [4; 3; 8; 7; 6] 12 12 [5] in Ret (as_i32 v) in
  let q2_swsp_imm :=
    let! v := slice_set p inst 12 7 [5; 4; 3; 2; 7; 6] in Ret (as_i32 v) in
  let q2_sdsp_imm :=
    let! v := slice_set p inst 12 7 [5; 4; 3; 8; 7; 6] in Ret (as_i32 v) in
  match opkind with
  | C_ADDI4SPN => let! v := q0_nzuimm in Ret (Some (as_i32 v))
  | C_LW | C_SW => let! v := q0_uimm in Ret (Some (as_i32 v))
  | C_LD | C_SD => let! v := q0_uimm_64 in Ret (Some (as_i32 v))
  | C_ADDIW | C_LI | C_ANDI => let! v := q1_imm in Ret (Some v)
  | C_NOP | C_ADDI => let! v := q1_nzimm in Ret (Some v)
  | C_SRLI | C_SRAI => let! v := q1_nzuimm in Ret (Some (as_i32 v))
  | C_JAL | C_J => let! v := q1_j_imm in Ret (Some v)
  | C_BEQZ | C_BNEZ => let! v := q1_b_imm in Ret (Some v)
  | C_LUI => let! v := q1_lui_imm in Ret (Some v)
  | C_ADDI16SP => let! v := q1_16sp_nzimm in Ret (Some v)
  | C_SLLI => let! v := q2_imm in Ret (Some v)
  | C_LWSP => let! v := q2_lwsp_imm in Ret (Some v)
  | C_LDSP => let! v := q2_ldsp_imm in Ret (Some v)
  | C_SWSP => let! v := q2_swsp_imm in Ret (Some v)
  | C_SDSP => let! v := q2_sdsp_imm in Ret (Some v)
  | _ => Ret None
  end.

(** ** Zicfiss (16-bit part) *)

(** src/decode/zicfiss_extension.rs:87-93 *)
Definition zicfiss16_parse_opcode (inst : Z) (isa : Isa)
  : outcome (result ZicfissOpcode DecodingError) :=
  match inst with
  | 0x6081 => Ret (Ok Ss_C_SSPUSH)   (* 0b0110_0000_1000_0001 *)
  | 0x6281 => Ret (Ok Ss_C_SSPOPCHK) (* 0b0110_0010_1000_0001 *)
  | _ => Ret (Err InvalidOpcode)
  end.

(** src/decode/zicfiss_extension.rs:96-102 *)
Definition zicfiss16_parse_rd (inst : Z) (opkind : ZicfissOpcode) : outcome (option Z) :=
  match opkind with
  | Ss_C_SSPUSH => Ret (Some 1)
  | Ss_C_SSPOPCHK => Ret (Some 5)
  | _ => Panic PUnreachable
  end.

(** src/decode/zicfiss_extension.rs:105-107 *)
Definition zicfiss16_parse_rs1 (inst : Z) (opkind : ZicfissOpcode) : outcome (option Z) :=
  Ret None.

(** src/decode/zicfiss_extension.rs:110-112 *)
Definition zicfiss16_parse_rs2 (inst : Z) (opkind : ZicfissOpcode) : outcome (option Z) :=
  Ret None.

(** src/decode/zicfiss_extension.rs:115-117 *)
Definition zicfiss16_parse_imm (inst : Z) (opkind : ZicfissOpcode) : outcome (option Z) :=
  Ret None.
