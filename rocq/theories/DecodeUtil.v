(** src/decode.rs and the [DecodeUtil] impls of src/decode/inst_32.rs and inst_16.rs. *)
From Coq Require Import ZArith List Bool.
From Verif Require Import Rust Types.
Import ListNotations.
Local Open Scope Z_scope.

(** src/decode.rs:21-26.  Takes the already built opcode, as the Rust function. *)
Definition only_rv64 {T} (opcode : T) (isa : Isa) : outcome (result T DecodingError) :=
  match isa with
  | Rv32 => Ret (Err OnlyRv64Inst)
  | Rv64 => Ret (Ok opcode)
  end.

(** src/decode.rs:157-164.  [imm32 >> (bit_size - 1) & 0x1 == 1] parses in Rust as
    [((imm32 >> (bit_size - 1)) & 0x1) == 1].  [self] is unused in Rust and dropped. *)
Definition to_signed_nbit (p : platform) (imm32 bit_size : Z) : outcome Z :=
  let! pw := ck_i32 p (2 ^ bit_size) in
  let! mask := ck_i32 p (pw - 1) in
  let imm32 := Z.land imm32 mask in
  let! sh := ck_u 32 p (bit_size - 1) in
  let! top := shr 32 p imm32 sh in
  if Z.land top 1 =? 1 then
    let! pw' := ck_i32 p (2 ^ bit_size) in
    ck_i32 p (imm32 - pw')
  else Ret imm32.

(** ** u32 *)

(** src/decode/inst_32.rs:124-127 *)
Definition slice_u32 (p : platform) (self end_ start : Z) : outcome Z :=
  if end_ >=? start then
    let! a := shr 32 p self start in
    let! d := ck_u 32 p (end_ - start) in
    let! d1 := ck_u 32 p (d + 1) in
    let! pw := ck_u 32 p (2 ^ d1) in
    let! mask := ck_u 32 p (pw - 1) in
    Ret (Z.land a mask)
  else Panic PAssert.

(** Body of the loops at src/decode/inst_32.rs:176-178 and inst_16.rs:91-93, on the
    reversed mask; [i] is the enumeration index. In the u16 version [self] is first
    widened with [u32::from], so both are computed on u32. *)
Fixpoint set_loop (p : platform) (self i : Z) (ms : list Z) (inst : Z) : outcome Z :=
  match ms with
  | [] => Ret inst
  | m :: ms' =>
      let! a := shr 32 p self i in
      let! b := shl_u 32 p (Z.land a 1) m in
      set_loop p self (i + 1) ms' (Z.lor inst b)
  end.

(** src/decode/inst_32.rs:174-181 *)
Definition set_u32 (p : platform) (self : Z) (mask : list Z) : outcome Z :=
  set_loop p self 0 (rev mask) 0.

(** src/decode/inst_32.rs:129-172 *)
Definition parse_extension_u32 (p : platform) (self : Z)
  : outcome (result Extensions DecodingError) :=
  let! s1 := slice_u32 p self 6 0 in
  let! opmap := u8_try_from_unwrap s1 in
  let! s2 := slice_u32 p self 14 12 in
  let! funct3 := u8_try_from_unwrap s2 in
  let! s3 := slice_u32 p self 31 27 in
  let! funct5 := u8_try_from_unwrap s3 in
  let! s4 := slice_u32 p self 31 25 in
  let! funct7 := u8_try_from_unwrap s4 in
  let! s5 := slice_u32 p self 31 20 in
  let! csr := u16_try_from_unwrap s5 in
  match opmap with
  | 0x0f => (* 0b000_1111 *)
      match funct3 with
      | 0 => Ret (Ok EZifencei)
      | 2 => Ret (Ok EZicboz)
      | _ => Ret (Err UnknownExtension)
      end
  | 0x2f => (* 0b010_1111 *)
      match funct5 with
      | 0x00 | 0x01 | 0x02 | 0x03 | 0x04 | 0x08 | 0x0c | 0x10
      | 0x14 | 0x18 | 0x1c => Ret (Ok EA)
      | 0x09 => Ret (Ok EZicfiss)
      | _ => Ret (Err UnknownExtension)
      end
  | 0x33 => (* 0b011_0011 *)
      match funct7 with
      | 0x01 => Ret (Ok EM)
      | _ => Ret (Ok EBaseI)
      end
  | 0x3b => (* 0b011_1011 *)
      match funct7 with
      | 0x00 | 0x20 => Ret (Ok EBaseI)
      | 0x01 => Ret (Ok EM)
      | _ => Ret (Err UnknownExtension)
      end
  | 0x73 => (* 0b111_0011 *)
      match funct3 with
      | 0 =>
          match funct7 with
          | 0x00 => Ret (Ok EBaseI)
          | _ => Ret (Ok EPriv)
          end
      | 2 =>
          match csr with
          | 0xc00 | 0xc01 | 0xc02 | 0xc80 | 0xc81 | 0xc82 => Ret (Ok EZicntr)
          | _ => Ret (Ok EZicsr)
          end
      | 4 => Ret (Ok EZicfiss)
      | _ => Ret (Ok EZicsr)
      end
  | _ => Ret (Ok EBaseI)
  end.

(** ** u16 *)

(** src/decode/inst_16.rs:77-80.  [end - start + 1] is u32 arithmetic, the rest u16. *)
Definition slice_u16 (p : platform) (self end_ start : Z) : outcome Z :=
  if end_ >=? start then
    let! a := shr 16 p self start in
    let! d := ck_u 32 p (end_ - start) in
    let! d1 := ck_u 32 p (d + 1) in
    let! pw := ck_u 16 p (2 ^ d1) in
    let! mask := ck_u 16 p (pw - 1) in
    Ret (Z.land a mask)
  else Panic PAssert.

(** src/decode/inst_16.rs:89-96 *)
Definition set_u16 (p : platform) (self : Z) (mask : list Z) : outcome Z :=
  set_loop p self 0 (rev mask) 0.

(** src/decode/inst_16.rs:82-87: 0b0110_0000_1000_0001 and 0b0110_0010_1000_0001 *)
Definition parse_extension_u16 (self : Z) : outcome (result Extensions DecodingError) :=
  match self with
  | 0x6081 | 0x6281 => Ret (Ok EZicfiss)
  | _ => Ret (Ok EC)
  end.
