(** [Decode for u32] (src/decode/inst_32.rs), [Decode for u16] (src/decode/inst_16.rs) and
    [TryFrom<usize> for Instruction] (src/lib.rs). *)
From Coq Require Import ZArith List Bool.
From Verif Require Import Rust Types DecodeUtil Dec32 Dec16.
Local Open Scope Z_scope.

(** [Ok(f(..))] around a computation: the [Ok(..)] wrappers of parse_rd etc. *)
Definition ok_of {A E} (m : outcome A) : outcome (result A E) :=
  let! a := m in Ret (Ok a).

(** ** u32 *)

(** src/decode/inst_32.rs:30-60 *)
Definition parse_opcode_u32 (p : platform) (self : Z) (isa : Isa)
  : outcome (result OpcodeKind DecodingError) :=
  let! extension := parse_extension_u32 p self in
  match extension with
  | Ok EBaseI => let? o := basei_parse_opcode p self isa in Ret (Ok (OBaseI o))
  | Ok EM => let? o := m_parse_opcode p self isa in Ret (Ok (OM o))
  | Ok EA => let? o := a_parse_opcode p self isa in Ret (Ok (OA o))
  | Ok EZifencei => let? o := zifencei_parse_opcode p self in Ret (Ok (OZifencei o))
  | Ok EZicsr => let? o := zicsr_parse_opcode p self in Ret (Ok (OZicsr o))
  | Ok EZicfiss => let? o := zicfiss_parse_opcode p self in Ret (Ok (OZicfiss o))
  | Ok EZicntr => let? o := zicntr_parse_opcode p self in Ret (Ok (OZicntr o))
  | Ok EZicboz => let? o := zicboz_parse_opcode p self in Ret (Ok (OZicboz o))
  | Ok EPriv => let? o := priv_parse_opcode p self in Ret (Ok (OPriv o))
  | Ok EC => Ret (Err Not32BitInst)
  | Err decoding_err => Ret (Err decoding_err)
  end.

(** src/decode/inst_32.rs:62-75 *)
Definition parse_rd_u32 (p : platform) (self : Z) (opkind : OpcodeKind)
  : outcome (result (option Z) DecodingError) :=
  match opkind with
  | OBaseI o => ok_of (basei_parse_rd p self o)
  | OM o => ok_of (m_parse_rd p self o)
  | OA o => ok_of (a_parse_rd p self o)
  | OZifencei o => ok_of (zifencei_parse_rd p self o)
  | OZicsr o => ok_of (zicsr_parse_rd p self o)
  | OZicfiss o => ok_of (zicfiss_parse_rd p self o)
  | OZicntr o => ok_of (zicntr_parse_rd p self o)
  | OZicboz o => ok_of (zicboz_parse_rd p self o)
  | OPriv o => ok_of (priv_parse_rd p self o)
  | OC _ => Ret (Err Not32BitInst)
  end.

(** src/decode/inst_32.rs:77-90 *)
Definition parse_rs1_u32 (p : platform) (self : Z) (opkind : OpcodeKind)
  : outcome (result (option Z) DecodingError) :=
  match opkind with
  | OBaseI o => ok_of (basei_parse_rs1 p self o)
  | OM o => ok_of (m_parse_rs1 p self o)
  | OA o => ok_of (a_parse_rs1 p self o)
  | OZifencei o => ok_of (zifencei_parse_rs1 p self o)
  | OZicsr o => ok_of (zicsr_parse_rs1 p self o)
  | OZicfiss o => ok_of (zicfiss_parse_rs1 p self o)
  | OZicntr o => ok_of (zicntr_parse_rs1 p self o)
  | OZicboz o => ok_of (zicboz_parse_rs1 p self o)
  | OPriv o => ok_of (priv_parse_rs1 p self o)
  | OC _ => Ret (Err Not32BitInst)
  end.

(** src/decode/inst_32.rs:92-105 *)
Definition parse_rs2_u32 (p : platform) (self : Z) (opkind : OpcodeKind)
  : outcome (result (option Z) DecodingError) :=
  match opkind with
  | OBaseI o => ok_of (basei_parse_rs2 p self o)
  | OM o => ok_of (m_parse_rs2 p self o)
  | OA o => ok_of (a_parse_rs2 p self o)
  | OZifencei o => ok_of (zifencei_parse_rs2 p self o)
  | OZicsr o => ok_of (zicsr_parse_rs2 p self o)
  | OZicfiss o => ok_of (zicfiss_parse_rs2 p self o)
  | OZicntr o => ok_of (zicntr_parse_rs2 p self o)
  | OZicboz o => ok_of (zicboz_parse_rs2 p self o)
  | OPriv o => ok_of (priv_parse_rs2 p self o)
  | OC _ => Ret (Err Not32BitInst)
  end.

(** src/decode/inst_32.rs:107-120 *)
Definition parse_imm_u32 (p : platform) (self : Z) (opkind : OpcodeKind) (isa : Isa)
  : outcome (result (option Z) DecodingError) :=
  match opkind with
  | OBaseI o => ok_of (basei_parse_imm p self o isa)
  | OM o => ok_of (m_parse_imm p self o)
  | OA o => ok_of (a_parse_imm p self o)
  | OZifencei o => ok_of (zifencei_parse_imm p self o)
  | OZicsr o => ok_of (zicsr_parse_imm p self o)
  | OZicfiss o => ok_of (zicfiss_parse_imm p self o)
  | OZicntr o => ok_of (zicntr_parse_imm p self o)
  | OZicboz o => ok_of (zicboz_parse_imm p self o)
  | OPriv o => ok_of (priv_parse_imm p self o)
  | OC _ => Ret (Err Not32BitInst)
  end.

(** src/decode/inst_32.rs:11-28 *)
Definition decode_u32 (p : platform) (self : Z) (isa : Isa)
  : outcome (result Instruction DecodingError) :=
  let? new_opc := parse_opcode_u32 p self isa in
  let? new_rd := parse_rd_u32 p self new_opc in
  let? new_rs1 := parse_rs1_u32 p self new_opc in
  let? new_rs2 := parse_rs2_u32 p self new_opc in
  let? new_imm := parse_imm_u32 p self new_opc isa in
  let new_fmt := get_format new_opc in
  Ret (Ok {| opc := new_opc; rd := new_rd; rs1 := new_rs1; rs2 := new_rs2;
             imm := new_imm; inst_format := new_fmt; is_compressed := false |}).

(** ** u16 *)

(** src/decode/inst_16.rs:31-41 *)
Definition parse_opcode_u16 (p : platform) (self : Z) (isa : Isa)
  : outcome (result OpcodeKind DecodingError) :=
  let! extension := parse_extension_u16 self in
  match extension with
  | Ok EC => let? o := c_parse_opcode p self isa in Ret (Ok (OC o))
  | Ok EZicfiss => let? o := zicfiss16_parse_opcode self isa in Ret (Ok (OZicfiss o))
  | _ => Ret (Err Not16BitInst)
  end.

(** src/decode/inst_16.rs:43-49 *)
Definition parse_rd_u16 (p : platform) (self : Z) (opkind : OpcodeKind)
  : outcome (result (option Z) DecodingError) :=
  match opkind with
  | OC o => ok_of (c_parse_rd p self o)
  | OZicfiss o => ok_of (zicfiss16_parse_rd self o)
  | _ => Ret (Err Not16BitInst)
  end.

(** src/decode/inst_16.rs:51-57 *)
Definition parse_rs1_u16 (p : platform) (self : Z) (opkind : OpcodeKind)
  : outcome (result (option Z) DecodingError) :=
  match opkind with
  | OC o => ok_of (c_parse_rs1 p self o)
  | OZicfiss o => ok_of (zicfiss16_parse_rs1 self o)
  | _ => Ret (Err Not16BitInst)
  end.

(** src/decode/inst_16.rs:59-65 *)
Definition parse_rs2_u16 (p : platform) (self : Z) (opkind : OpcodeKind)
  : outcome (result (option Z) DecodingError) :=
  match opkind with
  | OC o => ok_of (c_parse_rs2 p self o)
  | OZicfiss o => ok_of (zicfiss16_parse_rs2 self o)
  | _ => Ret (Err Not16BitInst)
  end.

(** src/decode/inst_16.rs:67-73 *)
Definition parse_imm_u16 (p : platform) (self : Z) (opkind : OpcodeKind) (isa : Isa)
  : outcome (result (option Z) DecodingError) :=
  match opkind with
  | OC o => ok_of (c_parse_imm p self o)
  | OZicfiss o => ok_of (zicfiss16_parse_imm self o)
  | _ => Ret (Err Not16BitInst)
  end.

(** src/decode/inst_16.rs:8-29 *)
Definition decode_u16 (p : platform) (self : Z) (isa : Isa)
  : outcome (result Instruction DecodingError) :=
  if self =? 0 then Ret (Err IllegalInstruction)
  else
    let? new_opc := parse_opcode_u16 p self isa in
    let? new_rd := parse_rd_u16 p self new_opc in
    let? new_rs1 := parse_rs1_u16 p self new_opc in
    let? new_rs2 := parse_rs2_u16 p self new_opc in
    let? new_imm := parse_imm_u16 p self new_opc isa in
    let new_fmt := get_format new_opc in
    Ret (Ok {| opc := new_opc; rd := new_rd; rs1 := new_rs1; rs2 := new_rs2;
               imm := new_imm; inst_format := new_fmt; is_compressed := true |}).

(** ** usize *)

(** [uN::try_from(x).expect(..)] from an unsigned value. *)
Definition try_from_expect (bits x : Z) : outcome Z :=
  if x <? 2 ^ bits then Ret x else Panic PExpect.

(** src/lib.rs:77-87 *)
Definition try_from_usize (p : platform) (inst : Z)
  : outcome (result Instruction DecodingError) :=
  if Z.land inst 3 =? 3 then
    let! w := try_from_expect 32 inst in decode_u32 p w Rv64
  else
    let! h := try_from_expect 16 inst in decode_u16 p h Rv64.
