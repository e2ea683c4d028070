(** What another crate can call, and the branches of the text that no such call comes to.  See SpecReach.v. *)
From Coq Require Import ZArith List Bool String.
From Verif Require Import Rust SrcSem SpecReach.
Import ListNotations.
Local Open Scope string_scope.

(** The functions of /repo/src that another crate can call: the trait [Decode] (lib.rs line 33, decode.rs lines
    82 to 118) for [u16] and [u32], [try_from] (lib.rs lines 75 to 88), [Display] of [Instruction] and of the
    opcodes (lib.rs lines 34 to 39), [OpcodeKind::get_format] (instruction.rs line 482).  The traits [DecodeUtil] and
    [Opcode] are private, and so are the modules of the extensions. *)
Definition public : list string :=
  [ "u16.decode"; "u16.parse_opcode"; "u16.parse_rd"; "u16.parse_rs1"; "u16.parse_rs2"; "u16.parse_imm";
    "u32.decode"; "u32.parse_opcode"; "u32.parse_rd"; "u32.parse_rs1"; "u32.parse_rs2"; "u32.parse_imm";
    "Instruction.try_from"; "Instruction.fmt"; "OpcodeKind.fmt"; "OpcodeKind.get_format";
    "AOpcode.fmt"; "BaseIOpcode.fmt"; "COpcode.fmt"; "MOpcode.fmt"; "PrivOpcode.fmt"; "ZicbozOpcode.fmt";
    "ZicfissOpcode.fmt"; "ZicntrOpcode.fmt"; "ZicsrOpcode.fmt"; "ZifenceiOpcode.fmt" ].

(** The branches that no call of them comes to, whatever its arguments. *)
Local Open Scope nat_scope.
Definition dead : list branch :=
  [ (* u16::parse_opcode: an extension without 16-bit instructions; u32::parse_opcode: the extension C *)
    ("u16.parse_opcode", 3); ("u32.parse_opcode", 10);
    (* words that [parse_extension] gives to another extension, or to none *)
    ("decode::a_extension::bit_32::parse_opcode", 14); ("decode::a_extension::bit_32::parse_opcode", 27);
    ("decode::a_extension::bit_32::parse_opcode", 29);
    ("decode::base_i::bit_32::parse_opcode", 74); ("decode::base_i::bit_32::parse_opcode", 75);
    ("decode::base_i::bit_32::parse_opcode", 88); ("decode::base_i::bit_32::parse_opcode", 93);
    ("decode::m_extension::bit_32::parse_opcode", 18);
    ("decode::zicboz_extension::bit_32::parse_opcode", 7); ("decode::zicboz_extension::bit_32::parse_opcode", 8);
    ("decode::zicfiss_extension::bit_32::parse_opcode", 8); ("decode::zicfiss_extension::bit_32::parse_opcode", 13);
    ("decode::zicfiss_extension::bit_16::parse_opcode", 3);
    ("decode::zicntr_extension::bit_32::parse_opcode", 9); ("decode::zicntr_extension::bit_32::parse_opcode", 10);
    ("decode::zicntr_extension::bit_32::parse_opcode", 11);
    ("decode::zicsr_extension::bit_32::parse_opcode", 8); ("decode::zicsr_extension::bit_32::parse_opcode", 9);
    ("decode::zifencei_extension::bit_32::parse_opcode", 2);
    (* a field of 1, 2 or 3 bits with all its values named before *)
    ("decode::base_i::bit_32::parse_opcode", 51); ("decode::base_i::bit_32::parse_opcode", 67);
    ("decode::m_extension::bit_32::parse_opcode", 10);
    ("decode::c_extension::bit_16::quadrant1", 21); ("decode::c_extension::bit_16::quadrant1", 26);
    ("decode::c_extension::bit_16::quadrant1", 27); ("decode::c_extension::bit_16::quadrant1", 31);
    ("decode::c_extension::bit_16::quadrant2", 13) ].
