(** Which function of the model stands for which function of the source. *)
From Coq Require Import ZArith List Bool String.
From Verif Require Import Rust Types DecodeUtil Dec32 Dec16 Decode Fmt SrcSem SrcEmbed.
Import ListNotations.
Local Open Scope string_scope.

(** [models p key vs o a]: in the model, the function of the source with the key [key], called with
    the arguments [vs] after the text [o] has been written, comes to [a]. *)
Inductive models (p : platform) : string -> list value -> string -> ans -> Prop :=
| m_slice32 w a b o :
    models p "u32.slice" [VInt U32 w; VInt U32 a; VInt U32 b] o
      (gives (VInt U32) o (slice_u32 p w a b))
| m_slice16 w a b o :
    models p "u16.slice" [VInt U16 w; VInt U32 a; VInt U32 b] o
      (gives (VInt U16) o (slice_u16 p w a b))
| m_signed32 w v b o :
    models p "u32.to_signed_nbit" [VInt U32 w; VInt I32 v; VInt U32 b] o
      (gives (VInt I32) o (to_signed_nbit p v b))
| m_signed16 w v b o :
    models p "u16.to_signed_nbit" [VInt U16 w; VInt I32 v; VInt U32 b] o
      (gives (VInt I32) o (to_signed_nbit p v b))
| m_set32 w ms o :
    models p "u32.set" [VInt U32 w; VList (map (VInt U32) ms)] o
      (gives (VInt U32) o (set_u32 p w ms))
| m_set16 w ms o :
    models p "u16.set" [VInt U16 w; VList (map (VInt U32) ms)] o
      (gives (VInt U32) o (set_u16 p w ms))
| m_only_rv64 v isa o :
    models p "decode::only_rv64" [v; of_isa isa] o
      (gives (of_result (fun x => x)) o (only_rv64 v isa))
| m_basei_opcode w isa o :
    models p "decode::base_i::bit_32::parse_opcode" [VInt U32 w; of_isa isa] o
      (gives (of_result of_basei) o (basei_parse_opcode p w isa))
| m_basei_rd w op o :
    models p "decode::base_i::bit_32::parse_rd" [VInt U32 w; of_basei op] o
      (gives (of_option (VInt Usize)) o (basei_parse_rd p w op))
| m_basei_rs1 w op o :
    models p "decode::base_i::bit_32::parse_rs1" [VInt U32 w; of_basei op] o
      (gives (of_option (VInt Usize)) o (basei_parse_rs1 p w op))
| m_basei_rs2 w op o :
    models p "decode::base_i::bit_32::parse_rs2" [VInt U32 w; of_basei op] o
      (gives (of_option (VInt Usize)) o (basei_parse_rs2 p w op))
| m_basei_imm w op isa o :
    models p "decode::base_i::bit_32::parse_imm" [VInt U32 w; of_basei op; of_isa isa] o
      (gives (of_option (VInt I32)) o (basei_parse_imm p w op isa))
| m_m_opcode w isa o :
    models p "decode::m_extension::bit_32::parse_opcode" [VInt U32 w; of_isa isa] o
      (gives (of_result of_m) o (m_parse_opcode p w isa))
| m_m_rd w op o :
    models p "decode::m_extension::bit_32::parse_rd" [VInt U32 w; of_m op] o
      (gives (of_option (VInt Usize)) o (m_parse_rd p w op))
| m_m_rs1 w op o :
    models p "decode::m_extension::bit_32::parse_rs1" [VInt U32 w; of_m op] o
      (gives (of_option (VInt Usize)) o (m_parse_rs1 p w op))
| m_m_rs2 w op o :
    models p "decode::m_extension::bit_32::parse_rs2" [VInt U32 w; of_m op] o
      (gives (of_option (VInt Usize)) o (m_parse_rs2 p w op))
| m_m_imm w op o :
    models p "decode::m_extension::bit_32::parse_imm" [VInt U32 w; of_m op] o
      (gives (of_option (VInt I32)) o (m_parse_imm p w op))
| m_a_opcode w isa o :
    models p "decode::a_extension::bit_32::parse_opcode" [VInt U32 w; of_isa isa] o
      (gives (of_result of_a) o (a_parse_opcode p w isa))
| m_a_rd w op o :
    models p "decode::a_extension::bit_32::parse_rd" [VInt U32 w; of_a op] o
      (gives (of_option (VInt Usize)) o (a_parse_rd p w op))
| m_a_rs1 w op o :
    models p "decode::a_extension::bit_32::parse_rs1" [VInt U32 w; of_a op] o
      (gives (of_option (VInt Usize)) o (a_parse_rs1 p w op))
| m_a_rs2 w op o :
    models p "decode::a_extension::bit_32::parse_rs2" [VInt U32 w; of_a op] o
      (gives (of_option (VInt Usize)) o (a_parse_rs2 p w op))
| m_a_imm w op o :
    models p "decode::a_extension::bit_32::parse_imm" [VInt U32 w; of_a op] o
      (gives (of_option (VInt I32)) o (a_parse_imm p w op))
| m_zicsr_opcode w o :
    models p "decode::zicsr_extension::bit_32::parse_opcode" [VInt U32 w] o
      (gives (of_result of_zicsr) o (zicsr_parse_opcode p w))
| m_zicsr_rd w op o :
    models p "decode::zicsr_extension::bit_32::parse_rd" [VInt U32 w; of_zicsr op] o
      (gives (of_option (VInt Usize)) o (zicsr_parse_rd p w op))
| m_zicsr_rs1 w op o :
    models p "decode::zicsr_extension::bit_32::parse_rs1" [VInt U32 w; of_zicsr op] o
      (gives (of_option (VInt Usize)) o (zicsr_parse_rs1 p w op))
| m_zicsr_rs2 w op o :
    models p "decode::zicsr_extension::bit_32::parse_rs2" [VInt U32 w; of_zicsr op] o
      (gives (of_option (VInt Usize)) o (zicsr_parse_rs2 p w op))
| m_zicsr_imm w op o :
    models p "decode::zicsr_extension::bit_32::parse_imm" [VInt U32 w; of_zicsr op] o
      (gives (of_option (VInt I32)) o (zicsr_parse_imm p w op))
| m_zifencei_opcode w o :
    models p "decode::zifencei_extension::bit_32::parse_opcode" [VInt U32 w] o
      (gives (of_result of_zifencei) o (zifencei_parse_opcode p w))
| m_zifencei_rd w op o :
    models p "decode::zifencei_extension::bit_32::parse_rd" [VInt U32 w; of_zifencei op] o
      (gives (of_option (VInt Usize)) o (zifencei_parse_rd p w op))
| m_zifencei_rs1 w op o :
    models p "decode::zifencei_extension::bit_32::parse_rs1" [VInt U32 w; of_zifencei op] o
      (gives (of_option (VInt Usize)) o (zifencei_parse_rs1 p w op))
| m_zifencei_rs2 w op o :
    models p "decode::zifencei_extension::bit_32::parse_rs2" [VInt U32 w; of_zifencei op] o
      (gives (of_option (VInt Usize)) o (zifencei_parse_rs2 p w op))
| m_zifencei_imm w op o :
    models p "decode::zifencei_extension::bit_32::parse_imm" [VInt U32 w; of_zifencei op] o
      (gives (of_option (VInt I32)) o (zifencei_parse_imm p w op))
| m_zicfiss_opcode w o :
    models p "decode::zicfiss_extension::bit_32::parse_opcode" [VInt U32 w] o
      (gives (of_result of_zicfiss) o (zicfiss_parse_opcode p w))
| m_zicfiss_rd w op o :
    models p "decode::zicfiss_extension::bit_32::parse_rd" [VInt U32 w; of_zicfiss op] o
      (gives (of_option (VInt Usize)) o (zicfiss_parse_rd p w op))
| m_zicfiss_rs1 w op o :
    models p "decode::zicfiss_extension::bit_32::parse_rs1" [VInt U32 w; of_zicfiss op] o
      (gives (of_option (VInt Usize)) o (zicfiss_parse_rs1 p w op))
| m_zicfiss_rs2 w op o :
    models p "decode::zicfiss_extension::bit_32::parse_rs2" [VInt U32 w; of_zicfiss op] o
      (gives (of_option (VInt Usize)) o (zicfiss_parse_rs2 p w op))
| m_zicfiss_imm w op o :
    models p "decode::zicfiss_extension::bit_32::parse_imm" [VInt U32 w; of_zicfiss op] o
      (gives (of_option (VInt I32)) o (zicfiss_parse_imm p w op))
| m_zicboz_opcode w o :
    models p "decode::zicboz_extension::bit_32::parse_opcode" [VInt U32 w] o
      (gives (of_result of_zicboz) o (zicboz_parse_opcode p w))
| m_zicboz_rd w op o :
    models p "decode::zicboz_extension::bit_32::parse_rd" [VInt U32 w; of_zicboz op] o
      (gives (of_option (VInt Usize)) o (zicboz_parse_rd p w op))
| m_zicboz_rs1 w op o :
    models p "decode::zicboz_extension::bit_32::parse_rs1" [VInt U32 w; of_zicboz op] o
      (gives (of_option (VInt Usize)) o (zicboz_parse_rs1 p w op))
| m_zicboz_rs2 w op o :
    models p "decode::zicboz_extension::bit_32::parse_rs2" [VInt U32 w; of_zicboz op] o
      (gives (of_option (VInt Usize)) o (zicboz_parse_rs2 p w op))
| m_zicboz_imm w op o :
    models p "decode::zicboz_extension::bit_32::parse_imm" [VInt U32 w; of_zicboz op] o
      (gives (of_option (VInt I32)) o (zicboz_parse_imm p w op))
| m_zicntr_opcode w o :
    models p "decode::zicntr_extension::bit_32::parse_opcode" [VInt U32 w] o
      (gives (of_result of_zicntr) o (zicntr_parse_opcode p w))
| m_zicntr_rd w op o :
    models p "decode::zicntr_extension::bit_32::parse_rd" [VInt U32 w; of_zicntr op] o
      (gives (of_option (VInt Usize)) o (zicntr_parse_rd p w op))
| m_zicntr_rs1 w op o :
    models p "decode::zicntr_extension::bit_32::parse_rs1" [VInt U32 w; of_zicntr op] o
      (gives (of_option (VInt Usize)) o (zicntr_parse_rs1 p w op))
| m_zicntr_rs2 w op o :
    models p "decode::zicntr_extension::bit_32::parse_rs2" [VInt U32 w; of_zicntr op] o
      (gives (of_option (VInt Usize)) o (zicntr_parse_rs2 p w op))
| m_zicntr_imm w op o :
    models p "decode::zicntr_extension::bit_32::parse_imm" [VInt U32 w; of_zicntr op] o
      (gives (of_option (VInt I32)) o (zicntr_parse_imm p w op))
| m_priv_opcode w o :
    models p "decode::priv_extension::bit_32::parse_opcode" [VInt U32 w] o
      (gives (of_result of_priv) o (priv_parse_opcode p w))
| m_priv_rd w op o :
    models p "decode::priv_extension::bit_32::parse_rd" [VInt U32 w; of_priv op] o
      (gives (of_option (VInt Usize)) o (priv_parse_rd p w op))
| m_priv_rs1 w op o :
    models p "decode::priv_extension::bit_32::parse_rs1" [VInt U32 w; of_priv op] o
      (gives (of_option (VInt Usize)) o (priv_parse_rs1 p w op))
| m_priv_rs2 w op o :
    models p "decode::priv_extension::bit_32::parse_rs2" [VInt U32 w; of_priv op] o
      (gives (of_option (VInt Usize)) o (priv_parse_rs2 p w op))
| m_priv_imm w op o :
    models p "decode::priv_extension::bit_32::parse_imm" [VInt U32 w; of_priv op] o
      (gives (of_option (VInt I32)) o (priv_parse_imm p w op))
| m_quadrant0 w m isa o :
    models p "decode::c_extension::bit_16::quadrant0" [VInt U16 w; VInt U8 m; of_isa isa] o
      (gives (of_result of_c) o (quadrant0 w m isa))
| m_quadrant1 w m isa o :
    models p "decode::c_extension::bit_16::quadrant1" [VInt U16 w; VInt U8 m; of_isa isa] o
      (gives (of_result of_c) o (quadrant1 p w m isa))
| m_quadrant2 w m isa o :
    models p "decode::c_extension::bit_16::quadrant2" [VInt U16 w; VInt U8 m; of_isa isa] o
      (gives (of_result of_c) o (quadrant2 p w m isa))
| m_c_opcode w isa o :
    models p "decode::c_extension::bit_16::parse_opcode" [VInt U16 w; of_isa isa] o
      (gives (of_result of_c) o (c_parse_opcode p w isa))
| m_c_rd w op o :
    models p "decode::c_extension::bit_16::parse_rd" [VInt U16 w; of_c op] o
      (gives (of_option (VInt Usize)) o (c_parse_rd p w op))
| m_c_rs1 w op o :
    models p "decode::c_extension::bit_16::parse_rs1" [VInt U16 w; of_c op] o
      (gives (of_option (VInt Usize)) o (c_parse_rs1 p w op))
| m_c_rs2 w op o :
    models p "decode::c_extension::bit_16::parse_rs2" [VInt U16 w; of_c op] o
      (gives (of_option (VInt Usize)) o (c_parse_rs2 p w op))
| m_c_imm w op o :
    models p "decode::c_extension::bit_16::parse_imm" [VInt U16 w; of_c op] o
      (gives (of_option (VInt I32)) o (c_parse_imm p w op))
| m_zicfiss16_opcode w isa o :
    models p "decode::zicfiss_extension::bit_16::parse_opcode" [VInt U16 w; of_isa isa] o
      (gives (of_result of_zicfiss) o (zicfiss16_parse_opcode w isa))
| m_zicfiss16_rd w op o :
    models p "decode::zicfiss_extension::bit_16::parse_rd" [VInt U16 w; of_zicfiss op] o
      (gives (of_option (VInt Usize)) o (zicfiss16_parse_rd w op))
| m_zicfiss16_rs1 w op o :
    models p "decode::zicfiss_extension::bit_16::parse_rs1" [VInt U16 w; of_zicfiss op] o
      (gives (of_option (VInt Usize)) o (zicfiss16_parse_rs1 w op))
| m_zicfiss16_rs2 w op o :
    models p "decode::zicfiss_extension::bit_16::parse_rs2" [VInt U16 w; of_zicfiss op] o
      (gives (of_option (VInt Usize)) o (zicfiss16_parse_rs2 w op))
| m_zicfiss16_imm w op o :
    models p "decode::zicfiss_extension::bit_16::parse_imm" [VInt U16 w; of_zicfiss op] o
      (gives (of_option (VInt I32)) o (zicfiss16_parse_imm w op))
| m_extension32 w o :
    models p "u32.parse_extension" [VInt U32 w] o
      (gives (of_result of_ext) o (parse_extension_u32 p w))
| m_extension16 w o :
    models p "u16.parse_extension" [VInt U16 w] o
      (gives (of_result of_ext) o (parse_extension_u16 w))
| m_opcode32 w isa o :
    models p "u32.parse_opcode" [VInt U32 w; of_isa isa] o
      (gives (of_result of_op) o (parse_opcode_u32 p w isa))
| m_opcode16 w isa o :
    models p "u16.parse_opcode" [VInt U16 w; of_isa isa] o
      (gives (of_result of_op) o (parse_opcode_u16 p w isa))
| m_rd32 w op o :
    models p "u32.parse_rd" [VInt U32 w; of_op op] o
      (gives (of_result (of_option (VInt Usize))) o (parse_rd_u32 p w op))
| m_rs132 w op o :
    models p "u32.parse_rs1" [VInt U32 w; of_op op] o
      (gives (of_result (of_option (VInt Usize))) o (parse_rs1_u32 p w op))
| m_rs232 w op o :
    models p "u32.parse_rs2" [VInt U32 w; of_op op] o
      (gives (of_result (of_option (VInt Usize))) o (parse_rs2_u32 p w op))
| m_imm32 w op isa o :
    models p "u32.parse_imm" [VInt U32 w; of_op op; of_isa isa] o
      (gives (of_result (of_option (VInt I32))) o (parse_imm_u32 p w op isa))
| m_rd16 w op o :
    models p "u16.parse_rd" [VInt U16 w; of_op op] o
      (gives (of_result (of_option (VInt Usize))) o (parse_rd_u16 p w op))
| m_rs116 w op o :
    models p "u16.parse_rs1" [VInt U16 w; of_op op] o
      (gives (of_result (of_option (VInt Usize))) o (parse_rs1_u16 p w op))
| m_rs216 w op o :
    models p "u16.parse_rs2" [VInt U16 w; of_op op] o
      (gives (of_result (of_option (VInt Usize))) o (parse_rs2_u16 p w op))
| m_imm16 w op isa o :
    models p "u16.parse_imm" [VInt U16 w; of_op op; of_isa isa] o
      (gives (of_result (of_option (VInt I32))) o (parse_imm_u16 p w op isa))
| m_format op o :
    models p "OpcodeKind.get_format" [of_op op] o
      (gives of_fmt o (Ret (get_format op)))
| m_decode32 w isa o :
    models p "u32.decode" [VInt U32 w; of_isa isa] o
      (gives (of_result of_inst) o (decode_u32 p w isa))
| m_decode16 w isa o :
    models p "u16.decode" [VInt U16 w; of_isa isa] o
      (gives (of_result of_inst) o (decode_u16 p w isa))
| m_try_from w o :
    models p "Instruction.try_from" [VInt Usize w] o
      (gives (of_result of_inst) o (try_from_usize p w))
| m_op_fmt op o :
    models p "OpcodeKind.fmt" [of_op op; VFmt] o
      (writes o (Ret (OpcodeKind_display op)))
| m_reg2str r o :
    models p "instruction::reg2str" [VInt Usize r] o
      (gives VStr o (reg2str r))
| m_fmt i o :
    models p "Instruction.fmt" [of_inst i; VFmt] o
      (writes o (Instruction_display i))
| m_basei_format b o :
    models p "BaseIOpcode.get_format" [of_basei b] o (gives of_fmt o (Ret (BaseIOpcode_format b)))
| m_basei_fmt b o :
    models p "BaseIOpcode.fmt" [of_basei b; VFmt] o (writes o (Ret (BaseIOpcode_display b)))
| m_m_format b o :
    models p "MOpcode.get_format" [of_m b] o (gives of_fmt o (Ret (MOpcode_format b)))
| m_m_fmt b o :
    models p "MOpcode.fmt" [of_m b; VFmt] o (writes o (Ret (MOpcode_display b)))
| m_a_format b o :
    models p "AOpcode.get_format" [of_a b] o (gives of_fmt o (Ret (AOpcode_format b)))
| m_a_fmt b o :
    models p "AOpcode.fmt" [of_a b; VFmt] o (writes o (Ret (AOpcode_display b)))
| m_c_format b o :
    models p "COpcode.get_format" [of_c b] o (gives of_fmt o (Ret (COpcode_format b)))
| m_c_fmt b o :
    models p "COpcode.fmt" [of_c b; VFmt] o (writes o (Ret (COpcode_display b)))
| m_zifencei_format b o :
    models p "ZifenceiOpcode.get_format" [of_zifencei b] o (gives of_fmt o (Ret (ZifenceiOpcode_format b)))
| m_zifencei_fmt b o :
    models p "ZifenceiOpcode.fmt" [of_zifencei b; VFmt] o (writes o (Ret (ZifenceiOpcode_display b)))
| m_zicboz_format b o :
    models p "ZicbozOpcode.get_format" [of_zicboz b] o (gives of_fmt o (Ret (ZicbozOpcode_format b)))
| m_zicboz_fmt b o :
    models p "ZicbozOpcode.fmt" [of_zicboz b; VFmt] o (writes o (Ret (ZicbozOpcode_display b)))
| m_zicsr_format b o :
    models p "ZicsrOpcode.get_format" [of_zicsr b] o (gives of_fmt o (Ret (ZicsrOpcode_format b)))
| m_zicsr_fmt b o :
    models p "ZicsrOpcode.fmt" [of_zicsr b; VFmt] o (writes o (Ret (ZicsrOpcode_display b)))
| m_zicfiss_format b o :
    models p "ZicfissOpcode.get_format" [of_zicfiss b] o (gives of_fmt o (Ret (ZicfissOpcode_format b)))
| m_zicfiss_fmt b o :
    models p "ZicfissOpcode.fmt" [of_zicfiss b; VFmt] o (writes o (Ret (ZicfissOpcode_display b)))
| m_zicntr_format b o :
    models p "ZicntrOpcode.get_format" [of_zicntr b] o (gives of_fmt o (Ret (ZicntrOpcode_format b)))
| m_zicntr_fmt b o :
    models p "ZicntrOpcode.fmt" [of_zicntr b; VFmt] o (writes o (Ret (ZicntrOpcode_display b)))
| m_priv_format b o :
    models p "PrivOpcode.get_format" [of_priv b] o (gives of_fmt o (Ret (PrivOpcode_format b)))
| m_priv_fmt b o :
    models p "PrivOpcode.fmt" [of_priv b; VFmt] o (writes o (Ret (PrivOpcode_display b))).
