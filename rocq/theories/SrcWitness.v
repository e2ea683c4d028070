(** For each branch that is reached, a call that reaches it (checked in SrcReached.v).
    The branches are in the order in which [SpecReach.branches] gives them. *)
From Coq Require Import ZArith List String.
From Verif Require Import SpecReach.
Import ListNotations.
Local Open Scope Z_scope.
Local Open Scope string_scope.

(** What reaches the branch: the call that decodes, the writing of the instruction it gives, or of its opcode. *)
Inductive what := Decoding | Writing | Naming.

(** [By32 t w rv64]: [u32::decode] of [w] for RV64 or RV32; [By16]: [u16::decode]; [BySize x]: [try_from(x)]. *)
Inductive witness :=
| By32 (t : what) (w : Z) (rv64 : bool)
| By16 (t : what) (w : Z) (rv64 : bool)
| BySize (x : Z).

Definition witnesses : list (branch * witness) := [
  ("Instruction.try_from", 0%nat, BySize 0x00000013);
  ("Instruction.try_from", 1%nat, BySize 0x00000013);
  ("Instruction.try_from", 2%nat, BySize 0x4501);
  ("decode::only_rv64", 0%nat, By32 Decoding 0x0008829b true);
  ("decode::only_rv64", 1%nat, By32 Decoding 0x0008829b false);
  ("decode::only_rv64", 2%nat, By32 Decoding 0x0008829b true);
  ("u16.decode", 0%nat, By16 Decoding 0x0000 true);
  ("u16.decode", 1%nat, By16 Decoding 0x0000 true);
  ("u16.parse_opcode", 0%nat, By16 Decoding 0x0001 true);
  ("u16.parse_opcode", 1%nat, By16 Decoding 0x0001 true);
  ("u16.parse_opcode", 2%nat, By16 Decoding 0x6081 true);
  ("u16.parse_rd", 0%nat, By16 Decoding 0x0001 true);
  ("u16.parse_rd", 1%nat, By16 Decoding 0x0001 true);
  ("u16.parse_rd", 2%nat, By16 Decoding 0x6081 true);
  ("u16.parse_rs1", 0%nat, By16 Decoding 0x0001 true);
  ("u16.parse_rs1", 1%nat, By16 Decoding 0x0001 true);
  ("u16.parse_rs1", 2%nat, By16 Decoding 0x6081 true);
  ("u16.parse_rs2", 0%nat, By16 Decoding 0x0001 true);
  ("u16.parse_rs2", 1%nat, By16 Decoding 0x0001 true);
  ("u16.parse_rs2", 2%nat, By16 Decoding 0x6081 true);
  ("u16.parse_imm", 0%nat, By16 Decoding 0x0001 true);
  ("u16.parse_imm", 1%nat, By16 Decoding 0x0001 true);
  ("u16.parse_imm", 2%nat, By16 Decoding 0x6081 true);
  ("u16.slice", 0%nat, By16 Decoding 0x0001 true);
  ("u16.parse_extension", 0%nat, By16 Decoding 0x0001 true);
  ("u16.parse_extension", 1%nat, By16 Decoding 0x6081 true);
  ("u16.parse_extension", 2%nat, By16 Decoding 0x0001 true);
  ("u16.set", 0%nat, By16 Decoding 0x0001 true);
  ("u16.set", 1%nat, By16 Decoding 0x0001 true);
  ("u16.to_signed_nbit", 0%nat, By16 Decoding 0x0001 true);
  ("u16.to_signed_nbit", 1%nat, By16 Decoding 0x1001 true);
  ("u16.to_signed_nbit", 2%nat, By16 Decoding 0x0001 true);
  ("u32.decode", 0%nat, By32 Decoding 0x00000033 true);
  ("u32.parse_opcode", 0%nat, By32 Decoding 0x00000033 true);
  ("u32.parse_opcode", 1%nat, By32 Decoding 0x00000033 true);
  ("u32.parse_opcode", 2%nat, By32 Decoding 0x02006033 true);
  ("u32.parse_opcode", 3%nat, By32 Decoding 0x0002d12f true);
  ("u32.parse_opcode", 4%nat, By32 Decoding 0x0050828f true);
  ("u32.parse_opcode", 5%nat, By32 Decoding 0x00001073 true);
  ("u32.parse_opcode", 6%nat, By32 Decoding 0x00004073 true);
  ("u32.parse_opcode", 7%nat, By32 Decoding 0xc0002073 true);
  ("u32.parse_opcode", 8%nat, By32 Decoding 0x0000200f true);
  ("u32.parse_opcode", 9%nat, By32 Decoding 0x024082f3 true);
  ("u32.parse_opcode", 11%nat, By32 Decoding 0x0000478f true);
  ("u32.parse_rd", 0%nat, By32 Decoding 0x00000033 true);
  ("u32.parse_rd", 1%nat, By32 Decoding 0x00000033 true);
  ("u32.parse_rd", 2%nat, By32 Decoding 0x02006033 true);
  ("u32.parse_rd", 3%nat, By32 Decoding 0x0012b2af true);
  ("u32.parse_rd", 4%nat, By32 Decoding 0x0050828f true);
  ("u32.parse_rd", 5%nat, By32 Decoding 0x00001073 true);
  ("u32.parse_rd", 6%nat, By32 Decoding 0x484ab0af true);
  ("u32.parse_rd", 7%nat, By32 Decoding 0xc0002073 true);
  ("u32.parse_rd", 8%nat, By32 Decoding 0x0040200f true);
  ("u32.parse_rd", 9%nat, By32 Decoding 0x10200073 true);
  ("u32.parse_rs1", 0%nat, By32 Decoding 0x00000033 true);
  ("u32.parse_rs1", 1%nat, By32 Decoding 0x00000033 true);
  ("u32.parse_rs1", 2%nat, By32 Decoding 0x02006033 true);
  ("u32.parse_rs1", 3%nat, By32 Decoding 0x0012b2af true);
  ("u32.parse_rs1", 4%nat, By32 Decoding 0x0050828f true);
  ("u32.parse_rs1", 5%nat, By32 Decoding 0x00001073 true);
  ("u32.parse_rs1", 6%nat, By32 Decoding 0x484ab0af true);
  ("u32.parse_rs1", 7%nat, By32 Decoding 0xc0002073 true);
  ("u32.parse_rs1", 8%nat, By32 Decoding 0x0040200f true);
  ("u32.parse_rs1", 9%nat, By32 Decoding 0x10200073 true);
  ("u32.parse_rs2", 0%nat, By32 Decoding 0x00000033 true);
  ("u32.parse_rs2", 1%nat, By32 Decoding 0x00000033 true);
  ("u32.parse_rs2", 2%nat, By32 Decoding 0x02006033 true);
  ("u32.parse_rs2", 3%nat, By32 Decoding 0x0012b2af true);
  ("u32.parse_rs2", 4%nat, By32 Decoding 0x0050828f true);
  ("u32.parse_rs2", 5%nat, By32 Decoding 0x00001073 true);
  ("u32.parse_rs2", 6%nat, By32 Decoding 0x484ab0af true);
  ("u32.parse_rs2", 7%nat, By32 Decoding 0xc0002073 true);
  ("u32.parse_rs2", 8%nat, By32 Decoding 0x0040200f true);
  ("u32.parse_rs2", 9%nat, By32 Decoding 0x10200073 true);
  ("u32.parse_imm", 0%nat, By32 Decoding 0x00000033 true);
  ("u32.parse_imm", 1%nat, By32 Decoding 0x00000033 true);
  ("u32.parse_imm", 2%nat, By32 Decoding 0x02006033 true);
  ("u32.parse_imm", 3%nat, By32 Decoding 0x0012b2af true);
  ("u32.parse_imm", 4%nat, By32 Decoding 0x0050828f true);
  ("u32.parse_imm", 5%nat, By32 Decoding 0x00001073 true);
  ("u32.parse_imm", 6%nat, By32 Decoding 0x484ab0af true);
  ("u32.parse_imm", 7%nat, By32 Decoding 0xc0002073 true);
  ("u32.parse_imm", 8%nat, By32 Decoding 0x0040200f true);
  ("u32.parse_imm", 9%nat, By32 Decoding 0x10200073 true);
  ("u32.slice", 0%nat, By32 Decoding 0x00000033 true);
  ("u32.parse_extension", 0%nat, By32 Decoding 0x00000033 true);
  ("u32.parse_extension", 1%nat, By32 Decoding 0x0000200f true);
  ("u32.parse_extension", 2%nat, By32 Decoding 0x0050828f true);
  ("u32.parse_extension", 3%nat, By32 Decoding 0x0000200f true);
  ("u32.parse_extension", 4%nat, By32 Decoding 0x0000478f true);
  ("u32.parse_extension", 5%nat, By32 Decoding 0x0002d12f true);
  ("u32.parse_extension", 6%nat, By32 Decoding 0x0002d12f true);
  ("u32.parse_extension", 7%nat, By32 Decoding 0x4810e2af true);
  ("u32.parse_extension", 8%nat, By32 Decoding 0x280c10af true);
  ("u32.parse_extension", 9%nat, By32 Decoding 0x00000033 true);
  ("u32.parse_extension", 10%nat, By32 Decoding 0x02006033 true);
  ("u32.parse_extension", 11%nat, By32 Decoding 0x00000033 true);
  ("u32.parse_extension", 12%nat, By32 Decoding 0x000060bb true);
  ("u32.parse_extension", 13%nat, By32 Decoding 0x000060bb true);
  ("u32.parse_extension", 14%nat, By32 Decoding 0x0200c2bb true);
  ("u32.parse_extension", 15%nat, By32 Decoding 0x0400253b true);
  ("u32.parse_extension", 16%nat, By32 Decoding 0x00000073 true);
  ("u32.parse_extension", 17%nat, By32 Decoding 0x00000073 true);
  ("u32.parse_extension", 18%nat, By32 Decoding 0x00000073 true);
  ("u32.parse_extension", 19%nat, By32 Decoding 0x024082f3 true);
  ("u32.parse_extension", 20%nat, By32 Decoding 0x00002073 true);
  ("u32.parse_extension", 21%nat, By32 Decoding 0xc0002073 true);
  ("u32.parse_extension", 22%nat, By32 Decoding 0x00002073 true);
  ("u32.parse_extension", 23%nat, By32 Decoding 0x00004073 true);
  ("u32.parse_extension", 24%nat, By32 Decoding 0x00001073 true);
  ("u32.parse_extension", 25%nat, By32 Decoding 0x00004017 true);
  ("u32.set", 0%nat, By32 Decoding 0x0000ec63 true);
  ("u32.set", 1%nat, By32 Decoding 0x0000ec63 true);
  ("u32.to_signed_nbit", 0%nat, By32 Decoding 0x00008293 true);
  ("u32.to_signed_nbit", 1%nat, By32 Decoding 0x80028293 true);
  ("u32.to_signed_nbit", 2%nat, By32 Decoding 0x00008293 true);
  ("decode::a_extension::bit_32::parse_opcode", 0%nat, By32 Decoding 0x0002d12f true);
  ("decode::a_extension::bit_32::parse_opcode", 1%nat, By32 Decoding 0x0002d12f true);
  ("decode::a_extension::bit_32::parse_opcode", 2%nat, By32 Decoding 0x00e022af true);
  ("decode::a_extension::bit_32::parse_opcode", 3%nat, By32 Decoding 0x1002a0af true);
  ("decode::a_extension::bit_32::parse_opcode", 4%nat, By32 Decoding 0x1852a02f true);
  ("decode::a_extension::bit_32::parse_opcode", 5%nat, By32 Decoding 0x083a202f true);
  ("decode::a_extension::bit_32::parse_opcode", 6%nat, By32 Decoding 0x00e022af true);
  ("decode::a_extension::bit_32::parse_opcode", 7%nat, By32 Decoding 0x2180202f true);
  ("decode::a_extension::bit_32::parse_opcode", 8%nat, By32 Decoding 0x6020262f true);
  ("decode::a_extension::bit_32::parse_opcode", 9%nat, By32 Decoding 0x40202daf true);
  ("decode::a_extension::bit_32::parse_opcode", 10%nat, By32 Decoding 0x8172a2af true);
  ("decode::a_extension::bit_32::parse_opcode", 11%nat, By32 Decoding 0xa03e202f true);
  ("decode::a_extension::bit_32::parse_opcode", 12%nat, By32 Decoding 0xc012a2af true);
  ("decode::a_extension::bit_32::parse_opcode", 13%nat, By32 Decoding 0xe020a02f true);
  ("decode::a_extension::bit_32::parse_opcode", 15%nat, By32 Decoding 0x0012b2af true);
  ("decode::a_extension::bit_32::parse_opcode", 16%nat, By32 Decoding 0x1190b02f true);
  ("decode::a_extension::bit_32::parse_opcode", 17%nat, By32 Decoding 0x18203b2f true);
  ("decode::a_extension::bit_32::parse_opcode", 18%nat, By32 Decoding 0x0822b92f true);
  ("decode::a_extension::bit_32::parse_opcode", 19%nat, By32 Decoding 0x0012b2af true);
  ("decode::a_extension::bit_32::parse_opcode", 20%nat, By32 Decoding 0x216030af true);
  ("decode::a_extension::bit_32::parse_opcode", 21%nat, By32 Decoding 0x6050b2af true);
  ("decode::a_extension::bit_32::parse_opcode", 22%nat, By32 Decoding 0x4010b0af true);
  ("decode::a_extension::bit_32::parse_opcode", 23%nat, By32 Decoding 0x804037af true);
  ("decode::a_extension::bit_32::parse_opcode", 24%nat, By32 Decoding 0xa01032af true);
  ("decode::a_extension::bit_32::parse_opcode", 25%nat, By32 Decoding 0xc050372f true);
  ("decode::a_extension::bit_32::parse_opcode", 26%nat, By32 Decoding 0xe020b02f true);
  ("decode::a_extension::bit_32::parse_opcode", 28%nat, By32 Decoding 0x0002d12f true);
  ("decode::a_extension::bit_32::parse_rd", 0%nat, By32 Decoding 0x0012b2af true);
  ("decode::a_extension::bit_32::parse_rd", 1%nat, By32 Decoding 0x0012b2af true);
  ("decode::a_extension::bit_32::parse_rs1", 0%nat, By32 Decoding 0x0012b2af true);
  ("decode::a_extension::bit_32::parse_rs1", 1%nat, By32 Decoding 0x0012b2af true);
  ("decode::a_extension::bit_32::parse_rs2", 0%nat, By32 Decoding 0x0012b2af true);
  ("decode::a_extension::bit_32::parse_rs2", 1%nat, By32 Decoding 0x0012b2af true);
  ("decode::a_extension::bit_32::parse_rs2", 2%nat, By32 Decoding 0x1002a0af true);
  ("decode::a_extension::bit_32::parse_imm", 0%nat, By32 Decoding 0x0012b2af true);
  ("decode::a_extension::bit_32::parse_imm", 1%nat, By32 Decoding 0x0012b2af true);
  ("decode::a_extension::bit_32::parse_imm", 2%nat, By32 Decoding 0x0012b2af true);
  ("decode::base_i::bit_32::parse_opcode", 0%nat, By32 Decoding 0x00000033 true);
  ("decode::base_i::bit_32::parse_opcode", 1%nat, By32 Decoding 0x000a32b7 true);
  ("decode::base_i::bit_32::parse_opcode", 2%nat, By32 Decoding 0x00004017 true);
  ("decode::base_i::bit_32::parse_opcode", 3%nat, By32 Decoding 0x0010906f true);
  ("decode::base_i::bit_32::parse_opcode", 4%nat, By32 Decoding 0x00105f67 true);
  ("decode::base_i::bit_32::parse_opcode", 5%nat, By32 Decoding 0x0000ec63 true);
  ("decode::base_i::bit_32::parse_opcode", 6%nat, By32 Decoding 0x001282e3 true);
  ("decode::base_i::bit_32::parse_opcode", 7%nat, By32 Decoding 0x001010e3 true);
  ("decode::base_i::bit_32::parse_opcode", 8%nat, By32 Decoding 0x00304463 true);
  ("decode::base_i::bit_32::parse_opcode", 9%nat, By32 Decoding 0x0032d0e3 true);
  ("decode::base_i::bit_32::parse_opcode", 10%nat, By32 Decoding 0x0000ec63 true);
  ("decode::base_i::bit_32::parse_opcode", 11%nat, By32 Decoding 0x0000f2e3 true);
  ("decode::base_i::bit_32::parse_opcode", 12%nat, By32 Decoding 0x0052b0e3 true);
  ("decode::base_i::bit_32::parse_opcode", 13%nat, By32 Decoding 0x00201083 true);
  ("decode::base_i::bit_32::parse_opcode", 14%nat, By32 Decoding 0x01f00003 true);
  ("decode::base_i::bit_32::parse_opcode", 15%nat, By32 Decoding 0x00201083 true);
  ("decode::base_i::bit_32::parse_opcode", 16%nat, By32 Decoding 0x0056a003 true);
  ("decode::base_i::bit_32::parse_opcode", 17%nat, By32 Decoding 0x01a03703 true);
  ("decode::base_i::bit_32::parse_opcode", 18%nat, By32 Decoding 0x01f2c083 true);
  ("decode::base_i::bit_32::parse_opcode", 19%nat, By32 Decoding 0x00305283 true);
  ("decode::base_i::bit_32::parse_opcode", 20%nat, By32 Decoding 0x0032e083 true);
  ("decode::base_i::bit_32::parse_opcode", 21%nat, By32 Decoding 0x0022f703 true);
  ("decode::base_i::bit_32::parse_opcode", 22%nat, By32 Decoding 0x00005023 true);
  ("decode::base_i::bit_32::parse_opcode", 23%nat, By32 Decoding 0x002c8023 true);
  ("decode::base_i::bit_32::parse_opcode", 24%nat, By32 Decoding 0x002c92a3 true);
  ("decode::base_i::bit_32::parse_opcode", 25%nat, By32 Decoding 0x00102023 true);
  ("decode::base_i::bit_32::parse_opcode", 26%nat, By32 Decoding 0x00203023 true);
  ("decode::base_i::bit_32::parse_opcode", 27%nat, By32 Decoding 0x00005023 true);
  ("decode::base_i::bit_32::parse_opcode", 28%nat, By32 Decoding 0x00008293 true);
  ("decode::base_i::bit_32::parse_opcode", 29%nat, By32 Decoding 0x00008293 true);
  ("decode::base_i::bit_32::parse_opcode", 30%nat, By32 Decoding 0x00129293 true);
  ("decode::base_i::bit_32::parse_opcode", 31%nat, By32 Decoding 0x00129293 false);
  ("decode::base_i::bit_32::parse_opcode", 32%nat, By32 Decoding 0x00129293 false);
  ("decode::base_i::bit_32::parse_opcode", 33%nat, By32 Decoding 0x02479293 false);
  ("decode::base_i::bit_32::parse_opcode", 34%nat, By32 Decoding 0x00129293 true);
  ("decode::base_i::bit_32::parse_opcode", 35%nat, By32 Decoding 0x00129293 true);
  ("decode::base_i::bit_32::parse_opcode", 36%nat, By32 Decoding 0x04109293 true);
  ("decode::base_i::bit_32::parse_opcode", 37%nat, By32 Decoding 0x01b2a013 true);
  ("decode::base_i::bit_32::parse_opcode", 38%nat, By32 Decoding 0x00533293 true);
  ("decode::base_i::bit_32::parse_opcode", 39%nat, By32 Decoding 0x0022c293 true);
  ("decode::base_i::bit_32::parse_opcode", 40%nat, By32 Decoding 0x0002d093 true);
  ("decode::base_i::bit_32::parse_opcode", 41%nat, By32 Decoding 0x0002d093 false);
  ("decode::base_i::bit_32::parse_opcode", 42%nat, By32 Decoding 0x0002d093 false);
  ("decode::base_i::bit_32::parse_opcode", 43%nat, By32 Decoding 0x40345813 false);
  ("decode::base_i::bit_32::parse_opcode", 44%nat, By32 Decoding 0x0222d293 false);
  ("decode::base_i::bit_32::parse_opcode", 45%nat, By32 Decoding 0x0002d093 true);
  ("decode::base_i::bit_32::parse_opcode", 46%nat, By32 Decoding 0x0002d093 true);
  ("decode::base_i::bit_32::parse_opcode", 47%nat, By32 Decoding 0x40345813 true);
  ("decode::base_i::bit_32::parse_opcode", 48%nat, By32 Decoding 0x04505293 true);
  ("decode::base_i::bit_32::parse_opcode", 49%nat, By32 Decoding 0x0000e093 true);
  ("decode::base_i::bit_32::parse_opcode", 50%nat, By32 Decoding 0x0016f113 true);
  ("decode::base_i::bit_32::parse_opcode", 52%nat, By32 Decoding 0x00000033 true);
  ("decode::base_i::bit_32::parse_opcode", 53%nat, By32 Decoding 0x00000033 true);
  ("decode::base_i::bit_32::parse_opcode", 54%nat, By32 Decoding 0x00000033 true);
  ("decode::base_i::bit_32::parse_opcode", 55%nat, By32 Decoding 0x40340033 true);
  ("decode::base_i::bit_32::parse_opcode", 56%nat, By32 Decoding 0x04200bb3 true);
  ("decode::base_i::bit_32::parse_opcode", 57%nat, By32 Decoding 0x00029933 true);
  ("decode::base_i::bit_32::parse_opcode", 58%nat, By32 Decoding 0x0040a033 true);
  ("decode::base_i::bit_32::parse_opcode", 59%nat, By32 Decoding 0x0040b7b3 true);
  ("decode::base_i::bit_32::parse_opcode", 60%nat, By32 Decoding 0x00104633 true);
  ("decode::base_i::bit_32::parse_opcode", 61%nat, By32 Decoding 0x0017d0b3 true);
  ("decode::base_i::bit_32::parse_opcode", 62%nat, By32 Decoding 0x0017d0b3 true);
  ("decode::base_i::bit_32::parse_opcode", 63%nat, By32 Decoding 0x4020d2b3 true);
  ("decode::base_i::bit_32::parse_opcode", 64%nat, By32 Decoding 0x04405fb3 true);
  ("decode::base_i::bit_32::parse_opcode", 65%nat, By32 Decoding 0x0000ebb3 true);
  ("decode::base_i::bit_32::parse_opcode", 66%nat, By32 Decoding 0x0000fb33 true);
  ("decode::base_i::bit_32::parse_opcode", 68%nat, By32 Decoding 0x00000073 true);
  ("decode::base_i::bit_32::parse_opcode", 69%nat, By32 Decoding 0x00000073 true);
  ("decode::base_i::bit_32::parse_opcode", 70%nat, By32 Decoding 0x00000073 true);
  ("decode::base_i::bit_32::parse_opcode", 71%nat, By32 Decoding 0x00000073 true);
  ("decode::base_i::bit_32::parse_opcode", 72%nat, By32 Decoding 0x00100073 true);
  ("decode::base_i::bit_32::parse_opcode", 73%nat, By32 Decoding 0x01100073 true);
  ("decode::base_i::bit_32::parse_opcode", 76%nat, By32 Decoding 0x0000b29b true);
  ("decode::base_i::bit_32::parse_opcode", 77%nat, By32 Decoding 0x0008829b true);
  ("decode::base_i::bit_32::parse_opcode", 78%nat, By32 Decoding 0x0040129b true);
  ("decode::base_i::bit_32::parse_opcode", 79%nat, By32 Decoding 0x0022d89b true);
  ("decode::base_i::bit_32::parse_opcode", 80%nat, By32 Decoding 0x0022d89b true);
  ("decode::base_i::bit_32::parse_opcode", 81%nat, By32 Decoding 0x4040529b true);
  ("decode::base_i::bit_32::parse_opcode", 82%nat, By32 Decoding 0x0240529b true);
  ("decode::base_i::bit_32::parse_opcode", 83%nat, By32 Decoding 0x0000b29b true);
  ("decode::base_i::bit_32::parse_opcode", 84%nat, By32 Decoding 0x000060bb true);
  ("decode::base_i::bit_32::parse_opcode", 85%nat, By32 Decoding 0x005280bb true);
  ("decode::base_i::bit_32::parse_opcode", 86%nat, By32 Decoding 0x005280bb true);
  ("decode::base_i::bit_32::parse_opcode", 87%nat, By32 Decoding 0x400288bb true);
  ("decode::base_i::bit_32::parse_opcode", 89%nat, By32 Decoding 0x0032903b true);
  ("decode::base_i::bit_32::parse_opcode", 90%nat, By32 Decoding 0x0020d03b true);
  ("decode::base_i::bit_32::parse_opcode", 91%nat, By32 Decoding 0x0020d03b true);
  ("decode::base_i::bit_32::parse_opcode", 92%nat, By32 Decoding 0x404b563b true);
  ("decode::base_i::bit_32::parse_opcode", 94%nat, By32 Decoding 0x000060bb true);
  ("decode::base_i::bit_32::parse_opcode", 95%nat, By32 Decoding 0x00008080 true);
  ("decode::base_i::bit_32::parse_rd", 0%nat, By32 Decoding 0x00000033 true);
  ("decode::base_i::bit_32::parse_rd", 1%nat, By32 Decoding 0x00000033 true);
  ("decode::base_i::bit_32::parse_rd", 2%nat, By32 Decoding 0x00000073 true);
  ("decode::base_i::bit_32::parse_rs1", 0%nat, By32 Decoding 0x00000033 true);
  ("decode::base_i::bit_32::parse_rs1", 1%nat, By32 Decoding 0x00000033 true);
  ("decode::base_i::bit_32::parse_rs1", 2%nat, By32 Decoding 0x00000073 true);
  ("decode::base_i::bit_32::parse_rs2", 0%nat, By32 Decoding 0x00000033 true);
  ("decode::base_i::bit_32::parse_rs2", 1%nat, By32 Decoding 0x00000033 true);
  ("decode::base_i::bit_32::parse_rs2", 2%nat, By32 Decoding 0x00000073 true);
  ("decode::base_i::bit_32::parse_imm", 0%nat, By32 Decoding 0x00000033 true);
  ("decode::base_i::bit_32::parse_imm", 1%nat, By32 Decoding 0x00004017 true);
  ("decode::base_i::bit_32::parse_imm", 2%nat, By32 Decoding 0x00008293 true);
  ("decode::base_i::bit_32::parse_imm", 3%nat, By32 Decoding 0x00102023 true);
  ("decode::base_i::bit_32::parse_imm", 4%nat, By32 Decoding 0x0000ec63 true);
  ("decode::base_i::bit_32::parse_imm", 5%nat, By32 Decoding 0x0010906f true);
  ("decode::base_i::bit_32::parse_imm", 6%nat, By32 Decoding 0x0002d093 false);
  ("decode::base_i::bit_32::parse_imm", 7%nat, By32 Decoding 0x0002d093 true);
  ("decode::base_i::bit_32::parse_imm", 8%nat, By32 Decoding 0x00004017 true);
  ("decode::base_i::bit_32::parse_imm", 9%nat, By32 Decoding 0x0010906f true);
  ("decode::base_i::bit_32::parse_imm", 10%nat, By32 Decoding 0x0000ec63 true);
  ("decode::base_i::bit_32::parse_imm", 11%nat, By32 Decoding 0x00008293 true);
  ("decode::base_i::bit_32::parse_imm", 12%nat, By32 Decoding 0x00102023 true);
  ("decode::base_i::bit_32::parse_imm", 13%nat, By32 Decoding 0x0002d093 true);
  ("decode::base_i::bit_32::parse_imm", 14%nat, By32 Decoding 0x0002d093 false);
  ("decode::base_i::bit_32::parse_imm", 15%nat, By32 Decoding 0x0002d093 true);
  ("decode::base_i::bit_32::parse_imm", 16%nat, By32 Decoding 0x0022d89b true);
  ("decode::base_i::bit_32::parse_imm", 17%nat, By32 Decoding 0x00000033 true);
  ("decode::c_extension::bit_16::quadrant0", 0%nat, By16 Decoding 0x0004 true);
  ("decode::c_extension::bit_16::quadrant0", 1%nat, By16 Decoding 0x0004 true);
  ("decode::c_extension::bit_16::quadrant0", 2%nat, By16 Decoding 0x4000 true);
  ("decode::c_extension::bit_16::quadrant0", 3%nat, By16 Decoding 0x6000 true);
  ("decode::c_extension::bit_16::quadrant0", 4%nat, By16 Decoding 0xc000 true);
  ("decode::c_extension::bit_16::quadrant0", 5%nat, By16 Decoding 0xe000 true);
  ("decode::c_extension::bit_16::quadrant0", 6%nat, By16 Decoding 0x2000 true);
  ("decode::c_extension::bit_16::quadrant1", 0%nat, By16 Decoding 0x0001 true);
  ("decode::c_extension::bit_16::quadrant1", 1%nat, By16 Decoding 0x0001 true);
  ("decode::c_extension::bit_16::quadrant1", 2%nat, By16 Decoding 0x0001 true);
  ("decode::c_extension::bit_16::quadrant1", 3%nat, By16 Decoding 0x0081 true);
  ("decode::c_extension::bit_16::quadrant1", 4%nat, By16 Decoding 0x2001 true);
  ("decode::c_extension::bit_16::quadrant1", 5%nat, By16 Decoding 0x2001 false);
  ("decode::c_extension::bit_16::quadrant1", 6%nat, By16 Decoding 0x2001 true);
  ("decode::c_extension::bit_16::quadrant1", 7%nat, By16 Decoding 0x4001 true);
  ("decode::c_extension::bit_16::quadrant1", 8%nat, By16 Decoding 0x6001 true);
  ("decode::c_extension::bit_16::quadrant1", 9%nat, By16 Decoding 0x6101 true);
  ("decode::c_extension::bit_16::quadrant1", 10%nat, By16 Decoding 0x6001 true);
  ("decode::c_extension::bit_16::quadrant1", 11%nat, By16 Decoding 0x8001 true);
  ("decode::c_extension::bit_16::quadrant1", 12%nat, By16 Decoding 0x8001 true);
  ("decode::c_extension::bit_16::quadrant1", 13%nat, By16 Decoding 0x8401 true);
  ("decode::c_extension::bit_16::quadrant1", 14%nat, By16 Decoding 0x8a01 true);
  ("decode::c_extension::bit_16::quadrant1", 15%nat, By16 Decoding 0x8c01 true);
  ("decode::c_extension::bit_16::quadrant1", 16%nat, By16 Decoding 0x8c01 true);
  ("decode::c_extension::bit_16::quadrant1", 17%nat, By16 Decoding 0x8c01 true);
  ("decode::c_extension::bit_16::quadrant1", 18%nat, By16 Decoding 0x8c21 true);
  ("decode::c_extension::bit_16::quadrant1", 19%nat, By16 Decoding 0x8c41 true);
  ("decode::c_extension::bit_16::quadrant1", 20%nat, By16 Decoding 0x8c61 true);
  ("decode::c_extension::bit_16::quadrant1", 22%nat, By16 Decoding 0x9c01 true);
  ("decode::c_extension::bit_16::quadrant1", 23%nat, By16 Decoding 0x9c01 true);
  ("decode::c_extension::bit_16::quadrant1", 24%nat, By16 Decoding 0x9c21 true);
  ("decode::c_extension::bit_16::quadrant1", 25%nat, By16 Decoding 0x9c41 true);
  ("decode::c_extension::bit_16::quadrant1", 28%nat, By16 Decoding 0xa001 true);
  ("decode::c_extension::bit_16::quadrant1", 29%nat, By16 Decoding 0xc001 true);
  ("decode::c_extension::bit_16::quadrant1", 30%nat, By16 Decoding 0xe001 true);
  ("decode::c_extension::bit_16::quadrant2", 0%nat, By16 Decoding 0x0002 true);
  ("decode::c_extension::bit_16::quadrant2", 1%nat, By16 Decoding 0x0002 true);
  ("decode::c_extension::bit_16::quadrant2", 2%nat, By16 Decoding 0x4002 true);
  ("decode::c_extension::bit_16::quadrant2", 3%nat, By16 Decoding 0x6002 true);
  ("decode::c_extension::bit_16::quadrant2", 4%nat, By16 Decoding 0x8002 true);
  ("decode::c_extension::bit_16::quadrant2", 5%nat, By16 Decoding 0x8002 true);
  ("decode::c_extension::bit_16::quadrant2", 6%nat, By16 Decoding 0x8002 true);
  ("decode::c_extension::bit_16::quadrant2", 7%nat, By16 Decoding 0x8006 true);
  ("decode::c_extension::bit_16::quadrant2", 8%nat, By16 Decoding 0x9002 true);
  ("decode::c_extension::bit_16::quadrant2", 9%nat, By16 Decoding 0x9002 true);
  ("decode::c_extension::bit_16::quadrant2", 10%nat, By16 Decoding 0x9082 true);
  ("decode::c_extension::bit_16::quadrant2", 11%nat, By16 Decoding 0x9082 true);
  ("decode::c_extension::bit_16::quadrant2", 12%nat, By16 Decoding 0x9086 true);
  ("decode::c_extension::bit_16::quadrant2", 14%nat, By16 Decoding 0xc002 true);
  ("decode::c_extension::bit_16::quadrant2", 15%nat, By16 Decoding 0xe002 true);
  ("decode::c_extension::bit_16::quadrant2", 16%nat, By16 Decoding 0x2002 true);
  ("decode::c_extension::bit_16::parse_opcode", 0%nat, By16 Decoding 0x0001 true);
  ("decode::c_extension::bit_16::parse_opcode", 2%nat, By16 Decoding 0x0004 true);
  ("decode::c_extension::bit_16::parse_opcode", 3%nat, By16 Decoding 0x0001 true);
  ("decode::c_extension::bit_16::parse_opcode", 4%nat, By16 Decoding 0x0002 true);
  ("decode::c_extension::bit_16::parse_opcode", 5%nat, By16 Decoding 0x0003 true);
  ("decode::c_extension::bit_16::parse_rd", 0%nat, By16 Decoding 0x0001 true);
  ("decode::c_extension::bit_16::parse_rd", 1%nat, By16 Decoding 0x0004 true);
  ("decode::c_extension::bit_16::parse_rd", 2%nat, By16 Decoding 0x8001 true);
  ("decode::c_extension::bit_16::parse_rd", 3%nat, By16 Decoding 0x0081 true);
  ("decode::c_extension::bit_16::parse_rd", 4%nat, By16 Decoding 0x0002 true);
  ("decode::c_extension::bit_16::parse_rd", 5%nat, By16 Decoding 0x0001 true);
  ("decode::c_extension::bit_16::parse_rs1", 0%nat, By16 Decoding 0x0001 true);
  ("decode::c_extension::bit_16::parse_rs1", 1%nat, By16 Decoding 0x4000 true);
  ("decode::c_extension::bit_16::parse_rs1", 2%nat, By16 Decoding 0x0081 true);
  ("decode::c_extension::bit_16::parse_rs1", 3%nat, By16 Decoding 0x8001 true);
  ("decode::c_extension::bit_16::parse_rs1", 4%nat, By16 Decoding 0x0002 true);
  ("decode::c_extension::bit_16::parse_rs1", 5%nat, By16 Decoding 0x0001 true);
  ("decode::c_extension::bit_16::parse_rs2", 0%nat, By16 Decoding 0x0001 true);
  ("decode::c_extension::bit_16::parse_rs2", 1%nat, By16 Decoding 0xc000 true);
  ("decode::c_extension::bit_16::parse_rs2", 2%nat, By16 Decoding 0x8c01 true);
  ("decode::c_extension::bit_16::parse_rs2", 3%nat, By16 Decoding 0x8002 true);
  ("decode::c_extension::bit_16::parse_rs2", 4%nat, By16 Decoding 0x0001 true);
  ("decode::c_extension::bit_16::parse_imm", 0%nat, By16 Decoding 0x0001 true);
  ("decode::c_extension::bit_16::parse_imm", 1%nat, By16 Decoding 0x4000 true);
  ("decode::c_extension::bit_16::parse_imm", 2%nat, By16 Decoding 0x6000 true);
  ("decode::c_extension::bit_16::parse_imm", 3%nat, By16 Decoding 0x0004 true);
  ("decode::c_extension::bit_16::parse_imm", 4%nat, By16 Decoding 0x8001 true);
  ("decode::c_extension::bit_16::parse_imm", 5%nat, By16 Decoding 0x0001 true);
  ("decode::c_extension::bit_16::parse_imm", 6%nat, By16 Decoding 0x2001 true);
  ("decode::c_extension::bit_16::parse_imm", 7%nat, By16 Decoding 0x2001 false);
  ("decode::c_extension::bit_16::parse_imm", 8%nat, By16 Decoding 0xc001 true);
  ("decode::c_extension::bit_16::parse_imm", 9%nat, By16 Decoding 0x6101 true);
  ("decode::c_extension::bit_16::parse_imm", 10%nat, By16 Decoding 0x6001 true);
  ("decode::c_extension::bit_16::parse_imm", 11%nat, By16 Decoding 0x0002 true);
  ("decode::c_extension::bit_16::parse_imm", 12%nat, By16 Decoding 0x4002 true);
  ("decode::c_extension::bit_16::parse_imm", 13%nat, By16 Decoding 0x6002 true);
  ("decode::c_extension::bit_16::parse_imm", 14%nat, By16 Decoding 0xc002 true);
  ("decode::c_extension::bit_16::parse_imm", 15%nat, By16 Decoding 0xe002 true);
  ("decode::c_extension::bit_16::parse_imm", 16%nat, By16 Decoding 0x0004 true);
  ("decode::c_extension::bit_16::parse_imm", 17%nat, By16 Decoding 0x4000 true);
  ("decode::c_extension::bit_16::parse_imm", 18%nat, By16 Decoding 0x6000 true);
  ("decode::c_extension::bit_16::parse_imm", 19%nat, By16 Decoding 0x2001 true);
  ("decode::c_extension::bit_16::parse_imm", 20%nat, By16 Decoding 0x0001 true);
  ("decode::c_extension::bit_16::parse_imm", 21%nat, By16 Decoding 0x8001 true);
  ("decode::c_extension::bit_16::parse_imm", 22%nat, By16 Decoding 0x2001 false);
  ("decode::c_extension::bit_16::parse_imm", 23%nat, By16 Decoding 0xc001 true);
  ("decode::c_extension::bit_16::parse_imm", 24%nat, By16 Decoding 0x6001 true);
  ("decode::c_extension::bit_16::parse_imm", 25%nat, By16 Decoding 0x6101 true);
  ("decode::c_extension::bit_16::parse_imm", 26%nat, By16 Decoding 0x0002 true);
  ("decode::c_extension::bit_16::parse_imm", 27%nat, By16 Decoding 0x4002 true);
  ("decode::c_extension::bit_16::parse_imm", 28%nat, By16 Decoding 0x6002 true);
  ("decode::c_extension::bit_16::parse_imm", 29%nat, By16 Decoding 0xc002 true);
  ("decode::c_extension::bit_16::parse_imm", 30%nat, By16 Decoding 0xe002 true);
  ("decode::c_extension::bit_16::parse_imm", 31%nat, By16 Decoding 0x8002 true);
  ("decode::m_extension::bit_32::parse_opcode", 0%nat, By32 Decoding 0x02006033 true);
  ("decode::m_extension::bit_32::parse_opcode", 1%nat, By32 Decoding 0x02006033 true);
  ("decode::m_extension::bit_32::parse_opcode", 2%nat, By32 Decoding 0x024881b3 true);
  ("decode::m_extension::bit_32::parse_opcode", 3%nat, By32 Decoding 0x021099b3 true);
  ("decode::m_extension::bit_32::parse_opcode", 4%nat, By32 Decoding 0x0200a2b3 true);
  ("decode::m_extension::bit_32::parse_opcode", 5%nat, By32 Decoding 0x02103033 true);
  ("decode::m_extension::bit_32::parse_opcode", 6%nat, By32 Decoding 0x024044b3 true);
  ("decode::m_extension::bit_32::parse_opcode", 7%nat, By32 Decoding 0x0202d2b3 true);
  ("decode::m_extension::bit_32::parse_opcode", 8%nat, By32 Decoding 0x02006033 true);
  ("decode::m_extension::bit_32::parse_opcode", 9%nat, By32 Decoding 0x0252f033 true);
  ("decode::m_extension::bit_32::parse_opcode", 11%nat, By32 Decoding 0x0200c2bb true);
  ("decode::m_extension::bit_32::parse_opcode", 12%nat, By32 Decoding 0x021000bb true);
  ("decode::m_extension::bit_32::parse_opcode", 13%nat, By32 Decoding 0x0200c2bb true);
  ("decode::m_extension::bit_32::parse_opcode", 14%nat, By32 Decoding 0x024d52bb true);
  ("decode::m_extension::bit_32::parse_opcode", 15%nat, By32 Decoding 0x02306f3b true);
  ("decode::m_extension::bit_32::parse_opcode", 16%nat, By32 Decoding 0x0232f03b true);
  ("decode::m_extension::bit_32::parse_opcode", 17%nat, By32 Decoding 0x020290bb true);
  ("decode::m_extension::bit_32::parse_rd", 0%nat, By32 Decoding 0x02006033 true);
  ("decode::m_extension::bit_32::parse_rd", 1%nat, By32 Decoding 0x02006033 true);
  ("decode::m_extension::bit_32::parse_rs1", 0%nat, By32 Decoding 0x02006033 true);
  ("decode::m_extension::bit_32::parse_rs1", 1%nat, By32 Decoding 0x02006033 true);
  ("decode::m_extension::bit_32::parse_rs2", 0%nat, By32 Decoding 0x02006033 true);
  ("decode::m_extension::bit_32::parse_rs2", 1%nat, By32 Decoding 0x02006033 true);
  ("decode::m_extension::bit_32::parse_imm", 0%nat, By32 Decoding 0x02006033 true);
  ("decode::priv_extension::bit_32::parse_opcode", 0%nat, By32 Decoding 0x024082f3 true);
  ("decode::priv_extension::bit_32::parse_opcode", 1%nat, By32 Decoding 0x10200073 true);
  ("decode::priv_extension::bit_32::parse_opcode", 2%nat, By32 Decoding 0x30200073 true);
  ("decode::priv_extension::bit_32::parse_opcode", 3%nat, By32 Decoding 0x10500073 true);
  ("decode::priv_extension::bit_32::parse_opcode", 4%nat, By32 Decoding 0x024082f3 true);
  ("decode::priv_extension::bit_32::parse_opcode", 5%nat, By32 Decoding 0x12000073 true);
  ("decode::priv_extension::bit_32::parse_opcode", 6%nat, By32 Decoding 0x024082f3 true);
  ("decode::priv_extension::bit_32::parse_rd", 0%nat, By32 Decoding 0x10200073 true);
  ("decode::priv_extension::bit_32::parse_rs1", 0%nat, By32 Decoding 0x10200073 true);
  ("decode::priv_extension::bit_32::parse_rs1", 1%nat, By32 Decoding 0x12000073 true);
  ("decode::priv_extension::bit_32::parse_rs1", 2%nat, By32 Decoding 0x10200073 true);
  ("decode::priv_extension::bit_32::parse_rs2", 0%nat, By32 Decoding 0x10200073 true);
  ("decode::priv_extension::bit_32::parse_rs2", 1%nat, By32 Decoding 0x12000073 true);
  ("decode::priv_extension::bit_32::parse_rs2", 2%nat, By32 Decoding 0x10200073 true);
  ("decode::priv_extension::bit_32::parse_imm", 0%nat, By32 Decoding 0x10200073 true);
  ("decode::zicboz_extension::bit_32::parse_opcode", 0%nat, By32 Decoding 0x0000200f true);
  ("decode::zicboz_extension::bit_32::parse_opcode", 1%nat, By32 Decoding 0x0000200f true);
  ("decode::zicboz_extension::bit_32::parse_opcode", 2%nat, By32 Decoding 0x0000200f true);
  ("decode::zicboz_extension::bit_32::parse_opcode", 3%nat, By32 Decoding 0x0040200f true);
  ("decode::zicboz_extension::bit_32::parse_opcode", 4%nat, By32 Decoding 0x0040200f true);
  ("decode::zicboz_extension::bit_32::parse_opcode", 5%nat, By32 Decoding 0x0040208f true);
  ("decode::zicboz_extension::bit_32::parse_opcode", 6%nat, By32 Decoding 0x0000200f true);
  ("decode::zicboz_extension::bit_32::parse_rd", 0%nat, By32 Decoding 0x0040200f true);
  ("decode::zicboz_extension::bit_32::parse_rs1", 0%nat, By32 Decoding 0x0040200f true);
  ("decode::zicboz_extension::bit_32::parse_rs1", 1%nat, By32 Decoding 0x0040200f true);
  ("decode::zicboz_extension::bit_32::parse_rs2", 0%nat, By32 Decoding 0x0040200f true);
  ("decode::zicboz_extension::bit_32::parse_imm", 0%nat, By32 Decoding 0x0040200f true);
  ("decode::zicfiss_extension::bit_32::parse_opcode", 0%nat, By32 Decoding 0x00004073 true);
  ("decode::zicfiss_extension::bit_32::parse_opcode", 1%nat, By32 Decoding 0x00004073 true);
  ("decode::zicfiss_extension::bit_32::parse_opcode", 2%nat, By32 Decoding 0x00004073 true);
  ("decode::zicfiss_extension::bit_32::parse_opcode", 3%nat, By32 Decoding 0xce104073 true);
  ("decode::zicfiss_extension::bit_32::parse_opcode", 4%nat, By32 Decoding 0xcdc04073 true);
  ("decode::zicfiss_extension::bit_32::parse_opcode", 5%nat, By32 Decoding 0xcdc04073 true);
  ("decode::zicfiss_extension::bit_32::parse_opcode", 6%nat, By32 Decoding 0xcdc0c073 true);
  ("decode::zicfiss_extension::bit_32::parse_opcode", 7%nat, By32 Decoding 0x00004073 true);
  ("decode::zicfiss_extension::bit_32::parse_opcode", 9%nat, By32 Decoding 0x4810e2af true);
  ("decode::zicfiss_extension::bit_32::parse_opcode", 10%nat, By32 Decoding 0x4850a5af true);
  ("decode::zicfiss_extension::bit_32::parse_opcode", 11%nat, By32 Decoding 0x484ab0af true);
  ("decode::zicfiss_extension::bit_32::parse_opcode", 12%nat, By32 Decoding 0x4810e2af true);
  ("decode::zicfiss_extension::bit_32::parse_rd", 0%nat, By32 Decoding 0x484ab0af true);
  ("decode::zicfiss_extension::bit_32::parse_rd", 1%nat, By32 Decoding 0xcdc0c073 true);
  ("decode::zicfiss_extension::bit_32::parse_rd", 2%nat, By32 Decoding 0x484ab0af true);
  ("decode::zicfiss_extension::bit_32::parse_rs1", 0%nat, By32 Decoding 0x484ab0af true);
  ("decode::zicfiss_extension::bit_32::parse_rs1", 1%nat, By32 Decoding 0xce104073 true);
  ("decode::zicfiss_extension::bit_32::parse_rs1", 2%nat, By32 Decoding 0x484ab0af true);
  ("decode::zicfiss_extension::bit_32::parse_rs1", 3%nat, By32 Decoding 0xcdc04073 true);
  ("decode::zicfiss_extension::bit_32::parse_rs2", 0%nat, By32 Decoding 0x484ab0af true);
  ("decode::zicfiss_extension::bit_32::parse_rs2", 1%nat, By32 Decoding 0x484ab0af true);
  ("decode::zicfiss_extension::bit_32::parse_rs2", 2%nat, By32 Decoding 0xcdc04073 true);
  ("decode::zicfiss_extension::bit_32::parse_imm", 0%nat, By32 Decoding 0x484ab0af true);
  ("decode::zicfiss_extension::bit_32::parse_imm", 1%nat, By32 Decoding 0x484ab0af true);
  ("decode::zicfiss_extension::bit_16::parse_opcode", 0%nat, By16 Decoding 0x6081 true);
  ("decode::zicfiss_extension::bit_16::parse_opcode", 1%nat, By16 Decoding 0x6081 true);
  ("decode::zicfiss_extension::bit_16::parse_opcode", 2%nat, By16 Decoding 0x6281 true);
  ("decode::zicfiss_extension::bit_16::parse_rd", 0%nat, By16 Decoding 0x6081 true);
  ("decode::zicfiss_extension::bit_16::parse_rd", 1%nat, By16 Decoding 0x6081 true);
  ("decode::zicfiss_extension::bit_16::parse_rd", 2%nat, By16 Decoding 0x6281 true);
  ("decode::zicfiss_extension::bit_16::parse_rs1", 0%nat, By16 Decoding 0x6081 true);
  ("decode::zicfiss_extension::bit_16::parse_rs2", 0%nat, By16 Decoding 0x6081 true);
  ("decode::zicfiss_extension::bit_16::parse_imm", 0%nat, By16 Decoding 0x6081 true);
  ("decode::zicntr_extension::bit_32::parse_opcode", 0%nat, By32 Decoding 0xc0002073 true);
  ("decode::zicntr_extension::bit_32::parse_opcode", 1%nat, By32 Decoding 0xc0002073 true);
  ("decode::zicntr_extension::bit_32::parse_opcode", 2%nat, By32 Decoding 0xc0002073 true);
  ("decode::zicntr_extension::bit_32::parse_opcode", 3%nat, By32 Decoding 0xc0002073 true);
  ("decode::zicntr_extension::bit_32::parse_opcode", 4%nat, By32 Decoding 0xc0102073 true);
  ("decode::zicntr_extension::bit_32::parse_opcode", 5%nat, By32 Decoding 0xc0202073 true);
  ("decode::zicntr_extension::bit_32::parse_opcode", 6%nat, By32 Decoding 0xc8002073 true);
  ("decode::zicntr_extension::bit_32::parse_opcode", 7%nat, By32 Decoding 0xc8102073 true);
  ("decode::zicntr_extension::bit_32::parse_opcode", 8%nat, By32 Decoding 0xc8202073 true);
  ("decode::zicntr_extension::bit_32::parse_rd", 0%nat, By32 Decoding 0xc0002073 true);
  ("decode::zicntr_extension::bit_32::parse_rd", 1%nat, By32 Decoding 0xc0002073 true);
  ("decode::zicntr_extension::bit_32::parse_rs1", 0%nat, By32 Decoding 0xc0002073 true);
  ("decode::zicntr_extension::bit_32::parse_rs1", 1%nat, By32 Decoding 0xc0002073 true);
  ("decode::zicntr_extension::bit_32::parse_rs2", 0%nat, By32 Decoding 0xc0002073 true);
  ("decode::zicntr_extension::bit_32::parse_rs2", 1%nat, By32 Decoding 0xc0002073 true);
  ("decode::zicntr_extension::bit_32::parse_imm", 0%nat, By32 Decoding 0xc0002073 true);
  ("decode::zicntr_extension::bit_32::parse_imm", 1%nat, By32 Decoding 0xc0002073 true);
  ("decode::zicsr_extension::bit_32::parse_opcode", 0%nat, By32 Decoding 0x00001073 true);
  ("decode::zicsr_extension::bit_32::parse_opcode", 1%nat, By32 Decoding 0x00001073 true);
  ("decode::zicsr_extension::bit_32::parse_opcode", 2%nat, By32 Decoding 0x00001073 true);
  ("decode::zicsr_extension::bit_32::parse_opcode", 3%nat, By32 Decoding 0x00002073 true);
  ("decode::zicsr_extension::bit_32::parse_opcode", 4%nat, By32 Decoding 0x00003073 true);
  ("decode::zicsr_extension::bit_32::parse_opcode", 5%nat, By32 Decoding 0x00005073 true);
  ("decode::zicsr_extension::bit_32::parse_opcode", 6%nat, By32 Decoding 0x00006073 true);
  ("decode::zicsr_extension::bit_32::parse_opcode", 7%nat, By32 Decoding 0x00007073 true);
  ("decode::zicsr_extension::bit_32::parse_rd", 0%nat, By32 Decoding 0x00001073 true);
  ("decode::zicsr_extension::bit_32::parse_rd", 1%nat, By32 Decoding 0x00001073 true);
  ("decode::zicsr_extension::bit_32::parse_rs1", 0%nat, By32 Decoding 0x00001073 true);
  ("decode::zicsr_extension::bit_32::parse_rs1", 1%nat, By32 Decoding 0x00001073 true);
  ("decode::zicsr_extension::bit_32::parse_rs1", 2%nat, By32 Decoding 0x00005073 true);
  ("decode::zicsr_extension::bit_32::parse_rs2", 0%nat, By32 Decoding 0x00001073 true);
  ("decode::zicsr_extension::bit_32::parse_rs2", 1%nat, By32 Decoding 0x00001073 true);
  ("decode::zicsr_extension::bit_32::parse_imm", 0%nat, By32 Decoding 0x00001073 true);
  ("decode::zicsr_extension::bit_32::parse_imm", 1%nat, By32 Decoding 0x00005073 true);
  ("decode::zicsr_extension::bit_32::parse_imm", 2%nat, By32 Decoding 0x00001073 true);
  ("decode::zifencei_extension::bit_32::parse_opcode", 0%nat, By32 Decoding 0x0050828f true);
  ("decode::zifencei_extension::bit_32::parse_opcode", 1%nat, By32 Decoding 0x0050828f true);
  ("decode::zifencei_extension::bit_32::parse_rd", 0%nat, By32 Decoding 0x0050828f true);
  ("decode::zifencei_extension::bit_32::parse_rd", 1%nat, By32 Decoding 0x0050828f true);
  ("decode::zifencei_extension::bit_32::parse_rs1", 0%nat, By32 Decoding 0x0050828f true);
  ("decode::zifencei_extension::bit_32::parse_rs1", 1%nat, By32 Decoding 0x0050828f true);
  ("decode::zifencei_extension::bit_32::parse_rs2", 0%nat, By32 Decoding 0x0050828f true);
  ("decode::zifencei_extension::bit_32::parse_rs2", 1%nat, By32 Decoding 0x0050828f true);
  ("decode::zifencei_extension::bit_32::parse_imm", 0%nat, By32 Decoding 0x0050828f true);
  ("decode::zifencei_extension::bit_32::parse_imm", 1%nat, By32 Decoding 0x0050828f true);
  ("Instruction.fmt", 0%nat, By32 Writing 0x00000033 true);
  ("Instruction.fmt", 1%nat, By32 Writing 0x00000033 true);
  ("Instruction.fmt", 2%nat, By32 Writing 0x0012b2af true);
  ("Instruction.fmt", 3%nat, By32 Writing 0x1190b02f true);
  ("Instruction.fmt", 4%nat, By32 Writing 0x0012b2af true);
  ("Instruction.fmt", 5%nat, By32 Writing 0x0002d093 true);
  ("Instruction.fmt", 6%nat, By32 Writing 0x00008293 true);
  ("Instruction.fmt", 7%nat, By32 Writing 0x0000ec63 true);
  ("Instruction.fmt", 8%nat, By16 Writing 0x0004 true);
  ("Instruction.fmt", 9%nat, By16 Writing 0xc002 true);
  ("Instruction.fmt", 10%nat, By32 Writing 0x00004017 true);
  ("Instruction.fmt", 11%nat, By16 Writing 0x2001 false);
  ("Instruction.fmt", 12%nat, By16 Writing 0x0002 true);
  ("Instruction.fmt", 13%nat, By16 Writing 0x8002 true);
  ("Instruction.fmt", 14%nat, By16 Writing 0x8002 true);
  ("Instruction.fmt", 15%nat, By16 Writing 0x9082 true);
  ("Instruction.fmt", 16%nat, By16 Writing 0x8006 true);
  ("Instruction.fmt", 17%nat, By16 Writing 0x9086 true);
  ("Instruction.fmt", 19%nat, By16 Writing 0x8c01 true);
  ("Instruction.fmt", 20%nat, By16 Writing 0x8001 true);
  ("Instruction.fmt", 21%nat, By32 Writing 0x00001073 true);
  ("Instruction.fmt", 22%nat, By32 Writing 0x00005073 true);
  ("Instruction.fmt", 23%nat, By32 Writing 0xc0002073 true);
  ("Instruction.fmt", 24%nat, By32 Writing 0x0040200f true);
  ("Instruction.fmt", 25%nat, By32 Writing 0xcdc0c073 true);
  ("Instruction.fmt", 26%nat, By32 Writing 0x00000073 true);
  ("Instruction.fmt", 27%nat, By32 Writing 0x00000073 true);
  ("Instruction.fmt", 28%nat, By16 Writing 0x6081 true);
  ("instruction::reg2str", 0%nat, By32 Writing 0x00000033 true);
  ("instruction::reg2str", 1%nat, By32 Writing 0x00000033 true);
  ("instruction::reg2str", 2%nat, By32 Writing 0x000000b3 true);
  ("instruction::reg2str", 3%nat, By32 Writing 0x00000133 true);
  ("instruction::reg2str", 4%nat, By32 Writing 0x000001b3 true);
  ("instruction::reg2str", 5%nat, By32 Writing 0x00000233 true);
  ("instruction::reg2str", 6%nat, By32 Writing 0x000002b3 true);
  ("instruction::reg2str", 7%nat, By32 Writing 0x00000333 true);
  ("instruction::reg2str", 8%nat, By32 Writing 0x000003b3 true);
  ("instruction::reg2str", 9%nat, By32 Writing 0x00000433 true);
  ("instruction::reg2str", 10%nat, By32 Writing 0x000004b3 true);
  ("instruction::reg2str", 11%nat, By32 Writing 0x00000533 true);
  ("instruction::reg2str", 12%nat, By32 Writing 0x000005b3 true);
  ("instruction::reg2str", 13%nat, By32 Writing 0x00000633 true);
  ("instruction::reg2str", 14%nat, By32 Writing 0x000006b3 true);
  ("instruction::reg2str", 15%nat, By32 Writing 0x00000733 true);
  ("instruction::reg2str", 16%nat, By32 Writing 0x000007b3 true);
  ("instruction::reg2str", 17%nat, By32 Writing 0x00000833 true);
  ("instruction::reg2str", 18%nat, By32 Writing 0x000008b3 true);
  ("instruction::reg2str", 19%nat, By32 Writing 0x00000933 true);
  ("instruction::reg2str", 20%nat, By32 Writing 0x000009b3 true);
  ("instruction::reg2str", 21%nat, By32 Writing 0x00000a33 true);
  ("instruction::reg2str", 22%nat, By32 Writing 0x00000ab3 true);
  ("instruction::reg2str", 23%nat, By32 Writing 0x00000b33 true);
  ("instruction::reg2str", 24%nat, By32 Writing 0x00000bb3 true);
  ("instruction::reg2str", 25%nat, By32 Writing 0x00000c33 true);
  ("instruction::reg2str", 26%nat, By32 Writing 0x00000cb3 true);
  ("instruction::reg2str", 27%nat, By32 Writing 0x00000d33 true);
  ("instruction::reg2str", 28%nat, By32 Writing 0x00000db3 true);
  ("instruction::reg2str", 29%nat, By32 Writing 0x00000e33 true);
  ("instruction::reg2str", 30%nat, By32 Writing 0x00000eb3 true);
  ("instruction::reg2str", 31%nat, By32 Writing 0x00000f33 true);
  ("instruction::reg2str", 32%nat, By32 Writing 0x00000fb3 true);
  ("OpcodeKind.fmt", 0%nat, By32 Writing 0x00000033 true);
  ("OpcodeKind.fmt", 1%nat, By32 Writing 0x00000033 true);
  ("OpcodeKind.fmt", 2%nat, By32 Writing 0x02006033 true);
  ("OpcodeKind.fmt", 3%nat, By32 Writing 0x0012b2af true);
  ("OpcodeKind.fmt", 4%nat, By16 Writing 0x0001 true);
  ("OpcodeKind.fmt", 5%nat, By32 Writing 0x0050828f true);
  ("OpcodeKind.fmt", 6%nat, By32 Writing 0x0040200f true);
  ("OpcodeKind.fmt", 7%nat, By32 Writing 0x00001073 true);
  ("OpcodeKind.fmt", 8%nat, By32 Writing 0x484ab0af true);
  ("OpcodeKind.fmt", 9%nat, By32 Writing 0xc0002073 true);
  ("OpcodeKind.fmt", 10%nat, By32 Writing 0x10200073 true);
  ("OpcodeKind.get_format", 0%nat, By32 Decoding 0x00000033 true);
  ("OpcodeKind.get_format", 1%nat, By32 Decoding 0x00000033 true);
  ("OpcodeKind.get_format", 2%nat, By32 Decoding 0x02006033 true);
  ("OpcodeKind.get_format", 3%nat, By32 Decoding 0x0012b2af true);
  ("OpcodeKind.get_format", 4%nat, By16 Decoding 0x0001 true);
  ("OpcodeKind.get_format", 5%nat, By32 Decoding 0x0050828f true);
  ("OpcodeKind.get_format", 6%nat, By32 Decoding 0x0040200f true);
  ("OpcodeKind.get_format", 7%nat, By32 Decoding 0x00001073 true);
  ("OpcodeKind.get_format", 8%nat, By32 Decoding 0x484ab0af true);
  ("OpcodeKind.get_format", 9%nat, By32 Decoding 0xc0002073 true);
  ("OpcodeKind.get_format", 10%nat, By32 Decoding 0x10200073 true);
  ("AOpcode.fmt", 0%nat, By32 Writing 0x0012b2af true);
  ("AOpcode.fmt", 1%nat, By32 Writing 0x1002a0af true);
  ("AOpcode.fmt", 2%nat, By32 Writing 0x1852a02f true);
  ("AOpcode.fmt", 3%nat, By32 Writing 0x083a202f true);
  ("AOpcode.fmt", 4%nat, By32 Writing 0x00e022af true);
  ("AOpcode.fmt", 5%nat, By32 Writing 0x2180202f true);
  ("AOpcode.fmt", 6%nat, By32 Writing 0x6020262f true);
  ("AOpcode.fmt", 7%nat, By32 Writing 0x40202daf true);
  ("AOpcode.fmt", 8%nat, By32 Writing 0x8172a2af true);
  ("AOpcode.fmt", 9%nat, By32 Writing 0xa03e202f true);
  ("AOpcode.fmt", 10%nat, By32 Writing 0xc012a2af true);
  ("AOpcode.fmt", 11%nat, By32 Writing 0xe020a02f true);
  ("AOpcode.fmt", 12%nat, By32 Writing 0x1190b02f true);
  ("AOpcode.fmt", 13%nat, By32 Writing 0x18203b2f true);
  ("AOpcode.fmt", 14%nat, By32 Writing 0x0822b92f true);
  ("AOpcode.fmt", 15%nat, By32 Writing 0x0012b2af true);
  ("AOpcode.fmt", 16%nat, By32 Writing 0x216030af true);
  ("AOpcode.fmt", 17%nat, By32 Writing 0x6050b2af true);
  ("AOpcode.fmt", 18%nat, By32 Writing 0x4010b0af true);
  ("AOpcode.fmt", 19%nat, By32 Writing 0x804037af true);
  ("AOpcode.fmt", 20%nat, By32 Writing 0xa01032af true);
  ("AOpcode.fmt", 21%nat, By32 Writing 0xc050372f true);
  ("AOpcode.fmt", 22%nat, By32 Writing 0xe020b02f true);
  ("AOpcode.get_format", 0%nat, By32 Decoding 0x0012b2af true);
  ("AOpcode.get_format", 1%nat, By32 Decoding 0x1002a0af true);
  ("AOpcode.get_format", 2%nat, By32 Decoding 0x0012b2af true);
  ("BaseIOpcode.fmt", 0%nat, By32 Writing 0x00000033 true);
  ("BaseIOpcode.fmt", 1%nat, By32 Writing 0x000a32b7 true);
  ("BaseIOpcode.fmt", 2%nat, By32 Writing 0x00004017 true);
  ("BaseIOpcode.fmt", 3%nat, By32 Writing 0x0010906f true);
  ("BaseIOpcode.fmt", 4%nat, By32 Writing 0x00105f67 true);
  ("BaseIOpcode.fmt", 5%nat, By32 Writing 0x001282e3 true);
  ("BaseIOpcode.fmt", 6%nat, By32 Writing 0x001010e3 true);
  ("BaseIOpcode.fmt", 7%nat, By32 Writing 0x00304463 true);
  ("BaseIOpcode.fmt", 8%nat, By32 Writing 0x0032d0e3 true);
  ("BaseIOpcode.fmt", 9%nat, By32 Writing 0x0000ec63 true);
  ("BaseIOpcode.fmt", 10%nat, By32 Writing 0x0000f2e3 true);
  ("BaseIOpcode.fmt", 11%nat, By32 Writing 0x01f00003 true);
  ("BaseIOpcode.fmt", 12%nat, By32 Writing 0x00201083 true);
  ("BaseIOpcode.fmt", 13%nat, By32 Writing 0x0056a003 true);
  ("BaseIOpcode.fmt", 14%nat, By32 Writing 0x01f2c083 true);
  ("BaseIOpcode.fmt", 15%nat, By32 Writing 0x00305283 true);
  ("BaseIOpcode.fmt", 16%nat, By32 Writing 0x002c8023 true);
  ("BaseIOpcode.fmt", 17%nat, By32 Writing 0x002c92a3 true);
  ("BaseIOpcode.fmt", 18%nat, By32 Writing 0x00102023 true);
  ("BaseIOpcode.fmt", 19%nat, By32 Writing 0x00008293 true);
  ("BaseIOpcode.fmt", 20%nat, By32 Writing 0x01b2a013 true);
  ("BaseIOpcode.fmt", 21%nat, By32 Writing 0x00533293 true);
  ("BaseIOpcode.fmt", 22%nat, By32 Writing 0x0022c293 true);
  ("BaseIOpcode.fmt", 23%nat, By32 Writing 0x0000e093 true);
  ("BaseIOpcode.fmt", 24%nat, By32 Writing 0x0016f113 true);
  ("BaseIOpcode.fmt", 25%nat, By32 Writing 0x00129293 true);
  ("BaseIOpcode.fmt", 26%nat, By32 Writing 0x0002d093 true);
  ("BaseIOpcode.fmt", 27%nat, By32 Writing 0x40345813 true);
  ("BaseIOpcode.fmt", 28%nat, By32 Writing 0x00000033 true);
  ("BaseIOpcode.fmt", 29%nat, By32 Writing 0x40340033 true);
  ("BaseIOpcode.fmt", 30%nat, By32 Writing 0x00029933 true);
  ("BaseIOpcode.fmt", 31%nat, By32 Writing 0x0040a033 true);
  ("BaseIOpcode.fmt", 32%nat, By32 Writing 0x0040b7b3 true);
  ("BaseIOpcode.fmt", 33%nat, By32 Writing 0x00104633 true);
  ("BaseIOpcode.fmt", 34%nat, By32 Writing 0x0017d0b3 true);
  ("BaseIOpcode.fmt", 35%nat, By32 Writing 0x4020d2b3 true);
  ("BaseIOpcode.fmt", 36%nat, By32 Writing 0x0000ebb3 true);
  ("BaseIOpcode.fmt", 37%nat, By32 Writing 0x0000fb33 true);
  ("BaseIOpcode.fmt", 38%nat, By32 Writing 0x00000073 true);
  ("BaseIOpcode.fmt", 39%nat, By32 Writing 0x00100073 true);
  ("BaseIOpcode.fmt", 40%nat, By32 Writing 0x0032e083 true);
  ("BaseIOpcode.fmt", 41%nat, By32 Writing 0x01a03703 true);
  ("BaseIOpcode.fmt", 42%nat, By32 Writing 0x00203023 true);
  ("BaseIOpcode.fmt", 43%nat, By32 Writing 0x0008829b true);
  ("BaseIOpcode.fmt", 44%nat, By32 Writing 0x0040129b true);
  ("BaseIOpcode.fmt", 45%nat, By32 Writing 0x0022d89b true);
  ("BaseIOpcode.fmt", 46%nat, By32 Writing 0x4040529b true);
  ("BaseIOpcode.fmt", 47%nat, By32 Writing 0x005280bb true);
  ("BaseIOpcode.fmt", 48%nat, By32 Writing 0x400288bb true);
  ("BaseIOpcode.fmt", 49%nat, By32 Writing 0x0032903b true);
  ("BaseIOpcode.fmt", 50%nat, By32 Writing 0x0020d03b true);
  ("BaseIOpcode.fmt", 51%nat, By32 Writing 0x404b563b true);
  ("BaseIOpcode.get_format", 0%nat, By32 Decoding 0x00000033 true);
  ("BaseIOpcode.get_format", 1%nat, By32 Decoding 0x0000ec63 true);
  ("BaseIOpcode.get_format", 2%nat, By32 Decoding 0x00008293 true);
  ("BaseIOpcode.get_format", 3%nat, By32 Decoding 0x0002d093 true);
  ("BaseIOpcode.get_format", 4%nat, By32 Decoding 0x00000033 true);
  ("BaseIOpcode.get_format", 5%nat, By32 Decoding 0x00102023 true);
  ("BaseIOpcode.get_format", 6%nat, By32 Decoding 0x0010906f true);
  ("BaseIOpcode.get_format", 7%nat, By32 Decoding 0x00004017 true);
  ("BaseIOpcode.get_format", 8%nat, By32 Decoding 0x00000073 true);
  ("COpcode.fmt", 0%nat, By16 Writing 0x0001 true);
  ("COpcode.fmt", 1%nat, By16 Writing 0x0004 true);
  ("COpcode.fmt", 2%nat, By16 Writing 0x4000 true);
  ("COpcode.fmt", 3%nat, By16 Writing 0xc000 true);
  ("COpcode.fmt", 4%nat, By16 Writing 0x0001 true);
  ("COpcode.fmt", 5%nat, By16 Writing 0x0081 true);
  ("COpcode.fmt", 6%nat, By16 Writing 0x2001 false);
  ("COpcode.fmt", 7%nat, By16 Writing 0x4001 true);
  ("COpcode.fmt", 8%nat, By16 Writing 0x6101 true);
  ("COpcode.fmt", 9%nat, By16 Writing 0x6001 true);
  ("COpcode.fmt", 10%nat, By16 Writing 0x8001 true);
  ("COpcode.fmt", 11%nat, By16 Writing 0x8401 true);
  ("COpcode.fmt", 12%nat, By16 Writing 0x8a01 true);
  ("COpcode.fmt", 13%nat, By16 Writing 0x8c01 true);
  ("COpcode.fmt", 14%nat, By16 Writing 0x8c21 true);
  ("COpcode.fmt", 15%nat, By16 Writing 0x8c41 true);
  ("COpcode.fmt", 16%nat, By16 Writing 0x8c61 true);
  ("COpcode.fmt", 17%nat, By16 Writing 0xa001 true);
  ("COpcode.fmt", 18%nat, By16 Writing 0xc001 true);
  ("COpcode.fmt", 19%nat, By16 Writing 0xe001 true);
  ("COpcode.fmt", 20%nat, By16 Writing 0x0002 true);
  ("COpcode.fmt", 21%nat, By16 Writing 0x4002 true);
  ("COpcode.fmt", 22%nat, By16 Writing 0x8002 true);
  ("COpcode.fmt", 23%nat, By16 Writing 0x8006 true);
  ("COpcode.fmt", 24%nat, By16 Writing 0x9002 true);
  ("COpcode.fmt", 25%nat, By16 Writing 0x9082 true);
  ("COpcode.fmt", 26%nat, By16 Writing 0x9086 true);
  ("COpcode.fmt", 27%nat, By16 Writing 0xc002 true);
  ("COpcode.fmt", 28%nat, By16 Writing 0x6000 true);
  ("COpcode.fmt", 29%nat, By16 Writing 0xe000 true);
  ("COpcode.fmt", 30%nat, By16 Writing 0x2001 true);
  ("COpcode.fmt", 31%nat, By16 Writing 0x9c01 true);
  ("COpcode.fmt", 32%nat, By16 Writing 0x9c21 true);
  ("COpcode.fmt", 33%nat, By16 Writing 0x6002 true);
  ("COpcode.fmt", 34%nat, By16 Writing 0xe002 true);
  ("COpcode.get_format", 0%nat, By16 Decoding 0x0001 true);
  ("COpcode.get_format", 1%nat, By16 Decoding 0x4000 true);
  ("COpcode.get_format", 2%nat, By16 Decoding 0x0004 true);
  ("COpcode.get_format", 3%nat, By16 Decoding 0xc000 true);
  ("COpcode.get_format", 4%nat, By16 Decoding 0x2001 false);
  ("COpcode.get_format", 5%nat, By16 Decoding 0x8001 true);
  ("COpcode.get_format", 6%nat, By16 Decoding 0x0081 true);
  ("COpcode.get_format", 7%nat, By16 Decoding 0x0001 true);
  ("COpcode.get_format", 8%nat, By16 Decoding 0x8c01 true);
  ("COpcode.get_format", 9%nat, By16 Decoding 0x0002 true);
  ("COpcode.get_format", 10%nat, By16 Decoding 0xc002 true);
  ("COpcode.get_format", 11%nat, By16 Decoding 0x8002 true);
  ("COpcode.get_format", 12%nat, By16 Decoding 0x9002 true);
  ("MOpcode.fmt", 0%nat, By32 Writing 0x02006033 true);
  ("MOpcode.fmt", 1%nat, By32 Writing 0x024881b3 true);
  ("MOpcode.fmt", 2%nat, By32 Writing 0x021099b3 true);
  ("MOpcode.fmt", 3%nat, By32 Writing 0x0200a2b3 true);
  ("MOpcode.fmt", 4%nat, By32 Writing 0x02103033 true);
  ("MOpcode.fmt", 5%nat, By32 Writing 0x024044b3 true);
  ("MOpcode.fmt", 6%nat, By32 Writing 0x0202d2b3 true);
  ("MOpcode.fmt", 7%nat, By32 Writing 0x02006033 true);
  ("MOpcode.fmt", 8%nat, By32 Writing 0x0252f033 true);
  ("MOpcode.fmt", 9%nat, By32 Writing 0x021000bb true);
  ("MOpcode.fmt", 10%nat, By32 Writing 0x0200c2bb true);
  ("MOpcode.fmt", 11%nat, By32 Writing 0x024d52bb true);
  ("MOpcode.fmt", 12%nat, By32 Writing 0x02306f3b true);
  ("MOpcode.fmt", 13%nat, By32 Writing 0x0232f03b true);
  ("MOpcode.get_format", 0%nat, By32 Decoding 0x02006033 true);
  ("MOpcode.get_format", 1%nat, By32 Decoding 0x02006033 true);
  ("PrivOpcode.fmt", 0%nat, By32 Writing 0x10200073 true);
  ("PrivOpcode.fmt", 1%nat, By32 Writing 0x10200073 true);
  ("PrivOpcode.fmt", 2%nat, By32 Writing 0x30200073 true);
  ("PrivOpcode.fmt", 3%nat, By32 Writing 0x10500073 true);
  ("PrivOpcode.fmt", 4%nat, By32 Naming 0x12000073 true);
  ("PrivOpcode.get_format", 0%nat, By32 Decoding 0x10200073 true);
  ("PrivOpcode.get_format", 1%nat, By32 Decoding 0x10200073 true);
  ("PrivOpcode.get_format", 2%nat, By32 Decoding 0x12000073 true);
  ("ZicbozOpcode.fmt", 0%nat, By32 Writing 0x0040200f true);
  ("ZicbozOpcode.fmt", 1%nat, By32 Writing 0x0040200f true);
  ("ZicbozOpcode.get_format", 0%nat, By32 Decoding 0x0040200f true);
  ("ZicbozOpcode.get_format", 1%nat, By32 Decoding 0x0040200f true);
  ("ZicfissOpcode.fmt", 0%nat, By32 Writing 0x484ab0af true);
  ("ZicfissOpcode.fmt", 1%nat, By32 Writing 0xce104073 true);
  ("ZicfissOpcode.fmt", 2%nat, By16 Naming 0x6081 true);
  ("ZicfissOpcode.fmt", 3%nat, By32 Naming 0xcdc0c073 true);
  ("ZicfissOpcode.fmt", 4%nat, By16 Naming 0x6281 true);
  ("ZicfissOpcode.fmt", 5%nat, By32 Writing 0xcdc04073 true);
  ("ZicfissOpcode.fmt", 6%nat, By32 Writing 0x4850a5af true);
  ("ZicfissOpcode.fmt", 7%nat, By32 Writing 0x484ab0af true);
  ("ZicfissOpcode.get_format", 0%nat, By32 Decoding 0x484ab0af true);
  ("ZicfissOpcode.get_format", 1%nat, By32 Decoding 0xce104073 true);
  ("ZicfissOpcode.get_format", 2%nat, By32 Decoding 0xcdc0c073 true);
  ("ZicfissOpcode.get_format", 3%nat, By32 Decoding 0xcdc04073 true);
  ("ZicfissOpcode.get_format", 4%nat, By32 Decoding 0x484ab0af true);
  ("ZicfissOpcode.get_format", 5%nat, By16 Decoding 0x6081 true);
  ("ZicntrOpcode.fmt", 0%nat, By32 Writing 0xc0002073 true);
  ("ZicntrOpcode.fmt", 1%nat, By32 Writing 0xc8002073 true);
  ("ZicntrOpcode.fmt", 2%nat, By32 Writing 0xc8102073 true);
  ("ZicntrOpcode.fmt", 3%nat, By32 Writing 0xc8202073 true);
  ("ZicntrOpcode.fmt", 4%nat, By32 Writing 0xc0002073 true);
  ("ZicntrOpcode.fmt", 5%nat, By32 Writing 0xc0102073 true);
  ("ZicntrOpcode.fmt", 6%nat, By32 Writing 0xc0202073 true);
  ("ZicntrOpcode.get_format", 0%nat, By32 Decoding 0xc0002073 true);
  ("ZicntrOpcode.get_format", 1%nat, By32 Decoding 0xc0002073 true);
  ("ZicsrOpcode.fmt", 0%nat, By32 Writing 0x00001073 true);
  ("ZicsrOpcode.fmt", 1%nat, By32 Writing 0x00001073 true);
  ("ZicsrOpcode.fmt", 2%nat, By32 Writing 0x00002073 true);
  ("ZicsrOpcode.fmt", 3%nat, By32 Writing 0x00003073 true);
  ("ZicsrOpcode.fmt", 4%nat, By32 Writing 0x00005073 true);
  ("ZicsrOpcode.fmt", 5%nat, By32 Writing 0x00006073 true);
  ("ZicsrOpcode.fmt", 6%nat, By32 Writing 0x00007073 true);
  ("ZicsrOpcode.get_format", 0%nat, By32 Decoding 0x00001073 true);
  ("ZicsrOpcode.get_format", 1%nat, By32 Decoding 0x00001073 true);
  ("ZicsrOpcode.get_format", 2%nat, By32 Decoding 0x00005073 true);
  ("ZifenceiOpcode.fmt", 0%nat, By32 Writing 0x0050828f true);
  ("ZifenceiOpcode.fmt", 1%nat, By32 Writing 0x0050828f true);
  ("ZifenceiOpcode.get_format", 0%nat, By32 Decoding 0x0050828f true);
  ("ZifenceiOpcode.get_format", 1%nat, By32 Decoding 0x0050828f true)
].
