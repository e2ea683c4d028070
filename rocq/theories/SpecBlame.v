(** What the documentation of [DecodingError] (src/decode.rs:47-68) says about the fields of a word:
    "It has unexpected Funct3 value" etc., "Has an opcode that cannot be decoded". *)
From Coq Require Import ZArith List Bool.
From Verif Require Import Rust Types Decode.
Import ListNotations.
Local Open Scope Z_scope.

(** The field an error names: the opcode is bits 6..0, funct3 bits 14..12, funct5 bits 24..20 (src/decode/base_i.rs:10),
    funct6 bits 31..26, funct7 bits 31..25. *)
Definition named (e : DecodingError) : Z :=
  match e with
  | InvalidOpcode => 0x7F
  | InvalidFunct3 => 0x7000
  | InvalidFunct5 => 0x1F00000
  | InvalidFunct6 => 0xFC000000
  | InvalidFunct7 => 0xFE000000
  | _ => 0
  end.
Definition blamable : list DecodingError :=
  [InvalidOpcode; InvalidFunct3; InvalidFunct5; InvalidFunct6; InvalidFunct7].

(** The field together with the ones that say which table it is looked up in: funct3 is looked up by opcode,
    funct6 and funct7 by opcode and funct3, funct5 by opcode, funct3 and funct7. *)
Definition looked_up (e : DecodingError) : Z :=
  match e with
  | InvalidOpcode => 0x7F
  | InvalidFunct3 => 0x707F
  | InvalidFunct5 => 0xFFF0707F
  | InvalidFunct6 => 0xFC00707F
  | InvalidFunct7 => 0xFE00707F
  | _ => 0
  end.
(** In a half-word: bits 15..13 and 1..0. *)
Definition looked_up16 : Z := 0xE003.

(** The same bits at the positions set in [mask]; the same bits everywhere else. *)
Definition same_in (mask w w' : Z) : Prop := Z.land w mask = Z.land w' mask.
Definition same_but (mask w w' : Z) : Prop := Z.ldiff w mask = Z.ldiff w' mask.

(** No word with the same bits there is decoded. *)
Definition hopeless (p : platform) (isa : Isa) (mask w : Z) : Prop :=
  forall w' i, 0 <= w' < 2 ^ 32 -> same_in mask w w' -> decode_u32 p w' isa <> Ret (Ok i).
Definition hopeless16 (p : platform) (isa : Isa) (mask w : Z) : Prop :=
  forall w' i, 0 <= w' < 2 ^ 16 -> same_in mask w w' -> decode_u16 p w' isa <> Ret (Ok i).
(** Some word that differs only there is decoded. *)
Definition curable (p : platform) (isa : Isa) (mask w : Z) : Prop :=
  exists w' i, 0 <= w' < 2 ^ 32 /\ same_but mask w w' /\ decode_u32 p w' isa = Ret (Ok i).

(** The words where the error is not about the value of the field. *)
Definition opcode_is (w v : Z) : Prop := Z.land w 0x7F = v.
Definition funct3_is (w v : Z) : Prop := Z.land w 0x7000 = v * 2 ^ 12.
Definition funct7_is (w v : Z) : Prop := Z.land w 0xFE000000 = v * 2 ^ 25.
Definition misplaced (isa : Isa) (e : DecodingError) (w : Z) : Prop :=
  match e with
  (* words like cbo.zero, and shadow stack instructions that do not exist *)
  | InvalidOpcode => opcode_is w 0x0F \/ opcode_is w 0x73
  (* OP-32: a funct3 that goes with another funct7 *)
  | InvalidFunct3 => isa = Rv64 /\ opcode_is w 0x3B /\ ~ (funct3_is w 2 \/ funct3_is w 3)
  (* words like sret, mret, wfi *)
  | InvalidFunct7 => opcode_is w 0x73 /\ (funct7_is w 0x08 \/ funct7_is w 0x18)
  | _ => False
  end.
(** In a half-word: the C.SUB group. *)
Definition misplaced16 (w : Z) : Prop := Z.land w 0xE003 = 0x8001.
(** OP-IMM-32 and OP-32 do not exist on RV32. *)
Definition incurable (isa : Isa) (w : Z) : Prop := isa = Rv32 /\ (opcode_is w 0x1B \/ opcode_is w 0x3B).
