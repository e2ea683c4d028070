(** C30-C34, C39: text and equality.
    [decoded i]: [i] is a result of a decoder.  [reads_as t i s]: the text [s] consists of the pieces
    [t], each read as the value of the operand it stands for. *)
From Coq Require Import ZArith List Bool String.
From Verif Require Import Rust Types Decode Fmt PartialEq Spec SpecOps SpecText SpecApi.
From Verif Require Util Plat Rows Rows2 Operands Api PartialEqOk Numerals Text Text2 Findings Claims Tight.
Import ListNotations.
Local Open Scope list_scope.
Local Open Scope Z_scope.

(** ** C30 *)

(** Missing: the opcodes of [unprintable] must be printed; they panic.  Proved: exactly those do. *)
Theorem C30_display_never_panics_partial : forall i, decoded i ->
  ((exists why, Instruction_display i = Panic why) <-> In (opc i) unprintable).
Proof. exact Text.display_panics. Qed.
Print Assumptions C30_display_never_panics_partial.

Theorem C30_display_never_panics_refuted : forall op, In op unprintable ->
  exists i why, decoded i /\ opc i = op /\ Instruction_display i = Panic why.
Proof. exact Findings.display_refuted. Qed.
Print Assumptions C30_display_never_panics_refuted.

Definition addi : Instruction :=
  {| opc := OBaseI I_ADDI; rd := Some 5; rs1 := Some 5; rs2 := None; imm := Some (-276);
     inst_format := IFormat; is_compressed := false |}.
Example addi_decoded : decoded addi.
Proof. apply (Text.dec_decoded (Text.W32 0xEEC28293)); vm_compute; reflexivity. Qed.
Example C30_case : decoded addi /\ ~ In (opc addi) unprintable /\
  Instruction_display addi = Ret "addi t0, t0, -276"%string.
Proof.
  split; [exact addi_decoded|]. split; [|vm_compute; reflexivity].
  cbn. intros H. repeat (destruct H as [H|H]; [discriminate H|]). destruct H.
Qed.

(** ** C31 *)

(** Missing: conformance of the opcodes not in [as_documented].  Proved: for every opcode, all its
    instructions conform exactly if it is in [as_documented]; and, for all, what is printed instead. *)
Theorem C31_documented_syntax_partial :
  (forall op, (forall i, decoded i -> opc i = op -> conforms i) <-> In op as_documented) /\
  (forall i t s, decoded i -> printed (opc i) = Some t ->
     (Instruction_display i = Ret s <->
      exists rest, s = (OpcodeKind_display (opc i) ++ rest)%string /\ reads_as t i rest)).
Proof. exact (conj Text2.conforms_exact Text.display_reads). Qed.
Print Assumptions C31_documented_syntax_partial.

(** sw a0, 4(sp) is printed as sw sp, 4(a0). *)
Theorem C31_documented_syntax_refuted : exists i, decoded i /\ opc i = OBaseI I_SW /\ ~ conforms i.
Proof. exact Claims.conforms_refuted. Qed.
Print Assumptions C31_documented_syntax_refuted.

Example C31_case : decoded addi /\ In (opc addi) as_documented /\ printed (opc addi) = Some rri.
Proof. split; [exact addi_decoded|]. split; [cbn; tauto|reflexivity]. Qed.

(** ** C32 *)

(** Missing: the two opcodes with an [odd_mnemonic].  [spelled] is the manual's mnemonic up to case:
    the crate prints C.addi etc. *)
Theorem C32_mnemonics_partial :
  (forall op, odd_mnemonic op = None ->
     OpcodeKind_display op = spelled op /\ lower (spelled op) = mnemonic op) /\
  (forall op s, odd_mnemonic op = Some s -> OpcodeKind_display op = s /\ lower s <> mnemonic op) /\
  (forall op op', OpcodeKind_display op = OpcodeKind_display op' -> op = op').
Proof. exact (conj Tight.mnemonic_spelled (conj Text2.mnemonic_odd Text2.display_inj)). Qed.
Print Assumptions C32_mnemonics_partial.

Theorem C32_mnemonics_refuted : exists op, lower (OpcodeKind_display op) <> mnemonic op.
Proof. exact Claims.mnemonic_refuted. Qed.
Print Assumptions C32_mnemonics_refuted.

Example C32_case : odd_mnemonic (OA A_AMOMINU_D) = None /\
  OpcodeKind_display (OA A_AMOMINU_D) = "amominu.d"%string.
Proof. split; reflexivity. Qed.

(** ** C33 *)

(** Missing: the opcodes of [lossy32] and [lossy16].  Proved: the text identifies the instruction
    (among all decoded ones, of either width) exactly for the other opcodes; and two instructions with
    the same text have the same opcode and agree on the operands shown. *)
Theorem C33_text_identifies_partial :
  (forall op,
     (forall i j s, decoded i -> decoded j -> opc i = op ->
        Instruction_display i = Ret s -> Instruction_display j = Ret s -> i = j) <->
     ~ In op (lossy32 ++ lossy16)) /\
  (forall i j s, decoded i -> decoded j ->
     Instruction_display i = Ret s -> Instruction_display j = Ret s ->
     opc i = opc j /\ exists t, printed (opc i) = Some t /\
       forall o, shown_in t o -> get o i = get o j).
Proof. exact (conj Text2.text_injective_exact Text2.text_determines). Qed.
Print Assumptions C33_text_identifies_partial.

(** slli a0, a0, 1 and slli a0, a0, 2. *)
Theorem C33_text_identifies_refuted : exists i j s, decoded i /\ decoded j /\
  is_compressed i = is_compressed j /\ i <> j /\
  Instruction_display i = Ret s /\ Instruction_display j = Ret s.
Proof. exact Claims.text_refuted. Qed.
Print Assumptions C33_text_identifies_refuted.

Example C33_case : decoded addi /\ ~ In (opc addi) (lossy32 ++ lossy16).
Proof.
  split; [exact addi_decoded|].
  cbn. intros H. repeat (destruct H as [H|H]; [discriminate H|]). destruct H.
Qed.

(** ** C34 *)

(** Missing: the opcodes of [unreadable].  Proved: a printable instruction is printed as the pieces
    [printed] gives for its opcode; exactly for the opcodes not in [unreadable] the registers among them
    are read by ABI name and the numbers in decimal or after 0x in hexadecimal ([readable]); names and
    numerals have one reading; and every value has one. *)
Theorem C34_operands_readable_partial :
  (forall i, decoded i -> ~ In (opc i) unprintable ->
     exists t rest, printed (opc i) = Some t /\ reads_as t i rest /\
       Instruction_display i = Ret (OpcodeKind_display (opc i) ++ rest)%string) /\
  (forall op t, printed op = Some t -> (readable op false t = true <-> ~ In op unreadable)) /\
  (forall s r r', register s r -> register s r' -> r = r') /\
  (forall r, 0 <= r < 32 -> exists s, reg2str r = Ret s /\ register s r) /\
  (forall s v v', decimal s v -> decimal s v' -> v = v') /\
  (forall s v v', - 2 ^ 31 <= v < 2 ^ 31 -> - 2 ^ 31 <= v' < 2 ^ 31 ->
     hexadecimal32 s v -> hexadecimal32 s v' -> v = v') /\
  (forall s v, decimal s v <-> s = dec_str v) /\
  (forall s v, hexadecimal32 s v <-> s = hex_i32 v).
Proof.
  exact (conj Tight.display_printed (conj Tight.readable_iff (conj Numerals.register_inj (conj Numerals.reg2str_ok
    (conj Numerals.decimal_value (conj Numerals.hexadecimal32_value
      (conj Numerals.decimal_iff Numerals.hex_i32_iff))))))).
Qed.
Print Assumptions C34_operands_readable_partial.

(** c.beqz s0, 2 is printed as C.beqz 8, 2; the immediate 16 of c.addi4spn is printed as 10. *)
Theorem C34_operands_readable_refuted :
  (exists i r n s, decoded i /\ rs1 i = Some r /\ register n r /\
     Instruction_display i = Ret s /\ ~ occurs n s) /\
  (exists i s t, decoded i /\ imm i = Some 16 /\
     Instruction_display i = Ret (s ++ ", " ++ t)%string /\ decimal t 10).
Proof. exact (conj Findings.register_refuted Findings.immediate_refuted). Qed.
Print Assumptions C34_operands_readable_refuted.

Example C34_case : decoded addi /\ ~ In (opc addi) unprintable /\ ~ In (opc addi) unreadable /\
  reads_as rri addi " t0, t0, -276"%string.
Proof.
  split; [exact addi_decoded|].
  split; [cbn; intros H; repeat (destruct H as [H|H]; [discriminate H|]); destruct H|].
  split; [cbn; intros H; repeat (destruct H as [H|H]; [discriminate H|]); destruct H|].
  exists " "%string, "t0, t0, -276"%string. split; [reflexivity|]. split; [reflexivity|].
  exists "t0"%string, ", t0, -276"%string. split; [reflexivity|].
  split; [exists 5; split; [reflexivity|split; [Lia.lia|reflexivity]]|].
  exists ", "%string, "t0, -276"%string. split; [reflexivity|]. split; [reflexivity|].
  exists "t0"%string, ", -276"%string. split; [reflexivity|].
  split; [exists 5; split; [reflexivity|split; [Lia.lia|reflexivity]]|].
  exists ", "%string, "-276"%string. split; [reflexivity|]. split; [reflexivity|].
  exists "-276"%string, ""%string. split; [reflexivity|].
  split; [exists (-276); split; [reflexivity|apply Numerals.decimal_iff; reflexivity]|reflexivity].
Qed.

(** ** C39 *)

Theorem C39_equality :
  (forall a b, Instruction_eq a b = true <->
     opc a = opc b /\ rd a = rd b /\ rs1 a = rs1 b /\ rs2 a = rs2 b /\ imm a = imm b /\
     inst_format a = inst_format b /\ is_compressed a = is_compressed b) /\
  (forall a b, Instruction_eq a b = true <-> a = b) /\
  (forall a b, OpcodeKind_eq a b = true <-> a = b) /\
  (forall a b, DecodingError_eq a b = true <-> a = b) /\
  (forall a b, InstFormat_eq a b = true <-> a = b).
Proof.
  exact (conj PartialEqOk.Instruction_eq_ok (conj PartialEqOk.Instruction_eq_iff
    (conj PartialEqOk.OpcodeKind_eq_ok (conj PartialEqOk.DecodingError_eq_ok
      PartialEqOk.InstFormat_eq_ok)))).
Qed.
Print Assumptions C39_equality.

Example C39_case : Instruction_eq addi addi = true /\ Instruction_eq addi
  {| opc := OBaseI I_ADDI; rd := Some 5; rs1 := Some 5; rs2 := None; imm := Some (-275);
     inst_format := IFormat; is_compressed := false |} = false.
Proof. split; vm_compute; reflexivity. Qed.
