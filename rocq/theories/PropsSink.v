(** C54: Display with any formatting options and any sink. *)
From Coq Require Import ZArith String Ascii List Bool.
From Verif Require Import Rust Types Fmt FmtSink SpecSink.
From Verif Require SinkOk.
Import ListNotations.
Local Open Scope list_scope.

(** The options given by the caller have no effect, a panic comes before anything is written, and
    otherwise the text is written piece by piece until the sink refuses one. *)
Theorem C54_any_sink :
  (forall i,
    (exists why, Instruction_display i = Panic why /\
       forall o T (k : sink T) t, Instruction_fmt k i o t = (t, Panic why)) \/
    (exists pieces, Instruction_display i = Ret (joined pieces) /\
       forall o T (k : sink T) t, Instruction_fmt k i o t = feed k pieces t)) /\
  (forall op, exists pieces, OpcodeKind_display op = joined pieces /\
       forall o T (k : sink T) t, OpcodeKind_fmt k op o t = feed k pieces t).
Proof. exact SinkOk.any_sink. Qed.
Print Assumptions C54_any_sink.

(** What is stored is a prefix of the text, and all of it on success. *)
Theorem C54_stored : forall T (k : sink T) content, stores k content -> forall i o t,
  let (t', r) := Instruction_fmt k i o t in
  match Instruction_display i with
  | Panic why => t' = t /\ r = Panic why
  | Ret text => exists u v, text = (u ++ v)%string /\ content t' = (content t ++ u)%string /\
      (r = Ret true /\ v = ""%string \/ r = Ret false)
  end.
Proof. exact SinkOk.stored. Qed.
Print Assumptions C54_stored.

(** A [String] receives the text; a buffer of [n] bytes receives the first [n] bytes of it. *)
Theorem C54_buffers : forall i text, Instruction_display i = Ret text -> forall o,
  (forall t, Instruction_fmt unlimited i o t = ((t ++ text)%string, Ret true)) /\
  (forall n, Instruction_fmt (buffer n) i o ""%string =
     (substring 0 n text, Ret (String.length text <=? n)%nat)).
Proof. exact SinkOk.buffers. Qed.
Print Assumptions C54_buffers.

(** lui a0, 0xfffff with [{:>30}], in a buffer of ten bytes and in one that is large enough; a storing
    sink. *)
Example C54_case :
  let i := {| opc := OBaseI I_LUI; rd := Some 10%Z; rs1 := None; rs2 := None; imm := Some 0xfffff%Z;
              inst_format := UFormat; is_compressed := false |} in
  let o := {| fill := " "%char; align := Some ARight; width := Some 30%Z; precision := None;
              sign_plus := false; alternate := true; zero_pad := false; debug_hex := None |} in
  Instruction_fmt (buffer 10) i o ""%string = ("lui a0, 0x"%string, Ret false) /\
  Instruction_fmt (buffer 15) i o ""%string = ("lui a0, 0xfffff"%string, Ret true) /\
  Instruction_fmt unlimited i o "> "%string = ("> lui a0, 0xfffff"%string, Ret true) /\
  OpcodeKind_fmt unlimited (opc i) o ""%string = ("lui"%string, Ret true) /\
  pad unlimited "lui"%string o ""%string = ("                           lui"%string, Ret true) /\
  stores unlimited (fun t => t) /\ stores (buffer 10) (fun t => t).
Proof.
  repeat split; try (vm_compute; reflexivity); [exact SinkOk.unlimited_stores|exact (SinkOk.buffer_stores 10)].
Qed.
