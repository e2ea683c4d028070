(** C56: Debug with any formatting options and any sink. *)
From Coq Require Import ZArith String Ascii List Bool.
From Verif Require Import Rust Types Decode Fmt FmtSink Debug DebugSink SpecText SpecSink SpecDebug SpecDebugSink SpecApi.
From Verif Require Text DebugSinkOk2.
Import ListNotations.
Local Open Scope list_scope.
Local Open Scope Z_scope.

(** What is written does not depend on the sink, which receives it piece by piece until it refuses
    one; the pieces joined are the text with the numbers and the [bool] as the options say. *)
Theorem C56_debug_any_formatter :
  (forall o i, exists pieces,
     (forall T (k : sink T) t, Instruction_debug_fmt k i o t = feed k pieces t) /\
     (sized i -> usable o -> (alternate o = true -> fill o <> ascii_of_nat 10) ->
        exists l, fields_with o i l /\ joined pieces = debug_text o l)) /\
  (forall o r, exists pieces,
     (forall T (k : sink T) t, decode_debug_fmt k r o t = feed k pieces t) /\
     ((forall i, r = Ok i -> sized i) -> usable o -> (alternate o = true -> fill o <> ascii_of_nat 10) ->
        match r with
        | Ok i => exists l, fields_with o i l /\ joined pieces = ok_text o l
        | Err e => joined pieces = err_text o e
        end)) /\
  (forall o i l l', sized i -> usable o -> fields_with o i l -> fields_with o i l' -> l = l') /\
  (forall i, decoded i -> sized i).
Proof.
  exact (conj DebugSinkOk2.debug_pieces (conj DebugSinkOk2.decode_pieces (conj DebugSinkOk2.fields_one_with
    DebugSinkOk2.decoded_sized))).
Qed.
Print Assumptions C56_debug_any_formatter.

(** Without width, precision, + and x the text is that of C46. *)
Theorem C56_debug_default : forall o i t,
  width o = None -> precision o = None -> sign_plus o = false -> debug_hex o = None ->
  (alternate o = true -> fill o <> ascii_of_nat 10) ->
  Instruction_debug_fmt unlimited i o t =
    ((t ++ if alternate o then pretty 0 (Instruction_debug i) else compact (Instruction_debug i))%string, Ret true).
Proof. exact DebugSinkOk2.plain_debug. Qed.
Print Assumptions C56_debug_default.

(** The text identifies the instruction if the fill character cannot be taken for a part of it and
    nothing is cut off; both conditions are needed. *)
Theorem C56_debug_identifies :
  (forall o i j l, neutral (fill o) -> precision o = None -> sized i -> sized j ->
     fields_with o i l -> forall l', fields_with o j l' -> debug_text o l = debug_text o l' -> i = j) /\
  (exists o i j, fill o = " "%char /\ sized i /\ sized j /\ i <> j /\
     Instruction_debug_fmt unlimited i o ""%string = Instruction_debug_fmt unlimited j o ""%string) /\
  (exists o i j, precision o = None /\ sized i /\ sized j /\ i <> j /\
     Instruction_debug_fmt unlimited i o ""%string = Instruction_debug_fmt unlimited j o ""%string).
Proof. exact (conj DebugSinkOk2.debug_text_inj DebugSinkOk2.not_one_to_one). Qed.
Print Assumptions C56_debug_identifies.

(** addi t0, t0, -276 with [{:#06X?}], [{:*^7.2?}] and, in a buffer of 40 bytes, [{:+?}]. *)
Example C56_case : exists i, decode_u32 Text.plat 0xEEC28293 Rv64 = Ret (Ok i) /\ decoded i /\
  let o1 := {| fill := " "; align := None; width := Some 6; precision := None; sign_plus := false;
               alternate := true; zero_pad := true; debug_hex := Some Upper |} in
  let o2 := {| fill := "*"; align := Some ACenter; width := Some 7; precision := Some 2; sign_plus := false;
               alternate := false; zero_pad := false; debug_hex := None |} in
  let o3 := {| fill := " "; align := None; width := None; precision := None; sign_plus := true;
               alternate := false; zero_pad := false; debug_hex := None |} in
  Instruction_debug_fmt unlimited i o1 ""%string = (text_of_lines
    ["Instruction {"; "    opc: BaseI("; "        ADDI,"; "    ),"; "    rd: Some("; "        0x0005,"; "    ),";
     "    rs1: Some("; "        0x0005,"; "    ),"; "    rs2: None,"; "    imm: Some("; "        0xFFFFFEEC,"; "    ),";
     "    inst_format: IFormat,"; "    is_compressed: false ,"; "}"]%string, Ret true) /\
  Instruction_debug_fmt unlimited i o2 ""%string = (("Instruction { opc: BaseI(ADDI), rd: Some(***5***), "
    ++ "rs1: Some(***5***), rs2: None, imm: Some(*-276**), inst_format: IFormat, is_compressed: **fa*** }")%string, Ret true) /\
  Instruction_debug_fmt (buffer 40) i o3 ""%string =
    ("Instruction { opc: BaseI(ADDI), rd: Some"%string, Ret false) /\
  usable o2 /\ neutral (fill o2) /\ fill o2 <> ascii_of_nat 10.
Proof.
  eexists. split; [vm_compute; reflexivity|]. split.
  - exists Text.plat, Rv64, 0xEEC28293. split; [exact Text.plat_ok|]. left. split; [vm_compute; split; congruence|vm_compute; reflexivity].
  - cbv zeta. split; [vm_compute; reflexivity|]. split; [vm_compute; reflexivity|]. split; [vm_compute; reflexivity|].
    split; [intros m M; injection M as <-; discriminate|]. split; [|discriminate].
    split; [|discriminate]. cbn. intuition discriminate.
Qed.
