(** The [Display] implementations, read from the source, write what Fmt.v says. *)
From Coq Require Import ZArith List Bool String.
From Verif Require Import Rust Types Fmt Debug SrcLink SrcSem SrcExt SrcProg SrcEmbed SrcUtil SrcDecode.
Import ListNotations.
Local Open Scope Z_scope.
Local Open Scope string_scope.

Lemma op_fmt_run p n op o :
  run crate p (S (S n)) "OpcodeKind.fmt" [of_op op; VFmt] o = writes o (Ret (OpcodeKind_display op)).
Proof. destruct op as [b|b|b|b|b|b|b|b|b|b]; destruct b; reflexivity. Qed.

Lemma reg2str_run p n r o :
  run crate p (S n) "instruction::reg2str" [VInt Usize r] o = gives VStr o (reg2str r).
Proof. rewrite run_step. norm. tests. Qed.

Lemma append_assoc (a b c : string) : (a ++ b) ++ c = a ++ (b ++ c).
Proof. induction a as [|x a IH]; cbn; [reflexivity|]. f_equal. exact IH. Qed.

(** ** [Instruction] *)

Lemma unwrap_field {A} p c (f : A -> value) x o k :
  method p c (of_option f x) "unwrap" [] o k =
  match x with Some a => k (f a) o | None => Halt (Why PUnwrap) end.
Proof. destruct x; reflexivity. Qed.

Lemma unwrap_some {A} p c (f : A -> value) a o k :
  method p c (of_option f (Some a)) "unwrap" [] o k = k (f a) o.
Proof. reflexivity. Qed.

Lemma show_text c s o k : show c "" (VStr s) o k = k (write o s).
Proof. reflexivity. Qed.
Lemma show_dec c t z o k : show c "" (VInt t z) o k = k (write o (dec_str z)).
Proof. reflexivity. Qed.
Lemma show_hex c z o k : show c "x" (VInt I32 z) o k = k (write o (hex_i32 z)).
Proof. reflexivity. Qed.
Lemma show_hex0 c z o k : show c "#x" (VInt I32 z) o k = k (write (write o "0x") (hex_i32 z)).
Proof. reflexivity. Qed.
Lemma show_uhex0 c z o k : show c "#x" (VInt Usize z) o k = k (write (write o "0x") (hex_usize z)).
Proof. reflexivity. Qed.

Local Opaque callr calls_of.

Lemma show_op p n op o k :
  show (callr p (S (S n))) "" (of_op op) o k = k (write o (OpcodeKind_display op)).
Proof.
  transitivity (callr p (S (S n)) "OpcodeKind.fmt" [of_op op; VFmt] o (fun r o' =>
    if is_variant "Result" "Ok" r then k o' else Wrong "write")).
  - destruct op; reflexivity.
  - Transparent callr calls_of. unfold callr, calls_of. rewrite op_fmt_run. reflexivity. Opaque callr calls_of.
Qed.

Ltac texts :=
  repeat (cbv beta iota; cbn [bind unwrap];
    first
    [ rewrite unwrap_some
    | rewrite unwrap_field;
      match goal with |- match ?x with Some _ => _ | None => _ end = _ =>
        destruct x; [|reflexivity] end
    | rewrite (callr_gives _ _ _ _ _ _ _ _ (reg2str_run _ _ _ _));
      match goal with
      | E : ?x = Ret _ |- match ?x with Ret _ => _ | Panic _ => _ end = _ => rewrite E
      | |- match ?x with Ret _ => _ | Panic _ => _ end = _ =>
          let E := fresh "E" in destruct x eqn:E; [|reflexivity]
      end
    | rewrite show_op | rewrite show_text | rewrite show_dec | rewrite show_hex | rewrite show_hex0
    | rewrite show_uhex0
    | (* an opcode written out *)
      match goal with |- show ?c "" (VEnum "OpcodeKind" ?x ?y) ?o ?k = ?R =>
        match R with context [OpcodeKind_display ?op] =>
          change (show c "" (of_op op) o k = R); rewrite show_op end end ]);
  try reflexivity; unfold writes, write; rewrite ?append_assoc; reflexivity.

Ltac norm_text := etransitivity; [lazy -[callr calls_of method show finish of_option of_op write]; reflexivity|].

Ltac open_text :=
  unfold of_inst; cbn [opc rd rs1 rs2 imm inst_format is_compressed];
  erewrite run_open; [|lazy -[of_op of_option of_fmt]; reflexivity|apply answers_callr];
  unfold Instruction_display, reg_arg; cbn [opc rd rs1 rs2 imm inst_format is_compressed].

(** The formats whose text has one shape. *)
Definition one_shape (f : InstFormat) : bool :=
  match f with AFormat | CrFormat | NoOperand => false | _ => true end.

Lemma fmt_one p n op d s1 s2 im f c o : one_shape f = true ->
  run crate p (S (S (S n))) "Instruction.fmt" [of_inst (Build_Instruction op d s1 s2 im f c); VFmt] o =
  writes o (Instruction_display (Build_Instruction op d s1 s2 im f c)).
Proof. intros F. open_text. destruct f; try discriminate F; clear F; norm_text; texts. Qed.

Ltac same_arm :=
  unfold of_inst; cbn [opc rd rs1 rs2 imm inst_format is_compressed];
  erewrite run_open; [|lazy -[of_op of_option of_fmt]; reflexivity|apply answers_callr];
  erewrite run_open; [|lazy -[of_op of_option of_fmt]; reflexivity|apply answers_callr];
  lazy -[callr calls_of method show finish of_option write of_basei of_m of_c of_zifencei of_zicboz of_zicsr
    of_zicfiss of_zicntr of_priv]; reflexivity.

(** AFormat is written like RFormat or, for two opcodes, like RShamtFormat. *)
Definition a_like (op : OpcodeKind) : InstFormat :=
  match op with OA A_LR_W | OA A_LR_D => RShamtFormat | _ => RFormat end.

Lemma fmt_a p n op d s1 s2 im c o :
  run crate p (S (S (S n))) "Instruction.fmt" [of_inst (Build_Instruction op d s1 s2 im AFormat c); VFmt] o =
  writes o (Instruction_display (Build_Instruction op d s1 s2 im AFormat c)).
Proof.
  transitivity (run crate p (S (S (S n))) "Instruction.fmt"
    [of_inst (Build_Instruction op d s1 s2 im (a_like op) c); VFmt] o).
  - destruct op as [b|b|b|b|b|b|b|b|b|b]; try same_arm. destruct b; same_arm.
  - rewrite fmt_one by (destruct op as [ | |[]| | | | | | | ]; reflexivity).
    destruct op as [ | |[]| | | | | | | ]; reflexivity.
Qed.

Lemma fmt_cr p n op d s1 s2 im c o :
  run crate p (S (S (S n))) "Instruction.fmt" [of_inst (Build_Instruction op d s1 s2 im CrFormat c); VFmt] o =
  writes o (Instruction_display (Build_Instruction op d s1 s2 im CrFormat c)).
Proof.
  open_text.
  destruct op as [b|b|b|b|b|b|b|b|b|b]; cbn [of_op];
    [norm_text; reflexivity..| |norm_text; reflexivity|norm_text; reflexivity
    |norm_text; reflexivity|norm_text; reflexivity|norm_text; reflexivity|norm_text; reflexivity].
  destruct b; norm_text; first [reflexivity | texts].
Qed.

Lemma fmt_none p n op d s1 s2 im c o :
  run crate p (S (S (S n))) "Instruction.fmt" [of_inst (Build_Instruction op d s1 s2 im NoOperand c); VFmt] o =
  writes o (Instruction_display (Build_Instruction op d s1 s2 im NoOperand c)).
Proof.
  open_text.
  destruct op as [b|b|b|b|b|b|b|b|b|b]; destruct b; cbn [of_op]; norm_text; first [reflexivity | texts].
Qed.

Lemma fmt_run p n i o :
  run crate p (S (S (S n))) "Instruction.fmt" [of_inst i; VFmt] o = writes o (Instruction_display i).
Proof.
  destruct i as [op d s1 s2 im f c]. destruct (one_shape f) eqn:F; [exact (fmt_one p n op d s1 s2 im f c o F)|].
  destruct f; try discriminate F;
    lazymatch goal with
    | |- context [AFormat] => exact (fmt_a p n op d s1 s2 im c o)
    | |- context [CrFormat] => exact (fmt_cr p n op d s1 s2 im c o)
    | |- context [NoOperand] => exact (fmt_none p n op d s1 s2 im c o)
    end.
Qed.
