(** [Display] in the program in which the unreached branches are traps. *)
From Coq Require Import ZArith List Bool String Lia.
From Verif Require Import Rust Types Fmt Debug SrcLink SrcSem SrcExt SrcProg
  SrcEmbed SrcUtil SrcDecode SrcFmt SpecReach SrcLive SrcLive2.
Import ListNotations.
Local Open Scope Z_scope.
Local Open Scope string_scope.

Lemma op_fmt_live p n op o :
  run live p (S (S n)) "OpcodeKind.fmt" [of_op op; VFmt] o = writes o (Ret (OpcodeKind_display op)).
Proof. destruct op as [b|b|b|b|b|b|b|b|b|b]; destruct b; reflexivity. Qed.

Local Opaque callr calls_of.

Lemma reg2str_live p n r o : 0 <= r < 32 ->
  run live p (S n) "instruction::reg2str" [VInt Usize r] o = gives VStr o (reg2str r).
Proof.
  intros R. rewrite <- (reg2str_run p n r o).
  erewrite (run_open_in live); [|reflexivity|lazy; reflexivity|apply answers_calls].
  erewrite run_open; [|lazy; reflexivity|apply answers_callr].
  norm. lockstep.
Qed.

Lemma show_op_live p n op o k :
  show (calls_of live p (S (S n))) "" (of_op op) o k = k (write o (OpcodeKind_display op)).
Proof.
  transitivity (calls_of live p (S (S n)) "OpcodeKind.fmt" [of_op op; VFmt] o (fun r o' =>
    if is_variant "Result" "Ok" r then k o' else Wrong "write")).
  - destruct op; reflexivity.
  - Transparent calls_of. unfold calls_of. rewrite op_fmt_live. reflexivity. Opaque calls_of.
Qed.

Definition low (r : option Z) : Prop := forall x, r = Some x -> 0 <= x < 32.

Ltac texts_live :=
  repeat (cbv beta iota; cbn [bind unwrap];
    first
    [ rewrite unwrap_some
    | rewrite unwrap_field;
      match goal with |- match ?x with Some _ => _ | None => _ end = _ =>
        destruct x; [|reflexivity] end
    | match goal with L : low (Some ?r) |- context [calls_of live _ _ "instruction::reg2str" [VInt Usize ?r]] =>
        rewrite (calls_gives _ _ _ _ _ _ _ _ _ (reg2str_live _ _ r _ (L r eq_refl))) end;
      match goal with
      | E : ?x = Ret _ |- match ?x with Ret _ => _ | Panic _ => _ end = _ => rewrite E
      | |- match ?x with Ret _ => _ | Panic _ => _ end = _ =>
          let E := fresh "E" in destruct x eqn:E; [|reflexivity]
      end
    | rewrite show_op_live | rewrite show_text | rewrite show_dec | rewrite show_hex | rewrite show_hex0
    | rewrite show_uhex0
    | match goal with |- show ?c "" (VEnum "OpcodeKind" ?x ?y) ?o ?k = ?R =>
        match R with context [OpcodeKind_display ?op] =>
          change (show c "" (of_op op) o k = R); rewrite show_op_live end end ]);
  try reflexivity; unfold writes, write; rewrite ?append_assoc; reflexivity.

Ltac norm_text_live :=
  etransitivity; [lazy -[live calls_of method show finish of_option of_op write]; reflexivity|].
Ltac open_text_live :=
  unfold of_inst; cbn [opc rd rs1 rs2 imm inst_format is_compressed];
  erewrite (run_open_in live); [|reflexivity|lazy -[of_op of_option of_fmt]; reflexivity|apply answers_calls];
  unfold Instruction_display, reg_arg; cbn [opc rd rs1 rs2 imm inst_format is_compressed].

(** The number of a CSR stands where others have [rs2]. *)
Definition csr_shape (f : InstFormat) : bool := match f with CsrFormat | CsrUiFormat => true | _ => false end.

Lemma fmt_one_live p n op d s1 s2 im f c o : low d -> low s1 -> (csr_shape f = false -> low s2) -> one_shape f = true ->
  run live p (S (S (S n))) "Instruction.fmt" [of_inst (Build_Instruction op d s1 s2 im f c); VFmt] o =
  writes o (Instruction_display (Build_Instruction op d s1 s2 im f c)).
Proof.
  intros D S1 S2 F. open_text_live. destruct f; try discriminate F; clear F; try specialize (S2 eq_refl);
    norm_text_live; texts_live.
Qed.

Lemma fmt_other_live p n op d s1 s2 im c o : low d -> low s1 -> (csr_shape (get_format op) = false -> low s2) ->
  one_shape (get_format op) = false ->
  run live p (S (S (S n))) "Instruction.fmt" [of_inst (Build_Instruction op d s1 s2 im (get_format op) c); VFmt] o =
  writes o (Instruction_display (Build_Instruction op d s1 s2 im (get_format op) c)).
Proof.
  intros D S1 S2 F.
  destruct op as [b|b|b|b|b|b|b|b|b|b]; destruct b; try discriminate F; clear F; specialize (S2 eq_refl);
    cbn [get_format];
    open_text_live; cbn [of_op]; norm_text_live; first [reflexivity | texts_live].
Qed.

Lemma fmt_live p n i o : low (rd i) -> low (rs1 i) ->
  (csr_shape (get_format (opc i)) = false -> low (rs2 i)) -> inst_format i = get_format (opc i) ->
  run live p (S (S (S n))) "Instruction.fmt" [of_inst i; VFmt] o = writes o (Instruction_display i).
Proof.
  destruct i as [op d s1 s2 im f c]. cbn [rd rs1 rs2 opc inst_format]. intros D S1 S2 ->.
  destruct (one_shape (get_format op)) eqn:F;
    [apply fmt_one_live|apply fmt_other_live]; assumption.
Qed.
