(** [decode], [try_from] and [Display] in the program in which the unreached branches are traps. *)
From Coq Require Import ZArith List Bool String Lia.
From Verif Require Import Rust Types Spec Util DecodeUtil Dec32 Dec16 Decode Fmt Debug SrcLink SrcSem SrcExt SrcProg
  SrcEmbed SrcUtil SrcDec32 SrcDec16 SrcDecode SrcFmt SpecOps SpecReach SrcLive SrcLive2.
Import ListNotations.
Local Open Scope Z_scope.
Local Open Scope string_scope.
Local Opaque callr calls_of Spec.field.

(** ** [decode] *)

Lemma long_opcode p w isa op : parse_opcode_u32 p w isa = Ret (Ok op) -> op_is_16 op = false.
Proof.
  unfold parse_opcode_u32. destruct (parse_extension_u32 p w) as [[[]|]|]; cbn [bind]; intros H; try discriminate H;
    match type of H with context [try ?m _] => destruct m as [[b|]|] eqn:E end; try discriminate H;
    cbn [bind try] in H; injection H as <-; try reflexivity.
  unfold zicfiss_parse_opcode in E. rewrite !slice_u32_ok in E by lia. cbn [bind] in E.
  destruct b; try reflexivity; exfalso; revert E; unfold u8_try_from_unwrap, u16_try_from_unwrap;
    repeat match goal with |- context [(?x <? ?y)%Z] => destruct (x <? y)%Z; cbn [bind]; try discriminate end;
    intros E;
    repeat match type of E with match ?x with _ => _ end = _ => destruct x end; discriminate E.
Qed.
Lemma short_opcode p w isa op : parse_opcode_u16 p w isa = Ret (Ok op) -> op_is_16 op = true.
Proof.
  unfold parse_opcode_u16. destruct (parse_extension_u16 w) as [[[]|]|]; cbn [bind]; intros H; try discriminate H;
    match type of H with context [try ?m _] => destruct m as [[b|]|] eqn:E end; try discriminate H;
    cbn [bind try] in H; injection H as <-; try reflexivity.
  unfold zicfiss16_parse_opcode in E.
  repeat match type of E with match ?x with _ => _ end = _ => destruct x end; try discriminate E;
    injection E as <-; reflexivity.
Qed.

Lemma format_live p n op o :
  run live p (S (S n)) "OpcodeKind.get_format" [of_op op] o = gives of_fmt o (Ret (get_format op)).
Proof. destruct op as [b|b|b|b|b|b|b|b|b|b]; destruct b; reflexivity. Qed.

Ltac next_live := first [rewrite stmts_let | rewrite stmts_expr | rewrite stmts_end];
  etransitivity; [lazy -[live calls_of question stmts_ev finish coerce_opt of_option Z.eqb
  of_op of_isa of_basei of_m of_a of_c of_zifencei of_zicboz of_zicsr of_zicfiss of_zicntr
  of_priv of_fmt of_err get_format]; reflexivity|].
Tactic Notation "answered_live" constr(H) ident(x) ident(E) :=
  rewrite (calls_gives _ _ _ _ _ _ _ _ _ H); cbv beta;
  match goal with |- match ?m with Ret _ => _ | Panic _ => _ end = _ =>
    destruct m as [[x|?]|?] eqn:E; [|reflexivity..] end;
  rewrite question_result; cbn [bind try];
  first [rewrite let_opc | rewrite let_reg | rewrite let_imm | rewrite let_any]; cbv beta iota.
Ltac the_format_live :=
  rewrite stmts_let;
  etransitivity; [lazy -[live calls_of method stmts_ev finish coerce_opt of_option
    of_op of_isa of_fmt get_format]; reflexivity|];
  rewrite method_format, (calls_gives _ _ _ _ _ _ _ _ _ (format_live _ _ _ _)), let_fmt; cbv beta iota.

Lemma decode32_live p n w isa o :
  run live p (S (S (S (S n)))) "u32.decode" [VInt U32 w; of_isa isa] o =
  gives (of_result of_inst) o (decode_u32 p w isa).
Proof.
  open_in; [|apply answers_calls]. change depth with (S 99). rewrite ev_stmts.
  next_live. unfold decode_u32. answered_live (opcode32_live p n w isa o) op X. apply long_opcode in X.
  next_live. answered_live (rd32_live p n w op o X) r0 E0.
  next_live. answered_live (rs132_live p n w op o X) r1 E1.
  next_live. answered_live (rs232_live p n w op o X) r2 E2.
  next_live. answered_live (imm32_live p n w op isa o X) i E3.
  the_format_live. next_live. reflexivity.
Qed.

Lemma decode16_live p n w isa o :
  run live p (S (S (S (S (S n))))) "u16.decode" [VInt U16 w; of_isa isa] o =
  gives (of_result of_inst) o (decode_u16 p w isa).
Proof.
  open_in; [|apply answers_calls]. change depth with (S 99). rewrite ev_stmts.
  next_live. unfold decode_u16. destruct (Z.eqb_spec w 0) as [|W]; [reflexivity|].
  next_live. answered_live (opcode16_live p n w isa o W) op X. apply short_opcode in X.
  next_live. answered_live (rd16_live p (S n) w op o X) r0 E0.
  next_live. answered_live (rs116_live p (S n) w op o X) r1 E1.
  next_live. answered_live (rs216_live p (S n) w op o X) r2 E2.
  next_live. answered_live (imm16_live p (S n) w op isa o X) i E3.
  the_format_live. next_live. reflexivity.
Qed.

Lemma try_from_live p n w o :
  run live p (S (S (S (S (S (S n)))))) "Instruction.try_from" [VInt Usize w] o =
  gives (of_result of_inst) o (try_from_usize p w).
Proof.
  open_in; [|apply answers_calls]. norm_live. unfold try_from_usize, try_from_expect.
  destruct (Z.land w 3 =? 3)%Z.
  - destruct (w <? 2 ^ 32)%Z; [|reflexivity].
    rewrite (calls_gives _ _ _ _ _ _ _ _ _ (decode32_live p (S n) w Rv64 o)). cbn [bind].
    destruct (decode_u32 p w Rv64) as [[]|]; reflexivity.
  - destruct (w <? 2 ^ 16)%Z; [|reflexivity].
    rewrite (calls_gives _ _ _ _ _ _ _ _ _ (decode16_live p n w Rv64 o)). cbn [bind].
    destruct (decode_u16 p w Rv64) as [[]|]; reflexivity.
Qed.
