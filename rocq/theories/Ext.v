(** The extension is chosen as the opcode says, and the branches of [parse_opcode] for the other
    width are never taken. *)
From Coq Require Import ZArith List Bool Lia.
From Verif Require Import Rust Types DecodeUtil Dec32 Dec16 Decode Spec Util Plat CanonBase SpecHelp
  SpecOps Oper32 Oper16 Exact32 Exact16 Rows Rows2 Api.
Import ListNotations.
Local Open Scope Z_scope.

Ltac splitz := repeat match goal with
  | |- context [match ?x with _ => _ end] => is_var x; destruct x; try discriminate
  | |- context [match ?x with _ => _ end] =>
      let v := fresh "v" in set (v := x); clearbody v; destruct v; try discriminate
  end.

(** ** u32 *)

Lemma ext_not_c p w : parse_extension_u32 p w <> Ret (Ok EC).
Proof. unfold parse_extension_u32. slices. splitz. Qed.
Lemma ext_error p w e : parse_extension_u32 p w = Ret (Err e) -> e = UnknownExtension.
Proof.
  unfold parse_extension_u32. slices. intros H. revert H. splitz; intros H; congruence.
Qed.
Lemma ext_total p w : exists r, parse_extension_u32 p w = Ret r.
Proof.
  destruct (parse_extension_u32 p w) as [r|why] eqn:E; [eexists; reflexivity|]. exfalso. revert E.
  unfold parse_extension_u32. slices. splitz.
Qed.
Lemma ext_plat p q w : parse_extension_u32 p w = parse_extension_u32 q w.
Proof. unfold parse_extension_u32. slices. reflexivity. Qed.

Lemma basei_known p w isa : basei_parse_opcode p w isa <> Ret (Err UnknownExtension).
Proof. unfold basei_parse_opcode, only_rv64. slices. splitz. Qed.
Lemma m_known p w isa : m_parse_opcode p w isa <> Ret (Err UnknownExtension).
Proof. unfold m_parse_opcode, only_rv64. slices. splitz. Qed.
Lemma a_known p w isa : a_parse_opcode p w isa <> Ret (Err UnknownExtension).
Proof. unfold a_parse_opcode, only_rv64. slices. splitz. Qed.
Lemma zicsr_known p w : zicsr_parse_opcode p w <> Ret (Err UnknownExtension).
Proof. unfold zicsr_parse_opcode. slices. splitz. Qed.
Lemma zifencei_known p w : zifencei_parse_opcode p w <> Ret (Err UnknownExtension).
Proof. unfold zifencei_parse_opcode. slices. splitz. Qed.
Lemma zicfiss_known p w : zicfiss_parse_opcode p w <> Ret (Err UnknownExtension).
Proof. unfold zicfiss_parse_opcode. slices. splitz. Qed.
Lemma zicboz_known p w : zicboz_parse_opcode p w <> Ret (Err UnknownExtension).
Proof. unfold zicboz_parse_opcode. slices. splitz. Qed.
Lemma zicntr_known p w : zicntr_parse_opcode p w <> Ret (Err UnknownExtension).
Proof. unfold zicntr_parse_opcode. slices. splitz. Qed.
Lemma priv_known p w : priv_parse_opcode p w <> Ret (Err UnknownExtension).
Proof.
  rewrite priv_parse_opcode_ite. unfold priv_ite.
  repeat match goal with |- context [if ?b then _ else _] => destruct b; try discriminate end.
Qed.

Lemma try_known {A B} (m : outcome (result A DecodingError)) (f : A -> B) e :
  m <> Ret (Err e) -> try m (fun o => Ret (Ok (f o))) <> Ret (Err e).
Proof. intros H E. destruct m as [[a|e']|]; cbn in E; congruence. Qed.
Lemma try_is {A B} (m : outcome (result A DecodingError)) (f : A -> B) b :
  try m (fun o => Ret (Ok (f o))) = Ret (Ok b) -> exists a, b = f a.
Proof. destruct m as [[a|e']|]; cbn; intros E; [injection E as <-; eexists; reflexivity|discriminate..]. Qed.

Lemma opcode_ext32 p w isa op : parse_opcode_u32 p w isa = Ret (Ok op) ->
  parse_extension_u32 p w = Ret (Ok (extension_of op)).
Proof.
  unfold parse_opcode_u32. destruct (parse_extension_u32 p w) as [[e|e]|why]; cbn [bind];
    [|discriminate..].
  destruct e; try discriminate; intros H; apply try_is in H; destruct H as [a ->]; reflexivity.
Qed.
Lemma opcode_unknown32 p w isa : parse_opcode_u32 p w isa = Ret (Err UnknownExtension) <->
  parse_extension_u32 p w = Ret (Err UnknownExtension).
Proof.
  unfold parse_opcode_u32. split.
  - destruct (parse_extension_u32 p w) as [[e|e]|why]; cbn [bind]; [|congruence..].
    destruct e; intros H; exfalso; try discriminate H; revert H; apply try_known.
    + apply basei_known. + apply m_known. + apply a_known. + apply zifencei_known.
    + apply zicboz_known. + apply zicsr_known. + apply zicfiss_known. + apply zicntr_known.
    + apply priv_known.
  - intros ->. reflexivity.
Qed.

Lemma decode_opcode32 p w isa i : decode_u32 p w isa = Ret (Ok i) ->
  parse_opcode_u32 p w isa = Ret (Ok (opc i)).
Proof.
  unfold decode_u32. destruct (parse_opcode_u32 p w isa) as [[op|e]|why]; cbn [try]; [|discriminate..].
  destruct (parse_rd_u32 p w op) as [[r|e]|why]; cbn [try]; [|discriminate..].
  destruct (parse_rs1_u32 p w op) as [[r1|e]|why]; cbn [try]; [|discriminate..].
  destruct (parse_rs2_u32 p w op) as [[r2|e]|why]; cbn [try]; [|discriminate..].
  destruct (parse_imm_u32 p w op isa) as [[im|e]|why]; cbn [try]; [|discriminate..].
  intros E. injection E as <-. reflexivity.
Qed.
Lemma decode_ext32 p isa w i : decode_u32 p w isa = Ret (Ok i) ->
  parse_extension_u32 p w = Ret (Ok (extension_of (opc i))).
Proof. intros H. apply decode_opcode32 in H. apply opcode_ext32 in H. exact H. Qed.

Lemma decode_unknown32 p isa w : platform_ok p -> is_u32 w ->
  (decode_u32 p w isa = Ret (Err UnknownExtension) <->
   parse_extension_u32 p w = Ret (Err UnknownExtension)).
Proof.
  intros Hp Hw. rewrite <- opcode_unknown32.
  destruct (parse_opcode_u32_exact p isa w Hw) as [[r [R [E H]]]|[e [R [E H]]]].
  - rewrite H. split; [|discriminate]. intros D. exfalso.
    destruct (decode_u32_exact p isa w Hp Hw) as [[r' [R' [E' H']]]|[e' [R' _]]]; congruence.
  - unfold decode_u32. rewrite H. cbn [try]. split; congruence.
Qed.

(** ** u16 *)

Lemma ext16_cases w : parse_extension_u16 w =
  if (w =? 0x6081) || (w =? 0x6281) then Ret (Ok EZicfiss) else Ret (Ok EC).
Proof.
  destruct (Z.eqb_spec w 0x6081) as [->|A]; [reflexivity|].
  destruct (Z.eqb_spec w 0x6281) as [->|B]; [reflexivity|]. cbn [orb].
  unfold parse_extension_u16. revert A B.
  repeat match goal with
  | |- context [match ?x with _ => _ end] => is_var x; destruct x; try reflexivity
  end; intros A B; congruence.
Qed.

Lemma opcode_ext16 p w isa op : parse_opcode_u16 p w isa = Ret (Ok op) ->
  parse_extension_u16 w = Ret (Ok (extension_of op)).
Proof.
  unfold parse_opcode_u16. destruct (parse_extension_u16 w) as [[e|e]|why]; cbn [bind];
    [|discriminate..].
  destruct e; try discriminate; intros H; apply try_is in H; destruct H as [a ->]; reflexivity.
Qed.
Lemma decode_opcode16 p w isa i : decode_u16 p w isa = Ret (Ok i) ->
  parse_opcode_u16 p w isa = Ret (Ok (opc i)).
Proof.
  unfold decode_u16. destruct (w =? 0); [discriminate|].
  destruct (parse_opcode_u16 p w isa) as [[op|e]|why]; cbn [try]; [|discriminate..].
  destruct (parse_rd_u16 p w op) as [[r|e]|why]; cbn [try]; [|discriminate..].
  destruct (parse_rs1_u16 p w op) as [[r1|e]|why]; cbn [try]; [|discriminate..].
  destruct (parse_rs2_u16 p w op) as [[r2|e]|why]; cbn [try]; [|discriminate..].
  destruct (parse_imm_u16 p w op isa) as [[im|e]|why]; cbn [try]; [|discriminate..].
  intros E. injection E as <-. reflexivity.
Qed.
Lemma decode_ext16 p isa w i : decode_u16 p w isa = Ret (Ok i) ->
  parse_extension_u16 w = Ret (Ok (extension_of (opc i))).
Proof. intros H. apply decode_opcode16 in H. apply opcode_ext16 in H. exact H. Qed.

(** ** The operand methods on any word *)

Lemma parse_exact32 p isa w op : platform_ok p -> op_is_16 op = false ->
  exists r, In r table32 /\ r_op r = op /\
    parse_rd_u32 p w op = Ret (Ok (reg_of (c_rd (r_cls r isa)) w)) /\
    parse_rs1_u32 p w op = Ret (Ok (reg_of (c_rs1 (r_cls r isa)) w)) /\
    parse_rs2_u32 p w op = Ret (Ok (reg_of (c_rs2 (r_cls r isa)) w)) /\
    parse_imm_u32 p w op isa = Ret (Ok (imm_of (c_imm (r_cls r isa)) w)) /\
    get_format op = c_fmt (r_cls r isa).
Proof.
  intros Hp H. destruct (has_row32 op) as [r [Hr <-]].
  { destruct op as [o|o|o|o|o|o|o|o|o|o]; try exact I; try discriminate H.
    destruct o; try exact I; discriminate H. }
  pose proof (ops32 p w isa Hp) as O. rewrite Forall_forall in O. specialize (O r Hr).
  exists r. split; [assumption|]. split; [reflexivity|]. exact O.
Qed.
Lemma parse_exact16 p isa w op : platform_ok p -> op_is_16 op = true ->
  exists r, In r table16 /\ r_op r = op /\
    parse_rd_u16 p w op = Ret (Ok (reg_of (c_rd (r_cls r isa)) w)) /\
    parse_rs1_u16 p w op = Ret (Ok (reg_of (c_rs1 (r_cls r isa)) w)) /\
    parse_rs2_u16 p w op = Ret (Ok (reg_of (c_rs2 (r_cls r isa)) w)) /\
    parse_imm_u16 p w op isa = Ret (Ok (imm_of (c_imm (r_cls r isa)) w)) /\
    get_format op = c_fmt (r_cls r isa).
Proof.
  intros Hp H. destruct (has_row16 op) as [r [Hr <-]].
  { destruct op as [o|o|o|o|o|o|o|o|o|o]; try exact I; try discriminate H.
    destruct o; try exact I; discriminate H. }
  pose proof (ops16 p w isa Hp) as O. rewrite Forall_forall in O. specialize (O r Hr).
  exists r. split; [assumption|]. split; [reflexivity|]. exact O.
Qed.
Lemma one_row r r' : In r (table32 ++ table16) -> In r' (table32 ++ table16) -> r_op r = r_op r' -> r = r'.
Proof. apply row_unique. Qed.
