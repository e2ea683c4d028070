(** Decoding in the program in which the unreached branches are traps. *)
From Coq Require Import ZArith List Bool String Lia.
From Verif Require Import Rust Types Spec Util DecodeUtil Dec32 Dec16 Decode Debug SrcLink SrcSem SrcExt SrcProg
  SrcEmbed SrcUtil SrcDec32 SrcDec16 SrcDecode SpecOps SpecReach SrcLive.
Import ListNotations.
Local Open Scope Z_scope.
Local Open Scope string_scope.
Local Opaque calls_of Spec.field.

Lemma c_opcode_live p n w isa o : w <> 0 ->
  run live p (S (S (S n))) "decode::c_extension::bit_16::parse_opcode" [VInt U16 w; of_isa isa] o =
  gives (of_result of_c) o (c_parse_opcode p w isa).
Proof.
  intros W. fields16 w. unfold c_parse_opcode. erewrite live_open; [|lazy -[of_isa]; reflexivity].
  lazy -[live calls_of Z.pow Z.eqb Z.ltb of_c of_err of_isa gives slice_u16 quadrant0 quadrant1 quadrant2].
  rewrite !slice_u16_ok by lia. cbv beta iota.
  remember (Spec.field w 15 13) as a eqn:A. remember (Spec.field w 1 0) as q eqn:Q.
  unfold u8_try_from_unwrap. cbn [bind].
  assert (B1 : (a <? 2 ^ 8)%Z = true) by (apply Z.ltb_lt; lia).
  assert (B2 : (q <? 2 ^ 8)%Z = true) by (apply Z.ltb_lt; lia).
  rewrite B1, B2. cbn [bind]. rewrite (proj2 (Z.eqb_neq w 0) W).
  destruct (Z.eqb_spec q 0) as [->|].
  { rewrite (calls_gives _ _ _ _ _ _ _ _ _ (quadrant0_live p n w a isa o)).
    destruct (quadrant0 w a isa) as [[]|]; reflexivity. }
  destruct (Z.eqb_spec q 1) as [->|].
  { rewrite (calls_gives _ _ _ _ _ _ _ _ _ (quadrant1_live p n w a isa o Q1)).
    destruct (quadrant1 p w a isa) as [[]|]; reflexivity. }
  destruct (Z.eqb_spec q 2) as [->|].
  { rewrite (calls_gives _ _ _ _ _ _ _ _ _ (quadrant2_live p n w a isa o Q1)).
    destruct (quadrant2 p w a isa) as [[]|]; reflexivity. }
  assert (q = 3) as -> by lia. reflexivity.
Qed.
Lemma zicfiss16_opcode_live p n w isa o : parse_extension_u16 w = Ret (Ok EZicfiss) ->
  run live p (S (S n)) "decode::zicfiss_extension::bit_16::parse_opcode" [VInt U16 w; of_isa isa] o =
  gives (of_result of_zicfiss) o (zicfiss16_parse_opcode w isa).
Proof.
  intros X. assert (w = 24705 \/ w = 25217) as [->| ->].
  { unfold parse_extension_u16 in X.
    repeat match type of X with match ?x with _ => _ end = _ => destruct x end; try discriminate X; lia. }
  - rewrite <- (zicfiss16_opcode_leaf (callr p 0) p).
    destruct isa; cbv [of_isa]; open_live; norm_body; reflexivity.
  - rewrite <- (zicfiss16_opcode_leaf (callr p 0) p).
    destruct isa; cbv [of_isa]; open_live; norm_body; reflexivity.
Qed.
Lemma zicfiss16_rd_live p n w b o : op_is_16 (OZicfiss b) = true ->
  run live p (S (S n)) "decode::zicfiss_extension::bit_16::parse_rd" [VInt U16 w; of_zicfiss b] o =
  gives (of_option (VInt Usize)) o (zicfiss16_parse_rd w b).
Proof.
  intros X. rewrite <- (zicfiss16_rd_leaf (callr p 0) p). destruct b; try discriminate X; open_live; norm_operand; reflexivity.
Qed.

(** ** The methods of [Decode] *)

Ltac open_in := 
  erewrite (run_open_in live);
  [| reflexivity
   | lazy -[of_isa of_op of_basei of_m of_a of_c of_zifencei of_zicboz of_zicsr of_zicfiss of_zicntr
       of_priv of_fmt of_err]; reflexivity
   | ].
Ltac norm_live := etransitivity; [lazy -[live calls_of question finish stmts_ev Z.eqb Z.land Z.ltb Z.pow usize_bits
  of_isa of_op of_basei of_m of_a of_c of_zifencei of_zicboz of_zicsr of_zicfiss of_zicntr
  of_priv of_fmt of_err gives parse_extension_u32 parse_extension_u16
  parse_opcode_u32 parse_rd_u32 parse_rs1_u32 parse_rs2_u32 parse_imm_u32
  parse_opcode_u16 parse_rd_u16 parse_rs1_u16 parse_rs2_u16 parse_imm_u16
  Types.get_format decode_u32 decode_u16]; reflexivity|].

Definition with_ext_live (p : platform) (n : nat) (key : string) (vs : list value) (o : string)
  (k : value -> string -> ans) : ans :=
  match vs with
  | [VInt U32 w] =>
      if key =? "u32.parse_extension" then tell_ext (parse_extension_u32 p w) o k
      else calls_of live p (S (S n)) key vs o k
  | [VInt U16 w] =>
      if key =? "u16.parse_extension" then tell_ext (parse_extension_u16 w) o k
      else calls_of live p (S (S n)) key vs o k
  | _ => calls_of live p (S (S n)) key vs o k
  end.
Lemma extension32_live p n w o :
  run live p (S (S n)) "u32.parse_extension" [VInt U32 w] o =
  gives (of_result of_ext) o (parse_extension_u32 p w).
Proof. apply live_leaf; [shared|]. intros c. apply extension32_leaf. Qed.
Lemma extension16_live p n w o :
  run live p (S (S n)) "u16.parse_extension" [VInt U16 w] o =
  gives (of_result of_ext) o (parse_extension_u16 w).
Proof. apply live_leaf; [shared|]. intros c. apply extension16_leaf. Qed.
Lemma with_ext_live_ok p n : answers_in live p (S (S n)) (with_ext_live p n).
Proof.
  intros key vs o k1 k2 H. rewrite (calls_ext live p _ key vs o k1 k2 H). unfold with_ext_live.
  destruct vs as [|v [|]]; try reflexivity; destruct v as [t w| | | | | | | | | |]; try reflexivity;
    destruct t; try reflexivity;
    match goal with |- context [key =? ?c] => destruct (String.eqb_spec key c) as [->|] end;
    try reflexivity.
  - rewrite (calls_gives _ _ _ _ _ _ _ _ _ (extension16_live p n w o)).
    destruct (parse_extension_u16 w) as [[[]|]|]; reflexivity.
  - rewrite (calls_gives _ _ _ _ _ _ _ _ _ (extension32_live p n w o)).
    destruct (parse_extension_u32 p w) as [[[]|]|]; reflexivity.
Qed.

Ltac by_opcode_live H :=
  rewrite (calls_gives _ _ _ _ _ _ _ _ _ H);
  match goal with |- match ?m with Ret _ => _ | Panic _ => _ end = _ =>
    destruct m as [[]|]; reflexivity end.

Lemma priv_opcode_live p n w o :
  run live p (S (S n)) "decode::priv_extension::bit_32::parse_opcode" [VInt U32 w] o =
  gives (of_result of_priv) o (priv_parse_opcode p w).
Proof. apply live_leaf; [shared|]. intros c. apply priv_opcode_leaf. Qed.

Lemma opcode32_live p n w isa o :
  run live p (S (S (S n))) "u32.parse_opcode" [VInt U32 w; of_isa isa] o =
  gives (of_result of_op) o (parse_opcode_u32 p w isa).
Proof.
  open_in; [|apply with_ext_live_ok]. norm_live. unfold parse_opcode_u32.
  destruct (parse_extension_u32 p w) as [[[]|]|] eqn:X; try reflexivity.
  - by_opcode_live (basei_opcode_live p n w isa o X).
  - by_opcode_live (m_opcode_live p n w isa o X).
  - by_opcode_live (a_opcode_live p n w isa o X).
  - destruct (extension_says p w EC X).
  - by_opcode_live (zifencei_opcode_live p n w o X).
  - by_opcode_live (zicboz_opcode_live p n w o X).
  - by_opcode_live (zicsr_opcode_live p n w o X).
  - by_opcode_live (zicfiss_opcode_live p n w o X).
  - by_opcode_live (zicntr_opcode_live p n w o X).
  - by_opcode_live (priv_opcode_live p n w o).
Qed.

Lemma opcode16_live p n w isa o : w <> 0 ->
  run live p (S (S (S (S n)))) "u16.parse_opcode" [VInt U16 w; of_isa isa] o =
  gives (of_result of_op) o (parse_opcode_u16 p w isa).
Proof.
  intros W. open_in; [|apply with_ext_live_ok]. norm_live. unfold parse_opcode_u16.
  destruct (parse_extension_u16 w) as [[[]|]|] eqn:X; try reflexivity.
  all: try (exfalso; unfold parse_extension_u16 in X;
    repeat match type of X with match ?x with _ => _ end = _ => destruct x end; discriminate X).
  - by_opcode_live (c_opcode_live p n w isa o W).
  - by_opcode_live (zicfiss16_opcode_live p (S n) w isa o X).
Qed.

(** ** The operands *)

Ltac operands_live := cbn [of_op]; open_in; [|apply answers_calls]; norm_live.
Ltac by_operand_live H :=
  rewrite (calls_gives _ _ _ _ _ _ _ _ _ H); unfold ok_of;
  match goal with |- match ?m with Ret _ => _ | Panic _ => _ end = _ =>
    destruct m as [[]|]; reflexivity end.
Ltac by_leaf H := apply live_leaf; [shared|]; intros c; apply H.

Lemma basei_rd_live p n w b o :
  run live p (S (S n)) "decode::base_i::bit_32::parse_rd" [VInt U32 w; of_basei b] o =
  gives (of_option (VInt Usize)) o (basei_parse_rd p w b).
Proof. by_leaf basei_rd_leaf. Qed.
Lemma m_rd_live p n w b o :
  run live p (S (S n)) "decode::m_extension::bit_32::parse_rd" [VInt U32 w; of_m b] o =
  gives (of_option (VInt Usize)) o (m_parse_rd p w b).
Proof. by_leaf m_rd_leaf. Qed.
Lemma a_rd_live p n w b o :
  run live p (S (S n)) "decode::a_extension::bit_32::parse_rd" [VInt U32 w; of_a b] o =
  gives (of_option (VInt Usize)) o (a_parse_rd p w b).
Proof. by_leaf a_rd_leaf. Qed.
Lemma zifencei_rd_live p n w b o :
  run live p (S (S n)) "decode::zifencei_extension::bit_32::parse_rd" [VInt U32 w; of_zifencei b] o =
  gives (of_option (VInt Usize)) o (zifencei_parse_rd p w b).
Proof. by_leaf zifencei_rd_leaf. Qed.
Lemma zicboz_rd_live p n w b o :
  run live p (S (S n)) "decode::zicboz_extension::bit_32::parse_rd" [VInt U32 w; of_zicboz b] o =
  gives (of_option (VInt Usize)) o (zicboz_parse_rd p w b).
Proof. by_leaf zicboz_rd_leaf. Qed.
Lemma zicsr_rd_live p n w b o :
  run live p (S (S n)) "decode::zicsr_extension::bit_32::parse_rd" [VInt U32 w; of_zicsr b] o =
  gives (of_option (VInt Usize)) o (zicsr_parse_rd p w b).
Proof. by_leaf zicsr_rd_leaf. Qed.
Lemma zicntr_rd_live p n w b o :
  run live p (S (S n)) "decode::zicntr_extension::bit_32::parse_rd" [VInt U32 w; of_zicntr b] o =
  gives (of_option (VInt Usize)) o (zicntr_parse_rd p w b).
Proof. by_leaf zicntr_rd_leaf. Qed.
Lemma priv_rd_live p n w b o :
  run live p (S (S n)) "decode::priv_extension::bit_32::parse_rd" [VInt U32 w; of_priv b] o =
  gives (of_option (VInt Usize)) o (priv_parse_rd p w b).
Proof. by_leaf priv_rd_leaf. Qed.
Lemma rd32_live p n w op o : op_is_16 op = false ->
  run live p (S (S (S n))) "u32.parse_rd" [VInt U32 w; of_op op] o =
  gives (of_result (of_option (VInt Usize))) o (parse_rd_u32 p w op).
Proof.
  intros X. destruct op as [b|b|b|b|b|b|b|b|b|b]; try discriminate X; operands_live; unfold parse_rd_u32.
  - by_operand_live (basei_rd_live p n w b o).
  - by_operand_live (m_rd_live p n w b o).
  - by_operand_live (a_rd_live p n w b o).
  - by_operand_live (zifencei_rd_live p n w b o).
  - by_operand_live (zicboz_rd_live p n w b o).
  - by_operand_live (zicsr_rd_live p n w b o).
  - by_operand_live (zicfiss_rd_live p n w b o X).
  - by_operand_live (zicntr_rd_live p n w b o).
  - by_operand_live (priv_rd_live p n w b o).
Qed.

Lemma basei_rs1_live p n w b o :
  run live p (S (S n)) "decode::base_i::bit_32::parse_rs1" [VInt U32 w; of_basei b] o =
  gives (of_option (VInt Usize)) o (basei_parse_rs1 p w b).
Proof. by_leaf basei_rs1_leaf. Qed.
Lemma m_rs1_live p n w b o :
  run live p (S (S n)) "decode::m_extension::bit_32::parse_rs1" [VInt U32 w; of_m b] o =
  gives (of_option (VInt Usize)) o (m_parse_rs1 p w b).
Proof. by_leaf m_rs1_leaf. Qed.
Lemma a_rs1_live p n w b o :
  run live p (S (S n)) "decode::a_extension::bit_32::parse_rs1" [VInt U32 w; of_a b] o =
  gives (of_option (VInt Usize)) o (a_parse_rs1 p w b).
Proof. by_leaf a_rs1_leaf. Qed.
Lemma zifencei_rs1_live p n w b o :
  run live p (S (S n)) "decode::zifencei_extension::bit_32::parse_rs1" [VInt U32 w; of_zifencei b] o =
  gives (of_option (VInt Usize)) o (zifencei_parse_rs1 p w b).
Proof. by_leaf zifencei_rs1_leaf. Qed.
Lemma zicboz_rs1_live p n w b o :
  run live p (S (S n)) "decode::zicboz_extension::bit_32::parse_rs1" [VInt U32 w; of_zicboz b] o =
  gives (of_option (VInt Usize)) o (zicboz_parse_rs1 p w b).
Proof. by_leaf zicboz_rs1_leaf. Qed.
Lemma zicsr_rs1_live p n w b o :
  run live p (S (S n)) "decode::zicsr_extension::bit_32::parse_rs1" [VInt U32 w; of_zicsr b] o =
  gives (of_option (VInt Usize)) o (zicsr_parse_rs1 p w b).
Proof. by_leaf zicsr_rs1_leaf. Qed.
Lemma zicntr_rs1_live p n w b o :
  run live p (S (S n)) "decode::zicntr_extension::bit_32::parse_rs1" [VInt U32 w; of_zicntr b] o =
  gives (of_option (VInt Usize)) o (zicntr_parse_rs1 p w b).
Proof. by_leaf zicntr_rs1_leaf. Qed.
Lemma priv_rs1_live p n w b o :
  run live p (S (S n)) "decode::priv_extension::bit_32::parse_rs1" [VInt U32 w; of_priv b] o =
  gives (of_option (VInt Usize)) o (priv_parse_rs1 p w b).
Proof. by_leaf priv_rs1_leaf. Qed.
Lemma rs132_live p n w op o : op_is_16 op = false ->
  run live p (S (S (S n))) "u32.parse_rs1" [VInt U32 w; of_op op] o =
  gives (of_result (of_option (VInt Usize))) o (parse_rs1_u32 p w op).
Proof.
  intros X. destruct op as [b|b|b|b|b|b|b|b|b|b]; try discriminate X; operands_live; unfold parse_rs1_u32.
  - by_operand_live (basei_rs1_live p n w b o).
  - by_operand_live (m_rs1_live p n w b o).
  - by_operand_live (a_rs1_live p n w b o).
  - by_operand_live (zifencei_rs1_live p n w b o).
  - by_operand_live (zicboz_rs1_live p n w b o).
  - by_operand_live (zicsr_rs1_live p n w b o).
  - by_operand_live (zicfiss_rs1_live p n w b o X).
  - by_operand_live (zicntr_rs1_live p n w b o).
  - by_operand_live (priv_rs1_live p n w b o).
Qed.

Lemma basei_rs2_live p n w b o :
  run live p (S (S n)) "decode::base_i::bit_32::parse_rs2" [VInt U32 w; of_basei b] o =
  gives (of_option (VInt Usize)) o (basei_parse_rs2 p w b).
Proof. by_leaf basei_rs2_leaf. Qed.
Lemma m_rs2_live p n w b o :
  run live p (S (S n)) "decode::m_extension::bit_32::parse_rs2" [VInt U32 w; of_m b] o =
  gives (of_option (VInt Usize)) o (m_parse_rs2 p w b).
Proof. by_leaf m_rs2_leaf. Qed.
Lemma a_rs2_live p n w b o :
  run live p (S (S n)) "decode::a_extension::bit_32::parse_rs2" [VInt U32 w; of_a b] o =
  gives (of_option (VInt Usize)) o (a_parse_rs2 p w b).
Proof. by_leaf a_rs2_leaf. Qed.
Lemma zifencei_rs2_live p n w b o :
  run live p (S (S n)) "decode::zifencei_extension::bit_32::parse_rs2" [VInt U32 w; of_zifencei b] o =
  gives (of_option (VInt Usize)) o (zifencei_parse_rs2 p w b).
Proof. by_leaf zifencei_rs2_leaf. Qed.
Lemma zicboz_rs2_live p n w b o :
  run live p (S (S n)) "decode::zicboz_extension::bit_32::parse_rs2" [VInt U32 w; of_zicboz b] o =
  gives (of_option (VInt Usize)) o (zicboz_parse_rs2 p w b).
Proof. by_leaf zicboz_rs2_leaf. Qed.
Lemma zicsr_rs2_live p n w b o :
  run live p (S (S n)) "decode::zicsr_extension::bit_32::parse_rs2" [VInt U32 w; of_zicsr b] o =
  gives (of_option (VInt Usize)) o (zicsr_parse_rs2 p w b).
Proof. by_leaf zicsr_rs2_leaf. Qed.
Lemma zicntr_rs2_live p n w b o :
  run live p (S (S n)) "decode::zicntr_extension::bit_32::parse_rs2" [VInt U32 w; of_zicntr b] o =
  gives (of_option (VInt Usize)) o (zicntr_parse_rs2 p w b).
Proof. by_leaf zicntr_rs2_leaf. Qed.
Lemma priv_rs2_live p n w b o :
  run live p (S (S n)) "decode::priv_extension::bit_32::parse_rs2" [VInt U32 w; of_priv b] o =
  gives (of_option (VInt Usize)) o (priv_parse_rs2 p w b).
Proof. by_leaf priv_rs2_leaf. Qed.
Lemma rs232_live p n w op o : op_is_16 op = false ->
  run live p (S (S (S n))) "u32.parse_rs2" [VInt U32 w; of_op op] o =
  gives (of_result (of_option (VInt Usize))) o (parse_rs2_u32 p w op).
Proof.
  intros X. destruct op as [b|b|b|b|b|b|b|b|b|b]; try discriminate X; operands_live; unfold parse_rs2_u32.
  - by_operand_live (basei_rs2_live p n w b o).
  - by_operand_live (m_rs2_live p n w b o).
  - by_operand_live (a_rs2_live p n w b o).
  - by_operand_live (zifencei_rs2_live p n w b o).
  - by_operand_live (zicboz_rs2_live p n w b o).
  - by_operand_live (zicsr_rs2_live p n w b o).
  - by_operand_live (zicfiss_rs2_live p n w b o X).
  - by_operand_live (zicntr_rs2_live p n w b o).
  - by_operand_live (priv_rs2_live p n w b o).
Qed.

Lemma basei_imm_live p n w b isa o :
  run live p (S (S n)) "decode::base_i::bit_32::parse_imm" [VInt U32 w; of_basei b; of_isa isa] o =
  gives (of_option (VInt I32)) o (basei_parse_imm p w b isa).
Proof. by_leaf basei_imm_leaf. Qed.
Lemma m_imm_live p n w b o :
  run live p (S (S n)) "decode::m_extension::bit_32::parse_imm" [VInt U32 w; of_m b] o =
  gives (of_option (VInt I32)) o (m_parse_imm p w b).
Proof. by_leaf m_imm_leaf. Qed.
Lemma a_imm_live p n w b o :
  run live p (S (S n)) "decode::a_extension::bit_32::parse_imm" [VInt U32 w; of_a b] o =
  gives (of_option (VInt I32)) o (a_parse_imm p w b).
Proof. by_leaf a_imm_leaf. Qed.
Lemma zifencei_imm_live p n w b o :
  run live p (S (S n)) "decode::zifencei_extension::bit_32::parse_imm" [VInt U32 w; of_zifencei b] o =
  gives (of_option (VInt I32)) o (zifencei_parse_imm p w b).
Proof. by_leaf zifencei_imm_leaf. Qed.
Lemma zicboz_imm_live p n w b o :
  run live p (S (S n)) "decode::zicboz_extension::bit_32::parse_imm" [VInt U32 w; of_zicboz b] o =
  gives (of_option (VInt I32)) o (zicboz_parse_imm p w b).
Proof. by_leaf zicboz_imm_leaf. Qed.
Lemma zicsr_imm_live p n w b o :
  run live p (S (S n)) "decode::zicsr_extension::bit_32::parse_imm" [VInt U32 w; of_zicsr b] o =
  gives (of_option (VInt I32)) o (zicsr_parse_imm p w b).
Proof. by_leaf zicsr_imm_leaf. Qed.
Lemma zicntr_imm_live p n w b o :
  run live p (S (S n)) "decode::zicntr_extension::bit_32::parse_imm" [VInt U32 w; of_zicntr b] o =
  gives (of_option (VInt I32)) o (zicntr_parse_imm p w b).
Proof. by_leaf zicntr_imm_leaf. Qed.
Lemma priv_imm_live p n w b o :
  run live p (S (S n)) "decode::priv_extension::bit_32::parse_imm" [VInt U32 w; of_priv b] o =
  gives (of_option (VInt I32)) o (priv_parse_imm p w b).
Proof. by_leaf priv_imm_leaf. Qed.
Lemma imm32_live p n w op isa o : op_is_16 op = false ->
  run live p (S (S (S n))) "u32.parse_imm" [VInt U32 w; of_op op; of_isa isa] o =
  gives (of_result (of_option (VInt I32))) o (parse_imm_u32 p w op isa).
Proof.
  intros X. destruct op as [b|b|b|b|b|b|b|b|b|b]; try discriminate X; operands_live; unfold parse_imm_u32.
  - by_operand_live (basei_imm_live p n w b isa o).
  - by_operand_live (m_imm_live p n w b o).
  - by_operand_live (a_imm_live p n w b o).
  - by_operand_live (zifencei_imm_live p n w b o).
  - by_operand_live (zicboz_imm_live p n w b o).
  - by_operand_live (zicsr_imm_live p n w b o).
  - by_operand_live (zicfiss_imm_live p n w b o X).
  - by_operand_live (zicntr_imm_live p n w b o).
  - by_operand_live (priv_imm_live p n w b o).
Qed.

Lemma c_rd_live p n w b o :
  run live p (S (S n)) "decode::c_extension::bit_16::parse_rd" [VInt U16 w; of_c b] o =
  gives (of_option (VInt Usize)) o (c_parse_rd p w b).
Proof. by_leaf c_rd_leaf. Qed.
Lemma rd16_live p n w op o : op_is_16 op = true ->
  run live p (S (S (S n))) "u16.parse_rd" [VInt U16 w; of_op op] o =
  gives (of_result (of_option (VInt Usize))) o (parse_rd_u16 p w op).
Proof.
  intros X. destruct op as [b|b|b|b|b|b|b|b|b|b]; try discriminate X; operands_live; unfold parse_rd_u16.
  - by_operand_live (c_rd_live p n w b o).
  - by_operand_live (zicfiss16_rd_live p n w b o X).
Qed.

Lemma c_rs1_live p n w b o :
  run live p (S (S n)) "decode::c_extension::bit_16::parse_rs1" [VInt U16 w; of_c b] o =
  gives (of_option (VInt Usize)) o (c_parse_rs1 p w b).
Proof. by_leaf c_rs1_leaf. Qed.
Lemma zicfiss16_rs1_live p n w b o :
  run live p (S (S n)) "decode::zicfiss_extension::bit_16::parse_rs1" [VInt U16 w; of_zicfiss b] o =
  gives (of_option (VInt Usize)) o (zicfiss16_parse_rs1 w b).
Proof. by_leaf zicfiss16_rs1_leaf. Qed.
Lemma rs116_live p n w op o : op_is_16 op = true ->
  run live p (S (S (S n))) "u16.parse_rs1" [VInt U16 w; of_op op] o =
  gives (of_result (of_option (VInt Usize))) o (parse_rs1_u16 p w op).
Proof.
  intros X. destruct op as [b|b|b|b|b|b|b|b|b|b]; try discriminate X; operands_live; unfold parse_rs1_u16.
  - by_operand_live (c_rs1_live p n w b o).
  - by_operand_live (zicfiss16_rs1_live p n w b o).
Qed.

Lemma c_rs2_live p n w b o :
  run live p (S (S n)) "decode::c_extension::bit_16::parse_rs2" [VInt U16 w; of_c b] o =
  gives (of_option (VInt Usize)) o (c_parse_rs2 p w b).
Proof. by_leaf c_rs2_leaf. Qed.
Lemma zicfiss16_rs2_live p n w b o :
  run live p (S (S n)) "decode::zicfiss_extension::bit_16::parse_rs2" [VInt U16 w; of_zicfiss b] o =
  gives (of_option (VInt Usize)) o (zicfiss16_parse_rs2 w b).
Proof. by_leaf zicfiss16_rs2_leaf. Qed.
Lemma rs216_live p n w op o : op_is_16 op = true ->
  run live p (S (S (S n))) "u16.parse_rs2" [VInt U16 w; of_op op] o =
  gives (of_result (of_option (VInt Usize))) o (parse_rs2_u16 p w op).
Proof.
  intros X. destruct op as [b|b|b|b|b|b|b|b|b|b]; try discriminate X; operands_live; unfold parse_rs2_u16.
  - by_operand_live (c_rs2_live p n w b o).
  - by_operand_live (zicfiss16_rs2_live p n w b o).
Qed.

Lemma c_imm_live p n w b o :
  run live p (S (S n)) "decode::c_extension::bit_16::parse_imm" [VInt U16 w; of_c b] o =
  gives (of_option (VInt I32)) o (c_parse_imm p w b).
Proof. by_leaf c_imm_leaf. Qed.
Lemma zicfiss16_imm_live p n w b o :
  run live p (S (S n)) "decode::zicfiss_extension::bit_16::parse_imm" [VInt U16 w; of_zicfiss b] o =
  gives (of_option (VInt I32)) o (zicfiss16_parse_imm w b).
Proof. by_leaf zicfiss16_imm_leaf. Qed.
Lemma imm16_live p n w op isa o : op_is_16 op = true ->
  run live p (S (S (S n))) "u16.parse_imm" [VInt U16 w; of_op op; of_isa isa] o =
  gives (of_result (of_option (VInt I32))) o (parse_imm_u16 p w op isa).
Proof.
  intros X. destruct op as [b|b|b|b|b|b|b|b|b|b]; try discriminate X; operands_live; unfold parse_imm_u16.
  - by_operand_live (c_imm_live p n w b o).
  - by_operand_live (zicfiss16_imm_live p n w b o).
Qed.

