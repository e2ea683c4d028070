(** The functions of the program in which the unreached branches are traps. *)
From Coq Require Import ZArith List Bool String Lia.
From Verif Require Import Rust Types Spec Util DecodeUtil Dec32 Dec16 Decode Debug SrcLink SrcSem SrcExt SrcProg
  SrcEmbed SrcUtil SrcDec32 SrcDec16 SrcDecode SpecOps SpecReach.
Import ListNotations.
Local Open Scope Z_scope.
Local Open Scope string_scope.

Definition live : program := Eval vm_compute in trapped unreached crate.
Lemma live_ok : trapped unreached crate = live.
Proof. vm_compute. reflexivity. Qed.

Lemma live_helped : helped live.
Proof. repeat constructor. Qed.
Lemma live_derives : p_derives live = p_derives crate.
Proof. reflexivity. Qed.

(** The functions without a trap. *)
Lemma live_leaf p n key vs o a : shares live key ->
  (forall c, leaf c p key vs o = a) -> run live p (S (S n)) key vs o = a.
Proof. intros S H. rewrite (run_leaf live) by (exact live_helped || exact S). apply H. Qed.
Ltac shared := split; [reflexivity|split; reflexivity].

(** A function with traps, with the answers of the functions of [DecodeUtil] put in. *)
Lemma live_open p n key vs o s e rt : opened_in live key vs = Some (s, e, rt) ->
  run live p (S (S n)) key vs o =
  ev p derives_eq (known_or (calls_of live p (S n)) p) depth e s o (finish rt) (fun v _ o => finish rt v o).
Proof.
  intros H. apply run_open_in; [reflexivity|exact H|]. intros key' vs' o' k1 k2 K.
  apply known_ok; [exact live_helped|exact K].
Qed.

Ltac open_live := erewrite live_open; [|lazy; reflexivity].

(** Slices are numbers. *)
(** What [parse_extension] says of a word. *)
Lemma extension_says p w e : parse_extension_u32 p w = Ret (Ok e) ->
  let op := Spec.field w 6 0 in let f3 := Spec.field w 14 12 in let f5 := Spec.field w 31 27 in
  let f7 := Spec.field w 31 25 in let csr := Spec.field w 31 20 in
  match e with
  | EZifencei => op = 15 /\ f3 = 0
  | EZicboz => op = 15 /\ f3 = 2
  | EA => op = 47 /\ (0 <= f5 <= 4 \/ f5 = 8 \/ f5 = 12 \/ f5 = 16 \/ f5 = 20 \/ f5 = 24 \/ f5 = 28)
  | EZicfiss => op = 47 /\ f5 = 9 \/ op = 115 /\ f3 = 4
  | EM => (op = 51 \/ op = 59) /\ f7 = 1
  | EZicntr => op = 115 /\ f3 = 2 /\ (3072 <= csr <= 3074 \/ 3200 <= csr <= 3202)
  | EZicsr => op = 115 /\ f3 <> 0 /\ f3 <> 4 /\ (f3 = 2 -> ~ (3072 <= csr <= 3074 \/ 3200 <= csr <= 3202))
  | EPriv => op = 115 /\ f3 = 0 /\ f7 <> 0
  | EBaseI => op <> 15 /\ op <> 47 /\ (op = 51 -> f7 <> 1) /\ (op = 59 -> f7 = 0 \/ f7 = 32) /\
              (op = 115 -> f3 = 0 /\ f7 = 0)
  | EC => False
  end.
Proof.
  unfold parse_extension_u32. rewrite !slice_u32_ok by lia. cbn [bind]. cbv zeta.
  assert (R1 : 0 <= Spec.field w 6 0 < 128) by (apply (field_range w 6 0); lia).
  assert (R2 : 0 <= Spec.field w 14 12 < 8) by (apply (field_range w 14 12); lia).
  assert (R3 : 0 <= Spec.field w 31 27 < 32) by (apply (field_range w 31 27); lia).
  assert (R4 : 0 <= Spec.field w 31 25 < 128) by (apply (field_range w 31 25); lia).
  assert (R5 : 0 <= Spec.field w 31 20 < 4096) by (apply (field_range w 31 20); lia).
  unfold u8_try_from_unwrap, u16_try_from_unwrap.
  generalize dependent (Spec.field w 6 0); generalize dependent (Spec.field w 14 12);
  generalize dependent (Spec.field w 31 27); generalize dependent (Spec.field w 31 25);
  generalize dependent (Spec.field w 31 20).
  unfold bind. intros csr C f7 F7 f5 F5 f3 F3 op OP.
  repeat match goal with |- context [(?x <? ?y)%Z] => destruct (Z.ltb_spec x y); [|lia] end.
  intros E.
  repeat match type of E with
  | match ?x with _ => _ end = _ => is_var x; destruct x
  end; try discriminate E; injection E as <-; lia.
Qed.

Ltac fields32 w :=
  assert (R1 : 0 <= Spec.field w 6 0 < 128) by (apply (field_range w 6 0); lia);
  assert (R2 : 0 <= Spec.field w 14 12 < 8) by (apply (field_range w 14 12); lia);
  assert (R3 : 0 <= Spec.field w 31 27 < 32) by (apply (field_range w 31 27); lia);
  assert (R4 : 0 <= Spec.field w 31 25 < 128) by (apply (field_range w 31 25); lia);
  assert (R5 : 0 <= Spec.field w 31 20 < 4096) by (apply (field_range w 31 20); lia).

Local Opaque calls_of.


(** The two functions test the same numbers one after the other; a trap is met on one path of tests only, and what
    is known of the word excludes it. *)
Ltac lockstep :=
  lazymatch goal with
  | |- ?a = ?a => reflexivity
  | |- (if (?z =? ?c)%Z then _ else _) = _ => destruct (Z.eqb_spec z c); lockstep
  | |- (if (?z <? ?c)%Z then _ else _) = _ => destruct (Z.ltb_spec z c); lockstep
  | |- Halt (Says "reached") = _ => exfalso; lia
  | _ => idtac
  end.
Lemma m_opcode_live p n w isa o : parse_extension_u32 p w = Ret (Ok EM) ->
  run live p (S (S n)) "decode::m_extension::bit_32::parse_opcode" [VInt U32 w; of_isa isa] o =
  gives (of_result of_m) o (m_parse_opcode p w isa).
Proof.
  intros X. apply extension_says in X. cbv zeta in X. fields32 w.
  rewrite <- (m_opcode_leaf (callr p 0)).
  destruct isa; cbv [of_isa]; open_live; norm_body; rewrite !slice_u32_ok by lia; cbv beta iota; lockstep.
Qed.
Lemma basei_opcode_live p n w isa o : parse_extension_u32 p w = Ret (Ok EBaseI) ->
  run live p (S (S n)) "decode::base_i::bit_32::parse_opcode" [VInt U32 w; of_isa isa] o =
  gives (of_result of_basei) o (basei_parse_opcode p w isa).
Proof.
  intros X. apply extension_says in X. cbv zeta in X. fields32 w.
  rewrite <- (basei_opcode_leaf (callr p 0)).
  destruct isa; cbv [of_isa]; open_live; norm_body; rewrite !slice_u32_ok by lia; cbv beta iota; lockstep.
Qed.
Lemma a_opcode_live p n w isa o : parse_extension_u32 p w = Ret (Ok EA) ->
  run live p (S (S n)) "decode::a_extension::bit_32::parse_opcode" [VInt U32 w; of_isa isa] o =
  gives (of_result of_a) o (a_parse_opcode p w isa).
Proof.
  intros X. apply extension_says in X. cbv zeta in X. fields32 w.
  rewrite <- (a_opcode_leaf (callr p 0)).
  destruct isa; cbv [of_isa]; open_live; norm_body; rewrite !slice_u32_ok by lia; cbv beta iota; lockstep.
Qed.
Lemma zicsr_opcode_live p n w o : parse_extension_u32 p w = Ret (Ok EZicsr) ->
  run live p (S (S n)) "decode::zicsr_extension::bit_32::parse_opcode" [VInt U32 w] o =
  gives (of_result of_zicsr) o (zicsr_parse_opcode p w).
Proof.
  intros X. apply extension_says in X. cbv zeta in X. fields32 w.
  rewrite <- (zicsr_opcode_leaf (callr p 0)).
  open_live; norm_body; rewrite !slice_u32_ok by lia; cbv beta iota; lockstep.
Qed.
Lemma zifencei_opcode_live p n w o : parse_extension_u32 p w = Ret (Ok EZifencei) ->
  run live p (S (S n)) "decode::zifencei_extension::bit_32::parse_opcode" [VInt U32 w] o =
  gives (of_result of_zifencei) o (zifencei_parse_opcode p w).
Proof.
  intros X. apply extension_says in X. cbv zeta in X. fields32 w.
  rewrite <- (zifencei_opcode_leaf (callr p 0)).
  open_live; norm_body; rewrite !slice_u32_ok by lia; cbv beta iota; lockstep.
Qed.
Lemma zicfiss_opcode_live p n w o : parse_extension_u32 p w = Ret (Ok EZicfiss) ->
  run live p (S (S n)) "decode::zicfiss_extension::bit_32::parse_opcode" [VInt U32 w] o =
  gives (of_result of_zicfiss) o (zicfiss_parse_opcode p w).
Proof.
  intros X. apply extension_says in X. cbv zeta in X. fields32 w.
  rewrite <- (zicfiss_opcode_leaf (callr p 0)).
  open_live; norm_body; rewrite !slice_u32_ok by lia; cbv beta iota; lockstep.
Qed.
Lemma zicboz_opcode_live p n w o : parse_extension_u32 p w = Ret (Ok EZicboz) ->
  run live p (S (S n)) "decode::zicboz_extension::bit_32::parse_opcode" [VInt U32 w] o =
  gives (of_result of_zicboz) o (zicboz_parse_opcode p w).
Proof.
  intros X. apply extension_says in X. cbv zeta in X. fields32 w.
  rewrite <- (zicboz_opcode_leaf (callr p 0)).
  open_live; norm_body; rewrite !slice_u32_ok by lia; cbv beta iota; lockstep.
Qed.
Lemma zicntr_opcode_live p n w o : parse_extension_u32 p w = Ret (Ok EZicntr) ->
  run live p (S (S n)) "decode::zicntr_extension::bit_32::parse_opcode" [VInt U32 w] o =
  gives (of_result of_zicntr) o (zicntr_parse_opcode p w).
Proof.
  intros X. apply extension_says in X. cbv zeta in X. fields32 w.
  rewrite <- (zicntr_opcode_leaf (callr p 0)).
  open_live; norm_body; rewrite !slice_u32_ok by lia; cbv beta iota; lockstep.
Qed.
Lemma zicfiss_rd_live p n w b o : op_is_16 (OZicfiss b) = false ->
  run live p (S (S n)) "decode::zicfiss_extension::bit_32::parse_rd" [VInt U32 w; of_zicfiss b] o =
  gives (of_option (VInt Usize)) o (zicfiss_parse_rd p w b).
Proof.
  intros X. rewrite <- (zicfiss_rd_leaf (callr p 0)). destruct b; try discriminate X; open_live; norm_operand; reflexivity.
Qed.
Lemma zicfiss_rs1_live p n w b o : op_is_16 (OZicfiss b) = false ->
  run live p (S (S n)) "decode::zicfiss_extension::bit_32::parse_rs1" [VInt U32 w; of_zicfiss b] o =
  gives (of_option (VInt Usize)) o (zicfiss_parse_rs1 p w b).
Proof.
  intros X. rewrite <- (zicfiss_rs1_leaf (callr p 0)). destruct b; try discriminate X; open_live; norm_operand; reflexivity.
Qed.
Lemma zicfiss_rs2_live p n w b o : op_is_16 (OZicfiss b) = false ->
  run live p (S (S n)) "decode::zicfiss_extension::bit_32::parse_rs2" [VInt U32 w; of_zicfiss b] o =
  gives (of_option (VInt Usize)) o (zicfiss_parse_rs2 p w b).
Proof.
  intros X. rewrite <- (zicfiss_rs2_leaf (callr p 0)). destruct b; try discriminate X; open_live; norm_operand; reflexivity.
Qed.
Lemma zicfiss_imm_live p n w b o : op_is_16 (OZicfiss b) = false ->
  run live p (S (S n)) "decode::zicfiss_extension::bit_32::parse_imm" [VInt U32 w; of_zicfiss b] o =
  gives (of_option (VInt I32)) o (zicfiss_parse_imm p w b).
Proof.
  intros X. rewrite <- (zicfiss_imm_leaf (callr p 0)). destruct b; try discriminate X; open_live; norm_operand; reflexivity.
Qed.

(** ** 16 bits *)

Ltac fields16 w :=
  assert (Q1 : 0 <= Spec.field w 15 13 < 8) by (apply (field_range w 15 13); lia);
  assert (Q2 : 0 <= Spec.field w 1 0 < 4) by (apply (field_range w 1 0); lia);
  assert (Q3 : 0 <= Spec.field w 11 10 < 4) by (apply (field_range w 11 10); lia);
  assert (Q4 : 0 <= Spec.field w 6 5 < 4) by (apply (field_range w 6 5); lia);
  assert (Q5 : 0 <= Spec.field w 12 12 < 2) by (apply (field_range w 12 12); lia);
  assert (Q6 : 0 <= Spec.field w 11 7 < 32) by (apply (field_range w 11 7); lia);
  assert (Q7 : 0 <= Spec.field w 6 2 < 32) by (apply (field_range w 6 2); lia).

Lemma quadrant0_live p n w m isa o :
  run live p (S (S n)) "decode::c_extension::bit_16::quadrant0" [VInt U16 w; VInt U8 m; of_isa isa] o =
  gives (of_result of_c) o (quadrant0 w m isa).
Proof. apply live_leaf; [shared|]. intros c. apply quadrant0_leaf. Qed.
Lemma quadrant1_live p n w m isa o : 0 <= m < 8 ->
  run live p (S (S n)) "decode::c_extension::bit_16::quadrant1" [VInt U16 w; VInt U8 m; of_isa isa] o =
  gives (of_result of_c) o (quadrant1 p w m isa).
Proof.
  intros M. fields16 w. rewrite <- (quadrant1_leaf (callr p 0)).
  destruct isa; cbv [of_isa]; open_live; norm_body; rewrite !slice_u16_ok by lia; cbv beta iota; lockstep.
Qed.
Lemma quadrant2_live p n w m isa o : 0 <= m < 8 ->
  run live p (S (S n)) "decode::c_extension::bit_16::quadrant2" [VInt U16 w; VInt U8 m; of_isa isa] o =
  gives (of_result of_c) o (quadrant2 p w m isa).
Proof.
  intros M. fields16 w. rewrite <- (quadrant2_leaf (callr p 0)).
  destruct isa; cbv [of_isa]; open_live; norm_body; rewrite !slice_u16_ok by lia; cbv beta iota; lockstep.
Qed.
