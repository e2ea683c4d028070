(** What happens in the exceptional cases, in full. *)
From Coq Require Import ZArith List Bool String Lia.
From Verif Require Import Rust Types Decode Fmt Spec Util Pat SpecOps SpecText SpecApi SpecMask Rows Rows2 Operands Api
  Text Text2 Findings Claims Masks.
Import ListNotations.
Local Open Scope list_scope.
Local Open Scope Z_scope.

(** ** csrrs of a counter (C08) *)

Definition csr_entry (v : Z) : entry :=
  {| e_op := OZicsr Csr_CSRRS; e_isas := []; e_mask := 0xFFF00000; e_match := v * 2 ^ 20 |}.
Lemma csr_entry_field v w : 0 <= v < 2 ^ 12 -> Z.land w 0xFFF00000 = v * 2 ^ 20 -> field w 31 20 = v.
Proof.
  intros Hv E. unfold field. change (31 - 20 + 1) with 12. change 0xFFF00000 with (Z.shiftl (Z.ones 12) 20) in E.
  rewrite <- Z.shiftr_div_pow2 by lia. rewrite <- Z.land_ones by lia.
  rewrite <- Z.shiftl_mul_pow2 in E by lia. apply (f_equal (fun x => Z.shiftr x 20)) in E.
  rewrite Z.shiftr_land, !Z.shiftr_shiftl_l, !Z.sub_diag, !Z.shiftl_0_r in E by lia. exact E.
Qed.

Lemma counter_csr_check isa :
  forallb (fun r => match r_op r with
    | OZicntr o => existsb (fun c => dec2b (OpcodeKind_dec (OZicntr (snd c)) (OZicntr o)) &&
        fits (Z.of_nat 32) (csr_entry (fst c)) && (0 <=? fst c) && (fst c <? 2 ^ 12) &&
        enc_sub (r_acc r isa) {| incl := [pattern_of 32 (csr_entry (fst c))]; excl := [] |}) counter_reads
    | _ => false end) zicntr_ext = true.
Proof. destruct isa; vm_compute; reflexivity. Qed.
Lemma counter_reads_inj : forallb (fun a => forallb (fun b =>
  negb (fst a =? fst b) || dec2b (OpcodeKind_dec (OZicntr (snd a)) (OZicntr (snd b)))) counter_reads)
  counter_reads = true.
Proof. vm_compute. reflexivity. Qed.
Lemma counter_reads_csrs : forallb (fun a => existsb (Z.eqb (fst a)) counter_csrs) counter_reads = true.
Proof. vm_compute. reflexivity. Qed.

Lemma csrrs_counter_read p isa w o : platform_ok p -> is_u32 w -> legal32 isa (OZicsr Csr_CSRRS) w ->
  In (field w 31 20, o) counter_reads ->
  decode_u32 p w isa = Ret (Ok
    {| opc := OZicntr o; rd := Some (field w 11 7); rs1 := None; rs2 := None; imm := None;
       inst_format := OnlyRd; is_compressed := false |}).
Proof.
  intros Hp Hw [r [Hr [O He]]] Hc.
  assert (Hz : In r zicsr_ext).
  { assert (A : forallb (fun r => negb (dec2b (OpcodeKind_dec (r_op r) (OZicsr Csr_CSRRS))) ||
        mem_op (r_op r) (map r_op zicsr_ext)) table32 = true) by (vm_compute; reflexivity).
    rewrite forallb_forall in A. specialize (A r Hr). rewrite O, dec2b_refl in A. cbn [negb orb] in A.
    apply mem_op_ok in A. apply in_map_iff in A. destruct A as [r' [E I]].
    assert (r' = r) as <-; [|exact I]. apply row_unique32; [|exact Hr|congruence].
    unfold table32. rewrite !in_app_iff. tauto. }
  pose proof (counters_check32 isa) as A. rewrite forallb_forall in A. specialize (A r Hz). rewrite O in A.
  assert (Hcs : In (field w 31 20) counter_csrs).
  { pose proof counter_reads_csrs as B. rewrite forallb_forall in B. specialize (B _ Hc).
    apply CanonBase.existsb_eqb in B. exact B. }
  assert (K : sem (FAnd (enc_form (r_man r isa)) (enc_form counters_any)) 0 w = true).
  { cbn [sem]. rewrite !enc_sem, He, counters_any_ok. cbn [andb]. apply existsb_exists.
    exists (field w 31 20). split; [assumption|apply Z.eqb_refl]. }
  pose proof (some_row_ok _ _ _ (implies_ok _ _ w A K)) as [c [Hin Ha]].
  assert (Ht : In c table32) by (unfold table32; rewrite !in_app_iff; tauto).
  pose proof (counter_csr_check isa) as Z. rewrite forallb_forall in Z. specialize (Z c Hin).
  pose proof zicntr_cls as C. rewrite forallb_forall in C. specialize (C c Hin).
  apply andb_true_iff in C. destruct C as [C1 C2]. apply dec2b_true in C1, C2.
  assert (C : r_cls c isa = cCounter) by (destruct isa; assumption).
  rewrite (row32 p isa w c Hp Hw Ht Ha). unfold reads. rewrite C.
  destruct (r_op c) as [| | | | | | | |o'|] eqn:E; try discriminate Z.
  apply existsb_exists in Z. destruct Z as [[v o2] [I Z]]. cbn [fst snd] in Z.
  rewrite !andb_true_iff in Z. destruct Z as [[[[Z1 Z2] Z3] Z4] Z5]. apply dec2b_true in Z1. injection Z1 as ->.
  apply Z.leb_le in Z3. apply Z.ltb_lt in Z4.
  pose proof (enc_sub_ok _ _ w Z5 Ha) as M. unfold in_enc in M. cbn [incl excl existsb] in M. rewrite orb_false_r in M.
  destruct (matches (pattern_of 32 (csr_entry v)) w) eqn:M'; [|discriminate M].
  apply (pattern_of_ok 32 (csr_entry v) w Z2) in M'. cbn [csr_entry e_mask e_match] in M'.
  apply csr_entry_field in M'; [|lia].
  pose proof counter_reads_inj as J. rewrite forallb_forall in J. specialize (J _ Hc). rewrite forallb_forall in J.
  specialize (J _ I). cbn [fst snd] in J. rewrite M', Z.eqb_refl in J. cbn [negb orb] in J.
  apply dec2b_true in J. injection J as ->. reflexivity.
Qed.
Lemma counter_csrs_read : map fst counter_reads = counter_csrs.
Proof. reflexivity. Qed.

(** ** ssamoswap.d on Rv32 (C10) *)

Lemma ssamoswap_d_rv32 p w r : platform_ok p -> is_u32 w -> In r table32 -> r_op r = OZicfiss Ss_SSAMOSWAP_D ->
  in_enc (r_man r Rv64) w = true -> decode_u32 p w Rv32 = Ret (Ok (reads r Rv64 false w)).
Proof.
  intros Hp Hw Hr O He. pose proof ssamoswap_d_check as A. rewrite forallb_forall in A.
  specialize (A r Hr). rewrite O in A.
  rewrite (row32 p Rv32 w r Hp Hw Hr (enc_sub_ok _ _ w A He)). do 2 f_equal.
  assert (B : forallb (fun r => match r_op r with OZicfiss Ss_SSAMOSWAP_D =>
    dec2b (class_dec (r_cls r Rv32) (r_cls r Rv64)) | _ => true end) table32 = true) by (vm_compute; reflexivity).
  rewrite forallb_forall in B. specialize (B r Hr). rewrite O in B. apply dec2b_true in B.
  unfold reads. rewrite B. reflexivity.
Qed.

(** ** c.add x0, rs2 (C11) *)

Lemma ebreak_cls isa : forallb (fun r => match r_op r with OC C_EBREAK =>
  dec2b (class_dec (r_cls r isa) (cls RNone RNone RNone INone NoOperand)) | _ => true end) table16 = true.
Proof. destruct isa; vm_compute; reflexivity. Qed.
Lemma hint_ebreak p isa w : platform_ok p -> is_u16 w -> legal16 isa (OC C_ADD) w -> field w 11 7 = 0 ->
  decode_u16 p w isa = Ret (Ok
    {| opc := OC C_EBREAK; rd := None; rs1 := None; rs2 := None; imm := None;
       inst_format := NoOperand; is_compressed := true |}).
Proof.
  intros Hp Hw L F. destruct (hint_is_ebreak p isa w Hp Hw L F) as [i [H O]].
  pose proof H as H'. apply ok16 in H'; [|assumption..]. destruct H' as [r [Hr [_ ->]]].
  rewrite H. pose proof (ebreak_cls isa) as A. rewrite forallb_forall in A. specialize (A r Hr).
  cbn [reads opc] in O. rewrite O in A. apply dec2b_true in A. unfold reads. rewrite A, O. reflexivity.
Qed.

(** ** TryFrom<usize> (C29) *)

Lemma try_from_cases p x : platform_ok p -> 0 <= x < 2 ^ usize_bits p ->
  (x < 2 ^ 16 \/ x mod 4 = 3 /\ x < 2 ^ 32 -> exists r, try_from_usize p x = Ret r) /\
  (~ (x < 2 ^ 16 \/ x mod 4 = 3 /\ x < 2 ^ 32) -> try_from_usize p x = Panic PExpect).
Proof.
  intros Hp Hx. split; [apply try_from_exact; assumption|]. intros N. apply try_from_too_big; lia.
Qed.

(** ** Mnemonics (C32) *)

Lemma mnemonic_spelled op : odd_mnemonic op = None -> OpcodeKind_display op = spelled op /\ lower (spelled op) = mnemonic op.
Proof. destruct op as [[]|[]|[]|[]|[]|[]|[]|[]|[]|[]]; intros H; try discriminate H; split; reflexivity. Qed.

(** ** Reading back (C34) *)

Lemma readable_iff_check : forallb (fun op => match printed op with
    | Some t => Bool.eqb (readable op false t) (negb (mem_op op unreadable))
    | None => mem_op op unprintable end) all_ops = true.
Proof. vm_compute. reflexivity. Qed.
Lemma readable_iff op t : printed op = Some t -> (readable op false t = true <-> ~ In op unreadable).
Proof.
  intros P. pose proof readable_iff_check as A. rewrite forallb_forall in A. specialize (A op (all_ops_in op)).
  rewrite P in A. apply eqb_prop in A. rewrite A, negb_true_iff, <- mem_op_ok. symmetry. apply not_true_iff_false.
Qed.
Lemma display_printed i : decoded i -> ~ In (opc i) unprintable ->
  exists t rest, printed (opc i) = Some t /\ reads_as t i rest /\
    Instruction_display i = Ret (OpcodeKind_display (opc i) ++ rest)%string.
Proof.
  intros D P. pose proof (display_decoded i D) as B. rewrite <- printed_none in P.
  destruct (printed (opc i)) as [t|]; [|contradiction]. destruct B as [rest [E F]].
  exists t, rest. auto.
Qed.
