(** Where the code departs from a claimed property: witnesses, and the exact extent. *)
From Coq Require Import ZArith List Bool String Lia.
From Verif Require Import Rust Types DecodeUtil Dec32 Dec16 Decode Fmt Spec Util Plat Exact32 Exact16
  Pat SpecOps SpecText SpecApi Rows Rows2 Operands Api Numerals Text Text2.
Import ListNotations.
Local Open Scope list_scope.
Local Open Scope Z_scope.

Ltac is_word := unfold is_u32, is_u16; lia.

Definition legal_b (t : list row) (isa : Isa) (op : OpcodeKind) (w : Z) : bool :=
  existsb (fun r => if dec2b (OpcodeKind_dec (r_op r) op) then in_enc (r_man r isa) w else false) t.
Lemma legal_b_iff t isa op w : legal_b t isa op w = true <->
  exists r, In r t /\ r_op r = op /\ in_enc (r_man r isa) w = true.
Proof.
  unfold legal_b. rewrite existsb_exists. split.
  - intros [r [Hr H]]. exists r. destruct (dec2b (OpcodeKind_dec (r_op r) op)) eqn:E; [|discriminate H].
    apply dec2b_true in E. auto.
  - intros [r [Hr [<- H]]]. exists r. rewrite dec2b_refl. auto.
Qed.
Lemma legal32_iff isa op w : legal_b table32 isa op w = true <-> legal32 isa op w.
Proof. apply legal_b_iff. Qed.
Lemma legal16_iff isa op w : legal_b table16 isa op w = true <-> legal16 isa op w.
Proof. apply legal_b_iff. Qed.

(** ** csrrs on a counter with rs1 <> x0 (C08) *)

Lemma counters_check32 isa :
  forallb (fun r => match r_op r with
    | OZicsr Csr_CSRRS => implies (FAnd (enc_form (r_man r isa)) (enc_form counters_any))
                                  (some_row zicntr_ext isa)
    | _ => true end) zicsr_ext = true.
Proof. destruct isa; vm_compute; reflexivity. Qed.
Lemma zicntr_ops : forallb (fun r => match r_op r with OZicntr _ => true | _ => false end) zicntr_ext = true.
Proof. reflexivity. Qed.
Lemma zicntr_cls : forallb (fun r => dec2b (class_dec (r_cls r Rv32) cCounter) &&
  dec2b (class_dec (r_cls r Rv64) cCounter)) zicntr_ext = true.
Proof. vm_compute. reflexivity. Qed.

Lemma csrrs_counter p isa w r : platform_ok p -> is_u32 w -> In r zicsr_ext ->
  r_op r = OZicsr Csr_CSRRS -> in_enc (r_man r isa) w = true -> In (field w 31 20) counter_csrs ->
  exists i o, decode_u32 p w isa = Ret (Ok i) /\ opc i = OZicntr o /\
    rd i = Some (field w 11 7) /\ rs1 i = None /\ rs2 i = None.
Proof.
  intros Hp Hw Hr O He Hc. pose proof (counters_check32 isa) as A. rewrite forallb_forall in A.
  specialize (A r Hr). rewrite O in A.
  assert (K : sem (FAnd (enc_form (r_man r isa)) (enc_form counters_any)) 0 w = true).
  { cbn [sem]. rewrite !enc_sem, He, counters_any_ok. cbn [andb]. apply existsb_exists.
    exists (field w 31 20). split; [assumption|apply Z.eqb_refl]. }
  pose proof (some_row_ok _ _ _ (implies_ok _ _ w A K)) as [c [Hin Ha]].
  assert (Ht : In c table32) by (unfold table32; rewrite !in_app_iff; tauto).
  pose proof zicntr_ops as Z. rewrite forallb_forall in Z. specialize (Z c Hin).
  pose proof zicntr_cls as C. rewrite forallb_forall in C. specialize (C c Hin).
  apply andb_true_iff in C. destruct C as [C1 C2]. apply dec2b_true in C1, C2.
  exists (reads c isa false w). destruct (r_op c) eqn:E; try discriminate Z.
  eexists. split; [apply row32; assumption|]. cbn [reads opc rd rs1 rs2]. rewrite E.
  assert (C : r_cls c isa = cCounter) by (destruct isa; assumption). rewrite C.
  repeat split; reflexivity.
Qed.

Lemma csrrs_refuted : exists p isa w i,
  platform_ok p /\ is_u32 w /\ legal32 isa (OZicsr Csr_CSRRS) w /\ field w 19 15 <> 0 /\
  decode_u32 p w isa = Ret (Ok i) /\ opc i <> OZicsr Csr_CSRRS.
Proof.
  exists plat, Rv64, 0xC00322F3. eexists. split; [exact plat_ok|]. split; [is_word|]. split.
  - apply legal32_iff. vm_compute. reflexivity.
  - split; [vm_compute; discriminate|]. split; [vm_compute; reflexivity|]. discriminate.
Qed.

(** On Rv64 the upper-half counters are no counter reads but are decoded as such. *)
Lemma counter_h_refuted : exists p w i, platform_ok p /\ is_u32 w /\
  decode_u32 p w Rv64 = Ret (Ok i) /\ opc i = OZicntr Cnt_RDCYCLE_H /\
  legal32 Rv64 (OZicsr Csr_CSRRS) w.
Proof.
  exists plat, 0xC80022F3. eexists. split; [exact plat_ok|]. split; [is_word|].
  split; [vm_compute; reflexivity|]. split; [reflexivity|].
  apply legal32_iff. vm_compute. reflexivity.
Qed.

(** ** fence.i (C09) *)

Lemma fence_i_check isa :
  implies (enc_form fence_i) (some_err (filter (is_err UnknownExtension) errors32) isa) = true.
Proof. destruct isa; vm_compute; reflexivity. Qed.
Lemma fence_i_rejected p isa w : platform_ok p -> is_u32 w -> in_enc fence_i w = true ->
  decode_u32 p w isa = Ret (Err UnknownExtension).
Proof.
  intros Hp Hw H. apply some_err32; [assumption..|]. apply (implies_ok _ _ w (fence_i_check isa)).
  rewrite enc_sem. assumption.
Qed.

(** ** ssamoswap.d on Rv32 (C10, C21) *)

Lemma ssamoswap_d_check :
  forallb (fun r => match r_op r with OZicfiss Ss_SSAMOSWAP_D =>
    enc_sub (r_man r Rv64) (r_acc r Rv32) | _ => true end) table32 = true.
Proof. vm_compute. reflexivity. Qed.
Lemma ssamoswap_d_rv32 p w : platform_ok p -> is_u32 w ->
  legal32 Rv64 (OZicfiss Ss_SSAMOSWAP_D) w ->
  exists i, decode_u32 p w Rv32 = Ret (Ok i) /\ opc i = OZicfiss Ss_SSAMOSWAP_D.
Proof.
  intros Hp Hw [r [Hr [O He]]]. pose proof ssamoswap_d_check as A. rewrite forallb_forall in A.
  specialize (A r Hr). rewrite O in A.
  exists (reads r Rv32 false w). split; [|exact O]. apply row32; [assumption..|].
  exact (enc_sub_ok _ _ w A He).
Qed.
Lemma ssamoswap_d_illegal w : ~ legal32 Rv32 (OZicfiss Ss_SSAMOSWAP_D) w.
Proof.
  assert (A : forallb (fun r => match r_op r with OZicfiss Ss_SSAMOSWAP_D =>
    implies (enc_form (r_man r Rv32)) FFalse | _ => true end) table32 = true)
    by (vm_compute; reflexivity).
  intros [r [Hr [O He]]]. rewrite forallb_forall in A. specialize (A r Hr). rewrite O in A.
  rewrite <- enc_sem in He. pose proof (implies_ok _ _ w A He) as K. discriminate K.
Qed.

(** ** the HINT c.add x0, rs2 (C11) *)

Lemma hint_check isa :
  forallb (fun r => match r_op r with
    | OC C_ADD => implies (FAnd (enc_form (r_man r isa)) (enc_form hint_add))
                    (some_row (filter (fun r => mem_op (r_op r) [OC C_EBREAK]) table16) isa)
    | _ => true end) table16 = true.
Proof. destruct isa; vm_compute; reflexivity. Qed.
Lemma matches_fixed_0 w : field w 11 7 = 0 ->
  forall k, 7 <= k <= 11 -> Z.testbit w k = false.
Proof.
  intros F k Hk. pose proof (field_testbit w 11 7 (k - 7) ltac:(lia) ltac:(lia)) as B.
  rewrite F, Z.bits_0 in B. replace (7 + (k - 7)) with k in B by lia.
  replace (k - 7 <? 11 - 7 + 1) with true in B by lia. rewrite andb_true_r in B. exact (eq_sym B).
Qed.
Lemma hint_add_of w r isa : In r table16 -> r_op r = OC C_ADD -> in_enc (r_man r isa) w = true ->
  field w 11 7 = 0 -> in_enc hint_add w = true.
Proof.
  intros Hr O He F. pose proof (matches_fixed_0 w F) as B.
  assert (A : forallb (fun r => match r_op r with OC C_ADD =>
      enc_sub (r_man r isa) (only ["100 1 ..... ..... 10"%string]) | _ => true end) table16 = true)
    by (destruct isa; vm_compute; reflexivity).
  rewrite forallb_forall in A. specialize (A r Hr). rewrite O in A.
  apply (enc_sub_ok _ _ w A) in He. unfold in_enc, only in He. cbn [incl excl map existsb] in He.
  rewrite orb_false_r in He.
  destruct (matches (pat "100 1 ..... ..... 10") w) eqn:M; [|discriminate He].
  unfold in_enc, hint_add, only. cbn [incl excl map existsb]. rewrite orb_false_r.
  assert (M' : matches (pat "100 1 00000 ..... 10") w = true); [|rewrite M'; reflexivity].
  unfold matches, pat in *. cbn [parse_bits Ascii.eqb Bool.eqb matches_at] in *.
  cbv [Z.add Pos.add Pos.succ Pos.add_carry] in *.
  rewrite (B 7), (B 8), (B 9), (B 10), (B 11) by lia. cbn [Bool.eqb].
  exact M.
Qed.
Lemma hint_is_ebreak p isa w : platform_ok p -> is_u16 w -> legal16 isa (OC C_ADD) w ->
  field w 11 7 = 0 -> exists i, decode_u16 p w isa = Ret (Ok i) /\ opc i = OC C_EBREAK.
Proof.
  intros Hp Hw [r [Hr [O He]]] F. pose proof (hint_add_of w r isa Hr O He F) as Hh.
  pose proof (hint_check isa) as A. rewrite forallb_forall in A. specialize (A r Hr). rewrite O in A.
  assert (K : sem (FAnd (enc_form (r_man r isa)) (enc_form hint_add)) 0 w = true)
    by (cbn [sem]; rewrite !enc_sem, He, Hh; reflexivity).
  pose proof (some_row_ok _ _ _ (implies_ok _ _ w A K)) as [c [Hin Ha]].
  apply filter_In in Hin. destruct Hin as [Hin M]. apply mem_op_ok in M. destruct M as [M|[]].
  exists (reads c isa true w). split; [apply row16; assumption|exact (eq_sym M)].
Qed.

(** ** Illegal encodings that are accepted (C14, C15) *)

Lemma lenient_accepted32 p isa op w : platform_ok p -> is_u32 w -> lenient lenient32 isa op w ->
  exists i, decode_u32 p w isa = Ret (Ok i) /\ opc i = op /\ ~ legal32 isa (opc i) w.
Proof.
  intros Hp Hw L. destruct (soundness32 p isa w Hp Hw) as [S1 S2].
  destruct (S2 op L) as [i [H O]]. exists i. split; [assumption|]. split; [assumption|].
  intros G. apply (proj2 (S1 i H)). rewrite O in *. auto.
Qed.
Lemma lenient_accepted16 p isa op w : platform_ok p -> is_u16 w -> lenient lenient16 isa op w ->
  exists i, decode_u16 p w isa = Ret (Ok i) /\ opc i = op /\ ~ legal16 isa (opc i) w.
Proof.
  intros Hp Hw L. destruct (soundness16 p isa w Hp Hw) as [S1 S2].
  destruct (S2 op L) as [i [H O]]. exists i. split; [assumption|]. split; [assumption|].
  intros G. apply (proj2 (S1 i H)). rewrite O in *. auto.
Qed.
Lemma jalr_refuted : exists p isa w i, platform_ok p /\ is_u32 w /\
  decode_u32 p w isa = Ret (Ok i) /\ ~ legal32 isa (opc i) w.
Proof.
  exists plat, Rv64, 0x000010E7.
  destruct (lenient_accepted32 plat Rv64 (OBaseI I_JALR) 0x000010E7 plat_ok) as [i [H [_ N]]].
  - is_word.
  - apply find_enc_in. vm_compute. reflexivity.
  - exists i. split; [exact plat_ok|]. split; [is_word|]. auto.
Qed.
Lemma c_lwsp_refuted : exists p isa w i, platform_ok p /\ is_u16 w /\
  decode_u16 p w isa = Ret (Ok i) /\ ~ legal16 isa (opc i) w.
Proof.
  exists plat, Rv64, 0x4002.
  destruct (lenient_accepted16 plat Rv64 (OC C_LWSP) 0x4002 plat_ok) as [i [H [_ N]]].
  - is_word.
  - apply find_enc_in. vm_compute. reflexivity.
  - exists i. split; [exact plat_ok|]. split; [is_word|]. auto.
Qed.

(** ** RV64-only and RV32-only opcodes on the wrong ISA (C21) *)

Lemma gating_refuted :
  (exists p w i, platform_ok p /\ is_u32 w /\ decode_u32 p w Rv32 = Ret (Ok i) /\ In (opc i) rv64_ss) /\
  (exists p w i, platform_ok p /\ is_u32 w /\ decode_u32 p w Rv64 = Ret (Ok i) /\
     In (opc i) rv32_counters).
Proof.
  split.
  - exists plat, 0x4872B32F. eexists. split; [exact plat_ok|]. split; [is_word|].
    split; [vm_compute; reflexivity|]. left. reflexivity.
  - exists plat, 0xC80022F3. eexists. split; [exact plat_ok|]. split; [is_word|].
    split; [vm_compute; reflexivity|]. left. reflexivity.
Qed.

(** The opcodes of [rv64_*] and [rv32_*] returned on the wrong ISA are those. *)
Lemma wrong_isa32 p w i : platform_ok p -> is_u32 w -> decode_u32 p w Rv32 = Ret (Ok i) ->
  In (opc i) (rv64_base_i ++ rv64_m ++ rv64_a ++ rv64_ss) -> opc i = OZicfiss Ss_SSAMOSWAP_D.
Proof.
  intros Hp Hw H M. pose proof (never32 p w i Hp Hw H) as N. unfold gated32 in N.
  rewrite !app_assoc in M. rewrite app_assoc in N. apply in_app_or in M.
  destruct M as [M|[M|[]]]; [destruct (N M)|symmetry; assumption].
Qed.

(** ** Lengths (C25) *)

Lemma length_refuted :
  (exists p isa w, platform_ok p /\ is_u16 w /\ w mod 4 = 3 /\
     decode_u16 p w isa <> Ret (Err Not16BitInst)) /\
  (exists p isa w, platform_ok p /\ is_u32 w /\ w mod 4 <> 3 /\
     decode_u32 p w isa <> Ret (Err Not32BitInst)).
Proof.
  split.
  - exists plat, Rv64, 0x33. split; [exact plat_ok|]. split; [is_word|]. split; [reflexivity|].
    vm_compute. discriminate.
  - exists plat, Rv64, 0x4501. split; [exact plat_ok|]. split; [is_word|].
    split; [vm_compute; discriminate|]. vm_compute. discriminate.
Qed.

(** ** Opcodes of the other width (C27) *)

Lemma foreign_refuted :
  (exists p w op, platform_ok p /\ is_u32 w /\ op_is_16 op = true /\
     exists why, parse_rd_u32 p w op = Panic why) /\
  (exists p w op, platform_ok p /\ is_u16 w /\ op_is_16 op = false /\
     exists why, parse_rd_u16 p w op = Panic why).
Proof.
  split.
  - exists plat, 0x13, (OZicfiss Ss_C_SSPUSH). split; [exact plat_ok|]. split; [is_word|].
    split; [reflexivity|]. eexists. vm_compute. reflexivity.
  - exists plat, 0x4501, (OZicfiss Ss_SSPUSH). split; [exact plat_ok|]. split; [is_word|].
    split; [reflexivity|]. eexists. vm_compute. reflexivity.
Qed.

(** ** try_from (C29) *)

Lemma try_from_refuted : exists p x why, platform_ok p /\ 0 <= x < 2 ^ usize_bits p /\
  try_from_usize p x = Panic why.
Proof.
  exists plat, 0x10000. eexists. split; [exact plat_ok|]. split; [cbn; lia|].
  vm_compute. reflexivity.
Qed.

(** ** Text (C30, C31, C32, C33, C34) *)

Lemma display_refuted op : In op unprintable ->
  exists i why, decoded i /\ opc i = op /\ Instruction_display i = Panic why.
Proof.
  intros U. assert (W : forall x i, in_range x = true -> dec x = Ret (Ok i) -> opc i = op ->
    exists j why, decoded j /\ opc j = op /\ Instruction_display j = Panic why).
  { intros x i R D <-. pose proof (dec_decoded x i R D) as Di.
    destruct (proj2 (display_panics i Di) U) as [why P]. exists i, why. auto. }
  destruct U as [<-|[<-|[<-|[<-|[]]]]].
  - eapply (W (W32 0x12530073)); [reflexivity|vm_compute; reflexivity|reflexivity].
  - eapply (W (W32 0xCDC0C073)); [reflexivity|vm_compute; reflexivity|reflexivity].
  - eapply (W (W16 0x6081)); [reflexivity|vm_compute; reflexivity|reflexivity].
  - eapply (W (W16 0x6281)); [reflexivity|vm_compute; reflexivity|reflexivity].
Qed.

Lemma readable_check :
  forallb (fun op => mem_op op unreadable ||
    match printed op with Some t => readable op false t | None => true end) all_ops = true.
Proof. vm_compute. reflexivity. Qed.
Lemma display_readable i : decoded i -> ~ In (opc i) unprintable -> ~ In (opc i) unreadable ->
  exists t rest, readable (opc i) false t = true /\ reads_as t i rest /\
    Instruction_display i = Ret (OpcodeKind_display (opc i) ++ rest)%string.
Proof.
  intros D P R. pose proof readable_check as A. rewrite forallb_forall in A.
  specialize (A _ (all_ops_in (opc i))). apply orb_true_iff in A.
  destruct A as [A|A]; [apply mem_op_ok in A; contradiction|].
  pose proof (display_decoded i D) as B. rewrite <- printed_none in P.
  destruct (printed (opc i)) as [t|]; [|contradiction]. destruct B as [rest [E F]].
  exists t, rest. auto.
Qed.

Fixpoint occurs_b (n s : string) : bool :=
  String.prefix n s || match s with EmptyString => false | String _ s' => occurs_b n s' end.
Lemma prefix_app n b : String.prefix n (n ++ b) = true.
Proof.
  induction n as [|c n IH]; [destruct b; reflexivity|]. cbn.
  destruct (Ascii.ascii_dec c c) as [_|N]; [assumption|destruct (N eq_refl)].
Qed.
Lemma occurs_b_ok n s : occurs n s -> occurs_b n s = true.
Proof.
  intros [a [b ->]]. induction a as [|c a IH].
  - cbn [String.append]. destruct (n ++ b)%string eqn:E; cbn [occurs_b]; rewrite <- E, prefix_app; reflexivity.
  - cbn [String.append occurs_b]. rewrite IH. apply orb_true_r.
Qed.

(** A register printed as a number. *)
Lemma register_refuted : exists i r n s, decoded i /\ rs1 i = Some r /\ register n r /\
  Instruction_display i = Ret s /\ ~ occurs n s.
Proof.
  assert (D : exists i, dec (W16 0xC009) = Ret (Ok i) /\ rs1 i = Some 8 /\
    Instruction_display i = Ret "C.beqz 8, 2"%string).
  { eexists. split; [vm_compute; reflexivity|]. split; vm_compute; reflexivity. }
  destruct D as [i [D [R S]]]. exists i, 8, "s0"%string, "C.beqz 8, 2"%string.
  split; [exact (dec_decoded (W16 0xC009) i eq_refl D)|]. split; [assumption|].
  split; [split; [lia|reflexivity]|]. split; [assumption|].
  intros O. apply occurs_b_ok in O. discriminate O.
Qed.

(** An immediate of 16 printed as "10". *)
Lemma immediate_refuted : exists i s t, decoded i /\ imm i = Some 16 /\
  Instruction_display i = Ret (s ++ ", " ++ t)%string /\ decimal t 10.
Proof.
  exists {| opc := OC C_ADDI4SPN; rd := Some 8; rs1 := None; rs2 := None; imm := Some 16;
            inst_format := CiwFormat; is_compressed := true |}, "C.addi4spn s0, sp"%string, "10"%string.
  split; [apply (dec_decoded (W16 0x0800)); vm_compute; reflexivity|].
  split; [reflexivity|]. split; [vm_compute; reflexivity|]. apply decimal_iff. reflexivity.
Qed.

(** ** Witnesses for C09, C10, C11 *)

Lemma fence_i_refuted : exists p isa w, platform_ok p /\ is_u32 w /\ in_enc fence_i w = true /\
  decode_u32 p w isa = Ret (Err UnknownExtension).
Proof.
  exists plat, Rv64, 0x0000100F. split; [exact plat_ok|]. split; [is_word|].
  split; vm_compute; reflexivity.
Qed.
Lemma ssamoswap_d_refuted : exists p w i, platform_ok p /\ is_u32 w /\
  decode_u32 p w Rv32 = Ret (Ok i) /\ opc i = OZicfiss Ss_SSAMOSWAP_D /\ ~ legal32 Rv32 (opc i) w.
Proof.
  exists plat, 0x4872B32F. eexists. split; [exact plat_ok|]. split; [is_word|].
  split; [vm_compute; reflexivity|]. split; [reflexivity|]. apply ssamoswap_d_illegal.
Qed.
Lemma hint_refuted : exists p isa w i, platform_ok p /\ is_u16 w /\
  legal16 isa (OC C_ADD) w /\ decode_u16 p w isa = Ret (Ok i) /\ opc i = OC C_EBREAK.
Proof.
  exists plat, Rv64, 0x902A. eexists. split; [exact plat_ok|]. split; [is_word|].
  split; [apply legal16_iff; vm_compute; reflexivity|]. split; [vm_compute; reflexivity|reflexivity].
Qed.
