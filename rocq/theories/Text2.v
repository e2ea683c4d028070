(** Which opcodes print as documented, mnemonics, injectivity of the text (C31-C33). *)
From Coq Require Import ZArith List Bool String Ascii Lia.
From Verif Require Import Rust Types DecodeUtil Dec32 Dec16 Decode Fmt Spec Util Plat Exact32 Exact16
  Pat SpecOps Rows Rows2 SpecApi Operands Api PartialEq PartialEqOk SpecText
  Numerals Text.
Import ListNotations.
Local Open Scope string_scope.
Local Open Scope list_scope.
Local Open Scope Z_scope.

Definition all_ops : list OpcodeKind := map r_op (table32 ++ table16).
Lemma all_ops_in op : In op all_ops.
Proof.
  apply mem_op_ok. destruct op as [[]|[]|[]|[]|[]|[]|[]|[]|[]|[]]; vm_compute; reflexivity.
Qed.

(** ** Opcodes that do not print as documented (C31) *)

Definition departures : list (OpcodeKind * input) := [
  (OBaseI I_JALR, W32 0xc38367);
  (OBaseI I_LB, W32 0xc38303);
  (OBaseI I_LH, W32 0xc39303);
  (OBaseI I_LW, W32 0xc3a303);
  (OBaseI I_LBU, W32 0xc3c303);
  (OBaseI I_LHU, W32 0xc3d303);
  (OBaseI I_LWU, W32 0xc3e303);
  (OBaseI I_LD, W32 0xc3b303);
  (OBaseI I_SB, W32 0x938423);
  (OBaseI I_SH, W32 0x939423);
  (OBaseI I_SW, W32 0x93a423);
  (OBaseI I_SD, W32 0x93b423);
  (OBaseI I_BEQ, W32 0x938463);
  (OBaseI I_BNE, W32 0x939463);
  (OBaseI I_BLT, W32 0x93c463);
  (OBaseI I_BGE, W32 0x93d463);
  (OBaseI I_BLTU, W32 0x93e463);
  (OBaseI I_BGEU, W32 0x93f463);
  (OA A_LR_W, W32 0x1003a32f);
  (OA A_LR_D, W32 0x1003b32f);
  (OA A_SC_W, W32 0x1893a32f);
  (OA A_SC_D, W32 0x1893b32f);
  (OA A_AMOSWAP_W, W32 0x893a32f);
  (OA A_AMOSWAP_D, W32 0x893b32f);
  (OA A_AMOADD_W, W32 0x93a32f);
  (OA A_AMOADD_D, W32 0x93b32f);
  (OA A_AMOXOR_W, W32 0x2093a32f);
  (OA A_AMOXOR_D, W32 0x2093b32f);
  (OA A_AMOAND_W, W32 0x6093a32f);
  (OA A_AMOAND_D, W32 0x6093b32f);
  (OA A_AMOOR_W, W32 0x4093a32f);
  (OA A_AMOOR_D, W32 0x4093b32f);
  (OA A_AMOMIN_W, W32 0x8093a32f);
  (OA A_AMOMIN_D, W32 0x8093b32f);
  (OA A_AMOMAX_W, W32 0xa093a32f);
  (OA A_AMOMAX_D, W32 0xa093b32f);
  (OA A_AMOMINU_W, W32 0xc093a32f);
  (OA A_AMOMINU_D, W32 0xc093b32f);
  (OA A_AMOMAXU_W, W32 0xe093a32f);
  (OA A_AMOMAXU_D, W32 0xe093b32f);
  (OZicfiss Ss_SSAMOSWAP_W, W32 0x4893a32f);
  (OZicfiss Ss_SSAMOSWAP_D, W32 0x4893b32f);
  (OZicfiss Ss_SSPUSH, W32 0xce104073);
  (OZicfiss Ss_SSPOPCHK, W32 0xcdc0c073);
  (OZicfiss Ss_C_SSPUSH, W16 0x6081);
  (OZicfiss Ss_C_SSPOPCHK, W16 0x6281);
  (OPriv P_SFENCE_VMA, W32 0x12530073);
  (OC C_ADDI4SPN, W16 0x1408);
  (OC C_LW, W16 0x48c8);
  (OC C_LD, W16 0x68c8);
  (OC C_SW, W16 0xc8c8);
  (OC C_SD, W16 0xe8c8);
  (OC C_SRLI, W16 0x8119);
  (OC C_SRAI, W16 0x8519);
  (OC C_ANDI, W16 0x8919);
  (OC C_BEQZ, W16 0xc919);
  (OC C_BNEZ, W16 0xe919)
].
Lemma departures_ok : forallb departs departures = true.
Proof. vm_compute. reflexivity. Qed.
Lemma departures_all :
  forallb (fun op => mem_op op as_documented || mem_op op (map fst departures)) all_ops = true.
Proof. vm_compute. reflexivity. Qed.
Lemma departures_disjoint : forallb (fun op => negb (mem_op op (map fst departures))) as_documented = true.
Proof. vm_compute. reflexivity. Qed.

Lemma conforms_exact op :
  (forall i, decoded i -> opc i = op -> conforms i) <-> In op as_documented.
Proof.
  split.
  - intros H. pose proof departures_all as A. rewrite forallb_forall in A.
    specialize (A op (all_ops_in op)). apply orb_true_iff in A. destruct A as [A|A].
    + apply mem_op_ok. assumption.
    + apply mem_op_ok in A. apply in_map_iff in A. destruct A as [[o x] [E Hin]]. cbn in E. subst o.
      pose proof departures_ok as B. rewrite forallb_forall in B. specialize (B _ Hin).
      destruct (departs_ok op x B) as [i [D [O N]]]. destruct (N (H i D O)).
  - intros H i D <-. apply conforms_documented; assumption.
Qed.

(** ** Mnemonics (C32) *)

Lemma mnemonic_ok op : odd_mnemonic op = None -> lower (OpcodeKind_display op) = mnemonic op.
Proof. destruct op as [[]|[]|[]|[]|[]|[]|[]|[]|[]|[]]; intros H; try discriminate H; reflexivity. Qed.
Lemma mnemonic_odd op s : odd_mnemonic op = Some s -> OpcodeKind_display op = s /\ lower s <> mnemonic op.
Proof.
  destruct op as [[]|[]|[]|[]|[]|[]|[]|[]|[]|[]]; intros H; try discriminate H;
    injection H as <-; (split; [reflexivity|discriminate]).
Qed.

Definition find_op (s : string) : option OpcodeKind :=
  find (fun op => (OpcodeKind_display op =? s)%string) all_ops.
Definition found (op : OpcodeKind) : bool :=
  match find_op (OpcodeKind_display op) with Some o => dec2b (OpcodeKind_dec o op) | None => false end.
Lemma found_all : forallb found all_ops = true.
Proof. vm_compute. reflexivity. Qed.
Lemma display_inj op op' : OpcodeKind_display op = OpcodeKind_display op' -> op = op'.
Proof.
  intros E. pose proof found_all as A. rewrite forallb_forall in A.
  pose proof (A op (all_ops_in op)) as F. pose proof (A op' (all_ops_in op')) as F'.
  unfold found in F, F'. rewrite E in F.
  destruct (find_op (OpcodeKind_display op')) as [o|]; [|discriminate F].
  apply dec2b_true in F, F'. congruence.
Qed.

(** ** Reading the text back (C33) *)

Definition sep (c : ascii) : bool :=
  (c =? " ")%char || (c =? ",")%char || (c =? "(")%char || (c =? ")")%char.
Fixpoint clean (s : string) : bool :=
  match s with EmptyString => true | String c s' => negb (sep c) && clean s' end.
Definition sep_start (s : string) : bool :=
  match s with EmptyString => true | String c _ => sep c end.

Lemma clean_split a a' : forall b b', clean a = true -> clean a' = true ->
  sep_start b = true -> sep_start b' = true -> (a ++ b = a' ++ b')%string -> a = a' /\ b = b'.
Proof.
  revert a'. induction a as [|c a IH]; intros [|c' a'] b b' A A' B B' E; cbn in *.
  - auto.
  - subst b. cbn in B. rewrite B in A'. discriminate A'.
  - subst b'. cbn in B'. rewrite B' in A. discriminate A.
  - injection E as <- E. apply andb_true_iff in A, A'.
    destruct (IH a' b b') as [-> ->]; tauto.
Qed.

Lemma digit_clean base c d : digit_value base c = Some d -> sep c = false.
Proof.
  intros H. destruct (sep c) eqn:S; [|reflexivity]. exfalso.
  unfold sep in S. rewrite !orb_true_iff, !Ascii.eqb_eq in S.
  destruct S as [[[->| ->]| ->]| ->]; discriminate H.
Qed.
Lemma value_clean base s : forall k v, value base s k = Some v -> clean s = true.
Proof.
  induction s as [|c s IH]; intros k v H; [reflexivity|]. cbn [value clean] in *.
  destruct (digit_value base c) as [d|] eqn:E; [|discriminate H].
  rewrite (digit_clean _ _ _ E), (IH _ _ H). reflexivity.
Qed.
Lemma register_clean s r : register s r -> clean s = true.
Proof.
  intros [_ H]. apply nth_error_In in H. revert s H. apply Forall_forall. unfold abi_names.
  repeat constructor.
Qed.
Definition is_lit (it : item) : bool := match it with Lit _ => true | _ => false end.
Lemma shows_clean it i s : no_num it = true -> is_lit it = false -> shows it i s -> clean s = true.
Proof.
  destruct it as [l|o|o|o|o]; cbn [no_num is_lit shows]; intros N L H; try discriminate.
  - destruct H as [r [_ R]]. exact (register_clean s r R).
  - destruct H as [v [_ [[_ [_ D]]|[_ [t [-> [_ D]]]]]]].
    + exact (value_clean _ _ _ _ D).
    + cbn. exact (value_clean _ _ _ _ D).
  - destruct H as [v [_ D]]. destruct o; destruct D as [_ D]; exact (value_clean _ _ _ _ D).
Qed.

(** After an operand comes a separator or the end. *)
Fixpoint separated (t : list item) : bool :=
  match t with
  | [] => true
  | Lit l :: t' => negb (l =? "")%string && separated t'
  | it :: t' => no_num it && separated t' &&
      match t' with [] => true | Lit l :: _ => negb (l =? "")%string && sep_start l | _ => false end
  end.

Lemma sep_start_app l s : (l =? "")%string = false -> sep_start l = true -> sep_start (l ++ s) = true.
Proof. destruct l; [discriminate|]. intros _ H. exact H. Qed.

Lemma same_shown it i j s : ready it i -> ready it j -> no_num it = true ->
  shows it i s -> shows it j s -> forall o, item_operand it = Some o -> get o i = get o j.
Proof.
  destruct it as [l|o|o|o|o]; cbn [no_num shows item_operand ready]; intros Ri Rj N H H' o' E;
    try discriminate; apply Some_inj in E; subst o'.
  - destruct H as [r [-> R]], H' as [r' [-> R']]. rewrite (register_inj s r r' R R'). reflexivity.
  - destruct H as [v [-> D]], H' as [v' [-> D']]. rewrite (decimal_value s v v' D D'). reflexivity.
  - destruct H as [v [E D]], H' as [v' [E' D']].
    destruct Ri as [x [X [Rx _]]], Rj as [y [Y [Ry _]]].
    rewrite E in X. rewrite E' in Y. apply Some_inj in X, Y. subst x y.
    rewrite E, E'. f_equal. destruct o; cbn [hexadecimal] in D, D';
      try (destruct D as [_ D], D' as [_ D']; congruence).
    exact (hexadecimal32_value s v v' Rx Ry D D').
Qed.

Lemma reads_same t i j : separated t = true ->
  Forall (fun it => ready it i) t -> Forall (fun it => ready it j) t ->
  forall s, reads_as t i s -> reads_as t j s -> forall o, shown_in t o -> get o i = get o j.
Proof.
  induction t as [|it t IH]; intros S Fi Fj s H H' o [x [Hx Ho]]; [destruct Hx|].
  apply Forall_inv in Fi as Ri. apply Forall_inv_tail in Fi.
  apply Forall_inv in Fj as Rj. apply Forall_inv_tail in Fj.
  cbn [reads_as] in H, H'. destruct H as [a [b [-> [A B]]]], H' as [a' [b' [E [A' B']]]].
  destruct (is_lit it) eqn:L.
  - destruct it as [l|o'|o'|o'|o']; try discriminate L. cbn [separated] in S. apply andb_true_iff in S.
    destruct S as [_ S]. cbn [shows] in A, A'. subst a a'.
    destruct Hx as [<-|Hx]; [discriminate Ho|].
    assert (b = b').
    { clear - E. induction l as [|c l IH]; [exact E|]. cbn in E. injection E as E. auto. }
    subst b'. apply (IH S Fi Fj b B B'). exists x. auto.
  - assert (S' : no_num it = true /\ separated t = true /\
       match t with [] => true | Lit l :: _ => negb (l =? "")%string && sep_start l | _ => false end = true).
    { destruct it; try discriminate L; cbn [separated] in S; rewrite !andb_true_iff in S; tauto. }
    destruct S' as [N [S1 S2]].
    assert (st : forall k y, reads_as t k y -> sep_start y = true).
    { intros k y R. destruct t as [|[l| | | |] t]; try discriminate S2.
      - cbn in R. subst y. reflexivity.
      - apply andb_true_iff in S2. destruct S2 as [S2 S3]. apply negb_true_iff in S2.
        cbn [reads_as shows] in R. destruct R as [u [v [-> [-> _]]]]. apply sep_start_app; assumption. }
    destruct (clean_split a a' b b') as [<- <-];
      [exact (shows_clean it i a N L A)|exact (shows_clean it j a' N L A')|eauto|eauto|exact E|].
    destruct Hx as [<-|Hx]; [exact (same_shown it i j a Ri Rj N A A' o Ho)|].
    apply (IH S1 Fi Fj b B B'). exists x. auto.
Qed.

(** All printed operands and the opcode can be read from the text. *)
Definition op_text_ok (op : OpcodeKind) : bool :=
  match printed op with
  | Some t => separated t && (match t with [] => true | Lit l :: _ => sep_start l && negb (l =? "")%string | _ => false end)
  | None => true
  end.
Lemma op_text_all : forallb op_text_ok all_ops = true.
Proof. vm_compute. reflexivity. Qed.

Fixpoint spaceless (s : string) : bool :=
  match s with EmptyString => true | String c s' => negb (c =? " ")%char && spaceless s' end.
Definition space_start (s : string) : bool :=
  match s with EmptyString => true | String c _ => (c =? " ")%char end.
Lemma space_split a a' : forall b b', spaceless a = true -> spaceless a' = true ->
  space_start b = true -> space_start b' = true -> (a ++ b = a' ++ b')%string -> a = a' /\ b = b'.
Proof.
  revert a'. induction a as [|c a IH]; intros [|c' a'] b b' A A' B B' E; cbn in *.
  - auto.
  - subst b. cbn in B. rewrite B in A'. discriminate A'.
  - subst b'. cbn in B'. rewrite B' in A. discriminate A.
  - injection E as <- E. apply andb_true_iff in A, A'.
    destruct (IH a' b b') as [-> ->]; tauto.
Qed.
Lemma display_spaceless op : spaceless (OpcodeKind_display op) = true.
Proof. destruct op as [[]|[]|[]|[]|[]|[]|[]|[]|[]|[]]; reflexivity. Qed.
Lemma printed_space op t i s : printed op = Some t -> reads_as t i s -> space_start s = true.
Proof.
  intros P R. destruct op as [[]|[]|[]|[]|[]|[]|[]|[]|[]|[]]; try discriminate P;
    cbn [printed] in P; unfold rrr, rdr, rri in P; apply Some_inj in P; subst t;
    cbn [reads_as shows] in R; try (subst s; reflexivity);
    destruct R as [a [b [-> [-> _]]]]; reflexivity.
Qed.

Lemma decoded_forall i t : decoded i -> printed (opc i) = Some t -> Forall (fun it => ready it i) t.
Proof.
  intros D P. destruct (decoded_ready i D) as [r [isa [c [w [Hr [He [E [F R]]]]]]]].
  assert (O : opc i = r_op r) by (rewrite E; reflexivity).
  unfold row_ready in R. rewrite <- O, P in R. rewrite !andb_true_iff in R.
  destruct R as [_ [R _]]. rewrite forallb_forall in R.
  apply Forall_forall. intros it Hit. rewrite E. apply ready_b_ok. auto.
Qed.

Lemma text_determines i j s : decoded i -> decoded j ->
  Instruction_display i = Ret s -> Instruction_display j = Ret s ->
  opc i = opc j /\ exists t, printed (opc i) = Some t /\ forall o, shown_in t o -> get o i = get o j.
Proof.
  intros Di Dj Hi Hj. pose proof (display_decoded i Di) as A. pose proof (display_decoded j Dj) as B.
  destruct (printed (opc i)) as [t|] eqn:P; [|destruct A; congruence].
  destruct (printed (opc j)) as [t'|] eqn:P'; [|destruct B; congruence].
  destruct A as [rest [A R]], B as [rest' [B R']].
  assert (E : (OpcodeKind_display (opc i) ++ rest = OpcodeKind_display (opc j) ++ rest')%string)
    by congruence.
  apply space_split in E; eauto using display_spaceless, printed_space.
  destruct E as [E1 E2]. apply display_inj in E1. split; [assumption|]. exists t. split; [reflexivity|].
  subst rest'. assert (t' = t) by congruence. subst t'.
  pose proof op_text_all as T. rewrite forallb_forall in T. specialize (T _ (all_ops_in (opc i))).
  unfold op_text_ok in T. rewrite P in T. apply andb_true_iff in T. destruct T as [T _].
  apply (reads_same t i j T (decoded_forall i t Di P) (decoded_forall j t Dj P') rest R R').
Qed.

(** Operands not printed are absent, constant or a copy of a printed one. *)
Lemma reg_src_dec (a b : reg_src) : {a = b} + {a <> b}.
Proof. repeat decide equality. Defined.
Definition shown_b (t : list item) (o : operand) : bool :=
  existsb (fun it => match item_operand it with Some o' => dec2b (operand_dec o' o) | None => false end) t.
Lemma shown_b_ok t o : shown_b t o = true -> shown_in t o.
Proof.
  unfold shown_b. rewrite existsb_exists. intros [it [H E]]. exists it. split; [assumption|].
  destruct (item_operand it) as [o'|]; [|discriminate E]. apply dec2b_true in E. congruence.
Qed.
(** All words of the encoding have zeros in bits [hi..lo]. *)
Definition is_zero (x : option (option bool)) : bool :=
  match x with Some (Some false) => true | _ => false end.
Definition zero_bits (e : enc) (hi lo : Z) : bool :=
  (0 <=? lo) && (lo <=? hi) &&
  forallb (fun p => forallb (fun j => is_zero (nth_error p (Z.to_nat lo + j)))
                            (seq 0 (Z.to_nat (hi - lo + 1)))) (incl e).
Lemma zero_bits_ok e hi lo w : zero_bits e hi lo = true -> in_enc e w = true -> field w hi lo = 0.
Proof.
  unfold zero_bits. rewrite !andb_true_iff. intros [[L1 L2] H] E. unfold in_enc in E.
  destruct (existsb (fun p => matches p w) (incl e)) eqn:X; [|discriminate E].
  apply existsb_exists in X. destruct X as [p [Hp M]].
  rewrite forallb_forall in H. specialize (H p Hp). rewrite forallb_forall in H.
  apply Z.bits_inj'. intros n Hn. rewrite Z.bits_0, field_testbit by lia.
  destruct (Z.ltb_spec n (hi - lo + 1)); [|apply andb_false_r].
  specialize (H (Z.to_nat n)). rewrite in_seq in H. specialize (H ltac:(lia)).
  destruct (nth_error p (Z.to_nat lo + Z.to_nat n)) as [[[]|]|] eqn:N; try discriminate H.
  pose proof (matches_bit p 0 w _ false M N) as B.
  replace (0 + Z.of_nat (Z.to_nat lo + Z.to_nat n)) with (lo + n) in B by lia.
  replace (n + lo) with (lo + n) by lia. rewrite B. reflexivity.
Qed.

Definition known (t : list item) (c : class) (e : enc) (o : operand) : bool :=
  match o with
  | OImm => shown_b t OImm || negb (has_imm (c_imm c))
  | _ => match src_of o c with
         | RNone | RConst _ => true
         | s => match s with RBits hi lo => zero_bits e hi lo | _ => false end || existsb (fun o' => dec2b (reg_src_dec (src_of o' c) s) && shown_b t o') [ORd; ORs1; ORs2]
         end
  end.
Definition row_known (r : row) : bool :=
  mem_op (r_op r) (lossy32 ++ lossy16) ||
  match printed (r_op r) with
  | None => true
  | Some t => dec2b (class_dec (r_cls r Rv32) (r_cls r Rv64)) &&
              forallb (known t (r_cls r Rv32) (r_acc r Rv32)) [ORd; ORs1; ORs2; OImm] &&
              forallb (known t (r_cls r Rv64) (r_acc r Rv64)) [ORd; ORs1; ORs2; OImm]
  end.
Lemma rows_known : forallb row_known (table32 ++ table16) = true.
Proof. vm_compute. reflexivity. Qed.

Lemma known_ok t r isa isa' c c' w w' o : r_cls r isa = r_cls r isa' ->
  in_enc (r_acc r isa) w = true -> in_enc (r_acc r isa') w' = true ->
  known t (r_cls r isa) (r_acc r isa) o = true -> known t (r_cls r isa') (r_acc r isa') o = true ->
  (forall x, shown_in t x -> get x (reads r isa c w) = get x (reads r isa' c' w')) ->
  get o (reads r isa c w) = get o (reads r isa' c' w').
Proof.
  intros E W W' K K' S.
  assert (copy : forall o s, o <> OImm -> src_of o (r_cls r isa) = s ->
    existsb (fun o' => dec2b (reg_src_dec (src_of o' (r_cls r isa)) s) && shown_b t o') [ORd; ORs1; ORs2]
      = true -> reg_of s w = reg_of s w').
  { intros x s N X B. apply existsb_exists in B. destruct B as [o' [I B]].
    apply andb_true_iff in B. destruct B as [B1 B2]. apply dec2b_true in B1. apply shown_b_ok in B2.
    specialize (S o' B2).
    assert (N' : o' <> OImm) by (destruct I as [<-|[<-|[<-|[]]]]; discriminate).
    rewrite !get_src, <- E, B1 in S by assumption. exact S. }
  destruct o.
  4:{ cbn [known] in K. apply orb_true_iff in K. destruct K as [K|K].
      - apply S. apply shown_b_ok. assumption.
      - cbn [get reads imm]. rewrite <- E. destruct (c_imm (r_cls r isa)); try discriminate K. reflexivity. }
  all: rewrite !get_src by discriminate; unfold known in K, K'; rewrite <- E in K' |- *;
    destruct (src_of _ (r_cls r isa)) as [|n|hi lo|hi lo] eqn:X; try reflexivity.
  all: apply orb_true_iff in K, K'.
  1,3,5: destruct K as [K|K]; [|eapply copy; [|exact X|exact K]; discriminate].
  1-3: destruct K' as [K'|K']; [|eapply copy; [|exact X|exact K']; discriminate].
  1-3: cbn [reg_of]; rewrite (zero_bits_ok _ _ _ w K W), (zero_bits_ok _ _ _ w' K' W'); reflexivity.
  all: destruct K as [K|K]; [discriminate K|eapply copy; [|exact X|exact K]; discriminate].
Qed.

Lemma decoded_width i : decoded i -> exists r isa w, In r (table32 ++ table16) /\
  in_enc (r_acc r isa) w = true /\ i = reads r isa (mem_op (r_op r) (map r_op table16)) w.
Proof.
  assert (W32 : forallb (fun r => negb (mem_op (r_op r) (map r_op table16))) table32 = true)
    by (vm_compute; reflexivity).
  intros [p [isa [w [Hp [[Hw H]|[Hw H]]]]]].
  - destruct (ok32 _ _ _ _ Hp Hw H) as [r [Hr [He ->]]]. exists r, isa, w.
    rewrite forallb_forall in W32. specialize (W32 r Hr). apply negb_true_iff in W32. rewrite W32.
    auto using in_or_app.
  - destruct (ok16 _ _ _ _ Hp Hw H) as [r [Hr [He ->]]]. exists r, isa, w.
    assert (M : mem_op (r_op r) (map r_op table16) = true) by (apply mem_op_ok, in_map; assumption).
    rewrite M. auto using in_or_app.
Qed.

Lemma text_injective i j s : decoded i -> decoded j -> ~ In (opc i) (lossy32 ++ lossy16) ->
  Instruction_display i = Ret s -> Instruction_display j = Ret s -> i = j.
Proof.
  intros Di Dj N Hi Hj. destruct (text_determines i j s Di Dj Hi Hj) as [O [t [P G]]].
  destruct (decoded_width i Di) as [r [isa [w [Hr [W E]]]]].
  destruct (decoded_width j Dj) as [r' [isa' [w' [Hr' [W' E']]]]].
  assert (r' = r).
  { apply row_unique; [assumption..|]. rewrite E, E' in O. symmetry. exact O. }
  subst r'. set (c := mem_op _ _) in *.
  assert (Oi : opc i = r_op r) by (rewrite E; reflexivity).
  pose proof rows_known as K. rewrite forallb_forall in K. specialize (K r Hr).
  unfold row_known in K. rewrite <- Oi, P in K. apply orb_true_iff in K.
  destruct K as [K|K]; [apply mem_op_ok in K; contradiction|].
  rewrite !andb_true_iff in K. destruct K as [[K1 K2] K3]. apply dec2b_true in K1.
  rewrite forallb_forall in K2, K3.
  assert (C : r_cls r isa = r_cls r isa') by (destruct isa, isa'; congruence).
  assert (K : forall x o, known t (r_cls r x) (r_acc r x) o = true).
  { intros x o. destruct x; [apply K2|apply K3]; destruct o; cbn; tauto. }
  assert (A : forall o, get o i = get o j).
  { intros o. rewrite E, E'. apply (known_ok t); auto. rewrite <- E, <- E'. exact G. }
  pose proof (A ORd) as A1. pose proof (A ORs1) as A2. pose proof (A ORs2) as A3. pose proof (A OImm) as A4.
  cbn [get] in A1, A2, A3, A4.
  assert (A5 : inst_format i = inst_format j) by (rewrite E, E'; cbn; congruence).
  assert (A6 : is_compressed i = is_compressed j) by (rewrite E, E'; reflexivity).
  destruct i, j. cbn in *. congruence.
Qed.

(** Two inputs with different results and the same text, per lossy opcode. *)
Definition collisions : list (OpcodeKind * (input * input)) := [
  (OBaseI I_SLLI, (W32 0x139313, W32 0x239313));
  (OBaseI I_SRLI, (W32 0x13d313, W32 0x23d313));
  (OBaseI I_SRAI, (W32 0x4013d313, W32 0x4023d313));
  (OBaseI I_SLLIW, (W32 0x13931b, W32 0x23931b));
  (OBaseI I_SRLIW, (W32 0x13d31b, W32 0x23d31b));
  (OBaseI I_SRAIW, (W32 0x4013d31b, W32 0x4023d31b));
  (OA A_LR_D, (W32 0x1003b32f, W32 0x1203b32f));
  (OA A_SC_W, (W32 0x1893a32f, W32 0x1a93a32f));
  (OA A_SC_D, (W32 0x1893b32f, W32 0x1a93b32f));
  (OA A_AMOSWAP_W, (W32 0x893a32f, W32 0xa93a32f));
  (OA A_AMOSWAP_D, (W32 0x893b32f, W32 0xa93b32f));
  (OA A_AMOADD_W, (W32 0x93a32f, W32 0x293a32f));
  (OA A_AMOADD_D, (W32 0x93b32f, W32 0x293b32f));
  (OA A_AMOXOR_W, (W32 0x2093a32f, W32 0x2293a32f));
  (OA A_AMOXOR_D, (W32 0x2093b32f, W32 0x2293b32f));
  (OA A_AMOAND_W, (W32 0x6093a32f, W32 0x6293a32f));
  (OA A_AMOAND_D, (W32 0x6093b32f, W32 0x6293b32f));
  (OA A_AMOOR_W, (W32 0x4093a32f, W32 0x4293a32f));
  (OA A_AMOOR_D, (W32 0x4093b32f, W32 0x4293b32f));
  (OA A_AMOMIN_W, (W32 0x8093a32f, W32 0x8293a32f));
  (OA A_AMOMIN_D, (W32 0x8093b32f, W32 0x8293b32f));
  (OA A_AMOMAX_W, (W32 0xa093a32f, W32 0xa293a32f));
  (OA A_AMOMAX_D, (W32 0xa093b32f, W32 0xa293b32f));
  (OA A_AMOMINU_W, (W32 0xc093a32f, W32 0xc293a32f));
  (OA A_AMOMINU_D, (W32 0xc093b32f, W32 0xc293b32f));
  (OA A_AMOMAXU_W, (W32 0xe093a32f, W32 0xe293a32f));
  (OA A_AMOMAXU_D, (W32 0xe093b32f, W32 0xe293b32f));
  (OZicfiss Ss_SSPUSH, (W32 0xce104073, W32 0xce504073));
  (OZifencei Fe_FENCE, (W32 0xff0000f, W32 0x330000f));
  (OC C_NOP, (W16 0x1, W16 0x5))
].
Definition collides (x : OpcodeKind * (input * input)) : bool :=
  match dec (fst (snd x)), dec (snd (snd x)) with
  | Ret (Ok i), Ret (Ok j) =>
      in_range (fst (snd x)) && in_range (snd (snd x)) && dec2b (OpcodeKind_dec (opc i) (fst x)) &&
      negb (Instruction_eq i j) &&
      match Instruction_display i, Instruction_display j with
      | Ret s, Ret s' => (s =? s')%string
      | _, _ => false
      end
  | _, _ => false
  end.
Lemma collisions_ok : forallb collides collisions = true.
Proof. vm_compute. reflexivity. Qed.
Lemma collisions_all :
  forallb (fun op => mem_op op (map fst collisions)) (lossy32 ++ lossy16) = true.
Proof. vm_compute. reflexivity. Qed.
Lemma collides_ok op x : collides (op, x) = true ->
  exists i j s, decoded i /\ decoded j /\ opc i = op /\ i <> j /\
    Instruction_display i = Ret s /\ Instruction_display j = Ret s.
Proof.
  unfold collides. destruct x as [x y]. cbn [fst snd].
  destruct (dec x) as [[i|]|] eqn:X; try discriminate.
  destruct (dec y) as [[j|]|] eqn:Y; try discriminate.
  destruct (Instruction_display i) as [s|] eqn:Si; [|rewrite andb_false_r; discriminate].
  destruct (Instruction_display j) as [s'|] eqn:Sj; [|rewrite andb_false_r; discriminate].
  rewrite !andb_true_iff. intros [[[[Rx Ry] O] N] E]. apply String.eqb_eq in E. subst s'.
  apply dec2b_true in O. exists i, j, s.
  split; [exact (dec_decoded x i Rx X)|]. split; [exact (dec_decoded y j Ry Y)|].
  split; [assumption|]. split; [|auto]. intros E. apply Instruction_eq_iff in E.
  rewrite E in N. discriminate N.
Qed.

Lemma text_injective_exact op :
  (forall i j s, decoded i -> decoded j -> opc i = op ->
     Instruction_display i = Ret s -> Instruction_display j = Ret s -> i = j) <->
  ~ In op (lossy32 ++ lossy16).
Proof.
  split.
  - intros H L. pose proof collisions_all as A. rewrite forallb_forall in A. specialize (A op L).
    apply mem_op_ok in A. apply in_map_iff in A. destruct A as [[o x] [E Hin]]. cbn in E. subst o.
    pose proof collisions_ok as B. rewrite forallb_forall in B. specialize (B _ Hin).
    destruct (collides_ok op x B) as [i [j [s [Di [Dj [O [N [Si Sj]]]]]]]].
    exact (N (H i j s Di Dj O Si Sj)).
  - intros N i j s Di Dj <- Si Sj. exact (text_injective i j s Di Dj N Si Sj).
Qed.
