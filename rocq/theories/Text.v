(** What is printed for decoded instructions (C30-C34). *)
From Coq Require Import ZArith List Bool String Ascii Lia.
From Verif Require Import Rust Types DecodeUtil Dec32 Dec16 Decode Fmt Spec Util Plat Exact32 Exact16
  Pat SpecOps Rows Rows2 SpecApi Operands Api SpecText Numerals.
Import ListNotations.
Local Open Scope string_scope.
Local Open Scope list_scope.
Local Open Scope Z_scope.

Lemma append_assoc (a b c : string) : ((a ++ b) ++ c = a ++ (b ++ c))%string.
Proof. induction a as [|x a IH]; [reflexivity|]. cbn. rewrite IH. reflexivity. Qed.
Lemma append_nil (a : string) : (a ++ "" = a)%string.
Proof. induction a as [|x a IH]; [reflexivity|]. cbn. rewrite IH. reflexivity. Qed.

Lemma operand_dec (a b : operand) : {a = b} + {a <> b}.
Proof. decide equality. Defined.

(** ** Computing the text of a template *)

Definition piece (it : item) (i : Instruction) : string :=
  match it with
  | Lit l => l
  | Reg o => match get o i with
             | Some r => match reg2str r with Ret s => s | Panic _ => "" end
             | None => "" end
  | Dec o | Num o => match get o i with Some v => dec_str v | None => "" end
  | Hex o => match get o i with Some v => hex_of o v | None => "" end
  end.
Fixpoint render (t : list item) (i : Instruction) : string :=
  match t with
  | [] => ""
  | it :: t' => (piece it i ++ render t' i)%string
  end.

(** The operand of an item exists and is in range. *)
Definition ready (it : item) (i : Instruction) : Prop :=
  match it with
  | Lit _ => True
  | Reg o => exists r, get o i = Some r /\ 0 <= r < 32
  | Dec o | Num o => exists v, get o i = Some v
  | Hex o => exists v, get o i = Some v /\ - 2 ^ 31 <= v < 2 ^ 31 /\ (o <> OImm -> 0 <= v)
  end.

Lemma piece_shows it i : ready it i -> shows it i (piece it i).
Proof.
  destruct it as [l|o|o|o|o]; cbn [ready shows piece].
  - reflexivity.
  - intros [r [E R]]. rewrite E. destruct (reg2str_ok r R) as [s [-> S]]. exists r. auto.
  - intros [v E]. rewrite E. exists v. split; [reflexivity|apply dec_str_decimal].
  - intros [v [E [_ P]]]. rewrite E. exists v. split; [reflexivity|]. apply hexadecimal_iff.
    split; [|reflexivity]. destruct o; try reflexivity; apply Z.leb_le, P; discriminate.
  - intros [v E]. rewrite E. exists v. split; [reflexivity|]. left. apply dec_str_decimal.
Qed.

Lemma render_reads t i : Forall (fun it => ready it i) t -> reads_as t i (render t i).
Proof.
  induction 1 as [|it t H F IH]; [reflexivity|]. cbn [reads_as render].
  eexists _, _. split; [reflexivity|]. split; [apply piece_shows; assumption|assumption].
Qed.

(** A text reads as a template without [Num] only if it is the computed one. *)
Definition no_num (it : item) : bool := match it with Num _ => false | _ => true end.
Lemma shows_piece it i s : no_num it = true -> shows it i s -> s = piece it i.
Proof.
  destruct it as [l|o|o|o|o]; cbn [no_num shows piece]; intros N H; [assumption| | | |discriminate N].
  - destruct H as [r [-> R]]. apply register_iff in R. rewrite R. reflexivity.
  - destruct H as [v [-> D]]. apply decimal_iff. assumption.
  - destruct H as [v [-> D]]. apply hexadecimal_iff in D. tauto.
Qed.
Lemma reads_render t i : forallb no_num t = true -> forall s, reads_as t i s -> s = render t i.
Proof.
  induction t as [|it t IH]; intros N s H; [exact H|].
  cbn [forallb] in N. apply andb_true_iff in N. destruct N as [N1 N2].
  cbn [reads_as render] in *. destruct H as [a [b [-> [A B]]]].
  apply (shows_piece it i a N1) in A. apply (IH N2) in B. congruence.
Qed.

(** All texts that read as a template. *)
Definition pieces (it : item) (i : Instruction) : list string :=
  match it with
  | Num o => match get o i with
             | Some v => dec_str v :: (if hex_ok o v then [("0x" ++ hex_of o v)%string] else [])
             | None => [] end
  | Lit l => [l]
  | Reg o => match get o i with
             | Some r => match reg2str r with Ret s => [s] | Panic _ => [] end
             | None => [] end
  | Dec o => match get o i with Some v => [dec_str v] | None => [] end
  | Hex o => match get o i with Some v => if hex_ok o v then [hex_of o v] else [] | None => [] end
  end.
Fixpoint texts (t : list item) (i : Instruction) : list string :=
  match t with
  | [] => [""]
  | it :: t' => flat_map (fun a => map (fun b => (a ++ b)%string) (texts t' i)) (pieces it i)
  end.
Lemma shows_pieces it i s : shows it i s <-> In s (pieces it i).
Proof.
  destruct it as [l|o|o|o|o]; cbn [shows pieces].
  - split; [intros ->; left; reflexivity|intros [->|[]]; reflexivity].
  - split.
    + intros [r [-> R]]. apply register_iff in R. rewrite R. left. reflexivity.
    + destruct (get o i) as [r|]; [|intros []]. destruct (reg2str r) as [x|] eqn:E; [|intros []].
      intros [<-|[]]. exists r. split; [reflexivity|]. apply register_iff. assumption.
  - split.
    + intros [v [-> D]]. apply decimal_iff in D. left. congruence.
    + destruct (get o i) as [v|]; [|intros []]. intros [<-|[]]. exists v.
      split; [reflexivity|apply dec_str_decimal].
  - split.
    + intros [v [-> D]]. apply hexadecimal_iff in D. destruct D as [-> ->]. left. reflexivity.
    + destruct (get o i) as [v|]; [|intros []]. destruct (hex_ok o v) eqn:K; [|intros []].
      intros [<-|[]]. exists v. split; [reflexivity|apply hexadecimal_iff; auto].
  - split.
    + intros [v [-> [D|[t [-> D]]]]].
      * apply decimal_iff in D. left. congruence.
      * apply hexadecimal_iff in D. destruct D as [-> ->]. right. left. reflexivity.
    + destruct (get o i) as [v|]; [|intros []].
      intros [<-|H]; exists v; (split; [reflexivity|]); [left; apply dec_str_decimal|].
      destruct (hex_ok o v) eqn:K; [|destruct H]. destruct H as [<-|[]].
      right. eexists. split; [reflexivity|]. apply hexadecimal_iff. auto.
Qed.
Lemma reads_texts t i : forall s, reads_as t i s <-> In s (texts t i).
Proof.
  induction t as [|it t IH]; intros s; cbn [reads_as texts].
  - split; [intros ->; left; reflexivity|intros [->|[]]; reflexivity].
  - rewrite in_flat_map. split.
    + intros [a [b [-> [A B]]]]. exists a. split; [apply shows_pieces; assumption|].
      apply in_map_iff. exists b. split; [reflexivity|]. apply IH. assumption.
    + intros [a [A B]]. apply in_map_iff in B. destruct B as [b [<- B]].
      exists a, b. split; [reflexivity|]. split; [apply shows_pieces; assumption|apply IH; assumption].
Qed.

(** ** Decoded instructions have what their template needs *)

Definition src_of (o : operand) (c : class) : reg_src :=
  match o with ORd => c_rd c | ORs1 => c_rs1 c | ORs2 => c_rs2 c | OImm => RNone end.
Definition ready_b (c : class) (it : item) : bool :=
  match it with
  | Lit _ => true
  | Reg o => has_reg (src_of o c) && reg_lt 32 (src_of o c)
  | Dec OImm | Num OImm => has_imm (c_imm c)
  | Dec o | Num o => has_reg (src_of o c)
  | Hex OImm =>
      match c_imm c with
      | INone => false
      | IUns cs => forallb chunk_ok cs && (chunks_max cs <? 2 ^ 31)
      | ISig n cs => (1 <=? n) && (n <=? 32) && forallb chunk_ok cs && (chunks_max cs <? 2 ^ n)
      end
  | Hex o => has_reg (src_of o c) && reg_lt 4096 (src_of o c)
  end.
Lemma get_src o r isa c w : o <> OImm ->
  get o (reads r isa c w) = reg_of (src_of o (r_cls r isa)) w.
Proof. destruct o; intros H; try reflexivity. destruct (H eq_refl). Qed.
Lemma has_some {A} (o : option A) : has o = true -> exists a, o = Some a.
Proof. destruct o as [a|]; [exists a; reflexivity|discriminate]. Qed.

Lemma ready_b_ok r isa c w it : ready_b (r_cls r isa) it = true -> ready it (reads r isa c w).
Proof.
  destruct it as [l|o|o|o|o]; cbn [ready ready_b]; intros H.
  - exact I.
  - apply andb_true_iff in H. destruct H as [H1 H2].
    assert (N : o <> OImm) by (intros ->; discriminate H1). rewrite (get_src o r isa c w N).
    rewrite <- (has_reg_ok _ w) in H1. apply has_some in H1. destruct H1 as [a E].
    exists a. split; [assumption|]. exact (reg_lt_ok 32 _ w H2 a E).
  - apply has_some. destruct o; cbn [get reads rd rs1 rs2 imm]; rewrite ?has_reg_ok, ?has_imm_ok; exact H.
  - destruct o.
    1-3: apply andb_true_iff in H; destruct H as [H1 H2];
      rewrite get_src by discriminate;
      rewrite <- (has_reg_ok _ w) in H1; apply has_some in H1; destruct H1 as [a E];
      exists a; split; [assumption|]; pose proof (reg_lt_ok 4096 _ w H2 a E); lia.
    cbn [get reads imm]. destruct (c_imm (r_cls r isa)) as [|cs|n cs]; [discriminate H| |]; cbn [imm_of].
    + apply andb_true_iff in H. destruct H as [H1 H2]. exists (chunks_val w cs).
      split; [reflexivity|]. pose proof (chunks_bound w cs H1).
      split; [lia|]. intros N. destruct (N eq_refl).
    + rewrite !andb_true_iff in H. destruct H as [[[H1 H2] H3] H4]. exists (sext n (chunks_val w cs)).
      split; [reflexivity|]. split; [|intros N; destruct (N eq_refl)].
      pose proof (chunks_bound w cs H3) as B. unfold sext.
      assert (E : 2 ^ n = 2 * 2 ^ (n - 1)).
      { replace n with (Z.succ (n - 1)) at 1 by lia. rewrite Z.pow_succ_r by lia. reflexivity. }
      assert (L : 2 ^ (n - 1) <= 2 ^ 31) by (apply Z.pow_le_mono_r; lia).
      apply Z.ltb_lt in H4. set (a := 2 ^ n) in *. set (b := 2 ^ (n - 1)) in *.
      destruct (Z.ltb_spec (chunks_val w cs) b); lia.
  - apply has_some. destruct o; cbn [get reads rd rs1 rs2 imm]; rewrite ?has_reg_ok, ?has_imm_ok; exact H.
Qed.

Lemma format_dec (a b : InstFormat) : {a = b} + {a <> b}.
Proof. decide equality. Defined.

Definition row_ready (r : row) (isa : Isa) : bool :=
  let c := r_cls r isa in
  dec2b (format_dec (c_fmt c) (get_format (r_op r))) &&
  match printed (r_op r) with
  | Some t => forallb (ready_b c) t && forallb no_num t
  | None => match r_op r with
            | OPriv P_SFENCE_VMA => negb (has_reg (c_rd c))
            | OZicfiss Ss_SSPOPCHK => negb (has_reg (c_rs2 c))
            | _ => true
            end
  end.
Lemma rows_ready : forallb (fun r => row_ready r Rv32 && row_ready r Rv64) (table32 ++ table16) = true.
Proof. vm_compute. reflexivity. Qed.

Lemma decoded_ready i : decoded i -> exists r isa c w, In r (table32 ++ table16) /\
  in_enc (r_acc r isa) w = true /\ i = reads r isa c w /\ inst_format i = get_format (opc i) /\
  row_ready r isa = true.
Proof.
  intros D. apply decoded_row in D. destruct D as [r [isa [c [w [Hr [He ->]]]]]].
  exists r, isa, c, w. pose proof rows_ready as A. rewrite forallb_forall in A. specialize (A r Hr).
  apply andb_true_iff in A. assert (R : row_ready r isa = true) by (destruct isa; apply A).
  refine (conj Hr (conj He (conj eq_refl (conj _ R)))).
  unfold row_ready in R. apply andb_true_iff in R. destruct R as [R _].
  apply dec2b_true in R. exact R.
Qed.

(** ** Printing follows the template *)

Lemma reg_arg_ok o i : ready (Reg o) i -> reg_arg (get o i) = Ret (piece (Reg o) i).
Proof.
  cbn [ready piece]. intros [r [E R]]. rewrite E. destruct (reg2str_ok r R) as [s [S _]].
  unfold reg_arg. cbn. rewrite S. reflexivity.
Qed.

Lemma display_template i t : inst_format i = get_format (opc i) -> printed (opc i) = Some t ->
  Forall (fun it => ready it i) t ->
  Instruction_display i = Ret (OpcodeKind_display (opc i) ++ render t i)%string.
Proof.
  intros F P R. unfold Instruction_display. rewrite F. clear F.
  destruct (opc i) as [o|o|o|o|o|o|o|o|o|o]; destruct o; try discriminate P;
  cbn [printed] in P; unfold rrr, rdr, rri in P; injection P as <-;
  repeat match goal with H : Forall _ (_ :: _) |- _ =>
    apply Forall_inv_tail in H as ?T; apply Forall_inv in H end;
  repeat match goal with H : ready (Lit _) _ |- _ => clear H end;
  repeat match goal with H : Forall _ [] |- _ => clear H end;
  repeat match goal with H : ready (Reg _) _ |- _ => apply reg_arg_ok in H; cbn [get] in H end;
  repeat match goal with
  | H : ready (Dec _) _ |- _ => cbn [ready get] in H; destruct H as [? ?E]
  | H : ready (Hex _) _ |- _ => cbn [ready get] in H; destruct H as [? [?E [? ?]]]
  end;
  cbn [get_format BaseIOpcode_format MOpcode_format AOpcode_format COpcode_format
    ZifenceiOpcode_format ZicbozOpcode_format ZicsrOpcode_format ZicfissOpcode_format
    ZicntrOpcode_format PrivOpcode_format];
  repeat match goal with
  | H : reg_arg _ = Ret _ |- _ => rewrite H; clear H
  | H : _ = Some _ |- context [unwrap _] => rewrite H
  end;
  cbn [bind unwrap render];
  cbn [piece get hex_of];
  repeat match goal with H : _ = Some _ |- _ => rewrite H; clear H end;
  rewrite ?append_nil, ?append_assoc; reflexivity.
Qed.

(** What is printed for a decoded instruction. *)
Lemma display_decoded i : decoded i ->
  match printed (opc i) with
  | Some t => exists rest, Instruction_display i = Ret (OpcodeKind_display (opc i) ++ rest)%string /\
                reads_as t i rest
  | None => exists why, Instruction_display i = Panic why
  end.
Proof.
  intros D. destruct (decoded_ready i D) as [r [isa [c [w [Hr [He [E [F R]]]]]]]].
  assert (O : opc i = r_op r) by (rewrite E; reflexivity).
  unfold row_ready in R. rewrite <- O in R. apply andb_true_iff in R. destruct R as [_ R].
  destruct (printed (opc i)) as [t|] eqn:P.
  - apply andb_true_iff in R. destruct R as [R _]. rewrite forallb_forall in R.
    assert (A : Forall (fun it => ready it i) t).
    { apply Forall_forall. intros it Hit. rewrite E. apply ready_b_ok. auto. }
    exists (render t i). split; [apply display_template; assumption|apply render_reads; assumption].
  - assert (Hd : rd i = reg_of (c_rd (r_cls r isa)) w) by (rewrite E; reflexivity).
    assert (Ht : rs2 i = reg_of (c_rs2 (r_cls r isa)) w) by (rewrite E; reflexivity).
    clear E He. unfold Instruction_display. rewrite F.
    destruct (opc i) as [[]|[]|[]|[]|[]|[]|[]|[]|[]|[]]; try discriminate P; cbn [get_format
      ZicfissOpcode_format PrivOpcode_format].
    + eexists. reflexivity.
    + rewrite Ht. apply negb_true_iff in R. destruct (c_rs2 _); try discriminate R.
      eexists. reflexivity.
    + eexists. reflexivity.
    + rewrite Hd. apply negb_true_iff in R. destruct (c_rd _); try discriminate R.
      eexists. reflexivity.
Qed.

(** The text is the only one the template allows. *)
Lemma display_reads i t s : decoded i -> printed (opc i) = Some t ->
  (Instruction_display i = Ret s <->
   exists rest, s = (OpcodeKind_display (opc i) ++ rest)%string /\ reads_as t i rest).
Proof.
  intros D P. pose proof (display_decoded i D) as A. rewrite P in A. destruct A as [rest [A R]].
  split.
  - intros H. exists rest. split; [congruence|assumption].
  - intros [rest' [-> R']]. destruct (decoded_ready i D) as [r [isa [c [w [Hr [He [E [F Rr]]]]]]]].
    assert (O : opc i = r_op r) by (rewrite E; reflexivity).
    unfold row_ready in Rr. rewrite <- O, P in Rr. rewrite !andb_true_iff in Rr.
    destruct Rr as [_ [_ N]].
    rewrite (reads_render t i N _ R'), <- (reads_render t i N _ R). assumption.
Qed.

(** Printing panics for exactly four opcodes (C30). *)
Lemma printed_none op : printed op = None <-> In op unprintable.
Proof.
  split.
  - destruct op as [[]|[]|[]|[]|[]|[]|[]|[]|[]|[]]; intros H; try discriminate H; cbn; tauto.
  - intros [<-|[<-|[<-|[<-|[]]]]]; reflexivity.
Qed.
Lemma display_panics i : decoded i ->
  ((exists why, Instruction_display i = Panic why) <-> In (opc i) unprintable).
Proof.
  intros D. pose proof (display_decoded i D) as A. rewrite <- printed_none.
  destruct (printed (opc i)) as [t|].
  - destruct A as [rest [A _]]. split; [intros [why H]; congruence|discriminate].
  - split; [reflexivity|intros _; assumption].
Qed.

(** ** Conformance to the documented syntax (C31) *)


(** [t] says at least what [u] says. *)
Fixpoint refines (t u : list item) : bool :=
  match t, u with
  | [], [] => true
  | Lit a :: Hex b :: t', Lit c :: Num d :: u' =>
      (a =? c ++ "0x")%string && dec2b (operand_dec b d) && refines t' u'
  | Lit a :: t', Lit b :: u' => (a =? b)%string && refines t' u'
  | Reg a :: t', Reg b :: u' => dec2b (operand_dec a b) && refines t' u'
  | Dec a :: t', Num b :: u' => dec2b (operand_dec a b) && refines t' u'
  | _, _ => false
  end.

Lemma refines_ok i : forall n t u s, (List.length t <= n)%nat -> refines t u = true ->
  reads_as t i s -> reads_as u i s.
Proof.
  induction n as [|n IH]; intros t u s L H R.
  { destruct t; [|cbn in L; lia]. destruct u; [exact R|discriminate H]. }
  assert (step : forall a b t' u', (List.length t' <= n)%nat -> refines t' u' = true ->
    (forall x, shows a i x -> shows b i x) -> reads_as (a :: t') i s -> reads_as (b :: u') i s).
  { intros a b t' u' L' H' S [x [y [-> [A B]]]]. exists x, y. split; [reflexivity|].
    split; [auto|]. apply (IH t'); assumption. }
  destruct t as [|[a|a|a|a|a] t]; destruct u as [|[b|b|b|b|b] u]; try discriminate H;
    try (destruct t as [|[] t]; discriminate H); try exact R; cbn [List.length] in L.
  - (* Lit / Lit *)
    assert (D : (a =? b)%string && refines t u = true \/
      exists o o' t' u', t = Hex o :: t' /\ u = Num o' :: u' /\
        (a =? b ++ "0x")%string && dec2b (operand_dec o o') && refines t' u' = true).
    { destruct t as [|[|?|?|?|?] t]; try (left; exact H).
      destruct u as [|[|?|?|?|?] u]; try (left; exact H).
      right. eexists _, _, _, _. split; [reflexivity|]. split; [reflexivity|]. exact H. }
    destruct D as [D|[o [o' [t' [u' [-> [-> D]]]]]]].
    + apply andb_true_iff in D. destruct D as [D1 D2]. apply String.eqb_eq in D1. subst b.
      apply (step (Lit a) (Lit a) t u); auto. lia.
    + rewrite !andb_true_iff in D. destruct D as [[D1 D2] D3]. apply String.eqb_eq in D1. subst a.
      apply dec2b_true in D2. subst o'. cbn [List.length] in L.
      destruct R as [x [y [-> [A [x' [y' [-> [B C]]]]]]]]. cbn [shows] in A, B. subst x.
      exists b, (("0x" ++ x') ++ y')%string. split; [rewrite !append_assoc; reflexivity|].
      split; [reflexivity|]. exists ("0x" ++ x')%string, y'. split; [reflexivity|].
      split; [|apply (IH t'); [lia|assumption..]].
      destruct B as [v [E B]]. exists v. split; [assumption|]. right. exists x'. auto.
  - cbn [refines] in H. apply andb_true_iff in H. destruct H as [H1 H2]. apply dec2b_true in H1. subst b.
    apply (step (Reg a) (Reg a) t u); auto. lia.
  - cbn [refines] in H. apply andb_true_iff in H. destruct H as [H1 H2]. apply dec2b_true in H1. subst b.
    apply (step (Dec a) (Num a) t u); auto; [lia|].
    intros x [v [E X]]. exists v. auto.
Qed.

Definition refined (op : OpcodeKind) : bool :=
  match printed op with Some t => refines t (documented op) | None => false end.
Lemma refined_all : forallb refined as_documented = true.
Proof. vm_compute. reflexivity. Qed.

Lemma conforms_documented i : decoded i -> In (opc i) as_documented -> conforms i.
Proof.
  intros D H. pose proof refined_all as A. rewrite forallb_forall in A. specialize (A _ H).
  pose proof (display_decoded i D) as B. unfold refined in A.
  destruct (printed (opc i)) as [t|]; [|discriminate A]. destruct B as [rest [E R]].
  exists rest. split; [assumption|]. apply (refines_ok i (List.length t) t); auto.
Qed.

(** One word per opcode whose text does not conform. *)
Definition plat : platform := {| overflow_checks := true; usize_bits := 64 |}.
Lemma plat_ok : platform_ok plat.
Proof. unfold platform_ok, plat. cbn. tauto. Qed.

Inductive input := W32 (w : Z) | W16 (w : Z).
Definition dec (x : input) : outcome (result Instruction DecodingError) :=
  match x with W32 w => decode_u32 plat w Rv64 | W16 w => decode_u16 plat w Rv64 end.
Definition in_range (x : input) : bool :=
  match x with W32 w => (0 <=? w) && (w <? 2 ^ 32) | W16 w => (0 <=? w) && (w <? 2 ^ 16) end.
Lemma dec_decoded x i : in_range x = true -> dec x = Ret (Ok i) -> decoded i.
Proof.
  intros R H. destruct x as [w|w]; cbn in R, H; exists plat, Rv64, w;
    (split; [exact plat_ok|]); [left|right]; (split; [|exact H]); unfold is_u32, is_u16; lia.
Qed.

(** The text printed for the input is not one the documentation allows. *)
Definition departs (x : OpcodeKind * input) : bool :=
  match dec (snd x) with
  | Ret (Ok i) =>
      in_range (snd x) && dec2b (OpcodeKind_dec (opc i) (fst x)) &&
      match Instruction_display i with
      | Ret s => forallb (fun rest => negb (s =? OpcodeKind_display (opc i) ++ rest)%string)
                         (texts (documented (opc i)) i)
      | Panic _ => true
      end
  | _ => false
  end.
Lemma departs_ok op x : departs (op, x) = true -> exists i, decoded i /\ opc i = op /\ ~ conforms i.
Proof.
  unfold departs. cbn [fst snd]. destruct (dec x) as [[i|]|] eqn:E; try discriminate.
  rewrite !andb_true_iff. intros [[R O] T]. apply dec2b_true in O.
  exists i. split; [exact (dec_decoded x i R E)|]. split; [assumption|].
  intros [rest [D C]]. rewrite D in T. rewrite forallb_forall in T. apply reads_texts in C.
  specialize (T _ C). rewrite String.eqb_refl in T. discriminate T.
Qed.
