(** The documentation of the format tags against the evaluated text. *)
From Coq Require Import ZArith List Bool String Ascii Lia.
From Verif Require Import Rust Types Decode Fmt Spec SpecOps SpecDebug SpecApi SrcLine SrcText SrcLink SrcSem SrcProg
  SrcEmbed SrcModel SrcDoc SpecSource SpecText SpecFormat SpecTag Util Rows Rows2 Text Text2.
From Verif Require SrcClaims.
Import ListNotations.
Local Open Scope string_scope.
Local Opaque run crate.

Lemma decodes_to_decoded i : decodes_to i <-> decoded i.
Proof.
  split; intros (p & isa & w & Hp & [[Hw E]|[Hw E]]); exists p, isa, w; (split; [exact Hp|]);
    [left|right|left|right]; (split; [exact Hw|]).
  - pose proof (SrcClaims.evaluates_one _ _ _ _ _ _ E (SrcClaims.models_evaluates _ _ _ _ _ (m_decode32 p w isa ""))) as K.
    destruct (decode_u32 p w isa) as [[j|e]|why]; cbn [gives of_result] in K; try discriminate K.
    f_equal. f_equal. symmetry. apply SrcClaims.of_inst_inj.
    exact (f_equal (fun a => match a with Done (VEnum _ _ [v]) _ => v | _ => VUnit end) K).
  - pose proof (SrcClaims.evaluates_one _ _ _ _ _ _ E (SrcClaims.models_evaluates _ _ _ _ _ (m_decode16 p w isa ""))) as K.
    destruct (decode_u16 p w isa) as [[j|e]|why]; cbn [gives of_result] in K; try discriminate K.
    f_equal. f_equal. symmetry. apply SrcClaims.of_inst_inj.
    exact (f_equal (fun a => match a with Done (VEnum _ _ [v]) _ => v | _ => VUnit end) K).
  - pose proof (SrcClaims.models_evaluates _ _ _ _ _ (m_decode32 p w isa "")) as K. rewrite E in K. exact K.
  - pose proof (SrcClaims.models_evaluates _ _ _ _ _ (m_decode16 p w isa "")) as K. rewrite E in K. exact K.
Qed.

Lemma follows_iff m t i : follows m t i <->
  exists s rest, lower s = m /\ reads_as t i rest /\ Instruction_display i = Ret (s ++ rest).
Proof.
  split; intros (s & rest & L & R & E); exists s, rest; (split; [exact L|]); (split; [exact R|]).
  - pose proof (SrcClaims.evaluates_one _ _ _ _ _ _ (E plat)
      (SrcClaims.models_evaluates _ _ _ _ _ (m_fmt plat i ""))) as K.
    destruct (Instruction_display i) as [x|why]; cbn [writes] in K; [|discriminate K].
    f_equal. symmetry. exact (f_equal (fun a => match a with Done _ o => o | _ => "" end) K).
  - intros p. pose proof (SrcClaims.models_evaluates _ _ _ _ _ (m_fmt p i "")) as K. rewrite E in K. exact K.
Qed.

Lemma shown_as_iff op m : shown_as op m <-> lower (OpcodeKind_display op) = m.
Proof.
  split.
  - intros H. destruct (H plat) as (s & E & L). apply SrcClaims.op_display_source in E. subst s. exact L.
  - intros L p. exists (OpcodeKind_display op). split; [|exact L]. apply SrcClaims.op_display_source. reflexivity.
Qed.

Lemma format_iff op f :
  (forall p, evaluates p "OpcodeKind.get_format" [of_op op] "" (Done (of_fmt f) "")) <-> get_format op = f.
Proof.
  split.
  - intros H. pose proof (SrcClaims.evaluates_one _ _ _ _ _ _ (H plat)
      (SrcClaims.models_evaluates _ _ _ _ _ (m_format plat op ""))) as K. cbn [gives] in K.
    apply (f_equal (fun a => match a with Done v _ => v | _ => VUnit end)) in K. cbv beta iota in K.
    destruct (get_format op), f; try reflexivity; discriminate K.
  - intros <- p. exact (SrcClaims.models_evaluates _ _ _ _ _ (m_format p op "")).
Qed.

(** ** The table of the documentation *)

Definition all_formats : list InstFormat :=
  [RFormat; RShamtFormat; IFormat; SFormat; BFormat; UFormat; JFormat; CrFormat; CiFormat; CssFormat; CiwFormat;
   ClFormat; CsFormat; CaFormat; CbFormat; CjFormat; CsrFormat; CsrUiFormat; MFormat; AFormat; ALrFormat;
   NoOperand; OnlyRd; OnlyRs1; OnlyRs2].
Lemma all_formats_all f : In f all_formats.
Proof. destruct f; cbn [all_formats In]; tauto. Qed.

Definition row : Type := InstFormat * (string * list item).
Definition doc_rows : list row :=
  Eval vm_compute in
  flat_map (fun f =>
    flat_map (fun d => if fst d =? format_name f
                       then flat_map (fun l => match template l with Some mt => [(f, mt)] | None => [] end) (snd d)
                       else []) tag_docs) all_formats.

Lemma documents_row f m t : documents f m t -> In (f, (m, t)) doc_rows.
Proof.
  intros (ls & l & A & B & C).
  assert (E : doc_rows = flat_map (fun f =>
    flat_map (fun d => if fst d =? format_name f
                       then flat_map (fun l => match template l with Some mt => [(f, mt)] | None => [] end) (snd d)
                       else []) tag_docs) all_formats) by (vm_compute; reflexivity).
  rewrite E. apply in_flat_map. exists f. split; [apply all_formats_all|].
  apply in_flat_map. exists (format_name f, ls). split; [exact A|]. cbn [fst snd]. rewrite String.eqb_refl.
  apply in_flat_map. exists l. split; [exact B|]. rewrite C. left. reflexivity.
Qed.

Definition op_of (m : string) : option OpcodeKind :=
  List.find (fun op => lower (OpcodeKind_display op) =? m) all_ops.

Definition witnesses : list (string * input) :=
  [("lw", W32 0xc3a303); ("sw", W32 0x93a423); ("beq", W32 0x938463); ("c.swsp", W16 0xc42a);
   ("c.addi4spn", W16 0x1408); ("c.lw", W16 0x48c8); ("c.sw", W16 0xc8c8); ("c.beqz", W16 0xc919);
   ("c.srai", W16 0x8519); ("sc.w", W32 0x1893a32f); ("lr.w", W32 0x1003a32f); ("sspush", W32 0xce104073);
   ("sspopchk", W32 0xcdc0c073)].

Definition strays (op : OpcodeKind) (m : string) (t : list item) (x : string * input) : bool :=
  (fst x =? m) &&
  match dec (snd x) with
  | Ret (Ok i) =>
      in_range (snd x) && dec2b (OpcodeKind_dec (opc i) op) &&
      match Instruction_display i with
      | Ret s => forallb (fun rest => negb (s =? substring 0 (String.length m) s ++ rest)) (texts t i)
      | Panic _ => true
      end
  | _ => false
  end.

Definition row_ok (r : row) : bool :=
  let '(f, (m, t)) := r in
  match op_of m with
  | Some op =>
      forallb (fun op' => implb (lower (OpcodeKind_display op') =? m) (dec2b (OpcodeKind_dec op' op))) all_ops &&
      Bool.eqb (dec2b (format_dec (get_format op) f)) 
        (negb (existsb (fun x => dec2b (format_dec (fst x) f) && (snd x =? m)) misfiled)) &&
      if existsb (String.eqb m) followed
      then if m =? "c.addi16sp"
           then match t with [Lit a; Num OImm] => a =? " sp, sp, " | _ => false end
           else match printed op with Some u => refines u t | None => false end
      else existsb (strays op m t) witnesses
  | None => false
  end.
Lemma rows_ok : forallb row_ok doc_rows = true.
Proof. vm_compute. reflexivity. Qed.

Lemma lower_length s : String.length (lower s) = String.length s.
Proof. induction s as [|c s IH]; [reflexivity|]. cbn. rewrite IH. reflexivity. Qed.
Lemma substring_whole s : substring 0 (String.length s) s = s.
Proof. induction s as [|c s IH]; [reflexivity|]. cbn. rewrite IH. reflexivity. Qed.
Lemma substring_start a b : substring 0 (String.length a) (a ++ b) = a.
Proof.
  induction a as [|c a IH]; [destruct b; reflexivity|]. cbn. rewrite IH. reflexivity.
Qed.

Lemma strays_ok op m t x : strays op m t x = true -> exists i, decoded i /\ opc i = op /\ ~ follows m t i.
Proof.
  unfold strays. destruct x as [n x]. cbn [fst snd]. intros H. apply andb_true_iff in H. destruct H as [_ H].
  destruct (dec x) as [[i|]|] eqn:E; try discriminate H.
  rewrite !andb_true_iff in H. destruct H as [[R O] T]. apply dec2b_true in O.
  exists i. split; [exact (dec_decoded x i R E)|]. split; [exact O|].
  intros F. apply follows_iff in F. destruct F as (s & rest & L & C & D). rewrite D in T.
  rewrite forallb_forall in T. apply reads_texts in C. specialize (T _ C).
  rewrite <- L, lower_length, substring_start, String.eqb_refl in T. discriminate T.
Qed.

(** c.addi16sp has sp as its destination. *)
Definition fixed_sp (r : Spec.row) (isa : Isa) : bool :=
  negb (dec2b (OpcodeKind_dec (r_op r) (OC C_ADDI16SP))) ||
  (dec2b (reg_src_dec (c_rd (r_cls r isa)) (RBits 11 7)) &&
   forallb (fun p => forallb (fun kb => match nth_error p (fst kb) with
                                        | Some (Some b) => Bool.eqb b (snd kb)
                                        | _ => false
                                        end) [(7, false); (8, true); (9, false); (10, false); (11, false)]%nat)
     (incl (r_acc r isa))).
Lemma fixed_sp_all : forallb (fun r => fixed_sp r Rv32 && fixed_sp r Rv64) (table32 ++ table16) = true.
Proof. vm_compute. reflexivity. Qed.

Lemma addi16sp_rd i : decoded i -> opc i = OC C_ADDI16SP -> rd i = Some 2%Z.
Proof.
  intros D O. destruct (Operands.decoded_row i D) as (r & isa & c & w & Hr & He & ->).
  pose proof (proj1 (forallb_forall _ _) fixed_sp_all r Hr) as F. apply andb_true_iff in F.
  assert (G : fixed_sp r isa = true) by (destruct isa; apply F). clear F.
  unfold fixed_sp in G. change (opc (reads r isa c w)) with (r_op r) in O. rewrite O in G.
  destruct (dec2b (OpcodeKind_dec (OC C_ADDI16SP) (OC C_ADDI16SP))) eqn:X; [|vm_compute in X; discriminate X].
  cbn [negb orb] in G. apply andb_true_iff in G. destruct G as [S G]. apply dec2b_true in S.
  change (rd (reads r isa c w)) with (reg_of (c_rd (r_cls r isa)) w). rewrite S. cbn [reg_of]. f_equal.
  unfold in_enc in He. destruct (existsb (fun p => matches p w) (incl (r_acc r isa))) eqn:E; [|discriminate He].
  apply existsb_exists in E. destruct E as (p & Hp & M).
  rewrite forallb_forall in G. specialize (G p Hp). cbn [forallb fst snd] in G.
  rewrite !andb_true_iff in G. destruct G as (B7 & B8 & B9 & B10 & B11 & _).
  apply Z.bits_inj'. intros n Hn. rewrite field_testbit by lia.
  assert (bit : forall k b, (match nth_error p k with Some (Some b') => Bool.eqb b' b | _ => false end) = true ->
    Z.testbit w (Z.of_nat k) = b).
  { intros k b H. destruct (nth_error p k) as [[b'|]|] eqn:N; try discriminate H. apply eqb_prop in H. subst b'.
    exact (matches_bit p 0 w k b M N). }
  apply bit in B7, B8, B9, B10, B11.
  change (Z.of_nat 7) with 7%Z in B7. change (Z.of_nat 8) with 8%Z in B8. change (Z.of_nat 9) with 9%Z in B9.
  change (Z.of_nat 10) with 10%Z in B10. change (Z.of_nat 11) with 11%Z in B11.
  assert (C : (n = 0 \/ n = 1 \/ n = 2 \/ n = 3 \/ n = 4 \/ 5 <= n)%Z) by lia.
  destruct C as [->|[->|[->|[->|[->|C]]]]].
  - change (7 + 0)%Z with 7%Z. rewrite B7. reflexivity.
  - change (7 + 1)%Z with 8%Z. rewrite B8. reflexivity.
  - change (7 + 2)%Z with 9%Z. rewrite B9. reflexivity.
  - change (7 + 3)%Z with 10%Z. rewrite B10. reflexivity.
  - change (7 + 4)%Z with 11%Z. rewrite B11. reflexivity.
  - replace (n <? 11 - 7 + 1)%Z with false by (symmetry; apply Z.ltb_ge; lia). rewrite andb_false_r.
    symmetry. apply (Z.bits_above_log2 2 n); [lia|]. cbn. lia.
Qed.

Lemma row_spec f m t : documents f m t -> exists op,
  (forall op', shown_as op' m <-> op' = op) /\
  ((forall p, evaluates p "OpcodeKind.get_format" [of_op op] "" (Done (of_fmt f) "")) <-> ~ In (f, m) misfiled) /\
  ((forall i, decodes_to i -> opc i = op -> follows m t i) <-> In m followed).
Proof.
  intros H. apply documents_row in H. pose proof (proj1 (forallb_forall _ _) rows_ok _ H) as R.
  unfold row_ok in R. destruct (op_of m) as [op|] eqn:O; [|discriminate R]. exists op.
  apply find_some in O. destruct O as [_ O]. apply String.eqb_eq in O.
  rewrite !andb_true_iff in R. destruct R as [[U F] T]. split; [|split].
  - intros op'. rewrite shown_as_iff. split; [|intros ->; exact O]. intros L.
    rewrite forallb_forall in U. specialize (U op' (all_ops_in op')). rewrite L, String.eqb_refl in U.
    apply dec2b_true in U. exact U.
  - rewrite format_iff. apply eqb_prop in F. split.
    + intros E I. subst f. destruct (dec2b (format_dec (get_format op) (get_format op))) eqn:X.
      * symmetry in F. apply negb_true_iff in F. apply Bool.not_true_iff_false in F. apply F.
        apply existsb_exists. exists (get_format op, m). split; [exact I|]. cbn [fst snd].
        rewrite X, String.eqb_refl. reflexivity.
      * unfold dec2b in X. destruct (format_dec (get_format op) (get_format op)); [discriminate X|congruence].
    + intros N. destruct (dec2b (format_dec (get_format op) f)) eqn:X; [apply dec2b_true in X; exact X|].
      symmetry in F. apply negb_false_iff in F. apply existsb_exists in F. destruct F as ((f' & m') & I & E).
      cbn [fst snd] in E. apply andb_true_iff in E. destruct E as [E1 E2]. apply dec2b_true in E1.
      apply String.eqb_eq in E2. subst f' m'. destruct (N I).
  - destruct (existsb (String.eqb m) followed) eqn:W.
    + apply existsb_exists in W. destruct W as (m' & W & E). apply String.eqb_eq in E. subst m'.
      split; [intros _; exact W|]. intros _ i D Oi. apply decodes_to_decoded in D. apply follows_iff.
      pose proof (display_decoded i D) as P. rewrite Oi in P.
      destruct (m =? "c.addi16sp") eqn:S.
      * apply String.eqb_eq in S. destruct t as [|[a|?|?|?|?] [|[?|?|?|?|[]] [|]]]; try discriminate T.
        apply String.eqb_eq in T. subst a.
        assert (E : op = OC C_ADDI16SP).
        { subst m. rewrite forallb_forall in U. specialize (U (OC C_ADDI16SP) (all_ops_in _)). rewrite S in U.
          apply dec2b_true in U. symmetry. exact U. }
        rewrite E in Oi, P. cbn [printed] in P. destruct P as (rest & P & Q).
        pose proof (addi16sp_rd i D Oi) as RD. exists (OpcodeKind_display (OC C_ADDI16SP)), rest.
        split; [rewrite <- E; exact O|]. split; [|exact P].
        apply reads_texts. apply reads_texts in Q. cbn [texts pieces get flat_map map] in Q |- *. rewrite RD in Q.
        change (reg2str 2) with (Ret "sp") in Q. destruct (imm i) as [v|]; [|destruct Q].
        cbn in Q |- *. destruct Q as [Q|[]]. left. exact Q.
      * destruct (printed op) as [u|]; [|discriminate T]. destruct P as (rest & P & Q).
        exists (OpcodeKind_display op), rest. split; [exact O|]. split; [|exact P].
        exact (refines_ok i (List.length u) u t rest (le_n _) T Q).
    + split.
      * intros A. exfalso. apply existsb_exists in T. destruct T as (x & _ & T).
        destruct (strays_ok op m t x T) as (i & D & Oi & N). apply N. apply A; [|exact Oi].
        apply decodes_to_decoded. exact D.
      * intros I. apply Bool.not_true_iff_false in W. destruct W. apply existsb_exists. exists m.
        split; [exact I|apply String.eqb_refl].
Qed.

(** Every tag is documented, once. *)
Lemma tags_once : forall f, exists ls, filter (fun d => fst d =? format_name f) tag_docs = [(format_name f, ls)] /\
  exists l, In l ls /\ template l <> None.
Proof.
  intros f. assert (H : forallb (fun f => match filter (fun d => fst d =? format_name f) tag_docs with
      | [(n, l :: _)] => (n =? format_name f) && match template l with Some _ => true | None => false end
      | _ => false end) all_formats = true) by (vm_compute; reflexivity).
  pose proof (proj1 (forallb_forall _ _) H f (all_formats_all f)) as R. cbv beta in R.
  destruct (filter _ tag_docs) as [|[n [|l ls]] [|]]; try discriminate R.
  apply andb_true_iff in R. destruct R as [R T]. apply String.eqb_eq in R. subst n.
  exists (l :: ls). split; [reflexivity|]. exists l. split; [left; reflexivity|].
  intros E. rewrite E in T. discriminate T.
Qed.

Lemma row_documents f m t : In (f, (m, t)) doc_rows -> documents f m t.
Proof.
  intros H.
  assert (E : doc_rows = flat_map (fun f =>
    flat_map (fun d => if fst d =? format_name f
                       then flat_map (fun l => match template l with Some mt => [(f, mt)] | None => [] end) (snd d)
                       else []) tag_docs) all_formats) by (vm_compute; reflexivity).
  rewrite E in H. apply in_flat_map in H. destruct H as (f' & _ & H).
  apply in_flat_map in H. destruct H as ((n & ls) & I & H). cbn [fst snd] in H.
  destruct (n =? format_name f') eqn:N; [|destruct H]. apply String.eqb_eq in N. subst n.
  apply in_flat_map in H. destruct H as (l & J & H). destruct (template l) as [mt|] eqn:T; [|destruct H].
  destruct H as [H|[]]. injection H as -> ->. exists ls, l. split; [exact I|]. split; [exact J|exact T].
Qed.

Lemma refuted :
  (exists f m t op, documents f m t /\ shown_as op m /\
     ~ (forall p, evaluates p "OpcodeKind.get_format" [of_op op] "" (Done (of_fmt f) ""))) /\
  (exists f m t i, documents f m t /\ decodes_to i /\ shown_as (opc i) m /\ ~ follows m t i).
Proof.
  split.
  - assert (D : documents CiFormat "c.nop" []) by (apply row_documents; vm_compute; tauto).
    exists CiFormat, "c.nop", [], (OC C_NOP). split; [exact D|].
    split; [apply shown_as_iff; reflexivity|]. rewrite format_iff. discriminate.
  - assert (D : documents IFormat "lw" (mem ORd ORs1)) by (apply row_documents; vm_compute; tauto).
    assert (S : strays (OBaseI I_LW) "lw" (mem ORd ORs1) ("lw", W32 0xc3a303) = true) by (vm_compute; reflexivity).
    destruct (strays_ok _ _ _ _ S) as (i & Di & Oi & N).
    exists IFormat, "lw", (mem ORd ORs1), i. split; [exact D|]. split; [apply decodes_to_decoded; exact Di|].
    split; [apply shown_as_iff; rewrite Oi; reflexivity|exact N].
Qed.

(** The operands named by C52 are those of an example that is in its place. *)
Definition shown_ops (t : list item) : list operand :=
  flat_map (fun it => match item_operand it with Some o => [o] | None => [] end) t.
Lemma shown_ops_ok t o : In o (shown_ops t) <-> shown_in t o.
Proof.
  unfold shown_ops. rewrite in_flat_map. split; intros (it & I & H); exists it; (split; [exact I|]).
  - destruct (item_operand it); [destruct H as [->|[]]; reflexivity|destruct H].
  - rewrite H. left. reflexivity.
Qed.

Definition same_set (a b : list operand) : bool :=
  forallb (fun x => existsb (fun y => dec2b (operand_dec x y)) b) a &&
  forallb (fun x => existsb (fun y => dec2b (operand_dec x y)) a) b.
Lemma same_set_ok a b : same_set a b = true -> forall o, In o a <-> In o b.
Proof.
  unfold same_set. rewrite andb_true_iff, !forallb_forall. intros [A B] o.
  split; intros H; [specialize (A o H)|specialize (B o H)].
  - apply existsb_exists in A. destruct A as (y & I & E). apply dec2b_true in E. subst y. exact I.
  - apply existsb_exists in B. destruct B as (y & I & E). apply dec2b_true in E. subst y. exact I.
Qed.

Definition placed (f : InstFormat) (r : row) : bool :=
  dec2b (format_dec (fst r) f) &&
  negb (existsb (fun x => dec2b (format_dec (fst x) f) && (snd x =? fst (snd r))) misfiled) &&
  same_set (named f) (shown_ops (snd (snd r))).

Lemma named_documented f : f <> OnlyRs1 -> f <> OnlyRs2 ->
  exists m t, documents f m t /\ ~ In (f, m) misfiled /\ forall o, In o (named f) <-> shown_in t o.
Proof.
  intros N1 N2.
  assert (H : forallb (fun f => dec2b (format_dec f OnlyRs1) || dec2b (format_dec f OnlyRs2) ||
    existsb (placed f) doc_rows) all_formats = true) by (vm_compute; reflexivity).
  pose proof (proj1 (forallb_forall _ _) H f (all_formats_all f)) as R. cbv beta in R.
  rewrite !orb_true_iff in R. destruct R as [[R|R]|R]; [apply dec2b_true in R; congruence..|].
  apply existsb_exists in R. destruct R as ((f' & m & t) & I & R). unfold placed in R. cbn [fst snd] in R.
  rewrite !andb_true_iff in R. destruct R as [[E M] S]. apply dec2b_true in E. subst f'.
  exists m, t. split; [apply row_documents; exact I|]. split.
  - intros J. apply negb_true_iff in M. apply Bool.not_true_iff_false in M. apply M. apply existsb_exists.
    exists (f, m). split; [exact J|]. cbn [fst snd]. rewrite String.eqb_refl.
    destruct (dec2b (format_dec f f)) eqn:X; [reflexivity|].
    unfold dec2b in X. destruct (format_dec f f); [discriminate X|congruence].
  - intros o. rewrite <- shown_ops_ok. apply same_set_ok. exact S.
Qed.

(** Nothing is listed that is not in the text. *)
Lemma listed_documented :
  (forall m, In m followed -> exists f t, documents f m t) /\
  (forall f m, In (f, m) misfiled -> exists t, documents f m t).
Proof.
  split.
  - intros m I.
    assert (H : forallb (fun m => existsb (fun r : row => fst (snd r) =? m) doc_rows) followed = true)
      by (vm_compute; reflexivity).
    pose proof (proj1 (forallb_forall _ _) H m I) as R. apply existsb_exists in R.
    destruct R as ((f & m' & t) & J & E). apply String.eqb_eq in E. cbn [fst snd] in E. subst m'.
    exists f, t. apply row_documents. exact J.
  - intros f m I.
    assert (H : forallb (fun x => existsb (fun r : row => dec2b (format_dec (fst r) (fst x)) && (fst (snd r) =? snd x)) doc_rows)
      misfiled = true) by (vm_compute; reflexivity).
    pose proof (proj1 (forallb_forall _ _) H (f, m) I) as R. apply existsb_exists in R.
    destruct R as ((f' & m' & t) & J & E). cbn [fst snd] in E. apply andb_true_iff in E. destruct E as [E1 E].
    apply dec2b_true in E1. apply String.eqb_eq in E. subst f' m'.
    exists t. apply row_documents. exact J.
Qed.
