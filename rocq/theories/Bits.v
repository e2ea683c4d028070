(** Changes of single bits (C48-C51). *)
From Coq Require Import ZArith String List Bool Lia.
From Verif Require Import Rust Types Decode Spec SpecOps SpecText SpecAsm SpecBits Util Pat Rows Rows2
  Operands Api Asm Asm2 Asm3 Asm4 Text Findings.
Import ListNotations.
Local Open Scope list_scope.
Local Open Scope Z_scope.

(** ** One operand (C48) *)

Lemma operand_bits n r isa cmp w w' o : class_ok n (r_cls r isa) = true ->
  (get o (reads r isa cmp w) = get o (reads r isa cmp w') <->
   forall h l b k, In (o, (h, l, b)) (slots (r_cls r isa)) -> b - (h - l) <= k <= b ->
     Z.testbit w k = Z.testbit w' k).
Proof.
  intros C. split.
  - intros E h l b k I R. destruct (slot_read n _ w o h l b k C I R) as [v [V T]].
    destruct (slot_read n _ w' o h l b k C I R) as [v' [V' T']].
    rewrite <- (get_reads r isa cmp) in V, V'. rewrite E in V. rewrite V in V'. injection V' as <-.
    congruence.
  - intros H. rewrite !get_reads. apply (read_ext n); assumption.
Qed.

Lemma operand32 p q isa w w' i i' o : platform_ok p -> platform_ok q -> is_u32 w -> is_u32 w' ->
  decode_u32 p w isa = Ret (Ok i) -> decode_u32 q w' isa = Ret (Ok i') -> opc i = opc i' ->
  (get o i = get o i' <->
   forall k, bit_of table32 isa (opc i) o k -> Z.testbit w k = Z.testbit w' k).
Proof.
  intros Hp Hq Hw Hw' D D' Op. destruct (ok32 _ _ _ _ Hp Hw D) as [r [Hr [_ ->]]].
  destruct (ok32 _ _ _ _ Hq Hw' D') as [r' [Hr' [_ ->]]]. cbn [reads opc] in Op.
  apply row_unique32 in Op; [|assumption..]. subst r'.
  assert (C : class_ok (Z.of_nat 32) (r_cls r isa) = true) by (eapply row_class, row_ok32; assumption).
  rewrite (operand_bits _ r isa false w w' o C). split.
  - intros H k [r2 [h [l [b [H2 [O2 [I R]]]]]]]. apply row_unique32 in O2; [|assumption..]. subst r2.
    exact (H h l b k I R).
  - intros H h l b k I R. apply H. exists r, h, l, b. auto.
Qed.
Lemma operand16 p q isa w w' i i' o : platform_ok p -> platform_ok q -> is_u16 w -> is_u16 w' ->
  decode_u16 p w isa = Ret (Ok i) -> decode_u16 q w' isa = Ret (Ok i') -> opc i = opc i' ->
  (get o i = get o i' <->
   forall k, bit_of table16 isa (opc i) o k -> Z.testbit w k = Z.testbit w' k).
Proof.
  intros Hp Hq Hw Hw' D D' Op. destruct (ok16 _ _ _ _ Hp Hw D) as [r [Hr [_ ->]]].
  destruct (ok16 _ _ _ _ Hq Hw' D') as [r' [Hr' [_ ->]]]. cbn [reads opc] in Op.
  apply row_unique16 in Op; [|assumption..]. subst r'.
  assert (C : class_ok (Z.of_nat 16) (r_cls r isa) = true) by (eapply row_class, row_ok16; assumption).
  rewrite (operand_bits _ r isa true w w' o C). split.
  - intros H k [r2 [h [l [b [H2 [O2 [I R]]]]]]]. apply row_unique16 in O2; [|assumption..]. subst r2.
    exact (H h l b k I R).
  - intros H h l b k I R. apply H. exists r, h, l, b. auto.
Qed.

(** ** Inverting a bit *)

Lemma flip_testbit w k j : 0 <= k -> 0 <= j -> Z.testbit (flip w k) j = xorb (Z.testbit w j) (j =? k).
Proof.
  intros Hk Hj. unfold flip. rewrite Z.lxor_spec, Z.pow2_bits_eqb by assumption.
  f_equal. apply Z.eqb_sym.
Qed.
Lemma flip_bound w k n : 0 <= k < n -> 0 <= w < 2 ^ n -> 0 <= flip w k < 2 ^ n.
Proof.
  intros Hk Hw. assert (N : 0 <= flip w k) by (unfold flip; rewrite Z.lxor_nonneg; split; intros; lia).
  split; [assumption|]. destruct (Z.eq_dec (flip w k) 0) as [->|Z]; [lia|].
  apply Z.log2_lt_pow2; [lia|]. destruct (Z.ltb_spec (Z.log2 (flip w k)) n) as [|L]; [assumption|exfalso].
  assert (B : Z.testbit (flip w k) (Z.log2 (flip w k)) = true) by (apply Z.bit_log2; lia).
  rewrite flip_testbit in B by lia. rewrite (small_testbit w n) in B by assumption.
  destruct (Z.eqb_spec (Z.log2 (flip w k)) k); [lia|discriminate B].
Qed.
Lemma flip_back w k : 0 <= k -> flip (flip w k) k = w.
Proof. intros _. unfold flip. rewrite Z.lxor_assoc, Z.lxor_nilpotent, Z.lxor_0_r. reflexivity. Qed.

Fixpoint flip_at (j k : Z) (p : pattern) : pattern :=
  match p with
  | [] => []
  | None :: p' => None :: flip_at (j + 1) k p'
  | Some b :: p' => Some (xorb b (j =? k)) :: flip_at (j + 1) k p'
  end.
Lemma flip_matches_at p k w : 0 <= k -> forall j, 0 <= j ->
  matches_at j (flip_at j k p) (flip w k) = matches_at j p w.
Proof.
  intros Hk. induction p as [|[b|] p IH]; intros j Hj; cbn [flip_at matches_at]; [reflexivity| |apply IH; lia].
  rewrite flip_testbit by assumption. rewrite IH by lia.
  destruct (Z.testbit w j), b, (j =? k); reflexivity.
Qed.
Definition flip_enc (e : enc) (k : Z) : enc :=
  {| incl := map (flip_at 0 k) (incl e); excl := map (flip_at 0 k) (excl e) |}.
Lemma flip_existsb l k w : 0 <= k ->
  existsb (fun p => matches p (flip w k)) (map (flip_at 0 k) l) = existsb (fun p => matches p w) l.
Proof.
  intros Hk. induction l as [|p l IH]; [reflexivity|]. cbn [map existsb]. rewrite IH. unfold matches.
  rewrite flip_matches_at by lia. reflexivity.
Qed.
Lemma flip_in_enc e k w : 0 <= k -> in_enc (flip_enc e k) (flip w k) = in_enc e w.
Proof. intros Hk. unfold in_enc, flip_enc. cbn [incl excl]. rewrite !flip_existsb by assumption. reflexivity. Qed.

(** ** Unnoticed changes (C49) *)

Definition watch (n : nat) (r : row) (isa : Isa) (k : Z) : bool :=
  if existsb (Z.eqb k) (blind (r_op r)) then
    match holder (slots (r_cls r isa)) k with
    | Some _ => false
    | None => enc_sub (flip_enc (r_man r isa) k) (r_acc r isa)
    end
  else
    match holder (slots (r_cls r isa)) k with
    | Some _ => true
    | None => enc_disj (flip_enc (r_man r isa) k) (r_acc r isa)
    end.
Lemma watch32 isa : forallb (fun r => forallb (watch 32 r isa) (positions 32)) table32 = true.
Proof. destruct isa; vm_compute; reflexivity. Qed.
Lemma watch16 isa : forallb (fun r => forallb (watch 16 r isa) (positions 16)) table16 = true.
Proof. destruct isa; vm_compute; reflexivity. Qed.

Lemma in_blind k op : In k (blind op) <-> existsb (Z.eqb k) (blind op) = true.
Proof.
  rewrite existsb_exists. split.
  - intros H. exists k. split; [assumption|apply Z.eqb_refl].
  - intros [x [H E]]. apply Z.eqb_eq in E. subst. assumption.
Qed.

Lemma holder_none l k o h lo b : holder l k = None -> In (o, (h, lo, b)) l -> ~ b - (h - lo) <= k <= b.
Proof.
  induction l as [|[o' [[h' l'] b']] l IH]; cbn [holder]; intros H I R; [destruct I|].
  destruct (Z.leb_spec (b' - (h' - l')) k), (Z.leb_spec k b'); cbn [andb] in H; try discriminate H;
    (destruct I as [I|I]; [injection I as -> -> -> ->; lia|exact (IH H I R)]).
Qed.

Lemma flip_reads n r isa cmp w k : class_ok n (r_cls r isa) = true -> 0 <= k ->
  (reads r isa cmp (flip w k) = reads r isa cmp w <-> holder (slots (r_cls r isa)) k = None).
Proof.
  intros C Hk. rewrite (reads_bits n) by assumption. split.
  - intros H. destruct (holder (slots (r_cls r isa)) k) as [[o j]|] eqn:Ho; [|reflexivity].
    destruct (holder_in _ _ _ _ Ho) as [h [l [b [I [R _]]]]]. specialize (H o h l b k I R).
    rewrite flip_testbit, Z.eqb_refl in H by lia. destruct (Z.testbit w k); discriminate H.
  - intros H o h l b j I R. pose proof (holder_none _ _ _ _ _ _ H I) as N.
    pose proof (slot_ok n _ o h l b C I) as [S1 [S2 S3]]. rewrite flip_testbit by lia.
    destruct (Z.eqb_spec j k); [subst; contradiction|apply xorb_false_r].
Qed.

Lemma unnoticed32 p q isa w i k : platform_ok p -> platform_ok q -> is_u32 w -> 0 <= k < 32 ->
  decode_u32 p w isa = Ret (Ok i) -> legal32 isa (opc i) w ->
  (decode_u32 q (flip w k) isa = Ret (Ok i) <-> In k (blind (opc i))).
Proof.
  intros Hp Hq Hw Hk D [r [Hr [Op He]]]. destruct (ok32 _ _ _ _ Hp Hw D) as [r' [Hr' [Ha ->]]].
  apply row_unique32 in Op; [|assumption..]. subst r'. cbn [reads opc].
  pose proof (flip_bound w k 32 Hk Hw) as Hw'.
  assert (C : class_ok (Z.of_nat 32) (r_cls r isa) = true) by (eapply row_class, row_ok32; assumption).
  pose proof (watch32 isa) as A. rewrite forallb_forall in A. specialize (A r Hr).
  rewrite forallb_forall in A. specialize (A k (proj2 (positions_in 32 k) Hk)). unfold watch in A.
  pose proof (flip_reads _ r isa false w k C (proj1 Hk)) as F.
  rewrite in_blind. destruct (existsb (Z.eqb k) (blind (r_op r))).
  - split; [reflexivity|]. intros _. destruct (holder (slots (r_cls r isa)) k); [discriminate A|].
    rewrite <- (proj2 F eq_refl). apply row32; try assumption.
    apply (enc_sub_ok _ _ _ A). rewrite flip_in_enc by lia. assumption.
  - split; [|discriminate]. intros E. exfalso. destruct (ok32 _ _ _ _ Hq Hw' E) as [r2 [H2 [Ha' E']]].
    assert (r2 = r) as ->.
    { apply row_unique32; try assumption. apply (f_equal opc) in E'. symmetry. exact E'. }
    symmetry in E'. apply F in E'. rewrite E' in A.
    rewrite (enc_disj_ok _ _ (flip w k) A) in Ha'; [discriminate|]. rewrite flip_in_enc by lia. assumption.
Qed.
Lemma unnoticed16 p q isa w i k : platform_ok p -> platform_ok q -> is_u16 w -> 0 <= k < 16 ->
  decode_u16 p w isa = Ret (Ok i) -> legal16 isa (opc i) w ->
  (decode_u16 q (flip w k) isa = Ret (Ok i) <-> In k (blind (opc i))).
Proof.
  intros Hp Hq Hw Hk D [r [Hr [Op He]]]. destruct (ok16 _ _ _ _ Hp Hw D) as [r' [Hr' [Ha ->]]].
  apply row_unique16 in Op; [|assumption..]. subst r'. cbn [reads opc].
  pose proof (flip_bound w k 16 Hk Hw) as Hw'.
  assert (C : class_ok (Z.of_nat 16) (r_cls r isa) = true) by (eapply row_class, row_ok16; assumption).
  pose proof (watch16 isa) as A. rewrite forallb_forall in A. specialize (A r Hr).
  rewrite forallb_forall in A. specialize (A k (proj2 (positions_in 16 k) Hk)). unfold watch in A.
  pose proof (flip_reads _ r isa true w k C (proj1 Hk)) as F.
  rewrite in_blind. destruct (existsb (Z.eqb k) (blind (r_op r))).
  - split; [reflexivity|]. intros _. destruct (holder (slots (r_cls r isa)) k); [discriminate A|].
    rewrite <- (proj2 F eq_refl). apply row16; try assumption.
    apply (enc_sub_ok _ _ _ A). rewrite flip_in_enc by lia. assumption.
  - split; [|discriminate]. intros E. exfalso. destruct (ok16 _ _ _ _ Hq Hw' E) as [r2 [H2 [Ha' E']]].
    assert (r2 = r) as ->.
    { apply row_unique16; try assumption. apply (f_equal opc) in E'. symmetry. exact E'. }
    symmetry in E'. apply F in E'. rewrite E' in A.
    rewrite (enc_disj_ok _ _ (flip w k) A) in Ha'; [discriminate|]. rewrite flip_in_enc by lia. assumption.
Qed.

(** ** Opcodes one bit apart (C50) *)

Definition retag (c : class) (f : InstFormat) : class :=
  {| c_rd := c_rd c; c_rs1 := c_rs1 c; c_rs2 := c_rs2 c; c_imm := c_imm c; c_fmt := f |}.
Definition pair_of (a b x y : OpcodeKind) : bool :=
  (dec2b (OpcodeKind_dec a x) && dec2b (OpcodeKind_dec b y)) ||
  (dec2b (OpcodeKind_dec a y) && dec2b (OpcodeKind_dec b x)).
Definition InstFormat_dec (a b : InstFormat) : {a = b} + {a <> b}.
Proof. decide equality. Defined.

(** Row [r] becomes row [r'] when bit [k] is inverted. *)
Definition turns (isa : Isa) (k : Z) (r r' : row) : bool :=
  mem_op (r_op r') (unavailable32 isa) ||
  (match holder (slots (r_cls r isa)) k with Some _ => false | None => true end &&
   dec2b (class_dec (r_cls r' isa) (retag (r_cls r isa) (c_fmt (r_cls r' isa)))) &&
   eqb (dec2b (InstFormat_dec (c_fmt (r_cls r isa)) (c_fmt (r_cls r' isa))))
       (negb (existsb (fun ab => pair_of (r_op r) (r_op r') (fst ab) (snd ab)) tagged_apart)) &&
   enc_sub (flip_enc (r_man r isa) k) (r_man r' isa) && enc_sub (r_man r' isa) (r_acc r' isa)).
Definition rows_of (op : OpcodeKind) : list row :=
  filter (fun r => dec2b (OpcodeKind_dec (r_op r) op)) table32.
Lemma turn_all isa : forallb (fun x => let '(a, b, k) := x in (0 <=? k) && (k <? 32) &&
  negb (match rows_of a, rows_of b with [], _ | _, [] => true | _, _ => false end) &&
  forallb (fun r => forallb (fun r' => turns isa k r r' && turns isa k r' r) (rows_of b)) (rows_of a))
  siblings = true.
Proof. destruct isa; vm_compute; reflexivity. Qed.

Lemma rows_of_in op r : In r (rows_of op) <-> In r table32 /\ r_op r = op.
Proof.
  unfold rows_of. rewrite filter_In. split; intros [H E]; (split; [assumption|]).
  - apply dec2b_true in E. assumption.
  - rewrite E. apply dec2b_refl.
Qed.
Lemma turn_row isa a b k r r' : In (a, b, k) siblings \/ In (b, a, k) siblings -> In r table32 -> r_op r = a ->
  In r' table32 -> r_op r' = b -> 0 <= k < 32 /\ turns isa k r r' = true.
Proof.
  intros [S|S] Hr Er Hr' Er'; pose proof (turn_all isa) as A; rewrite forallb_forall in A;
    specialize (A _ S); cbn beta iota in A; rewrite !andb_true_iff in A; destruct A as [[[A1 A2] _] A];
    (split; [lia|]); rewrite forallb_forall in A.
  - specialize (A r (proj2 (rows_of_in _ _) (conj Hr Er))). rewrite forallb_forall in A.
    specialize (A r' (proj2 (rows_of_in _ _) (conj Hr' Er'))). apply andb_true_iff in A. apply A.
  - specialize (A r' (proj2 (rows_of_in _ _) (conj Hr' Er'))). rewrite forallb_forall in A.
    specialize (A r (proj2 (rows_of_in _ _) (conj Hr Er))). apply andb_true_iff in A. apply A.
Qed.
Lemma turn_other (isa : Isa) a b k r : In (a, b, k) siblings \/ In (b, a, k) siblings -> In r table32 -> r_op r = a ->
  exists r', In r' table32 /\ r_op r' = b.
Proof.
  intros [S|S] _ _; pose proof (turn_all isa) as A; rewrite forallb_forall in A;
    specialize (A _ S); cbn beta iota in A; rewrite !andb_true_iff in A; destruct A as [[_ A] _].
  - destruct (rows_of a) as [|r0 l0]; [discriminate A|]. destruct (rows_of b) as [|r' l] eqn:Eb; [discriminate A|].
    exists r'. refine (proj1 (rows_of_in b r') _). rewrite Eb. left. reflexivity.
  - destruct (rows_of b) as [|r' l] eqn:Eb; [discriminate A|]. exists r'. refine (proj1 (rows_of_in b r') _). rewrite Eb. left. reflexivity.
Qed.

Lemma pair_of_ok a b x y : pair_of a b x y = true <-> (a = x /\ b = y) \/ (a = y /\ b = x).
Proof.
  unfold pair_of. rewrite orb_true_iff, !andb_true_iff.
  assert (D : forall u v, dec2b (OpcodeKind_dec u v) = true <-> u = v).
  { intros u v. split; [apply dec2b_true|intros ->; apply dec2b_refl]. }
  rewrite !D. reflexivity.
Qed.
Lemma dec2b_iff {A} (d : forall x y : A, {x = y} + {x <> y}) x y : dec2b (d x y) = true <-> x = y.
Proof. split; [apply dec2b_true|intros ->; apply dec2b_refl]. Qed.
Lemma apart_ok a b : existsb (fun ab => pair_of a b (fst ab) (snd ab)) tagged_apart = true <->
  In (a, b) tagged_apart \/ In (b, a) tagged_apart.
Proof.
  rewrite existsb_exists. split.
  - intros [[x y] [H E]]. apply pair_of_ok in E. cbn [fst snd] in E. destruct E as [[-> ->]|[-> ->]]; auto.
  - intros [H|H]; (eexists; split; [exact H|]; apply pair_of_ok; cbn [fst snd]; auto).
Qed.

Lemma sibling32 p q isa a b k w i : platform_ok p -> platform_ok q -> is_u32 w ->
  In (a, b, k) siblings \/ In (b, a, k) siblings -> available32 isa b ->
  decode_u32 p w isa = Ret (Ok i) -> opc i = a -> legal32 isa a w ->
  legal32 isa b (flip w k) /\
  exists j, decode_u32 q (flip w k) isa = Ret (Ok j) /\ twin i b j /\
    (inst_format j = inst_format i <-> ~ (In (a, b) tagged_apart \/ In (b, a) tagged_apart)).
Proof.
  intros Hp Hq Hw S Av D Oi [r [Hr [Op He]]]. destruct (ok32 _ _ _ _ Hp Hw D) as [r0 [H0 [_ ->]]].
  cbn [reads opc] in Oi. assert (r0 = r) as -> by (apply row_unique32; congruence). clear H0 Oi.
  destruct (turn_other isa a b k r S Hr Op) as [r' [Hr' Op']].
  destruct (turn_row isa a b k r r' S Hr Op Hr' Op') as [Hk T].
  unfold turns in T. apply avail32 in Av. rewrite Op', Av in T. cbn [orb] in T.
  rewrite !andb_true_iff in T. destruct T as [[[[T1 T2] T3] T4] T5].
  destruct (holder (slots (r_cls r isa)) k) eqn:Ho; [discriminate T1|]. apply dec2b_true in T2.
  assert (M : in_enc (r_man r' isa) (flip w k) = true).
  { apply (enc_sub_ok _ _ _ T4). rewrite flip_in_enc by lia. assumption. }
  split; [exists r'; auto|].
  assert (C : class_ok (Z.of_nat 32) (r_cls r isa) = true) by (eapply row_class, row_ok32; assumption).
  pose proof (proj2 (flip_reads _ r isa false w k C (proj1 Hk)) Ho) as F.
  exists (reads r' isa false (flip w k)). split.
  { apply row32; try assumption; [apply (flip_bound w k 32); assumption|exact (enc_sub_ok _ _ _ T5 M)]. }
  rewrite <- F. split.
  - unfold twin. cbn [reads opc rd rs1 rs2 imm is_compressed]. rewrite T2. cbn [retag c_rd c_rs1 c_rs2 c_imm].
    auto 10.
  - cbn [reads inst_format]. rewrite <- apart_ok. apply eqb_prop in T3. rewrite Op in T3.
    split.
    + intros E. rewrite (proj2 (dec2b_iff _ _ _) (eq_sym E)) in T3.
      destruct (existsb _ tagged_apart); [discriminate T3|congruence].
    + intros N. symmetry. apply (dec2b_iff InstFormat_dec). rewrite T3.
      destruct (existsb _ tagged_apart); [destruct (N eq_refl)|reflexivity].
Qed.

(** Shifts by an immediate, on Rv64. *)
Definition below32 : enc := only ["......0 ..... ..... ... ..... ......."%string].
Lemma below32_ok w : Z.testbit w 25 = false -> in_enc below32 w = true.
Proof.
  intros H. unfold in_enc, below32, only, matches. cbn [incl excl map existsb].
  match goal with |- context [pat ?s] => let x := eval vm_compute in (pat s) in change (pat s) with x end.
  cbn [matches_at]. match goal with |- context [Z.testbit w ?k] => change k with 25 end. rewrite H. reflexivity.
Qed.
Definition shift_turns (r r' : row) : bool :=
  dec2b (class_dec (r_cls r Rv64) cSh6) && dec2b (class_dec (r_cls r' Rv64) cSh5) &&
  implies (FAnd (enc_form (flip_enc (r_man r Rv64) 3)) (enc_form below32)) (enc_form (r_man r' Rv64)) &&
  enc_sub (flip_enc (r_man r' Rv64) 3) (r_man r Rv64) && enc_sub (r_man r' Rv64) below32 &&
  enc_sub (r_man r Rv64) (r_acc r Rv64) && enc_sub (r_man r' Rv64) (r_acc r' Rv64).
Lemma shift_turn_all : forallb (fun ab =>
  negb (match rows_of (fst ab), rows_of (snd ab) with [], _ | _, [] => true | _, _ => false end) &&
  forallb (fun r => forallb (fun r' => shift_turns r r') (rows_of (snd ab))) (rows_of (fst ab)))
  shift_siblings = true.
Proof. vm_compute. reflexivity. Qed.

Lemma shift_rows a b : In (a, b) shift_siblings -> exists r r', In r table32 /\ r_op r = a /\
  In r' table32 /\ r_op r' = b /\ shift_turns r r' = true.
Proof.
  intros S. pose proof shift_turn_all as A. rewrite forallb_forall in A. specialize (A _ S).
  cbn [fst snd] in A. apply andb_true_iff in A. destruct A as [A1 A2].
  destruct (rows_of a) as [|r l] eqn:Ea; [discriminate A1|].
  destruct (rows_of b) as [|r' l'] eqn:Eb; [discriminate A1|].
  exists r, r'. rewrite forallb_forall in A2. specialize (A2 r (or_introl eq_refl)).
  rewrite forallb_forall in A2. specialize (A2 r' (or_introl eq_refl)).
  assert (R : In r (rows_of a)) by (rewrite Ea; left; reflexivity).
  assert (R' : In r' (rows_of b)) by (rewrite Eb; left; reflexivity).
  pose proof (proj1 (rows_of_in a r) R) as [K1 K2]. pose proof (proj1 (rows_of_in b r') R') as [K3 K4]. auto.
Qed.

(** One place where six bits are five. *)
Lemma five_bits w k : 0 <= k < 20 -> Z.testbit w 25 = false -> field (flip w k) 24 20 = field w 25 20.
Proof.
  intros Hk B. apply Z.bits_inj'. intros n Hn. rewrite !field_testbit by lia. rewrite flip_testbit by lia.
  destruct (Z.eqb_spec (20 + n) k); [lia|]. rewrite xorb_false_r.
  destruct (Z.ltb_spec n (24 - 20 + 1)), (Z.ltb_spec n (25 - 20 + 1)); try lia;
    rewrite ?andb_true_r, ?andb_false_r; try reflexivity.
  replace (20 + n) with 25 by lia. symmetry. exact B.
Qed.
Lemma bit25 w : Z.testbit w 25 = false <-> field w 25 20 < 32.
Proof.
  split.
  - intros B. rewrite <- (five_bits w 0) by (lia || assumption). unfold field.
    pose proof (Z.mod_pos_bound (flip w 0 / 2 ^ 20) (2 ^ (24 - 20 + 1)) ltac:(lia)).
    change (2 ^ (24 - 20 + 1)) with 32 in *. lia.
  - intros L. assert (F : Z.testbit (field w 25 20) 5 = false).
    { apply (small_testbit _ 5); [|lia]. unfold field in *.
      pose proof (Z.mod_pos_bound (w / 2 ^ 20) (2 ^ (25 - 20 + 1)) ltac:(lia)). lia. }
    rewrite field_testbit in F by lia. rewrite andb_true_r in F. exact F.
Qed.
Lemma below32_bit w : in_enc below32 w = true -> Z.testbit w 25 = false.
Proof.
  unfold in_enc, below32, only. cbn [incl excl map existsb]. rewrite orb_false_r. intros H.
  destruct (matches _ w) eqn:M; [|discriminate H]. apply (pattern_bit_matches _ w 25 false) in M; [|lia|reflexivity].
  exact M.
Qed.

Lemma chunk_one w h b : chunks_val w [(h, 0, b)] = field w b (b - h).
Proof. unfold chunks_val. cbn [fold_right chunk_val]. rewrite Z.sub_0_r, Z.mul_1_r, Z.add_0_r. reflexivity. Qed.

Lemma same_regs w : field (flip w 3) 11 7 = field w 11 7 /\ field (flip w 3) 19 15 = field w 19 15.
Proof.
  split; apply field_ext; try lia; intros n Hn; rewrite flip_testbit by lia;
    (destruct (Z.eqb_spec n 3); [lia|apply xorb_false_r]).
Qed.

Lemma five_bits3 w : Z.testbit w 25 = false -> field (flip w 3) 24 20 = field w 25 20.
Proof. apply five_bits. lia. Qed.
Lemma flip3_25 w : Z.testbit (flip w 3) 25 = Z.testbit w 25.
Proof. rewrite flip_testbit by lia. apply xorb_false_r. Qed.
Lemma flip3_enc e w : in_enc (flip_enc e 3) (flip w 3) = in_enc e w.
Proof. apply flip_in_enc. lia. Qed.
Lemma flip3_u32 w : is_u32 w -> is_u32 (flip w 3).
Proof. apply (flip_bound w 3 32). lia. Qed.

Lemma shift_sibling p q a b w i : platform_ok p -> platform_ok q -> is_u32 w ->
  In (a, b) shift_siblings -> decode_u32 p w Rv64 = Ret (Ok i) -> opc i = a -> legal32 Rv64 a w ->
  (exists s, imm i = Some s /\ s < 32) ->
  legal32 Rv64 b (flip w 3) /\
  exists j, decode_u32 q (flip w 3) Rv64 = Ret (Ok j) /\ twin i b j /\ inst_format j = inst_format i.
Proof.
  intros Hp Hq Hw S D Oi [r0 [Hr0 [Op0 He]]] [s [Es Ls]].
  destruct (ok32 _ _ _ _ Hp Hw D) as [r1 [H1 [_ ->]]]. cbn [reads opc] in Oi.
  destruct (shift_rows a b S) as [r [r' [Hr [Op [Hr' [Op' T]]]]]].
  assert (r0 = r) as -> by (apply row_unique32; congruence).
  assert (r1 = r) as -> by (apply row_unique32; congruence).
  unfold shift_turns in T. rewrite !andb_true_iff in T. destruct T as [[[[[[T1 T2] T3] T4] T5] T6] T7].
  apply dec2b_true in T1, T2. cbn [reads imm] in Es. rewrite T1 in Es. cbn [c_imm cSh6 cls imm_of] in Es.
  rewrite chunk_one in Es. injection Es as <-. change (25 - 5) with 20 in Ls. apply bit25 in Ls.
  assert (M : in_enc (r_man r' Rv64) (flip w 3) = true).
  { rewrite <- enc_sem. apply (implies_ok _ _ _ T3). cbn [sem]. rewrite !enc_sem, flip3_enc.
    rewrite He. apply below32_ok. rewrite flip3_25. assumption. }
  split; [exists r'; auto|]. exists (reads r' Rv64 false (flip w 3)). split.
  { apply row32; try assumption; [apply flip3_u32; assumption|exact (enc_sub_ok _ _ _ T7 M)]. }
  destruct (same_regs w) as [E1 E2]. unfold twin.
  cbn [reads opc rd rs1 rs2 imm is_compressed inst_format]. rewrite T1, T2.
  cbn [c_rd c_rs1 c_rs2 c_imm c_fmt cSh5 cSh6 cls d32 s32 reg_of imm_of]. rewrite !chunk_one, E1, E2.
  change (24 - 4) with 20. change (25 - 5) with 20. rewrite (five_bits3 w Ls).
  auto 10.
Qed.
Lemma shift_sibling_back p q a b w i : platform_ok p -> platform_ok q -> is_u32 w ->
  In (a, b) shift_siblings -> decode_u32 p w Rv64 = Ret (Ok i) -> opc i = b -> legal32 Rv64 b w ->
  legal32 Rv64 a (flip w 3) /\
  exists j, decode_u32 q (flip w 3) Rv64 = Ret (Ok j) /\ twin i a j /\ inst_format j = inst_format i.
Proof.
  intros Hp Hq Hw S D Oi [r0 [Hr0 [Op0 He]]].
  destruct (ok32 _ _ _ _ Hp Hw D) as [r1 [H1 [_ ->]]]. cbn [reads opc] in Oi.
  destruct (shift_rows a b S) as [r [r' [Hr [Op [Hr' [Op' T]]]]]].
  assert (r0 = r') as -> by (apply row_unique32; congruence).
  assert (r1 = r') as -> by (apply row_unique32; congruence).
  unfold shift_turns in T. rewrite !andb_true_iff in T. destruct T as [[[[[[T1 T2] T3] T4] T5] T6] T7].
  apply dec2b_true in T1, T2.
  pose proof (below32_bit w (enc_sub_ok _ _ _ T5 He)) as B.
  assert (M : in_enc (r_man r Rv64) (flip w 3) = true).
  { apply (enc_sub_ok _ _ _ T4). rewrite flip3_enc. assumption. }
  split; [exists r; auto|]. exists (reads r Rv64 false (flip w 3)). split.
  { apply row32; try assumption; [apply flip3_u32; assumption|exact (enc_sub_ok _ _ _ T6 M)]. }
  destruct (same_regs w) as [E1 E2]. unfold twin.
  cbn [reads opc rd rs1 rs2 imm is_compressed inst_format]. rewrite T1, T2.
  cbn [c_rd c_rs1 c_rs2 c_imm c_fmt cSh5 cSh6 cls d32 s32 reg_of imm_of]. rewrite !chunk_one, E1, E2.
  change (24 - 4) with 20. change (25 - 5) with 20.
  assert (B' : Z.testbit (flip w 3) 25 = false) by (rewrite flip3_25; assumption).
  rewrite <- (five_bits3 _ B'), flip_back by exact (Pos2Z.is_nonneg 3). auto 10.
Qed.

(** ** What can be returned (C51) *)

Definition fill (b : bool) (p : pattern) : Z :=
  fold_right (fun x acc => 2 * acc + Z.b2z match x with Some c => c | None => b end) 0 p.
Definition samples (e : enc) : list Z := map (fill false) (incl e) ++ map (fill true) (incl e).
Definition sample (n : Z) (e : enc) : option Z :=
  find (fun w => (0 <=? w) && (w <? 2 ^ n) && in_enc e w) (samples e).
Lemma sample_ok n e w : sample n e = Some w -> 0 <= w < 2 ^ n /\ in_enc e w = true.
Proof. intros H. apply find_some in H. destruct H as [_ H]. rewrite !andb_true_iff in H. lia. Qed.

Definition is_some {A} (o : option A) : bool := match o with Some _ => true | None => false end.
Lemma samples32 isa : forallb (fun r =>
  eqb (is_some (sample 32 (r_acc r isa))) (negb (mem_op (r_op r) (unreturned32 isa))) &&
  (is_some (sample 32 (r_acc r isa)) || match incl (r_acc r isa) with [] => true | _ => false end)) table32 = true.
Proof. destruct isa; vm_compute; reflexivity. Qed.
Lemma samples16 isa : forallb (fun r =>
  eqb (is_some (sample 16 (r_acc r isa))) (negb (mem_op (r_op r) (unreturned16 isa))) &&
  (is_some (sample 16 (r_acc r isa)) || match incl (r_acc r isa) with [] => true | _ => false end)) table16 = true.
Proof. destruct isa; vm_compute; reflexivity. Qed.

Lemma is16_rows : forallb (fun r => negb (op_is_16 (r_op r))) table32 = true /\
  forallb (fun r => op_is_16 (r_op r)) table16 = true.
Proof. split; vm_compute; reflexivity. Qed.

Lemma returned32 p isa op : platform_ok p ->
  ((exists w i, is_u32 w /\ decode_u32 p w isa = Ret (Ok i) /\ opc i = op) <->
   op_is_16 op = false /\ ~ In op (unreturned32 isa)).
Proof.
  intros Hp. pose proof (samples32 isa) as A. rewrite forallb_forall in A. split.
  - intros [w [i [Hw [D <-]]]]. destruct (ok32 _ _ _ _ Hp Hw D) as [r [Hr [He ->]]]. cbn [reads opc]. split.
    + pose proof (proj1 is16_rows) as B. rewrite forallb_forall in B. specialize (B r Hr).
      destruct (op_is_16 (r_op r)); [discriminate B|reflexivity].
    + intros N. specialize (A r Hr). apply mem_op_ok in N. rewrite N in A.
      destruct (sample 32 (r_acc r isa)); [discriminate A|]. cbn in A.
      unfold in_enc in He. destruct (incl (r_acc r isa)); [discriminate He|discriminate A].
  - intros [W N]. destruct (has_row32 op) as [r [Hr <-]].
    { destruct op as [o|o|o|o|o|o|o|o|o|o]; try exact I; try discriminate W.
      destruct o; try exact I; discriminate W. }
    specialize (A r Hr). apply mem_op_false in N. rewrite N in A.
    destruct (sample 32 (r_acc r isa)) as [w|] eqn:S; [|discriminate A].
    apply sample_ok in S. destruct S as [Hw He]. exists w, (reads r isa false w). split; [exact Hw|].
    split; [apply row32; assumption|reflexivity].
Qed.
Lemma returned16 p isa op : platform_ok p ->
  ((exists w i, is_u16 w /\ decode_u16 p w isa = Ret (Ok i) /\ opc i = op) <->
   op_is_16 op = true /\ ~ In op (unreturned16 isa)).
Proof.
  intros Hp. pose proof (samples16 isa) as A. rewrite forallb_forall in A. split.
  - intros [w [i [Hw [D <-]]]]. destruct (ok16 _ _ _ _ Hp Hw D) as [r [Hr [He ->]]]. cbn [reads opc]. split.
    + pose proof (proj2 is16_rows) as B. rewrite forallb_forall in B. exact (B r Hr).
    + intros N. specialize (A r Hr). apply mem_op_ok in N. rewrite N in A.
      destruct (sample 16 (r_acc r isa)); [discriminate A|]. cbn in A.
      unfold in_enc in He. destruct (incl (r_acc r isa)); [discriminate He|discriminate A].
  - intros [W N]. destruct (has_row16 op) as [r [Hr <-]].
    { destruct op as [o|o|o|o|o|o|o|o|o|o]; try exact I; try discriminate W.
      destruct o; try exact I; discriminate W. }
    specialize (A r Hr). apply mem_op_false in N. rewrite N in A.
    destruct (sample 16 (r_acc r isa)) as [w|] eqn:S; [|discriminate A].
    apply sample_ok in S. destruct S as [Hw He]. exists w, (reads r isa true w). split; [exact Hw|].
    split; [apply row16; assumption|reflexivity].
Qed.

Definition DecodingError_dec (a b : DecodingError) : {a = b} + {a <> b}.
Proof. decide equality. Defined.
Definition all_errors : list DecodingError :=
  [Not16BitInst; Not32BitInst; InvalidFunct3; InvalidFunct5; InvalidFunct6; InvalidFunct7; InvalidOpcode;
   UnknownExtension; IllegalInstruction; OnlyRv64Inst].
(** An error row that words meet, and no other one. *)
Definition error_check (n : Z) (es : list error_row) (isa : Isa) (l : list DecodingError) : bool :=
  forallb (fun x =>
    if existsb (fun y => dec2b (DecodingError_dec x y)) l
    then existsb (fun e => dec2b (DecodingError_dec (e_err e) x) && is_some (sample n (e_enc e isa))) es
    else forallb (fun e => negb (dec2b (DecodingError_dec (e_err e) x)) ||
           match incl (e_enc e isa) with [] => true | _ => false end) es) all_errors.
Lemma error_check32 isa : error_check 32 errors32 isa (errors_seen32 isa) = true.
Proof. destruct isa; vm_compute; reflexivity. Qed.
Lemma error_check16 isa : error_check 16 errors16 isa (errors_seen16 isa) = true.
Proof. destruct isa; vm_compute; reflexivity. Qed.
Lemma error_met n es isa l x : error_check n es isa l = true ->
  ((exists e w, In e es /\ e_err e = x /\ 0 <= w < 2 ^ n /\ in_enc (e_enc e isa) w = true) <-> In x l).
Proof.
  intros A. unfold error_check in A. rewrite forallb_forall in A.
  assert (X : In x all_errors) by (destruct x; cbn; auto 20). specialize (A x X).
  assert (M : existsb (fun y => dec2b (DecodingError_dec x y)) l = true <-> In x l).
  { rewrite existsb_exists. split.
    - intros [y [H E]]. apply dec2b_true in E. subst. assumption.
    - intros H. exists x. split; [assumption|apply dec2b_refl]. }
  rewrite <- M. destruct (existsb (fun y => dec2b (DecodingError_dec x y)) l).
  - split; [reflexivity|]. intros _. apply existsb_exists in A. destruct A as [e [He A]].
    apply andb_true_iff in A. destruct A as [A1 A2]. apply dec2b_true in A1.
    destruct (sample n (e_enc e isa)) as [w|] eqn:S; [|discriminate A2]. apply sample_ok in S.
    exists e, w. tauto.
  - split; [|discriminate]. intros [e [w [He [Ex [_ Hw]]]]]. exfalso. rewrite forallb_forall in A. specialize (A e He).
    rewrite Ex, dec2b_refl in A. cbn in A. unfold in_enc in Hw.
    destruct (incl (e_enc e isa)); [discriminate Hw|discriminate A].
Qed.
Lemma erred32 p isa x : platform_ok p ->
  ((exists w, is_u32 w /\ decode_u32 p w isa = Ret (Err x)) <-> In x (errors_seen32 isa)).
Proof.
  intros Hp. rewrite <- (error_met 32 errors32 isa _ x (error_check32 isa)). split.
  - intros [w [Hw D]]. destruct (bad32 _ _ _ _ Hp Hw D) as [e [He [Hm ->]]]. exists e, w. auto.
  - intros [e [w [He [<- [Hw Hm]]]]]. exists w. split; [exact Hw|]. apply err32; assumption.
Qed.
Lemma erred16 p isa x : platform_ok p ->
  ((exists w, is_u16 w /\ decode_u16 p w isa = Ret (Err x)) <-> In x (errors_seen16 isa)).
Proof.
  intros Hp. rewrite <- (error_met 16 errors16 isa _ x (error_check16 isa)). split.
  - intros [w [Hw D]]. destruct (bad16 _ _ _ _ Hp Hw D) as [e [He [Hm ->]]]. exists e, w. auto.
  - intros [e [w [He [<- [Hw Hm]]]]]. exists w. split; [exact Hw|]. apply err16; assumption.
Qed.

Definition fmt_in (f : InstFormat) (l : list InstFormat) : bool :=
  existsb (fun y => dec2b (InstFormat_dec f y)) l.
Lemma fmt_in_ok f l : fmt_in f l = true <-> In f l.
Proof.
  unfold fmt_in. rewrite existsb_exists. split.
  - intros [y [H E]]. apply dec2b_true in E. subst. assumption.
  - intros H. exists f. split; [assumption|apply dec2b_refl].
Qed.
Lemma formats_seen isa :
  forallb (fun r => fmt_in (c_fmt (r_cls r isa)) formats32) table32 &&
  forallb (fun f => existsb (fun r => dec2b (InstFormat_dec (c_fmt (r_cls r isa)) f) &&
    is_some (sample 32 (r_acc r isa))) table32) formats32 &&
  forallb (fun r => fmt_in (c_fmt (r_cls r isa)) formats16) table16 &&
  forallb (fun f => existsb (fun r => dec2b (InstFormat_dec (c_fmt (r_cls r isa)) f) &&
    is_some (sample 16 (r_acc r isa))) table16) formats16 = true.
Proof. destruct isa; vm_compute; reflexivity. Qed.
Lemma formatted32 p isa f : platform_ok p ->
  ((exists w i, is_u32 w /\ decode_u32 p w isa = Ret (Ok i) /\ inst_format i = f) <-> In f formats32).
Proof.
  intros Hp. pose proof (formats_seen isa) as A. rewrite !andb_true_iff in A. destruct A as [[[A B] _] _].
  rewrite !forallb_forall in *. split.
  - intros [w [i [Hw [D <-]]]]. destruct (ok32 _ _ _ _ Hp Hw D) as [r [Hr [_ ->]]].
    apply fmt_in_ok. exact (A r Hr).
  - intros H. specialize (B f H). apply existsb_exists in B. destruct B as [r [Hr B]].
    apply andb_true_iff in B. destruct B as [B1 B2]. apply dec2b_true in B1.
    destruct (sample 32 (r_acc r isa)) as [w|] eqn:S; [|discriminate B2].
    apply sample_ok in S. destruct S as [Hw He]. exists w, (reads r isa false w). split; [exact Hw|].
    split; [apply row32; assumption|exact B1].
Qed.
Lemma formatted16 p isa f : platform_ok p ->
  ((exists w i, is_u16 w /\ decode_u16 p w isa = Ret (Ok i) /\ inst_format i = f) <-> In f formats16).
Proof.
  intros Hp. pose proof (formats_seen isa) as A. rewrite !andb_true_iff in A. destruct A as [[_ A] B].
  rewrite !forallb_forall in *. split.
  - intros [w [i [Hw [D <-]]]]. destruct (ok16 _ _ _ _ Hp Hw D) as [r [Hr [_ ->]]].
    apply fmt_in_ok. exact (A r Hr).
  - intros H. specialize (B f H). apply existsb_exists in B. destruct B as [r [Hr B]].
    apply andb_true_iff in B. destruct B as [B1 B2]. apply dec2b_true in B1.
    destruct (sample 16 (r_acc r isa)) as [w|] eqn:S; [|discriminate B2].
    apply sample_ok in S. destruct S as [Hw He]. exists w, (reads r isa true w). split; [exact Hw|].
    split; [apply row16; assumption|exact B1].
Qed.

(** ** Witnesses *)

(** sll a0, a1, a2 and bit 31. *)
Lemma unnoticed_refuted : exists p isa w i k, platform_ok p /\ is_u32 w /\ 0 <= k < 32 /\
  legal32 isa (opc i) w /\ decode_u32 p w isa = Ret (Ok i) /\ decode_u32 p (flip w k) isa = Ret (Ok i).
Proof.
  exists plat, Rv32, 0x00C59533. eexists. exists 31. split; [exact plat_ok|]. split; [is_word|].
  split; [lia|]. split; [|split; vm_compute; reflexivity].
  apply legal32_iff. vm_compute. reflexivity.
Qed.
(** lr.w a0, (a1). *)
Lemma lr_format_refuted : exists p isa w i j, platform_ok p /\ is_u32 w /\
  decode_u32 p w isa = Ret (Ok i) /\ opc i = OA A_LR_W /\ legal32 isa (opc i) w /\
  decode_u32 p (flip w 12) isa = Ret (Ok j) /\ twin i (OA A_LR_D) j /\ inst_format j <> inst_format i.
Proof.
  exists plat, Rv64, 0x1005A52F. eexists. eexists. split; [exact plat_ok|]. split; [is_word|].
  split; [vm_compute; reflexivity|]. split; [reflexivity|].
  split; [apply legal32_iff; vm_compute; reflexivity|]. split; [vm_compute; reflexivity|].
  split; [repeat split|discriminate].
Qed.
