(** Reading a word and encoding an instruction are inverse to each other: generic part, for any row
    that passes some checks. *)
From Coq Require Import ZArith List Bool Lia.
From Verif Require Import Types Spec SpecOps SpecText SpecAsm Util Pat Rows2 Operands.
Import ListNotations.
Local Open Scope list_scope.
Local Open Scope Z_scope.

(** ** Words given by their bits *)

Lemma word_bound n f : 0 <= word n f < 2 ^ Z.of_nat n.
Proof.
  induction n as [|n IH]; [cbn; lia|]. cbn [word]. rewrite Nat2Z.inj_succ, Z.pow_succ_r by lia.
  destruct (f (Z.of_nat n)); lia.
Qed.
Lemma word_testbit n f k : 0 <= k -> Z.testbit (word n f) k = (k <? Z.of_nat n) && f k.
Proof.
  intros Hk. induction n as [|n IH].
  - destruct (Z.ltb_spec k (Z.of_nat 0)); [lia|]. apply Z.bits_0.
  - pose proof (word_bound n f) as B. cbn [word]. set (m := Z.of_nat n) in *.
    assert (E : Z.of_nat (S n) = m + 1) by lia. rewrite E.
    assert (Hm : 0 <= m) by lia.
    destruct (Z.ltb_spec k m) as [L|L].
    + destruct (Z.ltb_spec k (m + 1)); [|lia].
      rewrite <- (Z.mod_pow2_bits_low _ m k) by lia.
      replace ((word n f + (if f m then 2 ^ m else 0)) mod 2 ^ m) with (word n f); [exact IH|].
      destruct (f m).
      * rewrite <- Z.add_mod_idemp_r, Z.mod_same, Z.add_0_r, Z.mod_small by lia. reflexivity.
      * rewrite Z.add_0_r, Z.mod_small by lia. reflexivity.
    + destruct (Z.ltb_spec k (m + 1)) as [L2|L2].
      * assert (k = m) as -> by lia. cbn [andb]. destruct (f m).
        -- rewrite Z.testbit_true by lia.
           replace ((word n f + 2 ^ m) / 2 ^ m) with 1; [reflexivity|].
           apply Z.div_unique with (r := word n f); lia.
        -- rewrite Z.add_0_r, IH. reflexivity.
      * cbn [andb]. pose proof (word_bound (S n) f) as B2. cbn [word] in B2. fold m in B2.
        rewrite E in B2. rewrite <- (Z.mod_small _ (2 ^ (m + 1)) B2).
        apply Z.mod_pow2_bits_high. lia.
Qed.
Lemma bits_eq n a b : 0 <= a < 2 ^ n -> 0 <= b < 2 ^ n -> 0 <= n ->
  (forall k, 0 <= k < n -> Z.testbit a k = Z.testbit b k) -> a = b.
Proof.
  intros Ha Hb Hn H. apply Z.bits_inj'. intros k Hk. destruct (Z.ltb_spec k n) as [L|L]; [apply H; lia|].
  rewrite <- (Z.mod_small a (2 ^ n)), <- (Z.mod_small b (2 ^ n)) by assumption.
  rewrite !Z.mod_pow2_bits_high by lia. reflexivity.
Qed.

(** ** Values made of chunks *)

Fixpoint src_of (cs : list chunk) (j : Z) : option Z :=
  match cs with
  | [] => None
  | (h, l, b) :: cs' => if (l <=? j) && (j <=? h) then Some (b - (h - j)) else src_of cs' j
  end.
Fixpoint apart (cs : list chunk) : bool :=
  match cs with
  | [] => true
  | (h, l, b) :: cs' => forallb (fun c => let '(h', l', _) := c in (h <? l') || (h' <? l)) cs' && apart cs'
  end.

Lemma src_of_in cs j k : src_of cs j = Some k ->
  exists h l b, In (h, l, b) cs /\ l <= j <= h /\ k = b - (h - j).
Proof.
  induction cs as [|[[h l] b] cs IH]; [discriminate|]. cbn [src_of].
  destruct (Z.leb_spec l j); destruct (Z.leb_spec j h); cbn [andb]; intros E;
    try (destruct (IH E) as [h' [l' [b' [I R]]]]; exists h', l', b'; split; [right; assumption|assumption]).
  injection E as <-. exists h, l, b. split; [left; reflexivity|]. split; [lia|reflexivity].
Qed.
Lemma src_of_none cs j h l b : src_of cs j = None -> In (h, l, b) cs -> ~ l <= j <= h.
Proof.
  induction cs as [|[[h' l'] b'] cs IH]; [intros _ []|]. cbn [src_of].
  destruct (Z.leb_spec l' j); destruct (Z.leb_spec j h'); cbn [andb]; intros E [I|I];
    try discriminate E; try (injection I as -> -> ->; lia); auto.
Qed.
Lemma src_of_apart cs j h l b : apart cs = true -> In (h, l, b) cs -> l <= j <= h ->
  src_of cs j = Some (b - (h - j)).
Proof.
  induction cs as [|[[h' l'] b'] cs IH]; [intros _ []|]. cbn [apart src_of].
  rewrite andb_true_iff, forallb_forall. intros [A1 A2] I Hj.
  destruct (Z.leb_spec l' j); destruct (Z.leb_spec j h'); cbn [andb];
    (destruct I as [I|I]; [injection I as -> -> ->; try lia; reflexivity|]).
  - specialize (A1 _ I). cbn in A1. lia.
  - apply IH; assumption.
  - apply IH; assumption.
  - apply IH; assumption.
Qed.

Lemma chunk_testbit w h l b j : 0 <= l <= h -> h - l <= b -> 0 <= j ->
  Z.testbit (chunk_val w (h, l, b)) j = ((l <=? j) && (j <=? h)) && Z.testbit w (b - (h - j)).
Proof.
  intros Hl Hb Hj. cbn [chunk_val]. rewrite Z.mul_pow2_bits by lia.
  destruct (Z.leb_spec l j) as [L|L].
  - rewrite field_testbit by lia. cbn [andb].
    replace (b - (h - l) + (j - l)) with (b - (h - j)) by lia.
    destruct (Z.leb_spec j h); destruct (Z.ltb_spec (j - l) (b - (b - (h - l)) + 1)); try lia;
      cbn [andb]; rewrite ?andb_true_r, ?andb_false_r; reflexivity.
  - cbn [andb]. apply Z.testbit_neg_r. lia.
Qed.
Lemma chunks_testbit w cs j : forallb chunk_ok cs = true -> apart cs = true -> 0 <= j ->
  Z.testbit (chunks_val w cs) j = match src_of cs j with Some k => Z.testbit w k | None => false end.
Proof.
  revert j. induction cs as [|[[h l] b] cs IH]; intros j.
  - intros _ _ _. apply Z.bits_0.
  - cbn [forallb apart]. rewrite !andb_true_iff. intros [C1 C2] [A1 A2] Hj.
    unfold chunk_ok in C1. rewrite !andb_true_iff in C1. destruct C1 as [[C1 C1'] C1''].
    unfold chunks_val. cbn [fold_right]. change (fold_right (fun c acc => chunk_val w c + acc) 0 cs)
      with (chunks_val w cs).
    assert (N : forall m, l <= m <= h -> src_of cs m = None).
    { intros m Hm. destruct (src_of cs m) as [k|] eqn:E; [|reflexivity].
      destruct (src_of_in _ _ _ E) as [h' [l' [b' [I [R _]]]]].
      rewrite forallb_forall in A1. specialize (A1 _ I). cbn in A1. lia. }
    rewrite Z.add_nocarry_lxor.
    + rewrite Z.lxor_spec, chunk_testbit, IH by (assumption || lia). cbn [src_of]. specialize (N j).
      destruct (Z.leb_spec l j); destruct (Z.leb_spec j h); cbn [andb]; try (destruct (src_of cs j);
        [destruct (Z.testbit w z)|]; reflexivity).
      rewrite N by lia. apply xorb_false_r.
    + apply Z.bits_inj'. intros m Hm. rewrite Z.land_spec, Z.bits_0, chunk_testbit, IH
        by (assumption || lia). specialize (N m).
      destruct (Z.leb_spec l m); destruct (Z.leb_spec m h); cbn [andb]; try reflexivity.
      rewrite N by lia. apply andb_false_r.
Qed.

Lemma sext_testbit n v j : 0 <= v < 2 ^ n -> 0 <= j < n -> Z.testbit (sext n v) j = Z.testbit v j.
Proof.
  intros Hv Hj. unfold sext. destruct (v <? 2 ^ (n - 1)); [reflexivity|].
  rewrite <- (Z.mod_pow2_bits_low (v - 2 ^ n) n j) by lia.
  replace ((v - 2 ^ n) mod 2 ^ n) with v; [reflexivity|].
  apply Z.mod_unique with (q := -1); lia.
Qed.
Lemma sext_mod n v : 1 <= n -> - 2 ^ (n - 1) <= v < 2 ^ (n - 1) -> sext n (v mod 2 ^ n) = v.
Proof.
  intros Hn Hv. assert (E : 2 ^ n = 2 * 2 ^ (n - 1)).
  { replace n with (Z.succ (n - 1)) at 1 by lia. rewrite Z.pow_succ_r by lia. reflexivity. }
  unfold sext. destruct (Z.ltb_spec v 0) as [L|L].
  - replace (v mod 2 ^ n) with (v + 2 ^ n) by (apply Z.mod_unique with (q := -1); lia).
    destruct (Z.ltb_spec (v + 2 ^ n) (2 ^ (n - 1))); lia.
  - rewrite Z.mod_small by lia. destruct (Z.ltb_spec v (2 ^ (n - 1))); lia.
Qed.

(** ** Classes *)

Definition reg_src_ok (n : Z) (s : reg_src) : bool :=
  match s with
  | RBits hi lo => (0 <=? lo) && (lo <=? hi) && (hi <? n)
  | RPrime hi lo => (0 <=? lo) && (hi =? lo + 2) && (hi <? n)
  | _ => true
  end.
Definition imm_ok (n : Z) (s : imm_src) : bool :=
  match s with
  | INone => true
  | IUns cs => forallb chunk_ok cs && apart cs && forallb (fun c => snd c <? n) cs
  | ISig m cs => forallb chunk_ok cs && apart cs && forallb (fun c => snd c <? n) cs &&
      forallb (fun c => fst (fst c) <? m) cs && (chunks_max cs <? 2 ^ m) && (1 <=? m)
  end.
Definition class_ok (n : Z) (c : class) : bool :=
  reg_src_ok n (c_rd c) && reg_src_ok n (c_rs1 c) && reg_src_ok n (c_rs2 c) && imm_ok n (c_imm c).

(** What an operand is read as. *)
Definition read (c : class) (w : Z) (o : operand) : option Z :=
  match o with OImm => imm_of (c_imm c) w | _ => reg_of (reg_source c o) w end.
Lemma get_reads r isa cmp w o : get o (reads r isa cmp w) = read (r_cls r isa) w o.
Proof. destruct o; reflexivity. Qed.

Lemma reg_slots_in o s o' h l b : In (o', (h, l, b)) (reg_slots o s) ->
  o' = o /\ l = 0 /\ (s = RBits b (b - h) \/ s = RPrime b (b - h)).
Proof.
  destruct s; cbn [reg_slots]; intros H; [destruct H|destruct H|destruct H as [H|[]]..]; injection H as E1 E2 E3 E4; subst;
    (split; [reflexivity|split; [reflexivity|]]).
  - left. f_equal. lia.
  - right. f_equal. lia.
Qed.
Lemma slots_in c o h l b : In (o, (h, l, b)) (slots c) ->
  o <> OImm /\ l = 0 /\ (reg_source c o = RBits b (b - h) \/ reg_source c o = RPrime b (b - h)) \/
  o = OImm /\ In (h, l, b) (src_chunks (c_imm c)).
Proof.
  unfold slots. rewrite !in_app_iff. intros [H|[H|[H|H]]].
  - left. apply reg_slots_in in H. destruct H as [-> H]. split; [discriminate|assumption].
  - left. apply reg_slots_in in H. destruct H as [-> H]. split; [discriminate|assumption].
  - left. apply reg_slots_in in H. destruct H as [-> H]. split; [discriminate|assumption].
  - right. destruct (c_imm c); cbn [imm_slots src_chunks] in *; [destruct H|apply in_map_iff in H..];
      (destruct H as [x [E I]]; injection E as <- ->; auto).
Qed.
Lemma in_slots c o h l b :
  o <> OImm /\ l = 0 /\ (reg_source c o = RBits b (b - h) \/ reg_source c o = RPrime b (b - h)) \/
  o = OImm /\ In (h, l, b) (src_chunks (c_imm c)) -> In (o, (h, l, b)) (slots c).
Proof.
  unfold slots. rewrite !in_app_iff. intros [[N [-> H]]|[-> H]].
  - destruct o; [left|right; left|right; right; left|contradiction]; cbn [reg_source] in H;
      (destruct H as [H|H]; rewrite H; left; f_equal; f_equal; f_equal; lia).
  - right. right. right. destruct (c_imm c); cbn [imm_slots src_chunks] in *; [destruct H|apply in_map..];
      assumption.
Qed.

Lemma slot_ok n c o h l b : class_ok n c = true -> In (o, (h, l, b)) (slots c) ->
  0 <= l <= h /\ 0 <= b - (h - l) /\ b < n.
Proof.
  unfold class_ok. rewrite !andb_true_iff. intros [[[H1 H2] H3] H4] I.
  apply slots_in in I. destruct I as [[N [-> I]]|[-> I]].
  - assert (R : reg_src_ok n (reg_source c o) = true) by (destruct o; try assumption; contradiction).
    destruct I as [I|I]; rewrite I in R; cbn in R; lia.
  - destruct (c_imm c); cbn [src_chunks imm_ok] in *; [destruct I| |]; rewrite !andb_true_iff in H4.
    + destruct H4 as [[A _] B]. rewrite forallb_forall in A, B. specialize (A _ I). specialize (B _ I).
      cbn in A, B. lia.
    + destruct H4 as [[[[[A _] B] _] _] _]. rewrite forallb_forall in A, B. specialize (A _ I). specialize (B _ I).
      cbn in A, B. lia.
Qed.

(** Reading takes bit [h - (b - k)] of the operand from bit [k]. *)
Lemma slot_read n c w o h l b k : class_ok n c = true -> In (o, (h, l, b)) (slots c) ->
  b - (h - l) <= k <= b ->
  exists v, read c w o = Some v /\ Z.testbit (stored c o v) (h - (b - k)) = Z.testbit w k.
Proof.
  intros C I Hk. pose proof (slot_ok n c o h l b C I) as [S1 [S2 S3]].
  apply slots_in in I. destruct I as [[N [-> I]]|[-> I]].
  - assert (R : read c w o = reg_of (reg_source c o) w) by (destruct o; try reflexivity; contradiction).
    rewrite R. unfold stored.
    assert (F : Z.testbit (field w b (b - h)) (h - (b - k)) = Z.testbit w k).
    { rewrite field_testbit by lia. replace (b - h + (h - (b - k))) with k by lia.
      destruct (Z.ltb_spec (h - (b - k)) (b - (b - h) + 1)); [apply andb_true_r|lia]. }
    destruct I as [I|I]; rewrite I; cbn [reg_of]; (eexists; split; [reflexivity|]).
    + exact F.
    + replace (8 + field w b (b - h) - 8) with (field w b (b - h)) by lia. exact F.
  - cbn [read stored reg_source]. unfold class_ok in C. rewrite !andb_true_iff in C. destruct C as [_ C].
    destruct (c_imm c) as [|cs|m cs]; cbn [src_chunks imm_ok imm_of] in *; [destruct I| |];
      rewrite !andb_true_iff in C; (eexists; split; [reflexivity|]).
    + destruct C as [[C1 C2] C3]. rewrite chunks_testbit by (assumption || lia).
      rewrite (src_of_apart cs _ h l b C2 I) by lia. f_equal. lia.
    + destruct C as [[[[[C1 C2] C3] C4] C5] C6]. rewrite forallb_forall in C4. specialize (C4 _ I). cbn in C4.
      rewrite sext_testbit; [|pose proof (chunks_bound w cs C1); lia|lia].
      rewrite chunks_testbit by (assumption || lia).
      rewrite (src_of_apart cs _ h l b C2 I) by lia. f_equal. lia.
Qed.

(** Reading depends on the bits of the slots of the operand only. *)
Lemma read_ext n c w w' o : class_ok n c = true ->
  (forall h l b k, In (o, (h, l, b)) (slots c) -> b - (h - l) <= k <= b -> Z.testbit w k = Z.testbit w' k) ->
  read c w o = read c w' o.
Proof.
  intros C E. assert (R : o <> OImm -> reg_of (reg_source c o) w = reg_of (reg_source c o) w').
  { intros N. destruct (reg_source c o) eqn:S; cbn [reg_of]; try reflexivity; f_equal.
    - apply field_ext.
      + assert (I : In (o, (hi - lo, 0, hi)) (slots c)).
        { apply in_slots. left. split; [assumption|]. split; [reflexivity|]. left.
          rewrite S. f_equal. lia. }
        pose proof (slot_ok n c _ _ _ _ C I). lia.
      + intros k Hk. apply (E (hi - lo) 0 hi); [|lia]. apply in_slots. left. split; [assumption|].
        split; [reflexivity|]. left. rewrite S. f_equal. lia.
    - f_equal. apply field_ext.
      + assert (I : In (o, (hi - lo, 0, hi)) (slots c)).
        { apply in_slots. left. split; [assumption|]. split; [reflexivity|]. right.
          rewrite S. f_equal. lia. }
        pose proof (slot_ok n c _ _ _ _ C I). lia.
      + intros k Hk. apply (E (hi - lo) 0 hi); [|lia]. apply in_slots. left. split; [assumption|].
        split; [reflexivity|]. right. rewrite S. f_equal. lia. }
  destruct o; [apply R; discriminate..|]. cbn [read].
  assert (V : forall cs, src_chunks (c_imm c) = cs -> forallb chunk_ok cs = true -> apart cs = true ->
    chunks_val w cs = chunks_val w' cs).
  { intros cs S A B. apply Z.bits_inj'. intros j Hj. rewrite !chunks_testbit by assumption.
    destruct (src_of cs j) as [k|] eqn:F; [|reflexivity].
    destruct (src_of_in _ _ _ F) as [h [l [b [I [L ->]]]]]. apply (E h l b); [|lia].
    apply in_slots. right. split; [reflexivity|]. rewrite S. assumption. }
  unfold class_ok in C. rewrite !andb_true_iff in C. destruct C as [_ C].
  destruct (c_imm c) as [|cs|m cs]; cbn [src_chunks imm_ok imm_of] in *; [reflexivity| |];
    rewrite !andb_true_iff in C.
  - destruct C as [[C1 C2] C3]. rewrite (V cs) by auto. reflexivity.
  - destruct C as [[[[[C1 C2] C3] C4] C5] C6]. rewrite (V cs) by auto. reflexivity.
Qed.

(** ** Which operand holds a bit *)

Lemma holder_in l k o j : holder l k = Some (o, j) ->
  exists h lo b, In (o, (h, lo, b)) l /\ b - (h - lo) <= k <= b /\ j = h - (b - k).
Proof.
  induction l as [|[o' [[h lo] b]] l IH]; [discriminate|]. cbn [holder].
  destruct (Z.leb_spec (b - (h - lo)) k); destruct (Z.leb_spec k b); cbn [andb]; intros E;
    try (destruct (IH E) as [h' [l' [b' [I R]]]]; exists h', l', b'; split; [right; assumption|assumption]).
  injection E as -> <-. exists h, lo, b. split; [left; reflexivity|]. split; [lia|reflexivity].
Qed.
Lemma holder_none l k o h lo b : holder l k = None -> In (o, (h, lo, b)) l -> ~ b - (h - lo) <= k <= b.
Proof.
  induction l as [|[o' [[h' lo'] b']] l IH]; [intros _ []|]. cbn [holder].
  destruct (Z.leb_spec (b' - (h' - lo')) k); destruct (Z.leb_spec k b'); cbn [andb]; intros E [I|I];
    try discriminate E; try (injection I as -> -> -> ->; lia); auto.
Qed.
