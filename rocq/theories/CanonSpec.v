(** The patterns of the specification depend on the canonical word only, and the sweep over
    canonical words. *)
From Coq Require Import ZArith List Bool Lia.
From Verif Require Import Rust Types DecodeUtil Dec32 Dec16 Decode Spec Util Plat CanonBase.
Import ListNotations.
Local Open Scope Z_scope.

(** ** Patterns only look at the canonical word *)

Lemma matches_at_app a : forall k b w,
  matches_at k (a ++ b) w = matches_at k a w && matches_at (k + Z.of_nat (length a)) b w.
Proof.
  induction a as [|[x|] a IH]; intros k b w; cbn [app matches_at length].
  - rewrite Z.add_0_r. reflexivity.
  - rewrite IH. replace (k + Z.of_nat (S (length a))) with (k + 1 + Z.of_nat (length a)) by lia.
    destruct (Bool.eqb (Z.testbit w k) x); reflexivity.
  - rewrite IH. replace (k + Z.of_nat (S (length a))) with (k + 1 + Z.of_nat (length a)) by lia.
    reflexivity.
Qed.

Lemma matches_at_ext s : forall k k' w w',
  (forall i, 0 <= i < Z.of_nat (length s) -> Z.testbit w (k + i) = Z.testbit w' (k' + i)) ->
  matches_at k s w = matches_at k' s w'.
Proof.
  induction s as [|x s IH]; intros k k' w w' H; [reflexivity|].
  cbn [length] in H. cbn [matches_at].
  assert (E : matches_at (k + 1) s w = matches_at (k' + 1) s w').
  { apply IH. intros i Hi. replace (k + 1 + i) with (k + (1 + i)) by lia.
    replace (k' + 1 + i) with (k' + (1 + i)) by lia. apply H. lia. }
  specialize (H 0 ltac:(lia)). rewrite !Z.add_0_r in H. rewrite E, H. reflexivity.
Qed.

Lemma matches_at_field s k hi w : 0 <= k <= hi -> Z.of_nat (length s) = hi - k + 1 ->
  matches_at k s w = matches_at 0 s (field w hi k).
Proof.
  intros Hk Hl. apply matches_at_ext. intros i Hi.
  rewrite field_testbit by lia. destruct (Z.ltb_spec (0 + i) (hi - k + 1)); [|lia].
  rewrite andb_true_r. reflexivity.
Qed.

Definition seg (p : pattern) (k n : nat) : pattern := firstn n (skipn k p).

(** Match of the six fields. *)
Definition matches_fields (p : pattern) (o rd f3 rs1 r2 f7 : Z) : bool :=
  matches_at 0 (seg p 0 7) o && matches_at 0 (seg p 7 5) rd && matches_at 0 (seg p 12 3) f3
  && matches_at 0 (seg p 15 5) rs1 && matches_at 0 (seg p 20 5) r2
  && matches_at 0 (seg p 25 7) f7.

Lemma seg_length p k n : (k + n <= length p)%nat -> length (seg p k n) = n.
Proof. intros H. unfold seg. rewrite firstn_length, skipn_length. lia. Qed.

Lemma skipn_plus {A} (l : list A) : forall k n, skipn (k + n) l = skipn n (skipn k l).
Proof.
  induction l as [|x l IH]; intros k n.
  - rewrite !skipn_nil. reflexivity.
  - destruct k; [reflexivity|]. cbn [skipn Nat.add]. apply IH.
Qed.

Lemma skipn_seg p k n : (k + n <= length p)%nat -> skipn k p = seg p k n ++ skipn (k + n) p.
Proof.
  intros _. unfold seg. rewrite skipn_plus.
  symmetry. apply firstn_skipn.
Qed.

Lemma matches_fields_ok p w : length p = 32%nat ->
  matches p w = matches_fields p (field w 6 0) (field w 11 7) (field w 14 12) (field w 19 15)
                               (field w 24 20) (field w 31 25).
Proof.
  intros L. unfold matches, matches_fields.
  change p with (skipn 0 p) at 1.
  rewrite (skipn_seg p 0 7), (skipn_seg p (0 + 7) 5), (skipn_seg p (0 + 7 + 5) 3),
    (skipn_seg p (0 + 7 + 5 + 3) 5), (skipn_seg p (0 + 7 + 5 + 3 + 5) 5),
    (skipn_seg p (0 + 7 + 5 + 3 + 5 + 5) 7) by (rewrite L; simpl; lia).
  cbn [Nat.add].
  rewrite (skipn_all2 p) by (rewrite L; lia). rewrite app_nil_r.
  rewrite !matches_at_app.
  rewrite !seg_length by (rewrite L; simpl; lia).
  cbn [Z.of_nat Pos.of_succ_nat Pos.succ]. simpl Z.add.
  rewrite (matches_at_field _ 0 6), (matches_at_field _ 7 11), (matches_at_field _ 12 14),
    (matches_at_field _ 15 19), (matches_at_field _ 20 24), (matches_at_field _ 25 31)
    by (rewrite ?seg_length by (rewrite L; simpl; lia); lia).
  rewrite !andb_assoc. reflexivity.
Qed.

Definition free (s : pattern) : bool :=
  forallb (fun x => match x with None => true | _ => false end) s.

(** The segment does not distinguish a field from its normal form. *)
Definition seg_ok (k : keep) (s : pattern) : bool :=
  if free s then true
  else match k with
       | Full => true
       | _ => allw (length s) 0 (fun v => Bool.eqb (matches_at 0 s v) (matches_at 0 s (norm k v)))
       end.

Lemma free_match s : forall k w, free s = true -> matches_at k s w = true.
Proof.
  induction s as [|[x|] s IH]; intros k w H; cbn in *; [reflexivity|discriminate|auto].
Qed.

Lemma seg_ok_norm k s v : seg_ok k s = true -> 0 <= v < 2 ^ Z.of_nat (length s) ->
  matches_at 0 s v = matches_at 0 s (norm k v).
Proof.
  intros H Hv. unfold seg_ok in H. destruct (free s) eqn:F.
  - rewrite !free_match by assumption. reflexivity.
  - destruct k; try reflexivity; apply eqb_prop; apply (allw_spec _ 0 _ H); lia.
Qed.

(** The fixed bits of the pattern are all relevant. *)
Definition respects (p : pattern) : bool :=
  (length p =? 32)%nat &&
  allw 7 0 (fun o =>
    if matches_at 0 (seg p 0 7) o then
      allw 3 0 (fun f3 =>
        let k := relevant o f3 in
        if matches_at 0 (seg p 12 3) f3 then
          seg_ok (k_rd k) (seg p 7 5) && seg_ok (k_f3 k) (seg p 12 3)
          && seg_ok (k_rs1 k) (seg p 15 5) && seg_ok (k_r2 k) (seg p 20 5)
          && seg_ok (k_f7 k) (seg p 25 7)
        else seg_ok (k_f3 k) (seg p 12 3))
    else true).

Lemma canon_fields w : let k := relevant (field w 6 0) (field w 14 12) in
  field (canon w) 6 0 = field w 6 0 /\
  field (canon w) 11 7 = norm (k_rd k) (field w 11 7) /\
  field (canon w) 14 12 = norm (k_f3 k) (field w 14 12) /\
  field (canon w) 19 15 = norm (k_rs1 k) (field w 19 15) /\
  field (canon w) 24 20 = norm (k_r2 k) (field w 24 20) /\
  field (canon w) 31 25 = norm (k_f7 k) (field w 31 25).
Proof.
  intro k. unfold canon, canon_of. fold k.
  pose proof (norm_ranges _ _ _ _ _ _ (field w 6 0) (field w 14 12) (fields_ranges w)) as H.
  cbv zeta in H. fold k in H.
  rewrite build_o, build_rd, build_f3, build_rs1, build_r2, build_f7 by assumption.
  repeat split.
Qed.

Lemma matches_canon p w : respects p = true -> matches p w = matches p (canon w).
Proof.
  intros H. apply andb_true_iff in H. destruct H as [L H]. apply Nat.eqb_eq in L.
  rewrite !matches_fields_ok by assumption.
  pose proof (canon_fields w) as C. cbv zeta in C.
  destruct C as [C0 [C1 [C2 [C3 [C4 C5]]]]]. rewrite C0, C1, C2, C3, C4, C5.
  clear C0 C1 C2 C3 C4 C5.
  pose proof (fields_ranges w) as [R0 [R1 [R2 [R3 [R4 R5]]]]].
  pose proof (allw_spec 7 0 _ H (field w 6 0) ltac:(simpl Z.of_nat; lia)) as Ho.
  cbv beta in Ho. clear H. unfold matches_fields.
  destruct (matches_at 0 (seg p 0 7) (field w 6 0)); [|reflexivity].
  pose proof (allw_spec 3 0 _ Ho (field w 14 12) ltac:(simpl Z.of_nat; lia)) as Hf.
  cbv beta zeta in Hf. clear Ho.
  set (k := relevant (field w 6 0) (field w 14 12)) in *.
  assert (S : forall (kp : keep) i n v, seg_ok kp (seg p i n) = true ->
            (i + n <= 32)%nat -> 0 <= v < 2 ^ Z.of_nat n ->
            matches_at 0 (seg p i n) (norm kp v) = matches_at 0 (seg p i n) v).
  { intros kp i n v Hs Hin Hv. symmetry.
    pose proof (seg_length p i n ltac:(lia)) as Hl.
    apply seg_ok_norm; rewrite ?Hl; assumption. }
  destruct (matches_at 0 (seg p 12 3) (field w 14 12)) eqn:E3.
  - rewrite !andb_true_iff in Hf. destruct Hf as [[[[K1 K2] K3] K4] K5].
    rewrite !S by (assumption || lia || (simpl Z.of_nat; lia)).
    rewrite E3. reflexivity.
  - rewrite (S _ 12%nat 3%nat) by (assumption || lia || (simpl Z.of_nat; lia)). rewrite E3.
    rewrite !andb_false_r, !andb_false_l. reflexivity.
Qed.

Definition enc_respects (e : enc) : bool := forallb respects (incl e) && forallb respects (excl e).

Lemma existsb_ext' {A} (f g : A -> bool) l : (forall x, In x l -> f x = g x) ->
  existsb f l = existsb g l.
Proof.
  induction l as [|a l IH]; intros H; [reflexivity|]. cbn.
  rewrite (H a (or_introl eq_refl)), IH; [reflexivity|]. intros; apply H; right; assumption.
Qed.

Lemma in_enc_canon e w : enc_respects e = true -> in_enc e w = in_enc e (canon w).
Proof.
  unfold enc_respects, in_enc. rewrite andb_true_iff, !forallb_forall. intros [H1 H2].
  rewrite (existsb_ext' _ (fun p => matches p (canon w)) (incl e))
    by (intros; apply matches_canon; auto).
  rewrite (existsb_ext' _ (fun p => matches p (canon w)) (excl e))
    by (intros; apply matches_canon; auto).
  reflexivity.
Qed.

(** ** Sweep over the canonical words *)

Definition on (k : keep) (n : nat) (f : Z -> bool) : bool :=
  match k with
  | Full => allw n 0 f
  | Drop => f 0
  | Among l d => forallb f (d :: l)
  | High m => if 0 <? m then allw n 0 (fun v => if v mod m =? 0 then f v else true) else false
  end.

Lemma on_spec k n f v : on k n f = true -> 0 <= v < 2 ^ Z.of_nat n -> f (norm k v) = true.
Proof.
  intros H Hv. destruct k; cbn [on norm] in *.
  - apply (allw_spec n 0 f H). lia.
  - assumption.
  - rewrite forallb_forall in H. destruct (existsb (Z.eqb v) l) eqn:E; apply H.
    + right. apply existsb_eqb. assumption.
    + left. reflexivity.
  - destruct (Z.ltb_spec 0 m) as [Hm|]; [|discriminate H].
    apply (fun H => allw_spec n 0 _ H (m * (v / m))) in H.
    + rewrite Z.mul_comm, Z.mod_mul in H by lia. rewrite Z.mul_comm. exact H.
    + pose proof (Z.mul_div_le v m). pose proof (Z.div_pos v m).
      assert (0 <= v / m) by lia. nia.
Qed.

Definition sweep32 (f : Z -> bool) : bool :=
  allw 7 0 (fun o => allw 3 0 (fun f3 =>
    let k := relevant o f3 in
    let f3' := norm (k_f3 k) f3 in
    on (k_rd k) 5 (fun rd => on (k_rs1 k) 5 (fun rs1 => on (k_r2 k) 5 (fun r2 =>
      on (k_f7 k) 7 (fun f7 => f (build o rd f3' rs1 r2 f7))))))).

Lemma sweep32_spec f : sweep32 f = true -> forall w, f (canon w) = true.
Proof.
  intros H w. unfold sweep32 in H.
  pose proof (fields_ranges w) as [R0 [R1 [R2 [R3 [R4 R5]]]]].
  apply (fun H => allw_spec 7 0 _ H (field w 6 0) ltac:(simpl Z.of_nat; lia)) in H.
  cbv beta in H.
  apply (fun H => allw_spec 3 0 _ H (field w 14 12) ltac:(simpl Z.of_nat; lia)) in H.
  cbv beta zeta in H. set (k := relevant _ _) in H.
  apply (fun H => on_spec _ 5 _ (field w 11 7) H ltac:(simpl Z.of_nat; lia)) in H. cbv beta in H.
  apply (fun H => on_spec _ 5 _ (field w 19 15) H ltac:(simpl Z.of_nat; lia)) in H. cbv beta in H.
  apply (fun H => on_spec _ 5 _ (field w 24 20) H ltac:(simpl Z.of_nat; lia)) in H. cbv beta in H.
  apply (fun H => on_spec _ 7 _ (field w 31 25) H ltac:(simpl Z.of_nat; lia)) in H. cbv beta in H.
  unfold canon, canon_of. fold k. exact H.
Qed.
