(** Canonical half-words: opcode selection of a half-word depends on a few fields only, both in
    the model and in the tables. *)
From Coq Require Import ZArith List Bool Lia.
From Verif Require Import Rust Types DecodeUtil Dec32 Dec16 Decode Spec Util Plat CanonBase CanonSpec.
Import ListNotations.
Local Open Scope Z_scope.

(** Quadrant, bits 6..2, bits 11..7, bit 12, bits 15..13. *)
Definition build16 (q t d b f3 : Z) : Z := q + t * 2 ^ 2 + d * 2 ^ 7 + b * 2 ^ 12 + f3 * 2 ^ 13.

Definition ranges16 (q t d b f3 : Z) : Prop :=
  0 <= q < 2 ^ 2 /\ 0 <= t < 2 ^ 5 /\ 0 <= d < 2 ^ 5 /\ 0 <= b < 2 ^ 1 /\ 0 <= f3 < 2 ^ 3.

Ltac fld16 := unfold ranges16, build16, field in *; cbn -[Z.div Z.modulo Z.mul Z.add] in *;
  Z.div_mod_to_equations; lia.

Section Build.
Context (q t d b f3 : Z) (H : ranges16 q t d b f3).
Local Notation W := (build16 q t d b f3).
Lemma build16_q : field W 1 0 = q.
Proof using H. fld16. Qed.
Lemma build16_t : field W 6 2 = t.
Proof using H. fld16. Qed.
Lemma build16_d : field W 11 7 = d.
Proof using H. fld16. Qed.
Lemma build16_b : field W 12 12 = b.
Proof using H. fld16. Qed.
Lemma build16_f3 : field W 15 13 = f3.
Proof using H. fld16. Qed.
Lemma build16_sr : field W 11 10 = d / 8.
Proof using H. fld16. Qed.
Lemma build16_lo : field W 6 5 = t / 8.
Proof using H. fld16. Qed.
End Build.

Lemma fields_ranges16 w :
  ranges16 (field w 1 0) (field w 6 2) (field w 11 7) (field w 12 12) (field w 15 13).
Proof.
  unfold ranges16. refine (conj _ (conj _ (conj _ (conj _ _)))); apply field_bound; lia.
Qed.

Lemma build_fields16 w : is_u16 w ->
  w = build16 (field w 1 0) (field w 6 2) (field w 11 7) (field w 12 12) (field w 15 13).
Proof. unfold is_u16. intros H. fld16. Qed.

Record kept16 := K16 { k_t : keep; k_d : keep; k_b : keep }.

Definition relevant16 (q f3 : Z) : kept16 :=
  match q with
  | 0 =>
      match f3 with
      | 0 => K16 (Among [0] 1) (Among [0] 1) Full
      | _ => K16 Drop Drop Drop
      end
  | 1 =>
      match f3 with
      | 0 => K16 Drop (Among [0] 1) Drop
      | 3 => K16 (Among [0] 1) (Among [1; 2; 5] 0) Full
      | 4 => K16 (High 8) (High 8) Full
      | _ => K16 Drop Drop Drop
      end
  | 2 =>
      match f3 with
      | 4 => K16 (Among [0] 1) (Among [0] 1) Full
      | _ => K16 Drop Drop Drop
      end
  | _ => K16 Drop Drop Drop
  end.

Definition canon16_of (q t d b f3 : Z) : Z :=
  let k := relevant16 q f3 in
  build16 q (norm (k_t k) t) (norm (k_d k) d) (norm (k_b k) b) f3.

Definition canon16 (w : Z) : Z :=
  canon16_of (field w 1 0) (field w 6 2) (field w 11 7) (field w 12 12) (field w 15 13).

Definition kept16_ok (k : kept16) : bool :=
  keep_ok (k_t k) 5 && keep_ok (k_d k) 5 && keep_ok (k_b k) 1.

Lemma relevant16_ok q f3 : kept16_ok (relevant16 q f3) = true.
Proof.
  unfold relevant16.
  repeat match goal with |- context [match ?x with _ => _ end] => is_var x; destruct x;
    try reflexivity end.
Qed.

Lemma norm_ranges16 q t d b f3 q' f3' : ranges16 q t d b f3 ->
  let k := relevant16 q' f3' in
  ranges16 q (norm (k_t k) t) (norm (k_d k) d) (norm (k_b k) b) f3.
Proof.
  intros [H0 [H1 [H2 [H3 H4]]]] k.
  pose proof (relevant16_ok q' f3') as Hk. fold k in Hk. unfold kept16_ok in Hk.
  rewrite !andb_true_iff in Hk. destruct Hk as [[K1 K2] K3].
  refine (conj H0 (conj _ (conj _ (conj _ H4)))); apply norm_range; assumption.
Qed.

(** ** Model *)

(** Opcode selection as [decode] does it. *)
Definition sel16 (p : platform) (w : Z) (isa : Isa) : outcome (result OpcodeKind DecodingError) :=
  if w =? 0 then Ret (Err IllegalInstruction) else parse_opcode_u16 p w isa.

Definition parse_opcode16_ite (p : platform) (w : Z) (isa : Isa)
  : outcome (result OpcodeKind DecodingError) :=
  if w =? 0x6081 then Ret (Ok (OZicfiss Ss_C_SSPUSH))
  else if w =? 0x6281 then Ret (Ok (OZicfiss Ss_C_SSPOPCHK))
  else let? o := c_parse_opcode p w isa in Ret (Ok (OC o)).

Lemma parse_opcode16_ite_ok p w isa : parse_opcode_u16 p w isa = parse_opcode16_ite p w isa.
Proof.
  unfold parse_opcode_u16, parse_opcode16_ite, parse_extension_u16, zicfiss16_parse_opcode.
  generalize (try (c_parse_opcode p w isa) (fun o => Ret (Ok (OC o)))
              : outcome (result OpcodeKind DecodingError)). intro d.
  destruct w as [|w|w]; try reflexivity.
  repeat (destruct w as [w|w|]; try reflexivity).
Qed.

Ltac rel16 := cbn [relevant16 k_t k_d k_b].

Lemma sel16_canon q t d b f3 p isa : ranges16 q t d b f3 ->
  sel16 p (build16 q t d b f3) isa = sel16 p0 (canon16_of q t d b f3) isa.
Proof.
  intros H. unfold canon16_of.
  pose proof (norm_ranges16 _ _ _ _ _ q f3 H) as Hn. cbv zeta in Hn.
  unfold sel16. rewrite !parse_opcode16_ite_ok.
  unfold parse_opcode16_ite, c_parse_opcode, quadrant1, quadrant2.
  slices.
  rewrite !build16_q, !build16_t, !build16_d, !build16_b, !build16_f3, !build16_sr, !build16_lo
    by assumption.
  clear Hn. unfold ranges16 in H. cbn -[Z.mul Z.add] in H. unfold build16.
  change (2 ^ 2) with 4. change (2 ^ 7) with 128. change (2 ^ 12) with 4096.
  change (2 ^ 13) with 8192.
  destruct H as [Hq [Ht [Hd [Hb Hf]]]].
  assert (Cb : b = 0 \/ b = 1) by lia.
  assert (Cq : q = 0 \/ q = 1 \/ q = 2 \/ q = 3) by lia.
  assert (Cf : f3 = 0 \/ f3 = 1 \/ f3 = 2 \/ f3 = 3 \/ f3 = 4 \/ f3 = 5 \/ f3 = 6 \/ f3 = 7) by lia.
  destruct Cq as [-> | [-> | [-> | ->]]];
  destruct Cf as [-> | [-> | [-> | [-> | [-> | [-> | [-> | ->]]]]]]]; rel16;
  destruct Cb as [-> | ->]; among; cbn [norm];
  repeat match goal with
  | |- context [if ?a =? ?b then _ else _] =>
      destruct (Z.eqb_spec a b); [try (exfalso; Z.div_mod_to_equations; lia)|try (exfalso; Z.div_mod_to_equations; lia)]
  end; try reflexivity; cbn [quadrant0].
  all: try solve [tree d | tree t | destruct d, t; first [reflexivity | exfalso; lia]].
  all: rewrite ?(Z.mul_comm 8), ?Z.div_mul by lia; reflexivity.
Qed.

Lemma opcode_canon16 p w isa : is_u16 w -> sel16 p w isa = sel16 p0 (canon16 w) isa.
Proof.
  intros H. rewrite (build_fields16 w H) at 1. apply sel16_canon. apply fields_ranges16.
Qed.

(** ** Patterns *)

Definition matches_fields16 (p : pattern) (q t d b f3 : Z) : bool :=
  matches_at 0 (seg p 0 2) q && matches_at 0 (seg p 2 5) t && matches_at 0 (seg p 7 5) d
  && matches_at 0 (seg p 12 1) b && matches_at 0 (seg p 13 3) f3.

Lemma matches_fields16_ok p w : length p = 16%nat ->
  matches p w = matches_fields16 p (field w 1 0) (field w 6 2) (field w 11 7) (field w 12 12)
                                 (field w 15 13).
Proof.
  intros L. unfold matches, matches_fields16.
  change p with (skipn 0 p) at 1.
  rewrite (skipn_seg p 0 2), (skipn_seg p (0 + 2) 5), (skipn_seg p (0 + 2 + 5) 5),
    (skipn_seg p (0 + 2 + 5 + 5) 1), (skipn_seg p (0 + 2 + 5 + 5 + 1) 3)
    by (rewrite L; simpl; lia).
  cbn [Nat.add].
  rewrite (skipn_all2 p) by (rewrite L; lia). rewrite app_nil_r.
  rewrite !matches_at_app.
  rewrite !seg_length by (rewrite L; simpl; lia).
  cbn [Z.of_nat Pos.of_succ_nat Pos.succ]. simpl Z.add.
  rewrite (matches_at_field _ 0 1), (matches_at_field _ 2 6), (matches_at_field _ 7 11),
    (matches_at_field _ 12 12), (matches_at_field _ 13 15)
    by (rewrite ?seg_length by (rewrite L; simpl; lia); lia).
  rewrite !andb_assoc. reflexivity.
Qed.

Definition respects16 (p : pattern) : bool :=
  (length p =? 16)%nat &&
  allw 2 0 (fun q =>
    if matches_at 0 (seg p 0 2) q then
      allw 3 0 (fun f3 =>
        let k := relevant16 q f3 in
        if matches_at 0 (seg p 13 3) f3 then
          seg_ok (k_t k) (seg p 2 5) && seg_ok (k_d k) (seg p 7 5) && seg_ok (k_b k) (seg p 12 1)
        else true)
    else true).

Lemma canon16_fields w : let k := relevant16 (field w 1 0) (field w 15 13) in
  field (canon16 w) 1 0 = field w 1 0 /\
  field (canon16 w) 6 2 = norm (k_t k) (field w 6 2) /\
  field (canon16 w) 11 7 = norm (k_d k) (field w 11 7) /\
  field (canon16 w) 12 12 = norm (k_b k) (field w 12 12) /\
  field (canon16 w) 15 13 = field w 15 13.
Proof.
  intro k. unfold canon16, canon16_of. fold k.
  pose proof (norm_ranges16 _ _ _ _ _ (field w 1 0) (field w 15 13) (fields_ranges16 w)) as H.
  cbv zeta in H. fold k in H.
  rewrite build16_q, build16_t, build16_d, build16_b, build16_f3 by assumption.
  repeat split.
Qed.

Lemma matches_canon16 p w : respects16 p = true -> matches p w = matches p (canon16 w).
Proof.
  intros H. apply andb_true_iff in H. destruct H as [L H]. apply Nat.eqb_eq in L.
  rewrite !matches_fields16_ok by assumption.
  pose proof (canon16_fields w) as C. cbv zeta in C.
  destruct C as [C0 [C1 [C2 [C3 C4]]]]. rewrite C0, C1, C2, C3, C4.
  clear C0 C1 C2 C3 C4.
  pose proof (fields_ranges16 w) as [R0 [R1 [R2 [R3 R4]]]].
  pose proof (allw_spec 2 0 _ H (field w 1 0) ltac:(simpl Z.of_nat; lia)) as Ho.
  cbv beta in Ho. clear H. unfold matches_fields16.
  destruct (matches_at 0 (seg p 0 2) (field w 1 0)); [|reflexivity].
  pose proof (allw_spec 3 0 _ Ho (field w 15 13) ltac:(simpl Z.of_nat; lia)) as Hf.
  cbv beta zeta in Hf. clear Ho.
  set (k := relevant16 (field w 1 0) (field w 15 13)) in *.
  assert (S : forall (kp : keep) i n v, seg_ok kp (seg p i n) = true ->
            (i + n <= 16)%nat -> 0 <= v < 2 ^ Z.of_nat n ->
            matches_at 0 (seg p i n) (norm kp v) = matches_at 0 (seg p i n) v).
  { intros kp i n v Hs Hin Hv. symmetry.
    pose proof (seg_length p i n ltac:(lia)) as Hl.
    apply seg_ok_norm; rewrite ?Hl; assumption. }
  destruct (matches_at 0 (seg p 13 3) (field w 15 13)) eqn:E3.
  - rewrite !andb_true_iff in Hf. destruct Hf as [[K1 K2] K3].
    rewrite !S by (assumption || lia || (simpl Z.of_nat; lia)). reflexivity.
  - rewrite !andb_false_r. reflexivity.
Qed.

Definition enc_respects16 (e : enc) : bool :=
  forallb respects16 (incl e) && forallb respects16 (excl e).

Lemma in_enc_canon16 e w : enc_respects16 e = true -> in_enc e w = in_enc e (canon16 w).
Proof.
  unfold enc_respects16, in_enc. rewrite andb_true_iff, !forallb_forall. intros [H1 H2].
  rewrite (existsb_ext' _ (fun p => matches p (canon16 w)) (incl e))
    by (intros; apply matches_canon16; auto).
  rewrite (existsb_ext' _ (fun p => matches p (canon16 w)) (excl e))
    by (intros; apply matches_canon16; auto).
  reflexivity.
Qed.

(** ** Sweep *)

Definition sweep16 (f : Z -> bool) : bool :=
  allw 2 0 (fun q => allw 3 0 (fun f3 =>
    let k := relevant16 q f3 in
    on (k_t k) 5 (fun t => on (k_d k) 5 (fun d => on (k_b k) 1 (fun b =>
      f (build16 q t d b f3)))))).

Lemma sweep16_spec f : sweep16 f = true -> forall w, f (canon16 w) = true.
Proof.
  intros H w. unfold sweep16 in H.
  pose proof (fields_ranges16 w) as [R0 [R1 [R2 [R3 R4]]]].
  apply (fun H => allw_spec 2 0 _ H (field w 1 0) ltac:(simpl Z.of_nat; lia)) in H.
  cbv beta in H.
  apply (fun H => allw_spec 3 0 _ H (field w 15 13) ltac:(simpl Z.of_nat; lia)) in H.
  cbv beta zeta in H. set (k := relevant16 _ _) in H.
  apply (fun H => on_spec _ 5 _ (field w 6 2) H ltac:(simpl Z.of_nat; lia)) in H. cbv beta in H.
  apply (fun H => on_spec _ 5 _ (field w 11 7) H ltac:(simpl Z.of_nat; lia)) in H. cbv beta in H.
  apply (fun H => on_spec _ 1 _ (field w 12 12) H ltac:(simpl Z.of_nat; lia)) in H. cbv beta in H.
  unfold canon16, canon16_of. fold k. exact H.
Qed.
