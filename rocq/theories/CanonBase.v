(** Opcode selection of a 32-bit word depends on a few fields only.  [canon w] is a word with
    the same relevant fields and zeros elsewhere; there are few canonical words, so a property
    of all words follows from a sweep over them. *)
From Coq Require Import ZArith List Bool Lia.
From Verif Require Import Rust Types DecodeUtil Dec32 Dec16 Decode Spec Util Plat.
Import ListNotations.
Local Open Scope Z_scope.

Definition build (o rd f3 rs1 r2 f7 : Z) : Z :=
  o + rd * 2 ^ 7 + f3 * 2 ^ 12 + rs1 * 2 ^ 15 + r2 * 2 ^ 20 + f7 * 2 ^ 25.

Definition ranges (o rd f3 rs1 r2 f7 : Z) : Prop :=
  0 <= o < 2 ^ 7 /\ 0 <= rd < 2 ^ 5 /\ 0 <= f3 < 2 ^ 3 /\ 0 <= rs1 < 2 ^ 5 /\
  0 <= r2 < 2 ^ 5 /\ 0 <= f7 < 2 ^ 7.

Ltac fld := unfold ranges, build, field in *; cbn -[Z.div Z.modulo Z.mul Z.add] in *;
  Z.div_mod_to_equations; lia.

Section Build.
Context (o rd f3 rs1 r2 f7 : Z) (H : ranges o rd f3 rs1 r2 f7).
Local Notation W := (build o rd f3 rs1 r2 f7).
Lemma build_u32 : is_u32 W.
Proof using H. unfold is_u32. fld. Qed.
Lemma build_o : field W 6 0 = o.
Proof using H. fld. Qed.
Lemma build_rd : field W 11 7 = rd.
Proof using H. fld. Qed.
Lemma build_f3 : field W 14 12 = f3.
Proof using H. fld. Qed.
Lemma build_rs1 : field W 19 15 = rs1.
Proof using H. fld. Qed.
Lemma build_r2 : field W 24 20 = r2.
Proof using H. fld. Qed.
Lemma build_f7 : field W 31 25 = f7.
Proof using H. fld. Qed.
Lemma build_f6 : field W 31 26 = f7 / 2.
Proof using H. fld. Qed.
Lemma build_f5 : field W 31 27 = f7 / 4.
Proof using H. fld. Qed.
Lemma build_csr : field W 31 20 = r2 + 32 * f7.
Proof using H. fld. Qed.
End Build.

Lemma fields_ranges w : ranges (field w 6 0) (field w 11 7) (field w 14 12) (field w 19 15)
  (field w 24 20) (field w 31 25).
Proof.
  unfold ranges.
  refine (conj _ (conj _ (conj _ (conj _ (conj _ _))))); apply field_bound; lia.
Qed.

Lemma build_fields w : is_u32 w ->
  w = build (field w 6 0) (field w 11 7) (field w 14 12) (field w 19 15)
            (field w 24 20) (field w 31 25).
Proof. unfold is_u32. intros H. fld. Qed.

(** What is kept of a field: everything, nothing, whether it is one of some values ([d]
    stands for all others), or its quotient by [m]. *)
Inductive keep := Full | Drop | Among (l : list Z) (d : Z) | High (m : Z).

Definition norm (k : keep) (v : Z) : Z :=
  match k with
  | Full => v
  | Drop => 0
  | Among l d => if existsb (Z.eqb v) l then v else d
  | High m => m * (v / m)
  end.

Record kept := K { k_rd : keep; k_f3 : keep; k_rs1 : keep; k_r2 : keep; k_f7 : keep }.

(** Fields relevant for major opcode [o] and funct3 [f3]. *)
Definition relevant (o f3 : Z) : kept :=
  match o with
  | 0x13 =>
      match f3 with
      | 1 | 5 => K Drop Full Drop Drop (Among [0; 1; 0x20; 0x21] 2)
      | _ => K Drop Full Drop Drop Drop
      end
  | 0x33 | 0x3b => K Drop Full Drop Drop (Among [0; 1; 0x20] 2)
  | 0x1b =>
      match f3 with
      | 5 => K Drop Full Drop Drop (Among [0; 0x20] 2)
      | _ => K Drop Full Drop Drop Drop
      end
  | 0x2f => K Drop Full Drop Drop (High 4)
  | 0x63 | 0x03 | 0x23 => K Drop Full Drop Drop Drop
  | 0x0f =>
      match f3 with
      | 2 => K (Among [0] 1) Full Drop (Among [4] 0) (Among [0] 1)
      | _ => K Drop Full Drop Drop Drop
      end
  | 0x73 =>
      match f3 with
      | 0 => K (Among [0] 1) Full (Among [0] 1) (Among [0; 1; 2; 5] 3)
               (Among [0; 8; 9; 0x18] 1)
      | 2 => K Drop Full Drop (Among [0; 1; 2] 3) (Among [0x60; 0x64] 0)
      | 4 => K Drop Full (Among [0] 1) (Among [1; 5; 0x1c] 0) (Among [0x66; 0x67] 0)
      | _ => K Drop Full Drop Drop Drop
      end
  | _ => K Drop Drop Drop Drop Drop
  end.

Definition canon_of (o rd f3 rs1 r2 f7 : Z) : Z :=
  let k := relevant o f3 in
  build o (norm (k_rd k) rd) (norm (k_f3 k) f3) (norm (k_rs1 k) rs1) (norm (k_r2 k) r2)
        (norm (k_f7 k) f7).

Definition canon (w : Z) : Z :=
  canon_of (field w 6 0) (field w 11 7) (field w 14 12) (field w 19 15)
           (field w 24 20) (field w 31 25).

(** Representatives are in range. *)
Definition keep_ok (k : keep) (n : Z) : bool :=
  match k with Among _ d => (0 <=? d) && (d <? 2 ^ n) | High m => 0 <? m | _ => true end.

Lemma norm_range k v n : keep_ok k n = true -> 0 <= v < 2 ^ n -> 0 <= norm k v < 2 ^ n.
Proof.
  intros Hk Hv. destruct k; cbn [norm keep_ok] in *; [assumption|lia| |].
  - destruct (existsb (Z.eqb v) l); lia.
  - pose proof (Z.mul_div_le v m). pose proof (Z.div_pos v m).
    assert (0 <= v / m) by lia. nia.
Qed.

Lemma existsb_eqb v l : existsb (Z.eqb v) l = true <-> In v l.
Proof.
  rewrite existsb_exists. split.
  - intros [x [Hx He]]. apply Z.eqb_eq in He. subst. assumption.
  - intros H. exists v. split; [assumption|apply Z.eqb_refl].
Qed.

Definition kept_ok (k : kept) : bool :=
  keep_ok (k_rd k) 5 && keep_ok (k_f3 k) 3 && keep_ok (k_rs1 k) 5 && keep_ok (k_r2 k) 5
  && keep_ok (k_f7 k) 7.

Lemma relevant_ok o f3 : kept_ok (relevant o f3) = true.
Proof.
  unfold relevant.
  repeat match goal with |- context [match ?x with _ => _ end] => is_var x; destruct x;
    try reflexivity end.
Qed.

Lemma norm_ranges o rd f3 rs1 r2 f7 o' f3' : ranges o rd f3 rs1 r2 f7 ->
  let k := relevant o' f3' in
  ranges o (norm (k_rd k) rd) (norm (k_f3 k) f3) (norm (k_rs1 k) rs1) (norm (k_r2 k) r2)
         (norm (k_f7 k) f7).
Proof.
  intros [H0 [H1 [H2 [H3 [H4 H5]]]]] k.
  pose proof (relevant_ok o' f3') as Hk. fold k in Hk. unfold kept_ok in Hk.
  rewrite !andb_true_iff in Hk. destruct Hk as [[[[K1 K2] K3] K4] K5].
  refine (conj H0 (conj _ (conj _ (conj _ (conj _ _))))); apply norm_range; assumption.
Qed.

(** ** Tools for the model side *)

Definition priv_ite (w f7 : Z) : outcome (result PrivOpcode DecodingError) :=
  if w =? 0x10200073 then Ret (Ok P_SRET)
  else if w =? 0x30200073 then Ret (Ok P_MRET)
  else if w =? 0x10500073 then Ret (Ok P_WFI)
  else if f7 =? 9 then Ret (Ok P_SFENCE_VMA)
  else Ret (Err InvalidFunct7).

Ltac split_const :=
  repeat (match goal with
  | |- context [match ?x with _ => _ end] => is_var x; destruct x; try reflexivity
  end).

Lemma priv_parse_opcode_ite p w : priv_parse_opcode p w = priv_ite w (field w 31 25).
Proof.
  unfold priv_parse_opcode, priv_ite. slices. generalize (field w 31 25). intro f7.
  assert (E : match f7 with 9 => Ret (Ok P_SFENCE_VMA) | _ => Ret (Err InvalidFunct7) end
              = (if f7 =? 9 then Ret (Ok P_SFENCE_VMA) else Ret (Err InvalidFunct7)
                 : outcome (result PrivOpcode DecodingError))) by (split_const).
  rewrite E. generalize (if f7 =? 9 then Ret (Ok P_SFENCE_VMA) else Ret (Err InvalidFunct7)
                 : outcome (result PrivOpcode DecodingError)). clear. intro d.
  split_const.
Qed.

(** Case analysis on membership in an [Among]. *)
Ltac among :=
  repeat match goal with
  | |- context [norm (Among ?l ?d) ?v] =>
      let E := fresh "E" in let N := fresh "N" in
      change (norm (Among l d) v) with (if existsb (Z.eqb v) l then v else d);
      destruct (existsb (Z.eqb v) l) eqn:E;
      [ apply existsb_eqb in E; cbn [In] in E;
        repeat (destruct E as [E|E]; [subst v|]); [..|destruct E]
      | assert (N : ~ In v l) by (rewrite <- existsb_eqb, E; discriminate); cbn [In] in N;
        clear E ]
  end.

Ltac f3_cases f3 Hf :=
  let C := fresh in
  assert (C : f3 = 0 \/ f3 = 1 \/ f3 = 2 \/ f3 = 3 \/ f3 = 4 \/ f3 = 5 \/ f3 = 6 \/ f3 = 7)
    by (change (2 ^ 3) with 8 in Hf; lia);
  destruct C as [C|[C|[C|[C|[C|[C|[C|C]]]]]]]; subst f3.

Ltac tree x :=
  let q := fresh in
  destruct x as [|q|q]; try reflexivity; try (exfalso; lia);
  repeat (destruct q as [q|q|]; try reflexivity; try (exfalso; lia)).

Ltac rel := cbn [relevant k_rd k_f3 k_rs1 k_r2 k_f7].

Lemma priv_ite_norm rd rs1 r2 f7 : ranges 0x73 rd 0 rs1 r2 f7 ->
  priv_ite (build 0x73 rd 0 rs1 r2 f7) f7
  = let k := relevant 0x73 0 in
    priv_ite (build 0x73 (norm (k_rd k) rd) 0 (norm (k_rs1 k) rs1) (norm (k_r2 k) r2)
                    (norm (k_f7 k) f7)) (norm (k_f7 k) f7).
Proof.
  intros H. unfold ranges in H. cbn -[Z.mul Z.add] in H. cbv zeta. rel.
  unfold priv_ite, build. change (2 ^ 7) with 128. change (2 ^ 12) with 4096.
  change (2 ^ 15) with 32768. change (2 ^ 20) with 1048576. change (2 ^ 25) with 33554432.
  among; try reflexivity;
  repeat match goal with
  | |- context [if ?a =? ?b then _ else _] =>
      destruct (Z.eqb_spec a b); [first [reflexivity | exfalso; lia]|]
  end; reflexivity || (exfalso; lia).
Qed.
