(** [parse_extension] of every word. *)
From Coq Require Import ZArith List Bool Lia.
From Verif Require Import Rust Types DecodeUtil Spec SpecExt Util Plat CanonBase CanonSpec Ext.
Import ListNotations.
Local Open Scope Z_scope.

Lemma ext_canon_of o rd f3 rs1 r2 f7 p : ranges o rd f3 rs1 r2 f7 ->
  parse_extension_u32 p (build o rd f3 rs1 r2 f7)
  = parse_extension_u32 p0 (canon_of o rd f3 rs1 r2 f7).
Proof.
  intros H. unfold canon_of.
  pose proof (norm_ranges _ _ _ _ _ _ o f3 H) as Hn. cbv zeta in Hn.
  unfold parse_extension_u32. slices.
  rewrite !build_o, !build_f3, !build_f7, !build_f5, !build_csr by assumption.
  clear Hn.
  pose proof H as [_ [Hd [H3 [H1 [H2 H7]]]]].
  destruct (Z.eq_dec o 0x33) as [->|N2]; [rel; among; try reflexivity; f3_cases f3 H3; tree f7|].
  destruct (Z.eq_dec o 0x3b) as [->|N4]; [rel; among; try reflexivity; f3_cases f3 H3; tree f7|].
  destruct (Z.eq_dec o 0x2f) as [->|N5].
  { rel. cbn [norm].
    replace (4 * (f7 / 4) / 4) with (f7 / 4) by (rewrite Z.mul_comm, Z.div_mul; lia).
    set (f5 := f7 / 4). clearbody f5. tree f5. }
  destruct (Z.eq_dec o 0x0f) as [->|N9]; [f3_cases f3 H3; reflexivity|].
  destruct (Z.eq_dec o 0x73) as [->|N10].
  { f3_cases f3 H3; try reflexivity; rel.
    - among; try reflexivity; solve [tree r2 | tree f7].
    - remember (r2 + 32 * f7) as c eqn:Hc.
      among; subst c; try reflexivity.
      all: match goal with |- context [match ?a with _ => _ end] =>
             match a with ?x + 32 * ?y => remember a as c eqn:Hc end end.
      all: assert (Hn : c <> 3072 /\ c <> 3073 /\ c <> 3074 /\ c <> 3200 /\ c <> 3201 /\ c <> 3202)
        by lia; clear Hc; tree c. }
  clear -N2 N4 N5 N9 N10.
  destruct o as [|q|q]; [reflexivity| |reflexivity].
  repeat (destruct q as [q|q|]; try reflexivity; try congruence).
Qed.
Lemma ext_canon p w : is_u32 w -> parse_extension_u32 p w = parse_extension_u32 p0 (canon w).
Proof. intros H. rewrite (build_fields w H) at 1. apply ext_canon_of. apply fields_ranges. Qed.

Definition amongb (l : list enc) (w : Z) : bool := existsb (fun e => in_enc e w) l.
Lemma among_iff l w : among l w <-> amongb l w = true.
Proof. unfold among, amongb. rewrite existsb_exists. reflexivity. Qed.

Definition extensions : list Extensions :=
  [EBaseI; EM; EA; EC; EZifencei; EZicboz; EZicsr; EZicfiss; EZicntr; EPriv].
Lemma extensions_all x : In x extensions.
Proof. destruct x; cbn; auto 12. Qed.

Definition ext_eqb (a b : Extensions) : bool :=
  match a, b with
  | EBaseI, EBaseI | EM, EM | EA, EA | EC, EC | EZifencei, EZifencei | EZicboz, EZicboz
  | EZicsr, EZicsr | EZicfiss, EZicfiss | EZicntr, EZicntr | EPriv, EPriv => true
  | _, _ => false
  end.
Lemma ext_eqb_iff a b : ext_eqb a b = true <-> a = b.
Proof. destruct a, b; cbn; split; congruence. Qed.

(** The result is right for each extension. *)
Definition right (w : Z) (r : outcome (result Extensions DecodingError)) : bool :=
  match r with
  | Ret (Ok x) => forallb (fun y => Bool.eqb (amongb (assigned y) w) (ext_eqb x y)) extensions &&
                  negb (amongb unassigned w)
  | Ret (Err _) => forallb (fun y => negb (amongb (assigned y) w)) extensions && amongb unassigned w
  | Panic _ => false
  end.

Lemma respect_all : forallb (forallb enc_respects) (unassigned :: map assigned extensions) = true.
Proof. vm_compute. reflexivity. Qed.
Lemma amongb_canon l w : forallb enc_respects l = true -> amongb l w = amongb l (canon w).
Proof.
  intros H. unfold amongb. apply existsb_ext'. intros e I. apply in_enc_canon.
  rewrite forallb_forall in H. auto.
Qed.

Lemma right_sweep : sweep32 (fun w => right w (parse_extension_u32 p0 w)) = true.
Proof. vm_cast_no_check (eq_refl true). Qed.

Lemma right_all p w : is_u32 w -> right (canon w) (parse_extension_u32 p w) = true.
Proof. intros H. rewrite (ext_canon p w H). exact (sweep32_spec _ right_sweep w). Qed.

Lemma assigned_canon x w : amongb (assigned x) w = amongb (assigned x) (canon w).
Proof.
  apply amongb_canon. pose proof respect_all as H. rewrite forallb_forall in H. apply H.
  right. apply in_map. apply extensions_all.
Qed.
Lemma unassigned_canon w : amongb unassigned w = amongb unassigned (canon w).
Proof. apply amongb_canon. pose proof respect_all as H. rewrite forallb_forall in H. apply H. left. reflexivity. Qed.

Theorem ext_exact p w : is_u32 w ->
  (forall x, parse_extension_u32 p w = Ret (Ok x) <-> among (assigned x) w) /\
  (parse_extension_u32 p w = Ret (Err UnknownExtension) <-> among unassigned w).
Proof.
  intros Hw. pose proof (right_all p w Hw) as R.
  destruct (parse_extension_u32 p w) as [[y|e]|why] eqn:E; [| |discriminate R]; cbn [right] in R;
    apply andb_true_iff in R; destruct R as [A B]; rewrite forallb_forall in A.
  - split.
    + intros x. rewrite among_iff, assigned_canon. specialize (A x (extensions_all x)). apply Bool.eqb_prop in A.
      rewrite A, ext_eqb_iff. split; congruence.
    + rewrite among_iff, unassigned_canon. apply negb_true_iff in B. rewrite B. split; discriminate.
  - apply ext_error in E. subst e. split.
    + intros x. rewrite among_iff, assigned_canon. specialize (A x (extensions_all x)). apply negb_true_iff in A.
      rewrite A. split; discriminate.
    + rewrite among_iff, unassigned_canon, B. split; auto.
Qed.
