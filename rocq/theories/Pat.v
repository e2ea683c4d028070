(** A decision procedure for Boolean combinations of bit patterns. *)
From Coq Require Import ZArith List Bool Lia.
From Verif Require Import Types Spec.
Import ListNotations.
Local Open Scope Z_scope.

Inductive form := FTrue | FFalse | FPat (p : pattern) | FAnd (a b : form) | FOr (a b : form)
| FNot (a : form).

(** Meaning at a word, the first [k] bits of the patterns having been consumed. *)
Fixpoint sem (f : form) (k : Z) (w : Z) : bool :=
  match f with
  | FTrue => true
  | FFalse => false
  | FPat p => matches_at k p w
  | FAnd a b => sem a k w && sem b k w
  | FOr a b => sem a k w || sem b k w
  | FNot a => negb (sem a k w)
  end.

Definition mk_pat (p : pattern) : form := match p with [] => FTrue | _ => FPat p end.
Definition mk_and (a b : form) : form :=
  match a, b with
  | FFalse, _ => FFalse
  | _, FFalse => FFalse
  | FTrue, _ => b
  | _, FTrue => a
  | _, _ => FAnd a b
  end.
Definition mk_or (a b : form) : form :=
  match a, b with
  | FTrue, _ => FTrue
  | _, FTrue => FTrue
  | FFalse, _ => b
  | _, FFalse => a
  | _, _ => FOr a b
  end.
Definition mk_not (a : form) : form :=
  match a with FTrue => FFalse | FFalse => FTrue | _ => FNot a end.

Lemma mk_pat_sem p k w : sem (mk_pat p) k w = matches_at k p w.
Proof. destruct p; reflexivity. Qed.
Lemma mk_and_sem a b k w : sem (mk_and a b) k w = sem a k w && sem b k w.
Proof. destruct a, b; cbn; rewrite ?andb_true_r, ?andb_false_r; reflexivity. Qed.
Lemma mk_or_sem a b k w : sem (mk_or a b) k w = sem a k w || sem b k w.
Proof. destruct a, b; cbn; rewrite ?orb_true_r, ?orb_false_r; reflexivity. Qed.
Lemma mk_not_sem a k w : sem (mk_not a) k w = negb (sem a k w).
Proof. destruct a; reflexivity. Qed.

(** What remains to be checked once the next bit is known to be [b]. *)
Fixpoint step (b : bool) (f : form) : form :=
  match f with
  | FTrue => FTrue
  | FFalse => FFalse
  | FPat [] => FTrue
  | FPat (None :: p) => mk_pat p
  | FPat (Some c :: p) => if Bool.eqb b c then mk_pat p else FFalse
  | FAnd x y => mk_and (step b x) (step b y)
  | FOr x y => mk_or (step b x) (step b y)
  | FNot x => mk_not (step b x)
  end.

Lemma step_sem f k w : sem (step (Z.testbit w k) f) (k + 1) w = sem f k w.
Proof.
  induction f; cbn [step sem].
  - reflexivity.
  - reflexivity.
  - destruct p as [|[c|] p]; cbn [matches_at]; [reflexivity| |apply mk_pat_sem].
    destruct (Bool.eqb (Z.testbit w k) c); [apply mk_pat_sem|reflexivity].
  - rewrite mk_and_sem, IHf1, IHf2. reflexivity.
  - rewrite mk_or_sem, IHf1, IHf2. reflexivity.
  - rewrite mk_not_sem, IHf. reflexivity.
Qed.

(** Does the next bit matter? *)
Fixpoint looks (f : form) : bool :=
  match f with
  | FPat (Some _ :: _) => true
  | FAnd x y | FOr x y => if looks x then true else looks y
  | FNot x => looks x
  | _ => false
  end.

Lemma looks_step f : looks f = false -> step true f = step false f.
Proof.
  induction f as [| |p|a IHa b IHb|a IHa b IHb|a IHa]; cbn [looks step]; intros H.
  - reflexivity.
  - reflexivity.
  - destruct p as [|[c|] p]; [reflexivity|discriminate|reflexivity].
  - destruct (looks a); [discriminate|]. rewrite IHa, IHb by auto. reflexivity.
  - destruct (looks a); [discriminate|]. rewrite IHa, IHb by auto. reflexivity.
  - rewrite IHa by auto. reflexivity.
Qed.

Fixpoint valid (fuel : nat) (f : form) : bool :=
  match f with
  | FTrue => true
  | FFalse => false
  | _ =>
      match fuel with
      | O => false
      | S n =>
          if looks f then (if valid n (step true f) then valid n (step false f) else false)
          else valid n (step true f)
      end
  end.

Lemma valid_at n : forall f k w, valid n f = true -> sem f k w = true.
Proof.
  induction n as [|n IH]; intros f k w H.
  - destruct f; try discriminate H; reflexivity.
  - assert (G : (if looks f then (if valid n (step true f) then valid n (step false f) else false)
                 else valid n (step true f)) = true -> sem f k w = true).
    { clear H. intros H. rewrite <- step_sem. apply IH.
      destruct (looks f) eqn:L.
      - destruct (valid n (step true f)) eqn:T; [|discriminate H].
        destruct (Z.testbit w k); assumption.
      - pose proof (looks_step f L) as E. destruct (Z.testbit w k); [|rewrite <- E]; assumption. }
    destruct f; cbn [valid] in H; first [reflexivity | discriminate H | exact (G H)].
Qed.

Theorem valid_sound f w : valid 33 f = true -> sem f 0 w = true.
Proof. exact (valid_at 33 f 0 w). Qed.

(** ** Sets of words *)

Fixpoint any (ps : list pattern) : form :=
  match ps with [] => FFalse | p :: ps' => FOr (FPat p) (any ps') end.
Definition enc_form (e : enc) : form := FAnd (any (incl e)) (FNot (any (excl e))).

Lemma any_sem ps w : sem (any ps) 0 w = existsb (fun p => matches p w) ps.
Proof.
  induction ps as [|p ps IH]; [reflexivity|]. cbn [any existsb]. rewrite <- IH. reflexivity.
Qed.
Lemma enc_sem e w : sem (enc_form e) 0 w = in_enc e w.
Proof.
  unfold enc_form, in_enc. cbn [sem]. rewrite !any_sem.
  destruct (existsb (fun p => matches p w) (incl e)); reflexivity.
Qed.

Definition implies (a b : form) : bool := valid 33 (FOr (FNot a) b).
Lemma implies_ok a b w : implies a b = true -> sem a 0 w = true -> sem b 0 w = true.
Proof.
  unfold implies. intros H Ha. apply (valid_sound _ w) in H. rename H into K. cbn [sem] in K.
  rewrite Ha in K. exact K.
Qed.

Notation enc_sub a b := (implies (enc_form a) (enc_form b)).
Lemma enc_sub_ok a b w : enc_sub a b = true -> in_enc a w = true -> in_enc b w = true.
Proof. intros H Ha. rewrite <- enc_sem in *. exact (implies_ok _ _ w H Ha). Qed.

Notation enc_disj a b := (implies (enc_form a) (FNot (enc_form b))).
Lemma enc_disj_ok a b w : enc_disj a b = true -> in_enc a w = true -> in_enc b w = false.
Proof.
  intros H Ha. rewrite <- enc_sem in Ha. pose proof (implies_ok _ _ w H Ha) as K.
  cbn [sem] in K. rewrite enc_sem in K. apply negb_true_iff. exact K.
Qed.
