(** Proofs for C60. *)
From Coq Require Import ZArith List Bool Lia.
From Verif Require Import Rust Types Decode Spec Util Pat Rows Rows2 Blame SpecHelp SpecCount.
Import ListNotations.
Local Open Scope list_scope.
Local Open Scope Z_scope.

(** ** Counting the words of a formula *)

Fixpoint count (n : nat) (f : form) : Z :=
  match f with
  | FTrue => 2 ^ Z.of_nat n
  | FFalse => 0
  | _ =>
      match n with
      | O => if sem f 0 0 then 1 else 0
      | S n' => if looks f then count n' (step true f) + count n' (step false f)
                else 2 * count n' (step true f)
      end
  end.
Fixpoint words (n : nat) (f : form) : list Z :=
  match n with
  | O => if sem f 0 0 then [0] else []
  | S n' => map (fun v => 2 * v + 1) (words n' (step true f)) ++ map (fun v => 2 * v) (words n' (step false f))
  end.

Lemma matches_half p w : forall k, 0 <= k -> matches_at (k + 1) p w = matches_at k p (w / 2).
Proof.
  induction p as [|[b|] p IH]; intros k K; cbn [matches_at]; [reflexivity| |apply IH; lia].
  rewrite IH by lia.
  replace (Z.testbit (w / 2) k) with (Z.testbit w (k + 1)); [reflexivity|].
  change 2 with (2 ^ 1). rewrite Z.div_pow2_bits by lia. reflexivity.
Qed.
Lemma sem_half f w : sem f 1 w = sem f 0 (w / 2).
Proof.
  induction f; cbn [sem]; try congruence; try reflexivity. exact (matches_half p w 0 ltac:(lia)).
Qed.
Lemma sem_odd f v : sem f 0 (2 * v + 1) = sem (step true f) 0 v.
Proof.
  rewrite <- step_sem. rewrite Z.testbit_odd_0. change (0 + 1) with 1. rewrite sem_half.
  f_equal. rewrite Z.add_comm, Z.mul_comm, Z.div_add by lia. reflexivity.
Qed.
Lemma sem_even f v : sem f 0 (2 * v) = sem (step false f) 0 v.
Proof.
  rewrite <- step_sem. rewrite Z.testbit_even_0. change (0 + 1) with 1. rewrite sem_half.
  f_equal. rewrite Z.mul_comm, Z.div_mul by lia. reflexivity.
Qed.

Lemma words_in n : forall f w, In w (words n f) <-> 0 <= w < 2 ^ Z.of_nat n /\ sem f 0 w = true.
Proof.
  induction n as [|n IH]; intros f w.
  - cbn [words]. change (2 ^ Z.of_nat 0) with 1. destruct (sem f 0 0) eqn:S.
    + split; [intros [<-|[]]; split; [lia|exact S]|intros [R _]; left; lia].
    + split; [intros []|intros [R T]]. replace w with 0 in T by lia. congruence.
  - cbn [words]. rewrite in_app_iff, !in_map_iff.
    replace (Z.of_nat (S n)) with (Z.of_nat n + 1) by lia. rewrite Z.pow_add_r by lia. change (2 ^ 1) with 2.
    split.
    + intros [[v [<- H]]|[v [<- H]]]; apply IH in H; destruct H as [R H]; split; try lia.
      * rewrite sem_odd. exact H.
      * rewrite sem_even. exact H.
    + intros [R H]. destruct (Z.Even_or_Odd w) as [[v E]|[v E]]; subst w.
      * right. exists v. split; [reflexivity|]. apply IH. rewrite <- sem_even. split; [lia|exact H].
      * left. exists v. split; [reflexivity|]. apply IH. rewrite <- sem_odd. split; [lia|exact H].
Qed.
Lemma words_nodup n : forall f, NoDup (words n f).
Proof.
  induction n as [|n IH]; intros f; cbn [words].
  - destruct (sem f 0 0); repeat constructor. intros [].
  - assert (A : forall (g : Z -> Z) l, (forall a b, g a = g b -> a = b) -> NoDup l -> NoDup (map g l)).
    { intros g l G N. induction N as [|x l X N IHn]; cbn [map]; constructor; [|exact IHn].
      rewrite in_map_iff. intros [y [E Y]]. apply G in E. subst y. exact (X Y). }
    assert (B : forall l m : list Z, NoDup l -> NoDup m -> (forall x, In x l -> ~ In x m) -> NoDup (l ++ m)).
    { intros l m L M D. induction L as [|x l X L IHl]; cbn [app]; [exact M|]. constructor.
      - rewrite in_app_iff. intros [Y|Y]; [exact (X Y)|exact (D x (or_introl eq_refl) Y)].
      - apply IHl. intros y Y. exact (D y (or_intror Y)). }
    apply B.
    + apply A; [intros a b E; lia|apply IH].
    + apply A; [intros a b E; lia|apply IH].
    + intros x. rewrite !in_map_iff. intros [a [Ea _]] [b [Eb _]]. lia.
Qed.
Lemma words_length n : forall f, Z.of_nat (length (words n f)) = count n f.
Proof.
  induction n as [|n IH]; intros f.
  - cbn [words]. destruct f; cbn [count sem]; try reflexivity;
      match goal with |- context [if ?b then _ else _] => destruct b; reflexivity end.
  - cbn [words]. rewrite app_length, !map_length, Nat2Z.inj_add, !IH.
    assert (P : count n FTrue + count n FTrue = 2 ^ Z.of_nat (S n)).
    { replace (count n FTrue) with (2 ^ Z.of_nat n) by (destruct n; reflexivity).
      replace (Z.of_nat (S n)) with (Z.of_nat n + 1) by lia. rewrite Z.pow_add_r by lia. lia. }
    assert (Q : count n FFalse + count n FFalse = 0) by (destruct n; reflexivity).
    assert (R : count n (step true f) + count n (step false f) =
                if looks f then count n (step true f) + count n (step false f) else 2 * count n (step true f)).
    { destruct (looks f) eqn:L; [reflexivity|]. rewrite <- (looks_step f L). lia. }
    destruct f; cbn [count]; [exact P|exact Q|exact R|exact R|exact R|exact R].
Qed.
Lemma count_exactly n f (P : Z -> Prop) :
  (forall w, P w <-> 0 <= w < 2 ^ Z.of_nat n /\ sem f 0 w = true) -> exactly (count n f) P.
Proof.
  intros H. exists (words n f). split; [apply words_nodup|]. split; [|apply words_length].
  intros w. rewrite H. apply words_in.
Qed.
Definition dec_ext (x : Extensions) (r : row) : bool :=
  match x, extension_of (r_op r) with
  | EBaseI, EBaseI | EM, EM | EA, EA | EC, EC | EZifencei, EZifencei | EZicboz, EZicboz | EZicsr, EZicsr
  | EZicfiss, EZicfiss | EZicntr, EZicntr | EPriv, EPriv => true
  | _, _ => false
  end.
Lemma dec_ext_ok x r : dec_ext x r = true <-> extension_of (r_op r) = x.
Proof.
  unfold dec_ext. generalize (extension_of (r_op r)). intros y.
  destruct x, y; split; intros H; first [reflexivity|discriminate H].
Qed.

Notation form_of t isa x := (some_row (filter (dec_ext x) t) isa).
Lemma count_words isa x : count 32 (form_of table32 isa x) = words_of isa x.
Proof. destruct isa, x; vm_compute; reflexivity. Qed.
Lemma count_half_words isa x : count 16 (form_of table16 isa x) = half_words_of isa x.
Proof. destruct isa, x; vm_compute; reflexivity. Qed.
Lemma count_rejected isa e : count 32 (some_err (filter (is_err e) errors32) isa) = rejected isa e.
Proof. destruct isa, e; vm_compute; reflexivity. Qed.
Lemma count_half_rejected isa e : count 16 (some_err (filter (is_err e) errors16) isa) = half_rejected isa e.
Proof. destruct isa, e; vm_compute; reflexivity. Qed.

(** ** The four counts *)

Lemma form_of_ok t isa x w : sem (form_of t isa x) 0 w = true <->
  exists r, In r t /\ in_enc (r_acc r isa) w = true /\ extension_of (r_op r) = x.
Proof.
  rewrite some_row_iff. split; intros [r H]; exists r.
  - destruct H as [I E]. apply filter_In in I. rewrite dec_ext_ok in I. tauto.
  - destruct H as [I [E X]]. split; [apply filter_In; rewrite dec_ext_ok; auto|exact E].
Qed.
Lemma some_err_iff es e isa w : sem (some_err (filter (is_err e) es) isa) 0 w = true <->
  exists r, In r es /\ in_enc (e_enc r isa) w = true /\ e = e_err r.
Proof.
  split.
  - intros H. apply some_err_ok in H. destruct H as [r [I E]]. apply filter_In in I. destruct I as [I X].
    apply dec2b_true in X. exists r. auto.
  - intros [r [I [E ->]]].
    assert (J : In r (filter (is_err (e_err r)) es)) by (apply filter_In; split; [exact I|apply dec2b_refl]).
    revert J. generalize (filter (is_err (e_err r)) es) as l. induction l as [|y l IH]; [intros []|].
    intros [->|J]; cbn [some_err fold_right sem]; apply orb_true_iff.
    + left. rewrite enc_sem. exact E.
    + right. apply IH. exact J.
Qed.

Theorem words32 p isa x : platform_ok p ->
  exactly (words_of isa x)
    (fun w => is_u32 w /\ exists i, decode_u32 p w isa = Ret (Ok i) /\ extension_of (opc i) = x).
Proof.
  intros Hp. rewrite <- count_words. apply count_exactly. intros w.
  change (2 ^ Z.of_nat 32) with (2 ^ 32). rewrite form_of_ok. split.
  - intros [R [i [D X]]]. split; [exact R|]. destruct (ok32 p isa w i Hp R D) as [r [I [E O]]].
    exists r. split; [exact I|]. split; [exact E|]. subst i. exact X.
  - intros [R [r [I [E X]]]]. split; [exact R|]. eexists. split; [exact (row32 p isa w r Hp R I E)|exact X].
Qed.
Theorem words16 p isa x : platform_ok p ->
  exactly (half_words_of isa x)
    (fun w => is_u16 w /\ exists i, decode_u16 p w isa = Ret (Ok i) /\ extension_of (opc i) = x).
Proof.
  intros Hp. rewrite <- count_half_words. apply count_exactly. intros w.
  change (2 ^ Z.of_nat 16) with (2 ^ 16). rewrite form_of_ok. split.
  - intros [R [i [D X]]]. split; [exact R|]. destruct (ok16 p isa w i Hp R D) as [r [I [E O]]].
    exists r. split; [exact I|]. split; [exact E|]. subst i. exact X.
  - intros [R [r [I [E X]]]]. split; [exact R|]. eexists. split; [exact (row16 p isa w r Hp R I E)|exact X].
Qed.
Theorem rejected32 p isa e : platform_ok p ->
  exactly (rejected isa e) (fun w => is_u32 w /\ decode_u32 p w isa = Ret (Err e)).
Proof.
  intros Hp. rewrite <- count_rejected. apply count_exactly. intros w.
  change (2 ^ Z.of_nat 32) with (2 ^ 32). rewrite some_err_iff. split.
  - intros [R D]. split; [exact R|]. exact (bad32 p isa w e Hp R D).
  - intros [R [r [I [E ->]]]]. split; [exact R|]. exact (err32 p isa w r Hp R I E).
Qed.
Theorem rejected16 p isa e : platform_ok p ->
  exactly (half_rejected isa e) (fun w => is_u16 w /\ decode_u16 p w isa = Ret (Err e)).
Proof.
  intros Hp. rewrite <- count_half_rejected. apply count_exactly. intros w.
  change (2 ^ Z.of_nat 16) with (2 ^ 16). rewrite some_err_iff. split.
  - intros [R D]. split; [exact R|]. exact (bad16 p isa w e Hp R D).
  - intros [R [r [I [E ->]]]]. split; [exact R|]. exact (err16 p isa w r Hp R I E).
Qed.

Theorem counts p isa : platform_ok p ->
  (forall x, exactly (words_of isa x)
     (fun w => is_u32 w /\ exists i, decode_u32 p w isa = Ret (Ok i) /\ extension_of (opc i) = x)) /\
  (forall e, exactly (rejected isa e) (fun w => is_u32 w /\ decode_u32 p w isa = Ret (Err e))) /\
  (forall x, exactly (half_words_of isa x)
     (fun w => is_u16 w /\ exists i, decode_u16 p w isa = Ret (Ok i) /\ extension_of (opc i) = x)) /\
  (forall e, exactly (half_rejected isa e) (fun w => is_u16 w /\ decode_u16 p w isa = Ret (Err e))).
Proof.
  intros Hp. split; [intros x; exact (words32 p isa x Hp)|]. split; [intros e; exact (rejected32 p isa e Hp)|].
  split; [intros x; exact (words16 p isa x Hp)|intros e; exact (rejected16 p isa e Hp)].
Qed.
