(** Proofs about the mask and match constants (C55). *)
From Coq Require Import ZArith List Bool Lia String.
From Verif Require Import Rust Types Decode Spec SpecOps SpecMask.
From Verif Require Import Util Pat Rows Rows2 Operands Findings.
Import ListNotations.
Local Open Scope list_scope.
Local Open Scope Z_scope.

(** ** [w & mask = match] as a pattern *)

Definition pattern_of (n : nat) (e : entry) : pattern :=
  map (fun k => if Z.testbit (e_mask e) (Z.of_nat k) then Some (Z.testbit (e_match e) (Z.of_nat k))
                else None) (seq 0 n).

Lemma matches_at_all (f : nat -> option bool) n : forall s w,
  matches_at (Z.of_nat s) (map f (seq s n)) w = true <->
  forall k, (s <= k < s + n)%nat -> forall b, f k = Some b -> Z.testbit w (Z.of_nat k) = b.
Proof.
  induction n as [|n IH]; intros s w; cbn [seq map matches_at].
  - split; [|reflexivity]. intros _ k Hk. lia.
  - assert (T : Z.of_nat s + 1 = Z.of_nat (S s)) by lia. rewrite T.
    destruct (f s) as [c|] eqn:F.
    + destruct (Bool.eqb (Z.testbit w (Z.of_nat s)) c) eqn:E.
      * rewrite IH. apply eqb_prop in E. split; intros H k Hk b Hb.
        -- destruct (Nat.eq_dec k s) as [->|N]; [congruence|]. apply H; [lia|assumption].
        -- apply H; [lia|assumption].
      * split; [discriminate|]. intros H. specialize (H s ltac:(lia) c F).
        rewrite H, eqb_reflx in E. discriminate E.
    + rewrite IH. split; intros H k Hk b Hb.
      * destruct (Nat.eq_dec k s) as [->|N]; [congruence|]. apply H; [lia|assumption].
      * apply H; [lia|assumption].
Qed.

Definition fits (n : Z) (e : entry) : bool :=
  (0 <=? e_mask e) && (e_mask e <? 2 ^ n) && (Z.land (e_match e) (e_mask e) =? e_match e).

Lemma pattern_of_ok n e w : fits (Z.of_nat n) e = true ->
  (Z.land w (e_mask e) = e_match e <-> matches (pattern_of n e) w = true).
Proof.
  unfold fits. rewrite !andb_true_iff, Z.leb_le, Z.ltb_lt, Z.eqb_eq. intros [[M0 M1] L].
  unfold matches, pattern_of. rewrite (matches_at_all _ n 0 w).
  split.
  - intros <- k Hk b. rewrite Z.land_spec.
    destruct (Z.testbit (e_mask e) (Z.of_nat k)); intros Hb; [|discriminate Hb].
    injection Hb as <-. rewrite andb_true_r. reflexivity.
  - intros H. apply Z.bits_inj'. intros k Hk. rewrite <- L, !Z.land_spec.
    destruct (Z.testbit (e_mask e) k) eqn:B; [|rewrite !andb_false_r; reflexivity].
    rewrite !andb_true_r.
    assert (K : k < Z.of_nat n).
    { destruct (Z.lt_ge_cases k (Z.of_nat n)) as [|G]; [assumption|].
      exfalso. assert (Z.testbit (e_mask e) k = false); [|congruence].
      destruct (Z.eq_dec (e_mask e) 0) as [->|N]; [apply Z.testbit_0_l|].
      apply Z.bits_above_log2; [assumption|].
      apply Z.lt_le_trans with (Z.of_nat n); [|assumption]. apply Z.log2_lt_pow2; lia. }
    specialize (H (Z.to_nat k) ltac:(lia)). rewrite Z2Nat.id in H by assumption.
    rewrite B in H. apply (H _ eq_refl).
Qed.

(** ** The most specific entry as a set of words *)

Definition for_isa (isa : Isa) (t : list entry) : list entry :=
  filter (fun e => existsb (fun i => match i, isa with Rv32, Rv32 | Rv64, Rv64 => true | _, _ => false end)
                           (e_isas e)) t.
Lemma for_isa_in isa t e : In e (for_isa isa t) <-> In e t /\ In isa (e_isas e).
Proof.
  unfold for_isa. rewrite filter_In, existsb_exists. split; intros [A B]; (split; [exact A|]).
  - destruct B as [i [I E]]. destruct i, isa; try discriminate E; exact I.
  - exists isa. split; [exact B|]. destruct isa; reflexivity.
Qed.

Definition enc_of (n : nat) (t : list entry) (e : entry) : enc :=
  {| incl := [pattern_of n e];
     excl := map (pattern_of n) (filter (fun e' => negb (Z.land (e_mask e') (e_mask e) =? e_mask e')) t) |}.

Lemma most_specific_enc n t isa w e : forallb (fits (Z.of_nat n)) t = true ->
  most_specific t isa w e <->
  In e (for_isa isa t) /\ in_enc (enc_of n (for_isa isa t) e) w = true.
Proof.
  intros F. rewrite forallb_forall in F. unfold most_specific, hits, in_enc, enc_of. cbn [incl excl existsb].
  rewrite orb_false_r, for_isa_in.
  split.
  - intros [I [[A B] C]]. split; [split; assumption|].
    apply (pattern_of_ok n e w (F e I)) in B. rewrite B.
    apply negb_true_iff. apply not_true_iff_false. intros X. apply existsb_exists in X.
    destruct X as [q [Hq M]]. apply in_map_iff in Hq. destruct Hq as [e' [<- Hq]].
    apply filter_In in Hq. destruct Hq as [I' N]. apply for_isa_in in I'. destruct I' as [I' A'].
    apply (pattern_of_ok n e' w (F e' I')) in M.
    specialize (C e' I' (conj A' M)). unfold coarser in C. rewrite C, Z.eqb_refl in N. discriminate N.
  - intros [[I A] H]. destruct (matches (pattern_of n e) w) eqn:M; [|discriminate H].
    apply (pattern_of_ok n e w (F e I)) in M. split; [exact I|]. split; [split; assumption|].
    intros e' I' [A' M']. apply (pattern_of_ok n e' w (F e' I')) in M'.
    unfold coarser. apply negb_true_iff in H. apply not_true_iff_false in H.
    destruct (Z.eqb_spec (Z.land (e_mask e') (e_mask e)) (e_mask e')) as [E'|N]; [exact E'|].
    exfalso. apply H. apply existsb_exists. exists (pattern_of n e'). split; [|exact M'].
    apply in_map. apply filter_In. split; [apply for_isa_in; split; assumption|].
    apply negb_true_iff. apply Z.eqb_neq. exact N.
Qed.

(** ** Comparison with the rows *)

Definition rows_with (t : list row) (op : OpcodeKind) : list row :=
  filter (fun r => dec2b (OpcodeKind_dec (r_op r) op)) t.
Lemma rows_with_in t op r : In r (rows_with t op) <-> In r t /\ r_op r = op.
Proof.
  unfold rows_with. rewrite filter_In. split; intros [A B]; (split; [exact A|]).
  - apply dec2b_true in B. exact B.
  - rewrite B. apply dec2b_refl.
Qed.

(** Entry [e] of [t], away from [x], is a row of [tt] for its opcode. *)
Notation entry_ok n tt t isa x e :=
  (implies (FAnd (enc_form (enc_of n t e)) (FNot x)) (some_row (rows_with tt (e_op e)) isa)).
(** Every word of a row has a most specific entry with its opcode. *)
Notation row_ok n t isa r :=
  (implies (enc_form (r_acc r isa))
    (fold_right (fun e f => FOr (enc_form (enc_of n t e)) f) FFalse
       (filter (fun e => dec2b (OpcodeKind_dec (e_op e) (r_op r))) t))).

Lemma fits32 : forallb (fits (Z.of_nat 32)) (masks32 ++ wider32) = true.
Proof. vm_compute. reflexivity. Qed.
Lemma fits16 : forallb (fits (Z.of_nat 16)) (masks16 ++ wider16) = true.
Proof. vm_compute. reflexivity. Qed.

Lemma entries32 isa : forallb (fun e => entry_ok 32%nat table32 (for_isa isa (masks32 ++ wider32)) isa FFalse e)
  (for_isa isa (masks32 ++ wider32)) = true.
Proof. destruct isa; vm_compute; reflexivity. Qed.
Lemma rows32_have isa : forallb (fun r => row_ok 32%nat (for_isa isa (masks32 ++ wider32)) isa r) table32 = true.
Proof. destruct isa; vm_compute; reflexivity. Qed.
Definition zero16 : form := FPat (pat "000 0 00000 00000 00").
Lemma entries16 isa : forallb (fun e => entry_ok 16%nat table16 (for_isa isa (masks16 ++ wider16)) isa zero16 e)
  (for_isa isa (masks16 ++ wider16)) = true.
Proof. destruct isa; vm_compute; reflexivity. Qed.
Lemma rows16_have isa : forallb (fun r => row_ok 16%nat (for_isa isa (masks16 ++ wider16)) isa r) table16 = true.
Proof. destruct isa; vm_compute; reflexivity. Qed.

Lemma fold_entries n t w l : sem (fold_right (fun e f => FOr (enc_form (enc_of n t e)) f) FFalse l) 0 w = true ->
  exists e, In e l /\ in_enc (enc_of n t e) w = true.
Proof.
  induction l as [|e l IH]; intros H; [discriminate H|]. cbn [fold_right sem] in H.
  apply orb_true_iff in H. destruct H as [H|H].
  - rewrite enc_sem in H. exists e. split; [left; reflexivity|exact H].
  - destruct (IH H) as [x [I X]]. exists x. split; [right; exact I|exact X].
Qed.

Lemma entry_row n tt t isa x e w : entry_ok n tt (for_isa isa t) isa x e = true ->
  in_enc (enc_of n (for_isa isa t) e) w = true -> sem x 0 w = false ->
  exists r, In r tt /\ r_op r = e_op e /\ in_enc (r_acc r isa) w = true.
Proof.
  intros H He Hx. assert (K : sem (FAnd (enc_form (enc_of n (for_isa isa t) e)) (FNot x)) 0 w = true).
  { cbn [sem]. rewrite enc_sem, He, Hx. reflexivity. }
  pose proof (some_row_ok _ _ _ (implies_ok _ _ w H K)) as [r [I A]].
  apply rows_with_in in I. destruct I as [I E]. exists r. split; [exact I|]. split; [exact E|exact A].
Qed.

Lemma row_entry n t isa r w : row_ok n (for_isa isa t) isa r = true -> in_enc (r_acc r isa) w = true ->
  exists e, In e (for_isa isa t) /\ e_op e = r_op r /\ in_enc (enc_of n (for_isa isa t) e) w = true.
Proof.
  intros H He. rewrite <- enc_sem in He.
  destruct (fold_entries _ _ _ _ (implies_ok _ _ w H He)) as [e [I A]].
  apply filter_In in I. destruct I as [I E]. apply dec2b_true in E.
  exists e. split; [exact I|]. split; [exact E|exact A].
Qed.

Lemma exact32 p isa w op : platform_ok p -> is_u32 w ->
  (exists i, decode_u32 p w isa = Ret (Ok i) /\ opc i = op) <->
  (exists e, most_specific (masks32 ++ wider32) isa w e /\ e_op e = op).
Proof.
  intros Hp Hw. split.
  - intros [i [D <-]]. destruct (ok32 _ _ _ _ Hp Hw D) as [r [Hr [Ha ->]]].
    pose proof (rows32_have isa) as R. rewrite forallb_forall in R.
    destruct (row_entry _ _ _ _ _ (R r Hr) Ha) as [e [I [E A]]].
    exists e. split; [|exact E].
    refine (proj2 (most_specific_enc 32 (masks32 ++ wider32) isa w e fits32) _). split; assumption.
  - intros [e [M <-]]. destruct (proj1 (most_specific_enc 32 (masks32 ++ wider32) isa w e fits32) M) as [I A].
    pose proof (entries32 isa) as T. rewrite forallb_forall in T.
    destruct (entry_row _ _ _ _ _ _ _ (T e I) A eq_refl) as [r [Hr [E Ha]]].
    exists (reads r isa false w). split; [apply row32; assumption|exact E].
Qed.

Lemma zero16_ok w : is_u16 w -> w <> 0 -> sem zero16 0 w = false.
Proof.
  intros Hw N. apply not_true_iff_false. intros H. apply N.
  assert (B : forall k, 0 <= k < 16 -> Z.testbit w k = false).
  { intros k Hk. change (matches_at (Z.of_nat 0) (map (fun _ => Some false) (seq 0 16)) w = true) in H.
    pose proof (proj1 (matches_at_all _ _ _ _) H (Z.to_nat k) ltac:(lia) false eq_refl) as K.
    rewrite Z2Nat.id in K by lia. exact K. }
  apply Z.bits_inj'. intros k Hk. rewrite Z.bits_0.
  destruct (Z.lt_ge_cases k 16); [apply B; lia|].
  destruct (Z.eq_dec w 0) as [->|W]; [apply Z.bits_0|]. unfold is_u16 in Hw.
  apply Z.bits_above_log2; [lia|]. apply Z.lt_le_trans with 16; [|lia]. apply Z.log2_lt_pow2; lia.
Qed.

Lemma exact16 p isa w op : platform_ok p -> is_u16 w -> w <> 0 ->
  (exists i, decode_u16 p w isa = Ret (Ok i) /\ opc i = op) <->
  (exists e, most_specific (masks16 ++ wider16) isa w e /\ e_op e = op).
Proof.
  intros Hp Hw N. split.
  - intros [i [D <-]]. destruct (ok16 _ _ _ _ Hp Hw D) as [r [Hr [Ha ->]]].
    pose proof (rows16_have isa) as R. rewrite forallb_forall in R.
    destruct (row_entry _ _ _ _ _ (R r Hr) Ha) as [e [I [E A]]].
    exists e. split; [|exact E].
    refine (proj2 (most_specific_enc 16 (masks16 ++ wider16) isa w e fits16) _). split; assumption.
  - intros [e [M <-]]. destruct (proj1 (most_specific_enc 16 (masks16 ++ wider16) isa w e fits16) M) as [I A].
    pose proof (entries16 isa) as T. rewrite forallb_forall in T.
    destruct (entry_row _ _ _ _ _ _ _ (T e I) A (zero16_ok w Hw N)) as [r [Hr [E Ha]]].
    exists (reads r isa true w). split; [apply row16; assumption|exact E].
Qed.

(** ** The constants of the standard alone *)

Lemma fits_std32 : forallb (fits (Z.of_nat 32)) masks32 = true.
Proof. vm_compute. reflexivity. Qed.
Lemma fits_std16 : forallb (fits (Z.of_nat 16)) masks16 = true.
Proof. vm_compute. reflexivity. Qed.

Definition is_csrrs (op : OpcodeKind) : bool := match op with OZicsr Csr_CSRRS => true | _ => false end.
Definition is_cadd (op : OpcodeKind) : bool := match op with OC C_ADD => true | _ => false end.
Lemma std32 isa : forallb (fun e => entry_ok 32%nat table32 (for_isa isa masks32) isa
    (if is_csrrs (e_op e) then enc_form counters_any else FFalse) e) (for_isa isa masks32) = true.
Proof. destruct isa; vm_compute; reflexivity. Qed.
Lemma std32_csrrs isa : forallb (fun e => if is_csrrs (e_op e)
    then implies (FAnd (enc_form (enc_of 32 (for_isa isa masks32) e)) (enc_form counters_any))
                 (some_row zicntr_ext isa) else true) (for_isa isa masks32) = true.
Proof. destruct isa; vm_compute; reflexivity. Qed.

Definition rd_zero16 : form := FPat (pat "... . 00000 ..... ..").
Lemma std16 isa : forallb (fun e => entry_ok 16%nat table16 (for_isa isa masks16) isa
    (FOr zero16 (if is_cadd (e_op e) then rd_zero16 else FFalse)) e) (for_isa isa masks16) = true.
Proof. destruct isa; vm_compute; reflexivity. Qed.
Lemma std16_cadd isa : forallb (fun e => if is_cadd (e_op e)
    then implies (FAnd (enc_form (enc_of 16 (for_isa isa masks16) e)) rd_zero16)
                 (some_row (rows_with table16 (OC C_EBREAK)) isa) else true) (for_isa isa masks16) = true.
Proof. destruct isa; vm_compute; reflexivity. Qed.

Lemma if_then (b x : bool) : b = true -> (if b then x else true) = true -> x = true.
Proof. intros ->. exact (fun H => H). Qed.
Lemma if_form (b : bool) f w : b && sem f 0 w = false -> sem (if b then f else FFalse) 0 w = false.
Proof. destruct b; [exact (fun H => H)|reflexivity]. Qed.
Lemma and_form f g w : sem f 0 w = true -> sem g 0 w = true -> sem (FAnd f g) 0 w = true.
Proof. intros A B. cbn [sem]. rewrite A, B. reflexivity. Qed.
Lemma or_form f g w : sem f 0 w = false -> sem g 0 w = false -> sem (FOr f g) 0 w = false.
Proof. intros A B. cbn [sem]. rewrite A, B. reflexivity. Qed.
Lemma enc_in e w : in_enc e w = true -> sem (enc_form e) 0 w = true.
Proof. rewrite enc_sem. exact (fun H => H). Qed.
Lemma counters_in w : sem (enc_form counters_any) 0 w = true <-> In (field w 31 20) counter_csrs.
Proof.
  rewrite enc_sem, counters_any_ok, existsb_exists. split.
  - intros [x [I E]]. apply Z.eqb_eq in E. rewrite E. exact I.
  - intros I. exists (field w 31 20). split; [exact I|apply Z.eqb_refl].
Qed.

Lemma rd_zero_ok w : sem rd_zero16 0 w = true <-> field w 11 7 = 0.
Proof.
  set (f := fun k : nat => if ((7 <=? k) && (k <=? 11))%nat then Some false else None).
  change (sem rd_zero16 0 w) with (matches_at (Z.of_nat 0) (map f (seq 0 16)) w).
  rewrite matches_at_all. unfold f. clear f. split.
  - intros H. apply Z.bits_inj'. intros n Hn. rewrite Z.bits_0, field_testbit by lia.
    destruct (Z.ltb_spec n (11 - 7 + 1)); [|apply andb_false_r].
    specialize (H (Z.to_nat (7 + n)) ltac:(lia) false). rewrite Z2Nat.id in H by lia.
    rewrite H; [reflexivity|].
    replace ((7 <=? Z.to_nat (7 + n)) && (Z.to_nat (7 + n) <=? 11))%nat with true; [reflexivity|].
    symmetry. apply andb_true_iff. split; apply Nat.leb_le; lia.
  - intros F k Hk b. destruct ((7 <=? k) && (k <=? 11))%nat eqn:R; intros Hb; [|discriminate Hb].
    injection Hb as <-. apply andb_true_iff in R. destruct R as [R1 R2].
    apply Nat.leb_le in R1, R2.
    assert (T : Z.testbit (field w 11 7) (Z.of_nat k - 7) = false) by (rewrite F; apply Z.bits_0).
    rewrite field_testbit in T by lia. replace (7 + (Z.of_nat k - 7)) with (Z.of_nat k) in T by lia.
    destruct (Z.ltb_spec (Z.of_nat k - 7) (11 - 7 + 1)); [|lia]. rewrite andb_true_r in T. exact T.
Qed.

Lemma standard32 p isa w e : platform_ok p -> is_u32 w -> most_specific masks32 isa w e ->
  exists i, decode_u32 p w isa = Ret (Ok i) /\
    (opc i = e_op e <-> ~ (e_op e = OZicsr Csr_CSRRS /\ In (field w 31 20) counter_csrs)).
Proof.
  intros Hp Hw M. destruct (proj1 (most_specific_enc 32 masks32 isa w e fits_std32) M) as [I A]. clear M.
  destruct (is_csrrs (e_op e) && sem (enc_form counters_any) 0 w) eqn:X.
  - apply andb_true_iff in X. destruct X as [C Y].
    pose proof (std32_csrrs isa) as T. rewrite forallb_forall in T. specialize (T e I). apply (if_then _ _ C) in T.
    pose proof (and_form _ _ w (enc_in _ w A) Y) as K.
    destruct (some_row_ok _ _ _ (implies_ok _ _ w T K)) as [r [Hr Ha]].
    pose proof Findings.zicntr_ops as Z. rewrite forallb_forall in Z. specialize (Z r Hr).
    assert (Ht : In r table32) by (unfold table32; rewrite !in_app_iff; tauto).
    exists (reads r isa false w). split; [apply row32; assumption|].
    change (opc (reads r isa false w)) with (r_op r).
    assert (Ec : e_op e = OZicsr Csr_CSRRS)
      by (destruct (e_op e) as [| | | | | |o| | |]; try discriminate C; destruct o; try discriminate C; reflexivity).
    split.
    + intros E. rewrite E, Ec in Z. discriminate Z.
    + intros N. exfalso. apply N. split; [exact Ec|]. apply counters_in. exact Y.
  - pose proof (std32 isa) as T. rewrite forallb_forall in T. specialize (T e I).
    pose proof (if_form _ _ w X) as Y.
    destruct (entry_row _ _ _ _ _ _ _ T A Y) as [r [Hr [E Ha]]].
    exists (reads r isa false w). split; [apply row32; assumption|].
    change (opc (reads r isa false w)) with (r_op r). split; [|intros _; exact E].
    intros _ [C D]. rewrite C in X. apply counters_in in D. rewrite D in X. discriminate X.
Qed.

Lemma standard16 p isa w e : platform_ok p -> is_u16 w -> w <> 0 -> most_specific masks16 isa w e ->
  exists i, decode_u16 p w isa = Ret (Ok i) /\
    (opc i = e_op e <-> ~ (e_op e = OC C_ADD /\ field w 11 7 = 0)).
Proof.
  intros Hp Hw N M. destruct (proj1 (most_specific_enc 16 masks16 isa w e fits_std16) M) as [I A]. clear M.
  destruct (is_cadd (e_op e) && sem rd_zero16 0 w) eqn:X.
  - apply andb_true_iff in X. destruct X as [C Y].
    pose proof (std16_cadd isa) as T. rewrite forallb_forall in T. specialize (T e I). apply (if_then _ _ C) in T.
    pose proof (and_form _ _ w (enc_in _ w A) Y) as K.
    destruct (some_row_ok _ _ _ (implies_ok _ _ w T K)) as [r [Hr Ha]].
    apply rows_with_in in Hr. destruct Hr as [Hr E].
    exists (reads r isa true w). split; [apply row16; assumption|].
    change (opc (reads r isa true w)) with (r_op r). rewrite E.
    assert (Ec : e_op e = OC C_ADD)
      by (destruct (e_op e) as [| | |o| | | | | |]; try discriminate C; destruct o; try discriminate C; reflexivity).
    split; [rewrite Ec; discriminate|].
    intros D. exfalso. apply D. split; [exact Ec|]. apply rd_zero_ok. exact Y.
  - pose proof (std16 isa) as T. rewrite forallb_forall in T. specialize (T e I).
    pose proof (or_form _ _ w (zero16_ok w Hw N) (if_form _ _ w X)) as Y.
    destruct (entry_row _ _ _ _ _ _ _ T A Y) as [r [Hr [E Ha]]].
    exists (reads r isa true w). split; [apply row16; assumption|].
    change (opc (reads r isa true w)) with (r_op r). split; [|intros _; exact E].
    intros _ [C D]. rewrite C in X. apply rd_zero_ok in D. rewrite D in X. discriminate X.
Qed.

Lemma unrecognised32 p isa w : platform_ok p -> is_u32 w ->
  (forall e, In e (masks32 ++ wider32) -> ~ hits e isa w) -> exists err, decode_u32 p w isa = Ret (Err err).
Proof.
  intros Hp Hw N. destruct (total32 p isa w Hp Hw) as [[i|err] D]; [exfalso|exists err; exact D].
  destruct (proj1 (exact32 p isa w (opc i) Hp Hw)) as [e [[I [H _]] _]]; [exists i; split; [exact D|reflexivity]|].
  exact (N e I H).
Qed.
Lemma unrecognised16 p isa w : platform_ok p -> is_u16 w ->
  (forall e, In e (masks16 ++ wider16) -> ~ hits e isa w) -> exists err, decode_u16 p w isa = Ret (Err err).
Proof.
  intros Hp Hw N. destruct (total16 p isa w Hp Hw) as [[i|err] D]; [exfalso|exists err; exact D].
  destruct (Z.eq_dec w 0) as [->|W].
  - apply (N {| e_op := OC C_ADDI4SPN; e_isas := both; e_mask := 0xe003; e_match := 0 |}).
    + left. reflexivity.
    + split; [destruct isa; cbn; auto|reflexivity].
  - destruct (proj1 (exact16 p isa w (opc i) Hp Hw W)) as [e [[I [H _]] _]]; [exists i; split; [exact D|reflexivity]|].
    exact (N e I H).
Qed.

Lemma recognised p isa w op : platform_ok p ->
  (is_u32 w ->
   ((exists i, decode_u32 p w isa = Ret (Ok i) /\ opc i = op) <->
    (exists e, most_specific (masks32 ++ wider32) isa w e /\ e_op e = op)) /\
   ((forall e, In e (masks32 ++ wider32) -> ~ hits e isa w) ->
    exists err, decode_u32 p w isa = Ret (Err err))) /\
  (is_u16 w ->
   (w <> 0 ->
    ((exists i, decode_u16 p w isa = Ret (Ok i) /\ opc i = op) <->
     (exists e, most_specific (masks16 ++ wider16) isa w e /\ e_op e = op))) /\
   ((forall e, In e (masks16 ++ wider16) -> ~ hits e isa w) ->
    exists err, decode_u16 p w isa = Ret (Err err))).
Proof.
  intros Hp. split; intros Hw; split.
  - apply exact32; assumption.
  - apply unrecognised32; assumption.
  - intros N. apply exact16; assumption.
  - apply unrecognised16; assumption.
Qed.

Lemma standard p isa w e : platform_ok p ->
  (is_u32 w -> most_specific masks32 isa w e ->
   exists i, decode_u32 p w isa = Ret (Ok i) /\
     (opc i = e_op e <-> ~ (e_op e = OZicsr Csr_CSRRS /\ In (field w 31 20) counter_csrs))) /\
  (is_u16 w -> w <> 0 -> most_specific masks16 isa w e ->
   exists i, decode_u16 p w isa = Ret (Ok i) /\
     (opc i = e_op e <-> ~ (e_op e = OC C_ADD /\ field w 11 7 = 0))).
Proof.
  intros Hp. split.
  - intros Hw. apply standard32; assumption.
  - intros Hw N. apply standard16; assumption.
Qed.

(** ** Concrete words *)

Definition mul_entry : entry :=
  {| e_op := OM M_MUL; e_isas := both; e_mask := 0xfe00707f; e_match := 0x2000033 |}.
Lemma mul_case : most_specific masks32 Rv32 0x02c58533 mul_entry.
Proof.
  refine (proj2 (most_specific_enc 32 masks32 Rv32 0x02c58533 mul_entry fits_std32) _). split.
  - vm_compute. tauto.
  - vm_compute. reflexivity.
Qed.
(** c.ebreak: c.add, c.jalr and c.ebreak all recognise 0x9002. *)
Definition ebreak_entry : entry :=
  {| e_op := OC C_EBREAK; e_isas := both; e_mask := 0xffff; e_match := 0x9002 |}.
Lemma ebreak_case : most_specific masks16 Rv64 0x9002 ebreak_entry.
Proof.
  refine (proj2 (most_specific_enc 16 masks16 Rv64 0x9002 ebreak_entry fits_std16) _). split.
  - vm_compute. tauto.
  - vm_compute. reflexivity.
Qed.

(** csrrs t0, cycle, a0 is read as rdcycle t0; the hint c.add zero, a0 as c.ebreak. *)
Definition csrrs_entry : entry :=
  {| e_op := OZicsr Csr_CSRRS; e_isas := both; e_mask := 0x707f; e_match := 0x2073 |}.
Definition cadd_entry : entry :=
  {| e_op := OC C_ADD; e_isas := both; e_mask := 0xf003; e_match := 0x9002 |}.
Definition plat64 : platform := {| overflow_checks := true; usize_bits := 64 |}.
Lemma standard_refuted :
  (exists p isa w e i, platform_ok p /\ is_u32 w /\ most_specific masks32 isa w e /\
     decode_u32 p w isa = Ret (Ok i) /\ opc i <> e_op e) /\
  (exists p isa w e i, platform_ok p /\ is_u16 w /\ w <> 0 /\ most_specific masks16 isa w e /\
     decode_u16 p w isa = Ret (Ok i) /\ opc i <> e_op e).
Proof.
  split.
  - exists plat64, Rv64, 0xc00522f3, csrrs_entry. eexists.
    split; [right; right; reflexivity|]. split; [unfold is_u32; lia|].
    split; [|split; [vm_compute; reflexivity|discriminate]].
    refine (proj2 (most_specific_enc 32 masks32 Rv64 0xc00522f3 csrrs_entry fits_std32) _). split.
    + vm_compute. tauto.
    + vm_compute. reflexivity.
  - exists plat64, Rv64, 0x902a, cadd_entry. eexists.
    split; [right; right; reflexivity|]. split; [unfold is_u16; lia|]. split; [lia|].
    split; [|split; [vm_compute; reflexivity|discriminate]].
    refine (proj2 (most_specific_enc 16 masks16 Rv64 0x902a cadd_entry fits_std16) _). split.
    + vm_compute. tauto.
    + vm_compute. reflexivity.
Qed.
