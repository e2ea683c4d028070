(** Proofs for C58. *)
From Coq Require Import ZArith List Bool Lia String.
From Verif Require Import Rust Types DecodeUtil Dec32 Dec16 Decode Spec Util Plat Exact32 Exact16
  Pat Rows Rows2 Masks SpecMask SpecOps SpecBlame.
From Verif Require Text.
Import ListNotations.
Local Open Scope list_scope.
Local Open Scope Z_scope.

(** ** Formulas about a word of which only some bits are kept *)

(** Bits of [m] from [w], the others from [c]. *)
Definition replaced (m c w : Z) : Z := Z.lor (Z.land w m) (Z.ldiff c m).
Lemma replaced_bit m c w k : Z.testbit (replaced m c w) k = if Z.testbit m k then Z.testbit w k else Z.testbit c k.
Proof.
  unfold replaced. rewrite Z.lor_spec, Z.land_spec, Z.ldiff_spec.
  destruct (Z.testbit m k), (Z.testbit w k), (Z.testbit c k); reflexivity.
Qed.

Fixpoint subst_pat (m c k : Z) (p : pattern) : option pattern :=
  match p with
  | [] => Some []
  | None :: p' => match subst_pat m c (k + 1) p' with Some q => Some (None :: q) | None => None end
  | Some b :: p' =>
      match subst_pat m c (k + 1) p' with
      | None => None
      | Some q => if Z.testbit m k then Some (Some b :: q)
                  else if Bool.eqb (Z.testbit c k) b then Some (None :: q) else None
      end
  end.
Lemma subst_pat_ok m c w p : forall k,
  matches_at k p (replaced m c w) =
  match subst_pat m c k p with Some q => matches_at k q w | None => false end.
Proof.
  induction p as [|[b|] p IH]; intros k; [reflexivity| |]; cbn [matches_at subst_pat]; rewrite IH, ?replaced_bit.
  - destruct (subst_pat m c (k + 1) p) as [q|].
    + destruct (Z.testbit m k); [reflexivity|]. destruct (Bool.eqb (Z.testbit c k) b); reflexivity.
    + match goal with |- (if ?x then _ else _) = _ => destruct x; reflexivity end.
  - destruct (subst_pat m c (k + 1) p); reflexivity.
Qed.

Fixpoint subst_form (m c : Z) (f : form) : form :=
  match f with
  | FTrue => FTrue
  | FFalse => FFalse
  | FPat p => match subst_pat m c 0 p with Some q => FPat q | None => FFalse end
  | FAnd a b => FAnd (subst_form m c a) (subst_form m c b)
  | FOr a b => FOr (subst_form m c a) (subst_form m c b)
  | FNot a => FNot (subst_form m c a)
  end.
Lemma subst_form_ok m c w f : sem (subst_form m c f) 0 w = sem f 0 (replaced m c w).
Proof.
  induction f; cbn [subst_form sem]; try congruence; try reflexivity.
  rewrite subst_pat_ok. destruct (subst_pat m c 0 p); reflexivity.
Qed.

Fixpoint simp (f : form) : form :=
  match f with
  | FAnd a b => mk_and (simp a) (simp b)
  | FOr a b => mk_or (simp a) (simp b)
  | FNot a => mk_not (simp a)
  | _ => f
  end.
Lemma simp_ok f k w : sem (simp f) k w = sem f k w.
Proof.
  induction f; cbn [simp]; rewrite ?mk_and_sem, ?mk_or_sem, ?mk_not_sem; cbn [sem]; congruence.
Qed.

(** Some completion of the bits of [m] is in [f]. *)
Definition reach (m : Z) (cs : list Z) (f : form) : form :=
  fold_right (fun c g => mk_or (simp (subst_form m c f)) g) FFalse cs.
Lemma reach_ok m cs f w : sem (reach m cs f) 0 w = existsb (fun c => sem f 0 (replaced m c w)) cs.
Proof.
  induction cs as [|c cs IH]; [reflexivity|]. cbn [reach fold_right existsb].
  rewrite mk_or_sem, simp_ok, subst_form_ok. unfold reach in IH. rewrite IH. reflexivity.
Qed.

Lemma replaced_same_in m c w : same_in m w (replaced m c w).
Proof.
  unfold same_in. apply Z.bits_inj'. intros k _. rewrite !Z.land_spec, replaced_bit.
  destruct (Z.testbit m k); rewrite ?andb_true_r, ?andb_false_r; reflexivity.
Qed.
Lemma replaced_range n m c w : 0 <= n -> 0 <= w < 2 ^ n -> 0 <= c < 2 ^ n -> 0 <= replaced m c w < 2 ^ n.
Proof.
  intros N Hw Hc.
  assert (T : forall x k, 0 <= x < 2 ^ n -> n <= k -> Z.testbit x k = false).
  { intros x k Hx Hk. destruct (Z.eq_dec x 0) as [->|]; [apply Z.testbit_0_l|].
    apply Z.bits_above_log2; [lia|]. apply Z.lt_le_trans with n; [apply Z.log2_lt_pow2; lia|exact Hk]. }
  assert (E : replaced m c w = replaced m c w mod 2 ^ n).
  { apply Z.bits_inj'. intros k Hk. destruct (Z.lt_ge_cases k n).
    - rewrite Z.mod_pow2_bits_low by assumption. reflexivity.
    - rewrite Z.mod_pow2_bits_high by lia. rewrite replaced_bit, (T w k), (T c k) by assumption.
      destruct (Z.testbit m k); reflexivity. }
  rewrite E. apply Z.mod_pos_bound. lia.
Qed.

Lemma reach_exact n m cs f w : 0 <= n -> 0 <= w < 2 ^ n ->
  forallb (fun c => (0 <=? c) && (c <? 2 ^ n)) cs = true -> implies f (reach m cs f) = true ->
  (sem (reach m cs f) 0 w = true <->
   exists w', 0 <= w' < 2 ^ n /\ same_in m w w' /\ sem f 0 w' = true).
Proof.
  intros N Hw Hc C. split.
  - rewrite reach_ok, existsb_exists. intros [c [I S]]. exists (replaced m c w).
    rewrite forallb_forall in Hc. specialize (Hc c I). apply andb_true_iff in Hc.
    rewrite Z.leb_le, Z.ltb_lt in Hc. auto using replaced_range, replaced_same_in.
  - intros [w' [_ [E S]]]. apply (implies_ok _ _ _ C) in S. rewrite reach_ok in S |- *.
    assert (R : forall c, replaced m c w = replaced m c w') by (intros c; unfold replaced; rewrite E; reflexivity).
    rewrite <- S. clear - R. induction cs as [|c cs IH]; [reflexivity|]. cbn [existsb]. rewrite IH, R. reflexivity.
Qed.

Definition rest (m : Z) : Z := Z.lxor m 0xFFFFFFFF.
Lemma same_but_in m w w' : 0 <= w < 2 ^ 32 -> 0 <= w' < 2 ^ 32 -> (same_but m w w' <-> same_in (rest m) w w').
Proof.
  intros Hw Hw'. unfold same_but, same_in, rest.
  assert (T : forall x, 0 <= x < 2 ^ 32 -> Z.land x (Z.lxor m 0xFFFFFFFF) = Z.ldiff x m).
  { intros x Hx. apply Z.bits_inj'. intros k Hk. rewrite Z.land_spec, Z.ldiff_spec, Z.lxor_spec.
    change 0xFFFFFFFF with (Z.ones 32). destruct (Z.lt_ge_cases k 32).
    - rewrite Z.ones_spec_low by lia. rewrite xorb_true_r. reflexivity.
    - assert (Z.testbit x k = false) as ->; [|reflexivity].
      destruct (Z.eq_dec x 0) as [->|]; [apply Z.testbit_0_l|].
      apply Z.bits_above_log2; [lia|]. apply Z.lt_le_trans with 32; [apply Z.log2_lt_pow2; lia|assumption]. }
  rewrite !T by assumption. reflexivity.
Qed.

(** ** Acceptance as a formula *)

Lemma some_row_iff rs isa w : sem (some_row rs isa) 0 w = true <->
  exists r, In r rs /\ in_enc (r_acc r isa) w = true.
Proof.
  split; [apply some_row_ok|].
  induction rs as [|r rs IH]; intros [x [I H]]; [destruct I|]. cbn [some_row fold_right sem].
  rewrite orb_true_iff, enc_sem. destruct I as [->|I]; [left; exact H|right; apply IH; exists x; auto].
Qed.

Definition accepted (p : platform) (isa : Isa) (w : Z) : Prop := exists i, decode_u32 p w isa = Ret (Ok i).
Lemma accepted_form p isa w : platform_ok p -> is_u32 w ->
  (sem (some_row table32 isa) 0 w = true <-> accepted p isa w).
Proof.
  intros Hp Hw. rewrite some_row_iff. split.
  - intros [r [I E]]. eexists. exact (row32 p isa w r Hp Hw I E).
  - intros [i D]. destruct (ok32 p isa w i Hp Hw D) as [r [I [E _]]]. exists r. auto.
Qed.
Definition accepted16 (p : platform) (isa : Isa) (w : Z) : Prop := exists i, decode_u16 p w isa = Ret (Ok i).
Lemma accepted16_form p isa w : platform_ok p -> is_u16 w ->
  (sem (some_row table16 isa) 0 w = true <-> accepted16 p isa w).
Proof.
  intros Hp Hw. rewrite some_row_iff. split.
  - intros [r [I E]]. eexists. exact (row16 p isa w r Hp Hw I E).
  - intros [i D]. destruct (ok16 p isa w i Hp Hw D) as [r [I [E _]]]. exists r. auto.
Qed.

Lemma err_form32 p isa w e : platform_ok p -> is_u32 w -> decode_u32 p w isa = Ret (Err e) ->
  sem (some_err (filter (is_err e) errors32) isa) 0 w = true.
Proof.
  intros Hp Hw D. destruct (bad32 p isa w e Hp Hw D) as [r [I [E ->]]].
  assert (J : In r (filter (is_err (e_err r)) errors32)).
  { apply filter_In. split; [exact I|]. unfold is_err, dec2b. destruct (DecodingError_dec _ _); congruence. }
  revert J. generalize (filter (is_err (e_err r)) errors32) as l. induction l as [|x l IH]; [intros []|].
  intros [->|J]; cbn [some_err fold_right sem].
  - rewrite enc_sem, E. reflexivity.
  - unfold some_err in IH. rewrite (IH J), orb_true_r. reflexivity.
Qed.
Lemma err_form16 p isa w e : platform_ok p -> is_u16 w -> decode_u16 p w isa = Ret (Err e) ->
  sem (some_err (filter (is_err e) errors16) isa) 0 w = true.
Proof.
  intros Hp Hw D. destruct (bad16 p isa w e Hp Hw D) as [r [I [E ->]]].
  assert (J : In r (filter (is_err (e_err r)) errors16)).
  { apply filter_In. split; [exact I|]. unfold is_err, dec2b. destruct (DecodingError_dec _ _); congruence. }
  revert J. generalize (filter (is_err (e_err r)) errors16) as l. induction l as [|x l IH]; [intros []|].
  intros [->|J]; cbn [some_err fold_right sem].
  - rewrite enc_sem, E. reflexivity.
  - unfold some_err in IH. rewrite (IH J), orb_true_r. reflexivity.
Qed.

(** ** Which words can be saved *)

Definition ent (m v : Z) : entry := {| e_op := OBaseI I_LUI; e_isas := []; e_mask := m; e_match := v |}.
Definition masked (m v : Z) : form := FPat (pattern_of 32 (ent m v)).
Lemma ent_ok m v w : fits (Z.of_nat 32) (ent m v) = true ->
  (Z.land w (e_mask (ent m v)) = e_match (ent m v) <-> matches (pattern_of 32 (ent m v)) w = true).
Proof. exact (pattern_of_ok 32 (ent m v) w). Qed.
Lemma pat_sem q w : sem (FPat q) 0 w = matches q w.
Proof. reflexivity. Qed.
Lemma masked_ok m v w : fits (Z.of_nat 32) (ent m v) = true ->
  (sem (masked m v) 0 w = true <-> Z.land w m = v).
Proof.
  intros H. unfold masked. rewrite pat_sem, <- (ent_ok m v w H). reflexivity.
Qed.

(** Completions: bits that are right for some instruction. *)
Definition complete (e : DecodingError) : list Z :=
  match e with
  | InvalidOpcode => [0; 0x2000]
  | InvalidFunct3 => [0; 0xCE100000; 0x02000000; 0x00400000; 0x48000000]
  | InvalidFunct5 => [0; 0x8000]
  | InvalidFunct6 => [0; 0xCE100000; 0x00400000; 0x10200000]
  | InvalidFunct7 => [0; 0x00100000; 0x01C00000; 0x00400000; 0x00200000]
  | _ => []
  end.
Definition values (e : DecodingError) : list Z :=
  match e with
  | InvalidOpcode => [0x37]
  | InvalidFunct3 => map (fun k => k * 2 ^ 12) [0; 1; 2; 3; 4; 5; 6; 7]
  | InvalidFunct5 => map (fun k => k * 2 ^ 20) [0; 1; 2; 4; 5; 0x1C]
  | InvalidFunct6 => map (fun k => k * 2 ^ 26) [0; 0x04; 0x0C; 0x12; 0x33]
  | InvalidFunct7 => map (fun k => k * 2 ^ 25) [0; 0x01; 0x08; 0x09; 0x18; 0x20; 0x24; 0x66; 0x67]
  | _ => []
  end.
Definition acc (isa : Isa) : form := some_row table32 isa.
Definition wrong (e : DecodingError) (isa : Isa) : form := some_err (filter (is_err e) errors32) isa.
Definition mis (isa : Isa) (e : DecodingError) : form :=
  match e with
  | InvalidOpcode => FOr (masked 0x7F 0x0F) (masked 0x7F 0x73)
  | InvalidFunct3 => match isa with Rv32 => FFalse | Rv64 =>
      FAnd (masked 0x7F 0x3B) (FNot (FOr (masked 0x7000 (2 * 2 ^ 12)) (masked 0x7000 (3 * 2 ^ 12)))) end
  | InvalidFunct7 => FAnd (masked 0x7F 0x73)
      (FOr (masked 0xFE000000 (0x08 * 2 ^ 25)) (masked 0xFE000000 (0x18 * 2 ^ 25)))
  | _ => FFalse
  end.
Definition inc (isa : Isa) : form :=
  match isa with Rv32 => FOr (masked 0x7F 0x1B) (masked 0x7F 0x3B) | Rv64 => FFalse end.

Definition small (l : list Z) : bool := forallb (fun c => (0 <=? c) && (c <? 2 ^ 32)) l.
Definition check (isa : Isa) (e : DecodingError) : bool :=
  let r := reach (looked_up e) (complete e) (acc isa) in
  let c := reach (rest (named e)) (values e) (acc isa) in
  small (complete e) && small (values e) &&
  implies (acc isa) r && implies (acc isa) c &&
  implies (wrong e isa) (FOr (FAnd r (mis isa e)) (FAnd (FNot r) (FNot (mis isa e)))) &&
  implies (wrong e isa) (FOr (FAnd c (FNot (inc isa))) (FAnd (FNot c) (inc isa))).
Lemma check_all : forallb (fun e => check Rv32 e && check Rv64 e) blamable = true.
Proof. vm_compute. reflexivity. Qed.
Lemma check_ok isa e : In e blamable -> check isa e = true.
Proof.
  intros I. pose proof check_all as H. rewrite forallb_forall in H. specialize (H e I).
  apply andb_true_iff in H. destruct H as [H1 H2]. destruct isa; [exact H1|exact H2].
Qed.

Lemma sem_or a b w : sem (FOr a b) 0 w = true <-> sem a 0 w = true \/ sem b 0 w = true.
Proof. apply orb_true_iff. Qed.
Lemma sem_and a b w : sem (FAnd a b) 0 w = true <-> sem a 0 w = true /\ sem b 0 w = true.
Proof. apply andb_true_iff. Qed.
Lemma sem_not a w : sem (FNot a) 0 w = true <-> ~ sem a 0 w = true.
Proof. cbn [sem]. rewrite negb_true_iff. symmetry. apply not_true_iff_false. Qed.
Lemma sem_false w (P : Prop) : ~ P -> (sem FFalse 0 w = true <-> P).
Proof. intros H. split; [discriminate|intros K; destruct (H K)]. Qed.
Ltac fit := vm_compute; reflexivity.

Lemma mis_ok isa e w : In e blamable -> (sem (mis isa e) 0 w = true <-> misplaced isa e w).
Proof.
  intros I. unfold mis, misplaced, opcode_is, funct3_is, funct7_is.
  destruct e; try (apply sem_false; intros []).
  - destruct isa; [apply sem_false; intros [E _]; discriminate E|].
    rewrite sem_and, sem_not, sem_or, !masked_ok by fit.
    split; [intros [A B]; auto|intros [_ [A B]]; auto].
  - rewrite sem_and, sem_or, !masked_ok by fit. reflexivity.
  - rewrite sem_or, !masked_ok by fit. reflexivity.
Qed.
Lemma inc_ok isa w : sem (inc isa) 0 w = true <-> incurable isa w.
Proof.
  unfold inc, incurable, opcode_is. destruct isa.
  - rewrite sem_or, !masked_ok by fit. tauto.
  - apply sem_false. intros [E _]. discriminate E.
Qed.

Lemma hopeless_reach p isa m w f : platform_ok p -> f = acc isa ->
  (exists w', 0 <= w' < 2 ^ 32 /\ same_in m w w' /\ sem f 0 w' = true) ->
  ~ hopeless p isa m w.
Proof.
  intros Hp -> [w' [R [E S]]] H. destruct (proj1 (accepted_form p isa w' Hp R) S) as [i D].
  exact (H w' i R E D).
Qed.

Theorem blame p isa w e : platform_ok p -> is_u32 w -> In e blamable -> decode_u32 p w isa = Ret (Err e) ->
  (hopeless p isa (looked_up e) w <-> ~ misplaced isa e w) /\
  (curable p isa (named e) w <-> ~ incurable isa w).
Proof.
  intros Hp Hw I D. apply (err_form32 p isa w e Hp Hw) in D.
  pose proof (check_ok isa e I) as C. unfold check in C. rewrite !andb_true_iff in C.
  destruct C as [[[[[C1 C2] C3] C4] C5] C6].
  pose proof (reach_exact 32 _ _ _ w ltac:(lia) Hw C1 C3) as R.
  pose proof (reach_exact 32 _ _ _ w ltac:(lia) Hw C2 C4) as Q.
  apply (implies_ok _ _ w C5) in D as D5. apply (implies_ok _ _ w C6) in D as D6.
  rewrite <- (mis_ok isa e w I), <- inc_ok. clear C1 C2 C3 C4 C5 C6 D.
  set (r := reach (looked_up e) (complete e) (acc isa)) in *.
  set (c := reach (rest (named e)) (values e) (acc isa)) in *.
  rewrite sem_or, !sem_and, !sem_not in D5, D6.
  split; split.
  - intros H M. destruct D5 as [[D5 _]|[_ D5]]; [|exact (D5 M)].
    apply R in D5. exact (hopeless_reach p isa _ w _ Hp eq_refl D5 H).
  - intros M w' i R' E D. destruct D5 as [[_ D5]|[D5 _]]; [exact (M D5)|].
    apply D5, R. exists w'.
    split; [exact R'|]. split; [exact E|]. apply (accepted_form p isa w' Hp R'). exists i. exact D.
  - intros [w' [i [R' [E D]]]] M. destruct D6 as [[_ D6]|[D6 _]]; [exact (D6 M)|].
    apply D6, Q. exists w'.
    split; [exact R'|]. split; [apply same_but_in; assumption|]. apply (accepted_form p isa w' Hp R'). exists i. exact D.
  - intros M. destruct D6 as [[D6 _]|[_ D6]]; [|exfalso; exact (M D6)].
    apply Q in D6. destruct D6 as [w' [R' [E S]]].
    destruct (proj1 (accepted_form p isa w' Hp R') S) as [i D]. exists w', i.
    split; [exact R'|]. split; [apply same_but_in; assumption|exact D].
Qed.

(** ** Half-words *)

Definition complete16 : list Z := [0; 0x0004; 0x0080; 0x1000].
Notation reach16 isa := (reach looked_up16 complete16 (some_row table16 isa)).
Notation wrong16 isa := (some_err (filter (is_err InvalidOpcode) errors16) isa).
Notation group := (masked 0xE003 0x8001).
Lemma small16 : forallb (fun c => (0 <=? c) && (c <? 2 ^ 16)) complete16 = true.
Proof. reflexivity. Qed.
Lemma cover16 isa : implies (some_row table16 isa) (reach16 isa) = true.
Proof. destruct isa; vm_compute; reflexivity. Qed.
Lemma split16 isa : implies (wrong16 isa)
  (FOr (FAnd (reach16 isa) group) (FAnd (FNot (reach16 isa)) (FNot group))) = true.
Proof. destruct isa; vm_compute; reflexivity. Qed.
Lemma exact16 isa w : is_u16 w -> (sem (reach16 isa) 0 w = true <->
  exists w', 0 <= w' < 2 ^ 16 /\ same_in looked_up16 w w' /\ sem (some_row table16 isa) 0 w' = true).
Proof.
  intros Hw. exact (reach_exact 16 looked_up16 complete16 (some_row table16 isa) w ltac:(lia) Hw small16 (cover16 isa)).
Qed.

Lemma either e r m w (P : Prop) : (sem m 0 w = true <-> P) ->
  implies e (FOr (FAnd r m) (FAnd (FNot r) (FNot m))) = true -> sem e 0 w = true ->
  (sem r 0 w = true <-> P).
Proof.
  intros M I E. apply (implies_ok _ _ w I) in E. rewrite sem_or, !sem_and, !sem_not in E. tauto.
Qed.
Lemma group_ok w : sem group 0 w = true <-> misplaced16 w.
Proof. unfold misplaced16. apply masked_ok. vm_compute. reflexivity. Qed.

Theorem blame16 p isa w : platform_ok p -> is_u16 w -> decode_u16 p w isa = Ret (Err InvalidOpcode) ->
  (hopeless16 p isa looked_up16 w <-> ~ misplaced16 w).
Proof.
  intros Hp Hw D.
  rewrite <- (either _ _ _ w _ (group_ok w) (split16 isa) (err_form16 p isa w _ Hp Hw D)), (exact16 isa w Hw).
  split.
  - intros H [w' [R' [E S]]].
    destruct (proj1 (accepted16_form p isa w' Hp R') S) as [i K]. exact (H w' i R' E K).
  - intros M w' i R' E K. apply M. exists w'. split; [exact R'|]. split; [exact E|].
    apply (accepted16_form p isa w' Hp R'). exists i. exact K.
Qed.

(** ** Witnesses *)

Theorem misplaced_witness : exists isa e w w' i, In e blamable /\ is_u32 w /\ is_u32 w' /\
  opcode_is w 0x0F /\ opcode_is w' 0x0F /\ e = InvalidOpcode /\
  forall p, platform_ok p -> decode_u32 p w isa = Ret (Err e) /\ decode_u32 p w' isa = Ret (Ok i).
Proof.
  exists Rv64, InvalidOpcode, 0x0050200F, 0x0040200F. eexists.
  split; [left; reflexivity|]. split; [unfold is_u32; lia|]. split; [unfold is_u32; lia|].
  split; [reflexivity|]. split; [reflexivity|]. split; [reflexivity|].
  intros p Hp.
  rewrite (plat32 p Text.plat Rv64 0x0050200F Hp Text.plat_ok ltac:(unfold is_u32; lia)).
  rewrite (plat32 p Text.plat Rv64 0x0040200F Hp Text.plat_ok ltac:(unfold is_u32; lia)).
  split; vm_compute; reflexivity.
Qed.
Theorem incurable_witness : exists e w, In e blamable /\ is_u32 w /\ e = InvalidFunct3 /\
  forall p, platform_ok p -> decode_u32 p w Rv32 = Ret (Err e) /\ ~ curable p Rv32 (named e) w.
Proof.
  exists InvalidFunct3, 0x0000201B.
  assert (H : is_u32 0x0000201B) by (unfold is_u32; lia).
  split; [right; left; reflexivity|]. split; [exact H|]. split; [reflexivity|].
  intros p Hp.
  assert (D : decode_u32 p 0x0000201B Rv32 = Ret (Err InvalidFunct3)).
  { rewrite (plat32 p Text.plat Rv32 0x0000201B Hp Text.plat_ok H). vm_compute. reflexivity. }
  split; [exact D|]. intros C.
  apply (blame p Rv32 _ _ Hp H ltac:(right; left; reflexivity) D) in C. apply C.
  split; [reflexivity|]. left. reflexivity.
Qed.
Theorem misplaced16_witness : exists w w' i, is_u16 w /\ is_u16 w' /\ same_in looked_up16 w w' /\
  forall p, platform_ok p -> decode_u16 p w Rv64 = Ret (Err InvalidOpcode) /\ decode_u16 p w' Rv64 = Ret (Ok i).
Proof.
  exists 0x9C41, 0x8C01. eexists.
  split; [unfold is_u16; lia|]. split; [unfold is_u16; lia|]. split; [reflexivity|].
  intros p Hp.
  rewrite (plat16 p Text.plat Rv64 0x9C41 Hp Text.plat_ok ltac:(unfold is_u16; lia)).
  rewrite (plat16 p Text.plat Rv64 0x8C01 Hp Text.plat_ok ltac:(unfold is_u16; lia)).
  split; vm_compute; reflexivity.
Qed.

(** add with funct7 = 2: no value of the other fields helps, and 0x00 or 0x20 in funct7 does. *)
Lemma blame_case : decode_u32 Text.plat 0x04000033 Rv32 = Ret (Err InvalidFunct7) /\
  hopeless Text.plat Rv32 0xFE00707F 0x04000033 /\ curable Text.plat Rv32 0xFE000000 0x04000033.
Proof.
  assert (H : is_u32 0x04000033) by (unfold is_u32; lia).
  assert (D : decode_u32 Text.plat 0x04000033 Rv32 = Ret (Err InvalidFunct7)) by (vm_compute; reflexivity).
  split; [exact D|].
  destruct (blame _ _ _ _ Text.plat_ok H ltac:(cbn [blamable In]; auto 6) D) as [A B].
  split; [apply A|apply B].
  - intros [O _]. vm_compute in O. discriminate O.
  - intros [_ [O|O]]; vm_compute in O; discriminate O.
Qed.
