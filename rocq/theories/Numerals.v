(** The integer and register printers write what the specification reads (C34). *)
From Coq Require Import ZArith List Bool String Ascii Lia.
From Verif Require Import Rust Types Fmt Spec SpecOps SpecText.
Import ListNotations.
Local Open Scope string_scope.
Local Open Scope Z_scope.

(** ** Digits *)

Lemma digit_value_char base d : 2 <= base <= 16 -> 0 <= d < base ->
  digit_value base (digit_char d) = Some d.
Proof.
  intros Hb Hd. unfold digit_value.
  assert (E : Z.of_N (N_of_ascii (digit_char d)) = if d <? 10 then d + 48 else d + 87).
  { assert (C : d = 0 \/ d = 1 \/ d = 2 \/ d = 3 \/ d = 4 \/ d = 5 \/ d = 6 \/ d = 7 \/ d = 8 \/ d = 9
      \/ d = 10 \/ d = 11 \/ d = 12 \/ d = 13 \/ d = 14 \/ d = 15) by lia.
    repeat (destruct C as [->|C]; [reflexivity|]). subst d. reflexivity. }
  rewrite E. cbv zeta. destruct (Z.ltb_spec d 10).
  - replace ((48 <=? d + 48) && (d + 48 <=? 57)) with true by lia.
    replace (d + 48 - 48) with d by lia.
    replace ((0 <=? d) && (d <? base)) with true by lia. reflexivity.
  - replace ((48 <=? d + 87) && (d + 87 <=? 57)) with false by lia.
    replace ((97 <=? d + 87) && (d + 87 <=? 122)) with true by lia.
    replace (d + 87 - 87) with d by lia.
    replace ((0 <=? d) && (d <? base)) with true by lia. reflexivity.
Qed.

Lemma digit_char_0 d : 0 <= d < 16 -> digit_char d = "0"%char -> d = 0.
Proof.
  intros Hd H.
  assert (C : d = 0 \/ d = 1 \/ d = 2 \/ d = 3 \/ d = 4 \/ d = 5 \/ d = 6 \/ d = 7 \/ d = 8 \/ d = 9
      \/ d = 10 \/ d = 11 \/ d = 12 \/ d = 13 \/ d = 14 \/ d = 15) by lia.
  repeat (destruct C as [->|C]; [first [reflexivity | discriminate H]|]). subst d. discriminate H.
Qed.

Lemma digit_value_range base c d : digit_value base c = Some d -> 0 <= d < base.
Proof.
  unfold digit_value. cbv zeta.
  match goal with |- (if _ then Some ?b else _) = _ -> _ => generalize b end. intros v.
  destruct ((0 <=? v) && (v <? base)) eqn:E; intros H; [|discriminate H].
  injection H as <-. lia.
Qed.

Lemma digit_value_inj base c c' d : digit_value base c = Some d -> digit_value base c' = Some d ->
  c = c'.
Proof.
  unfold digit_value. cbv zeta. intros H H'.
  rewrite <- (ascii_N_embedding c), <- (ascii_N_embedding c'). f_equal. apply N2Z.inj.
  set (n := Z.of_N (N_of_ascii c)) in *. set (n' := Z.of_N (N_of_ascii c')) in *.
  revert H H'.
  destruct ((48 <=? n) && (n <=? 57)) eqn:A1, ((97 <=? n) && (n <=? 122)) eqn:A2,
    ((48 <=? n') && (n' <=? 57)) eqn:B1, ((97 <=? n') && (n' <=? 122)) eqn:B2; try lia;
  match goal with |- (if ?a then _ else _) = _ -> (if ?b then _ else _) = _ -> _ =>
    destruct a eqn:?, b eqn:? end; intros H H'; try discriminate H; try discriminate H';
  apply (f_equal (fun o => match o with Some z => z | None => -1 end)) in H, H'; lia.
Qed.

Lemma digit_value_0 base c : digit_value base c = Some 0 -> c = "0"%char.
Proof.
  intros H. assert (B : 0 < base) by (apply digit_value_range in H; lia).
  apply (digit_value_inj base _ _ 0 H). unfold digit_value. cbn.
  destruct base; [lia|reflexivity|lia].
Qed.

(** ** Values *)

Lemma value_shift base s : forall k v, value base s k = Some v ->
  k * base ^ Z.of_nat (String.length s) <= v \/ base <= 0.
Proof.
  induction s as [|c s IH]; intros k v H.
  - cbn in *. injection H as <-. lia.
  - cbn [value] in H. destruct (digit_value base c) as [d|] eqn:E; [|discriminate H].
    apply digit_value_range in E. destruct (IH _ _ H) as [L|L]; [left|right; assumption].
    cbn [String.length]. rewrite Nat2Z.inj_succ, Z.pow_succ_r by lia.
    assert (0 < base ^ Z.of_nat (String.length s)) by (apply Z.pow_pos_nonneg; lia). nia.
Qed.
Lemma value_bounds base s : 0 < base -> forall k v, value base s k = Some v ->
  k * base ^ Z.of_nat (String.length s) <= v < (k + 1) * base ^ Z.of_nat (String.length s).
Proof.
  intros Hb. induction s as [|c s IH]; intros k v H.
  - cbn in *. injection H as <-. lia.
  - cbn [value] in H. destruct (digit_value base c) as [d|] eqn:E; [|discriminate H].
    apply digit_value_range in E. apply IH in H.
    cbn [String.length]. rewrite Nat2Z.inj_succ, Z.pow_succ_r by lia.
    assert (0 < base ^ Z.of_nat (String.length s)) by (apply Z.pow_pos_nonneg; lia). nia.
Qed.

Lemma value_inj base : 0 < base -> forall s t k k' v, String.length s = String.length t ->
  value base s k = Some v -> value base t k' = Some v -> s = t /\ k = k'.
Proof.
  intros Hb. induction s as [|c s IH]; intros [|c' t] k k' v L H H'; try discriminate L.
  - cbn in *. split; congruence.
  - cbn [value] in *.
    destruct (digit_value base c) as [d|] eqn:E; [|discriminate H].
    destruct (digit_value base c') as [d'|] eqn:E'; [|discriminate H'].
    destruct (IH t _ _ v ltac:(cbn in L; congruence) H H') as [-> K].
    pose proof (digit_value_range _ _ _ E). pose proof (digit_value_range _ _ _ E').
    assert (k = k') by nia. assert (d = d') by nia. subst.
    rewrite (digit_value_inj _ _ _ _ E E'). auto.
Qed.

Lemma canonical_len base s v : 2 <= base -> numeral base s v -> v <> 0 ->
  exists n, String.length s = S n /\ base ^ Z.of_nat n <= v < base ^ Z.of_nat (S n).
Proof.
  intros Hb [C H] Hv. destruct s as [|c s]; [destruct C|].
  cbn [value] in H. destruct (digit_value base c) as [d|] eqn:E; [|discriminate H].
  pose proof (digit_value_range _ _ _ E). cbn [Z.mul Z.add] in H.
  exists (String.length s). split; [reflexivity|].
  apply value_bounds in H; [|lia]. rewrite Nat2Z.inj_succ, Z.pow_succ_r by lia.
  assert (P : 0 < base ^ Z.of_nat (String.length s)) by (apply Z.pow_pos_nonneg; lia).
  assert (d <> 0).
  { intros ->. apply digit_value_0 in E. cbn [canonical] in C. rewrite (C E) in H.
    cbn in H. lia. }
  nia.
Qed.

Lemma canonical_0 base s : 2 <= base -> numeral base s 0 -> s = "0".
Proof.
  intros Hb [C H]. destruct s as [|c s]; [destruct C|].
  cbn [value] in H. destruct (digit_value base c) as [d|] eqn:E; [|discriminate H].
  pose proof (digit_value_range _ _ _ E). cbn [Z.mul Z.add] in H.
  apply value_bounds in H; [|lia].
  assert (P : 0 < base ^ Z.of_nat (String.length s)) by (apply Z.pow_pos_nonneg; lia).
  assert (d = 0) by nia. subst d. apply digit_value_0 in E. cbn in C. rewrite E, (C E). reflexivity.
Qed.

(** A number has one canonical numeral. *)
Lemma numeral_unique base s t v : 2 <= base -> numeral base s v -> numeral base t v -> s = t.
Proof.
  intros Hb Hs Ht. destruct (Z.eq_dec v 0) as [->|N].
  - rewrite (canonical_0 base s), (canonical_0 base t); auto.
  - destruct (canonical_len base s v Hb Hs N) as [n [Ls Bs]].
    destruct (canonical_len base t v Hb Ht N) as [m [Lt Bt]].
    assert (n = m).
    { assert (A : forall a b : nat, (a < b)%nat -> base ^ Z.of_nat (S a) <= base ^ Z.of_nat b)
        by (intros; apply Z.pow_le_mono_r; lia).
      destruct (Nat.lt_total n m) as [L|[L|L]]; [specialize (A n m L); lia|assumption|
        specialize (A m n L); lia]. }
    subst m. destruct Hs as [_ Hs], Ht as [_ Ht].
    destruct (value_inj base ltac:(lia) s t 0 0 v ltac:(congruence) Hs Ht). assumption.
Qed.

Lemma decimal_unique s t v : decimal s v -> decimal t v -> s = t.
Proof.
  intros [[H1 A]|[H1 [a [-> A]]]] [[H2 B]|[H2 [b [-> B]]]]; try lia.
  - exact (numeral_unique 10 _ _ v ltac:(lia) A B).
  - f_equal. exact (numeral_unique 10 _ _ (- v) ltac:(lia) A B).
Qed.

(** A numeral has one value. *)
Lemma decimal_value s v v' : decimal s v -> decimal s v' -> v = v'.
Proof.
  intros [[H1 [_ A]]|[H1 [a [-> [_ A]]]]] [[H2 [_ B]]|[H2 [b [E [_ B]]]]].
  - congruence.
  - subst s. discriminate A.
  - discriminate B.
  - injection E as <-. assert (- v = - v') by congruence. lia.
Qed.

(** ** The printers *)

Lemma digits_value base : 2 <= base <= 16 -> forall fuel n acc, 0 <= n < 2 ^ Z.of_nat fuel ->
  value base (digits fuel base n acc) 0 = value base acc n.
Proof.
  intros Hb. induction fuel as [|fuel IH]; intros n acc Hn.
  - cbn in *. replace n with 0 by lia. reflexivity.
  - cbn [digits]. rewrite Nat2Z.inj_succ, Z.pow_succ_r in Hn by lia.
    pose proof (Z.mod_pos_bound n base ltac:(lia)) as M.
    pose proof (Z.div_mod n base ltac:(lia)) as D.
    destruct (Z.eqb_spec (n / base) 0) as [E|E].
    + cbn [value]. rewrite digit_value_char by lia. cbn [Z.mul Z.add].
      f_equal. nia.
    + rewrite IH.
      * cbn [value]. rewrite digit_value_char by lia. f_equal. lia.
      * split; [apply Z.div_pos; lia|]. apply Z.div_lt_upper_bound; [lia|]. nia.
Qed.

Lemma digits_head base : 2 <= base <= 16 -> forall fuel n acc, 0 < n < 2 ^ Z.of_nat fuel ->
  exists c s, digits fuel base n acc = String c s /\ c <> "0"%char.
Proof.
  intros Hb. induction fuel as [|fuel IH]; intros n acc Hn.
  - cbn in Hn. lia.
  - cbn [digits]. rewrite Nat2Z.inj_succ, Z.pow_succ_r in Hn by lia.
    pose proof (Z.mod_pos_bound n base ltac:(lia)) as M.
    pose proof (Z.div_mod n base ltac:(lia)) as D.
    destruct (Z.eqb_spec (n / base) 0) as [E|E].
    + eexists _, _. split; [reflexivity|]. intros K. apply digit_char_0 in K; [|lia]. nia.
    + apply IH. pose proof (Z.div_pos n base ltac:(lia) ltac:(lia)). split; [lia|].
      apply Z.div_lt_upper_bound; [lia|]. nia.
Qed.

Lemma log2_fuel n : 0 <= n -> n < 2 ^ Z.of_nat (S (Z.to_nat (Z.log2 n))).
Proof.
  intros H. rewrite Nat2Z.inj_succ, Z2Nat.id by apply Z.log2_nonneg.
  destruct (Z.eq_dec n 0) as [->|N]; [reflexivity|]. apply Z.log2_spec. lia.
Qed.

Lemma unsigned_numeral base n : 2 <= base <= 16 -> 0 <= n -> numeral base (unsigned_str base n) n.
Proof.
  intros Hb Hn. unfold unsigned_str. pose proof (log2_fuel n Hn) as L. split.
  - destruct (Z.eq_dec n 0) as [->|N].
    + cbn [Z.log2 Z.to_nat digits]. rewrite Z.mod_0_l, Z.div_0_l by lia. cbn. intros. reflexivity.
    + assert (P : 0 < n) by lia.
      destruct (digits_head base Hb _ n "" (conj P L)) as [c [s [-> C]]].
      cbn. intros. contradiction.
  - rewrite digits_value by (assumption || split; assumption). reflexivity.
Qed.

Lemma dec_str_decimal v : decimal (dec_str v) v.
Proof.
  unfold decimal, dec_str. destruct (Z.ltb_spec v 0).
  - right. split; [assumption|]. eexists. split; [reflexivity|]. apply unsigned_numeral; lia.
  - left. split; [assumption|]. apply unsigned_numeral; lia.
Qed.

Lemma decimal_iff s v : decimal s v <-> s = dec_str v.
Proof.
  split; [|intros ->; apply dec_str_decimal].
  intros H. exact (decimal_unique _ _ _ H (dec_str_decimal v)).
Qed.

Lemma hex_i32_iff s v : hexadecimal32 s v <-> s = hex_i32 v.
Proof.
  unfold hexadecimal32, hex_i32.
  assert (U : numeral 16 (unsigned_str 16 (v mod 2 ^ 32)) (v mod 2 ^ 32)).
  { apply unsigned_numeral; [lia|]. apply Z.mod_pos_bound. lia. }
  split; [|intros ->; exact U].
  intros A. exact (numeral_unique 16 _ _ _ ltac:(lia) A U).
Qed.

Lemma hex_usize_small v : 0 <= v < 2 ^ 32 -> hex_usize v = hex_i32 v.
Proof. intros H. unfold hex_usize, hex_i32. rewrite Z.mod_small by assumption. reflexivity. Qed.

(** The value of a numeral is not negative. *)
Lemma value_nonneg base s : 0 <= base -> forall k v, 0 <= k -> value base s k = Some v -> 0 <= v.
Proof.
  intros Hb. induction s as [|c s IH]; intros k v Hk H; cbn [value] in H.
  - injection H as <-. assumption.
  - destruct (digit_value base c) as [d|] eqn:E; [|discriminate H].
    refine (IH _ _ _ H).
    assert (0 <= d).
    { unfold digit_value in E. destruct (_ && _) eqn:B in E; [|discriminate E].
      injection E as <-. apply andb_true_iff in B. apply Z.leb_le. tauto. }
    nia.
Qed.
Lemma hex_usize_iff s v : numeral 16 s v <-> 0 <= v /\ s = hex_usize v.
Proof.
  assert (U : 0 <= v -> numeral 16 (unsigned_str 16 v) v).
  { intros H. apply unsigned_numeral; [lia|assumption]. }
  split; [|intros [H ->]; exact (U H)].
  intros A. assert (H : 0 <= v) by (apply (value_nonneg 16 s ltac:(lia) 0 v); [lia|exact (proj2 A)]).
  split; [assumption|]. exact (numeral_unique 16 _ _ _ ltac:(lia) A (U H)).
Qed.

(** As [{:x}] of an operand. *)
Definition hex_of (o : operand) (v : Z) : string :=
  match o with OImm => hex_i32 v | _ => hex_usize v end.
Definition hex_ok (o : operand) (v : Z) : bool := match o with OImm => true | _ => 0 <=? v end.
Lemma hexadecimal_iff o s v : hexadecimal o s v <-> hex_ok o v = true /\ s = hex_of o v.
Proof.
  destruct o; cbn [hexadecimal hex_ok hex_of];
    rewrite ?hex_usize_iff, ?Z.leb_le, ?hex_i32_iff; tauto.
Qed.

(** Two's complement can be read back. *)
Lemma mod32_inj v v' : - 2 ^ 31 <= v < 2 ^ 31 -> - 2 ^ 31 <= v' < 2 ^ 31 ->
  v mod 2 ^ 32 = v' mod 2 ^ 32 -> v = v'.
Proof. intros H H' E. Z.div_mod_to_equations. lia. Qed.

Lemma hexadecimal32_value s v v' : - 2 ^ 31 <= v < 2 ^ 31 -> - 2 ^ 31 <= v' < 2 ^ 31 ->
  hexadecimal32 s v -> hexadecimal32 s v' -> v = v'.
Proof. intros H H' [_ A] [_ B]. apply mod32_inj; congruence. Qed.

(** ** Registers *)

Lemma reg2str_ok r : 0 <= r < 32 -> exists s, reg2str r = Ret s /\ register s r.
Proof.
  intros H.
  assert (A : forall n : nat, (n < 32)%nat -> exists s, reg2str (Z.of_nat n) = Ret s /\
            nth_error abi_names n = Some s).
  { intros n Hn. do 32 (destruct n as [|n]; [eexists; split; reflexivity|]). lia. }
  destruct (A (Z.to_nat r) ltac:(lia)) as [s [E N]]. rewrite Z2Nat.id in E by lia.
  exists s. split; [assumption|]. split; [lia|assumption].
Qed.

Lemma register_range s r : register s r -> 0 <= r < 32.
Proof.
  intros [H N]. assert (Z.to_nat r < 32)%nat; [|lia].
  apply (nth_error_Some abi_names). rewrite N. discriminate.
Qed.

Lemma register_iff s r : register s r <-> reg2str r = Ret s.
Proof.
  split.
  - intros R. pose proof (register_range _ _ R) as H. destruct (reg2str_ok r H) as [t [E [_ N]]].
    rewrite E. destruct R as [_ R]. congruence.
  - intros E. assert (H : 0 <= r < 32).
    { destruct r as [|q|q]; [lia| |discriminate E].
      destruct (Z.ltb_spec (Z.pos q) 32); [lia|]. exfalso.
      do 5 (destruct q as [q|q|]; try discriminate E; try lia). }
    destruct (reg2str_ok r H) as [t [E' R]]. assert (s = t) by congruence. subst. assumption.
Qed.

Lemma abi_nodup : NoDup abi_names.
Proof.
  unfold abi_names.
  repeat (constructor; [cbn; intros H; repeat (destruct H as [H|H]; [discriminate H|]); exact H|]).
  constructor.
Qed.

Lemma register_inj s r r' : register s r -> register s r' -> r = r'.
Proof.
  intros R R'. pose proof (register_range _ _ R). pose proof (register_range _ _ R').
  destruct R as [_ N], R' as [_ N'].
  assert (E : Z.to_nat r = Z.to_nat r').
  { apply (proj1 (NoDup_nth_error abi_names) abi_nodup); [|congruence].
    apply nth_error_Some. rewrite N. discriminate. }
  lia.
Qed.
