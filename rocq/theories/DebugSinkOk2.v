(** Proofs about [Debug] with an arbitrary formatter (C56), continued: the specification. *)
From Coq Require Import ZArith List Bool String Ascii Lia.
From Verif Require Import Rust Types Fmt FmtSink Debug DebugSink Spec SpecText SpecSink SpecDebug SpecDebugSink.
From Verif Require Import Numerals SinkOk DebugOk DebugSinkOk SpecOps SpecApi.
From Verif Require Text Operands.
Import ListNotations.
Local Open Scope list_scope.
Local Open Scope Z_scope.

(** ** Padding *)

Lemma len_app a b : len (a ++ b) = len a + len b.
Proof. unfold len. rewrite length_app. lia. Qed.
Lemma len_nonneg a : 0 <= len a.
Proof. unfold len. lia. Qed.
Lemma rep_len n c : len (rep n c) = Z.of_nat n.
Proof.
  unfold len. f_equal. induction n as [|n IH]; [reflexivity|]. cbn. rewrite IH. reflexivity.
Qed.
Lemma rep_all n c : all_of c (rep n c).
Proof.
  unfold all_of. induction n as [|n IH]; intros [|m] d H; cbn in H; try discriminate H; [congruence|].
  exact (IH m d H).
Qed.
Lemma all_rep c s : all_of c s -> s = rep (String.length s) c.
Proof.
  unfold all_of. induction s as [|d s IH]; intros H; [reflexivity|]. cbn [String.length rep].
  rewrite (H 0%nat d eq_refl) at 1. f_equal. apply IH. intros n e E. exact (H (S n) e E).
Qed.
Lemma all_rep_len c s : all_of c s -> s = rep (Z.to_nat (len s)) c.
Proof. intros H. unfold len. rewrite Nat2Z.id. apply all_rep. exact H. Qed.
Lemma len_empty s : len s = 0 -> s = ""%string.
Proof. destruct s; [reflexivity|]. unfold len. cbn. lia. Qed.

Lemma before_range o d m : 0 <= m -> 0 <= before_of o d m <= m.
Proof.
  intros M. unfold before_of. destruct (match align o with Some a => a | None => d end); try lia.
  pose proof (Z.div_pos m 2). pose proof (Z.div_le_upper_bound m 2 m). lia.
Qed.
Lemma pad_placed o d s : placed o d s (pad_text o d (len s) s).
Proof.
  unfold placed, pad_text. pose proof (len_nonneg s) as P.
  assert (T : forall w, w <= len s -> exists a b, s = (a ++ s ++ b)%string /\ all_of (fill o) a /\ all_of (fill o) b /\
    len s = Z.max (len s) w /\ match match align o with Some a => a | None => d end with
      | ALeft => a = ""%string | ARight => b = ""%string | ACenter => len a = len b \/ len a + 1 = len b end).
  { intros w W. exists ""%string, ""%string. split; [cbn; symmetry; apply Text.append_nil|].
    split; [exact (rep_all 0 _)|]. split; [exact (rep_all 0 _)|]. split; [lia|].
    destruct (match align o with Some a => a | None => d end); auto. }
  destruct (width o) as [w|]; [|apply T; lia]. destruct (Z.ltb_spec (len s) w) as [L|L]; [|apply T; lia].
  pose proof (before_range o d (w - len s) ltac:(lia)) as B. eexists _, _. split; [reflexivity|].
  split; [apply rep_all|]. split; [apply rep_all|]. rewrite !len_app, !rep_len, !Z2Nat.id by lia. split; [lia|].
  unfold before_of in *. destruct (match align o with Some a => a | None => d end).
  - reflexivity.
  - replace (w - len s - (w - len s)) with 0 by lia. reflexivity.
  - pose proof (Z.div_mod (w - len s) 2 ltac:(lia)). pose proof (Z.mod_pos_bound (w - len s) 2 ltac:(lia)). lia.
Qed.
Lemma placed_only o d s t : placed o d s t -> t = pad_text o d (len s) s.
Proof.
  intros [a [b [-> [A [B [L M]]]]]]. rewrite (all_rep_len _ _ A), (all_rep_len _ _ B) in *. clear A B.
  revert L M. pose proof (len_nonneg a) as PA. pose proof (len_nonneg b) as PB. pose proof (len_nonneg s) as PS.
  generalize dependent (len a). generalize dependent (len b). clear a b. intros b PB a PA L M.
  rewrite !len_app, !rep_len, !Z2Nat.id in L by lia. unfold pad_text, before_of.
  assert (E : a = 0 -> b = 0 -> (rep (Z.to_nat a) (fill o) ++ s ++ rep (Z.to_nat b) (fill o))%string = s).
  { intros -> ->. cbn. apply Text.append_nil. }
  assert (Z1 : forall n, 0 <= n -> rep (Z.to_nat n) (fill o) = ""%string -> n = 0).
  { intros n N H. assert (R : len (rep (Z.to_nat n) (fill o)) = 0) by (rewrite H; reflexivity).
    rewrite rep_len in R. lia. }
  rewrite !rep_len, !Z2Nat.id in M by lia.
  destruct (width o) as [w|]; [|apply E; lia]. destruct (Z.ltb_spec (len s) w) as [W|W]; [|apply E; lia].
  destruct (match align o with Some a => a | None => d end).
  - apply Z1 in M; [|exact PA]. subst a. replace (w - len s - 0) with b by lia. reflexivity.
  - apply Z1 in M; [|exact PB]. subst b. replace (w - len s) with a by lia. rewrite Z.sub_diag. reflexivity.
  - assert (H : (w - len s) / 2 = a).
    { symmetry. destruct M as [M|M]; [apply (Z.div_unique _ _ _ 0)|apply (Z.div_unique _ _ _ 1)]; lia. }
    rewrite H. replace (w - len s - a) with b by lia. reflexivity.
Qed.

(** Zeros after the sign. *)
Lemma pad_zeros o sign digits : let n := len (sign ++ digits) in
  zeros_between o sign digits (sign ++ pad_text (zero_fill o) ARight n digits).
Proof.
  cbv zeta. unfold zeros_between, pad_text. cbn [zero_fill width fill]. unfold before_of. cbn [zero_fill align].
  pose proof (len_nonneg sign). pose proof (len_nonneg digits). rewrite len_app.
  assert (T : forall w, w <= len sign + len digits -> exists z, (sign ++ digits = sign ++ z ++ digits)%string /\ all_of "0" z /\
    len (sign ++ digits) = Z.max (len sign + len digits) w).
  { intros w W. exists ""%string. split; [reflexivity|]. split; [exact (rep_all 0 _)|]. rewrite len_app. lia. }
  destruct (width o) as [w|]; [|apply T; lia]. destruct (Z.ltb_spec (len sign + len digits) w) as [L|L]; [|apply T; lia].
  rewrite Z.sub_diag. cbn [rep Z.to_nat]. rewrite Text.append_nil. eexists. split; [reflexivity|].
  split; [apply rep_all|]. rewrite !len_app, rep_len, Z2Nat.id by lia. lia.
Qed.
Lemma zeros_only o sign digits t : zeros_between o sign digits t ->
  t = (sign ++ pad_text (zero_fill o) ARight (len (sign ++ digits)) digits)%string.
Proof.
  intros [z [-> [A L]]]. rewrite !len_app in L. rewrite (all_rep_len _ _ A). clear A. f_equal.
  pose proof (len_nonneg z) as P. generalize dependent (len z). clear z. intros z L P.
  unfold pad_text, before_of. cbn [zero_fill width fill align].
  rewrite len_app. pose proof (len_nonneg sign). pose proof (len_nonneg digits).
  assert (E : z = 0 -> (rep (Z.to_nat z) "0" ++ digits)%string = digits) by (intros ->; reflexivity).
  destruct (width o) as [w|]; [|apply E; lia]. destruct (Z.ltb_spec (len sign + len digits) w) as [W|W]; [|apply E; lia].
  rewrite Z.sub_diag. cbn [rep Z.to_nat]. rewrite Text.append_nil. do 3 f_equal. lia.
Qed.

(** ** Numbers *)

Lemma hex_char c d : digit_value 16 c = Some d ->
  capital c = (if (97 <=? nat_of_ascii c)%nat && (nat_of_ascii c <=? 102)%nat then ascii_of_nat (nat_of_ascii c - 32) else c) /\
  lower (String (capital c) "") = String c "".
Proof.
  destruct c as [[] [] [] [] [] [] [] []]; intros H; vm_compute in H; try discriminate H; split; reflexivity.
Qed.
Lemma hex_upper s : forall k v, SpecText.value 16 s k = Some v ->
  capitals s = upper_digits s /\ lower (upper_digits s) = s.
Proof.
  induction s as [|c s IH]; intros k v H; [split; reflexivity|]. cbn [SpecText.value] in H.
  destruct (digit_value 16 c) as [d|] eqn:D; [|discriminate H]. destruct (IH _ _ H) as [C L].
  destruct (hex_char c d D) as [E F]. cbn [capitals upper_digits]. rewrite C, <- E. split; [reflexivity|].
  cbn [lower] in *. rewrite L. injection F as F. rewrite F. reflexivity.
Qed.

Definition signed_of (ty : int_type) : bool := match ty with Usize => false | I32 => true end.
Definition fits (ty : int_type) (v : Z) : Prop := match ty with Usize => 0 <= v | I32 => - 2 ^ 31 <= v < 2 ^ 31 end.
Definition pattern_of (ty : int_type) (v : Z) : Z := if signed_of ty then v mod 2 ^ 32 else v.
Lemma hex_digits_numeral ty v : fits ty v -> numeral 16 (hex_digits ty v) (pattern_of ty v).
Proof.
  intros F. destruct ty; apply unsigned_numeral; try lia; [exact F|]. apply Z.mod_pos_bound. lia.
Qed.

(** Sign, prefix and digits as printed. *)
Definition lead_of (o : options) (v : Z) : string :=
  match debug_hex o with
  | None => (sign_of o (0 <=? v)%Z ++ prefix_of o "")%string
  | Some _ => (sign_of o true ++ prefix_of o "0x")%string
  end.
Definition digits_of (o : options) (ty : int_type) (v : Z) : string :=
  match debug_hex o with
  | None => unsigned_str 10 (Z.abs v)
  | Some Lower => hex_digits ty v
  | Some Upper => upper_digits (hex_digits ty v)
  end.
Lemma int_text_eq o ty v : int_text o ty v =
  if zero_pad o then (lead_of o v ++ pad_text (zero_fill o) ARight (len (lead_of o v ++ digits_of o ty v)) (digits_of o ty v))%string
  else pad_text o ARight (len (lead_of o v ++ digits_of o ty v)) (lead_of o v ++ digits_of o ty v)%string.
Proof. unfold int_text, lead_of, digits_of. destruct (debug_hex o) as [[]|]; reflexivity. Qed.

Lemma parts_ok o ty v : fits ty v -> number_parts o (signed_of ty) v (lead_of o v) (digits_of o ty v).
Proof.
  intros F. unfold number_parts, lead_of, digits_of. pose proof (hex_digits_numeral ty v F) as N. unfold pattern_of in N.
  destruct (debug_hex o) as [[]|].
  - split; [exists (hex_digits ty v); split; [exact N|reflexivity]|reflexivity].
  - split; [|reflexivity]. exists (hex_digits ty v). split; [exact N|]. cbn. symmetry. apply (hex_upper _ 0 _ (proj2 N)).
  - split; [apply unsigned_numeral; lia|]. unfold sign_of, prefix_of.
    destruct (Z.leb_spec 0 v), (Z.ltb_spec v 0); try lia; destruct (alternate o), (sign_plus o); reflexivity.
Qed.
Lemma parts_only o ty v sign digits : fits ty v -> number_parts o (signed_of ty) v sign digits ->
  sign = lead_of o v /\ digits = digits_of o ty v.
Proof.
  intros F. pose proof (parts_ok o ty v F) as K. unfold number_parts in *. destruct (debug_hex o) as [c|].
  - intros [[t [N ->]] ->]. destruct K as [[t' [N' ->]] ->]. rewrite (numeral_unique 16 t t' _ ltac:(lia) N N'). auto.
  - intros [N ->]. destruct K as [N' ->]. rewrite (numeral_unique 10 digits _ _ ltac:(lia) N N'). auto.
Qed.
Lemma number_ok o ty v : fits ty v -> number_text o (signed_of ty) v (int_text o ty v).
Proof.
  intros F. exists (lead_of o v), (digits_of o ty v). split; [apply parts_ok; exact F|]. rewrite int_text_eq.
  destruct (zero_pad o); [apply pad_zeros|apply pad_placed].
Qed.
Lemma number_only o ty v t : fits ty v -> number_text o (signed_of ty) v t -> t = int_text o ty v.
Proof.
  intros F [sign [digits [P T]]]. apply (parts_only o ty v _ _ F) in P. destruct P as [-> ->]. rewrite int_text_eq.
  destruct (zero_pad o); [apply zeros_only|apply placed_only]; exact T.
Qed.

(** ** [bool] *)

Lemma sub_parts n s : exists r, s = (substring 0 n s ++ r)%string /\ len (substring 0 n s) = Z.min (Z.of_nat n) (len s).
Proof.
  revert n. induction s as [|c s IH]; intros n.
  - exists ""%string. destruct n; cbn; split; unfold len; cbn; (reflexivity || lia).
  - destruct n as [|n]; [exists (String c s); split; [reflexivity|unfold len; cbn; lia]|].
    destruct (IH n) as [r [E L]]. exists r. cbn [substring append]. rewrite <- E. split; [reflexivity|].
    unfold len in *. cbn [String.length]. lia.
Qed.
Lemma sub_only s r n : len s = Z.min (Z.of_nat n) (len (s ++ r)) -> substring 0 n (s ++ r) = s.
Proof.
  revert n. induction s as [|c s IH]; intros n L.
  - destruct r; cbn [append] in *; [destruct n; reflexivity|]. unfold len in L. cbn in L.
    assert (n = O) as -> by lia. reflexivity.
  - destruct n as [|n]; [unfold len in L; cbn in L; lia|]. cbn [append substring]. f_equal. apply IH.
    unfold len in *. cbn in L. lia.
Qed.
Lemma bool_len b : len (bool_str b) = if b then 4 else 5.
Proof. destruct b; reflexivity. Qed.
Lemma bool_ok o b : usable o -> bool_text o b (str_text o (bool_str b)).
Proof.
  intros U. exists (cut o (bool_str b)). split; [apply pad_placed|]. unfold cut. fold (bool_str b).
  destruct (precision o) as [m|] eqn:P.
  - destruct (sub_parts (Z.to_nat m) (bool_str b)) as [r [E L]]. exists r. split; [exact E|].
    rewrite L, bool_len, Z2Nat.id by exact (U m P). reflexivity.
  - exists ""%string. split; [symmetry; apply Text.append_nil|reflexivity].
Qed.
Lemma bool_only o b t : usable o -> bool_text o b t -> t = str_text o (bool_str b).
Proof.
  intros U [s [P [r [E M]]]]. apply placed_only in P. subst t. unfold str_text. fold (bool_str b) in E.
  assert (C : cut o (bool_str b) = s); [|rewrite C; reflexivity].
  unfold cut. destruct (precision o) as [m|] eqn:Q; [|rewrite M, Text.append_nil in E; exact E].
  rewrite E. apply sub_only. rewrite <- E, bool_len, Z2Nat.id by exact (U m Q). exact M.
Qed.

(** ** The fields *)

Lemma value_ok o ty x : (forall v, x = Some v -> fits ty v) ->
  number_value o (signed_of ty) (opt_val (int_text o ty) x) x.
Proof.
  intros F. destruct x as [v|]; [|reflexivity]. eexists. split; [reflexivity|]. apply number_ok. apply F. reflexivity.
Qed.
Lemma value_only o ty x y : (forall v, x = Some v -> fits ty v) -> number_value o (signed_of ty) y x ->
  y = opt_val (int_text o ty) x.
Proof.
  intros F. destruct x as [v|]; [|trivial]. intros [t [-> N]]. cbn. f_equal. apply number_only; [apply F; reflexivity|exact N].
Qed.
Lemma fields_ok o i : sized i -> usable o -> fields_with o i (fields_of o i).
Proof.
  intros [A [B [C D]]] U. do 5 eexists. split; [reflexivity|].
  split; [exact (value_ok o Usize _ A)|]. split; [exact (value_ok o Usize _ B)|]. split; [exact (value_ok o Usize _ C)|].
  split; [exact (value_ok o I32 _ D)|exact (bool_ok o _ U)].
Qed.
Lemma fields_only o i l : sized i -> usable o -> fields_with o i l -> l = fields_of o i.
Proof.
  intros [A [B [C D]]] U [d [a [b [m [z [-> [V1 [V2 [V3 [V4 V5]]]]]]]]]].
  apply (value_only o Usize _ _ A) in V1. apply (value_only o Usize _ _ B) in V2. apply (value_only o Usize _ _ C) in V3.
  apply (value_only o I32 _ _ D) in V4. apply (bool_only o _ _ U) in V5. subst. reflexivity.
Qed.

(** ** Any sink *)

Lemma debug_pieces o i : exists pieces,
  (forall T (k : sink T) t, Instruction_debug_fmt k i o t = feed k pieces t) /\
  (sized i -> usable o -> (alternate o = true -> fill o <> ascii_of_nat 10) ->
     exists l, fields_with o i l /\ joined pieces = debug_text o l).
Proof.
  destruct (writes_node o (Instruction_debug i)) as [l [G J]]. exists l. split; [exact G|].
  intros S U N. exists (fields_of o i). split; [apply fields_ok; assumption|]. rewrite J. apply instruction_text. exact N.
Qed.
Lemma decode_pieces o r : exists pieces,
  (forall T (k : sink T) t, decode_debug_fmt k r o t = feed k pieces t) /\
  ((forall i, r = Ok i -> sized i) -> usable o -> (alternate o = true -> fill o <> ascii_of_nat 10) ->
     match r with
     | Ok i => exists l, fields_with o i l /\ joined pieces = ok_text o l
     | Err e => joined pieces = err_text o e
     end).
Proof.
  destruct (writes_node o (decode_debug r)) as [l [G J]]. exists l. split; [exact G|].
  intros S U N. pose proof (decode_text o r N) as D. rewrite <- J in D. destruct r as [i|e]; [|exact D].
  exists (fields_of o i). split; [apply fields_ok; [apply S; reflexivity|exact U]|exact D].
Qed.
Lemma fields_one_with o i l l' : sized i -> usable o -> fields_with o i l -> fields_with o i l' -> l = l'.
Proof. intros S U A B. rewrite (fields_only o i l S U A), (fields_only o i l' S U B). reflexivity. Qed.

(** ** Uniqueness *)

(** Without the character [c]. *)
Fixpoint drop (c : ascii) (s : string) : string :=
  match s with EmptyString => "" | String d s' => if (d =? c)%char then drop c s' else String d (drop c s') end.
Lemma drop_app c a b : drop c (a ++ b) = (drop c a ++ drop c b)%string.
Proof. induction a as [|d a IH]; [reflexivity|]. cbn. rewrite IH. destruct (d =? c)%char; reflexivity. Qed.
Lemma drop_rep c n : drop c (rep n c) = ""%string.
Proof. induction n as [|n IH]; [reflexivity|]. cbn. rewrite Ascii.eqb_refl. exact IH. Qed.
Lemma drop_free c s : free c s = true -> drop c s = s.
Proof.
  induction s as [|d s IH]; [reflexivity|]. cbn. intros H. apply andb_true_iff in H. destruct H as [H1 H2].
  apply negb_true_iff in H1. rewrite H1, (IH H2). reflexivity.
Qed.
Lemma drop_pad o d n s : free (fill o) s = true -> drop (fill o) (pad_text o d n s) = s.
Proof.
  intros F. unfold pad_text. destruct (width o) as [w|]; [|apply drop_free; exact F].
  destruct (n <? w); [|apply drop_free; exact F].
  rewrite !drop_app, !drop_rep, (drop_free _ _ F). cbn. apply Text.append_nil.
Qed.
Lemma zero_pad_text o n s : exists k, pad_text (zero_fill o) ARight n s = (rep k "0" ++ s)%string.
Proof.
  unfold pad_text, before_of. cbn [zero_fill width fill align]. destruct (width o) as [w|]; [|exists O; reflexivity].
  destruct (n <? w); [|exists O; reflexivity]. rewrite Z.sub_diag. cbn [rep Z.to_nat]. rewrite Text.append_nil. eauto.
Qed.

Definition numeric : string := "0123456789abcdefABCDEFx+-".
Fixpoint made_of (cs : list ascii) (s : string) : bool :=
  match s with EmptyString => true | String c s' => existsb (Ascii.eqb c) cs && made_of cs s' end.
Lemma made_free cs x s : ~ In x cs -> made_of cs s = true -> free x s = true.
Proof.
  intros N. induction s as [|c s IH]; [reflexivity|]. cbn. intros H. apply andb_true_iff in H. destruct H as [H1 H2].
  rewrite (IH H2), andb_true_r. apply negb_true_iff, Ascii.eqb_neq. intros ->. apply N.
  apply existsb_exists in H1. destruct H1 as [y [I E]]. apply Ascii.eqb_eq in E. subst y. exact I.
Qed.
Lemma made_app cs a b : made_of cs (a ++ b) = made_of cs a && made_of cs b.
Proof. induction a as [|c a IH]; [reflexivity|]. cbn. rewrite IH, andb_assoc. reflexivity. Qed.
Notation hexes := (list_ascii_of_string numeric).
Lemma digit_made d : existsb (Ascii.eqb (digit_char d)) hexes = true.
Proof.
  unfold digit_char. repeat match goal with |- existsb (Ascii.eqb (match ?z with _ => _ end)) _ = _ => destruct z end; reflexivity.
Qed.
Lemma digits_made fuel base : forall n acc, made_of hexes acc = true -> made_of hexes (digits fuel base n acc) = true.
Proof.
  induction fuel as [|fuel IH]; intros n acc H; [exact H|]. cbn [digits].
  assert (G : made_of hexes (String (digit_char (n mod base)) acc) = true).
  { cbn [made_of]. rewrite digit_made. exact H. }
  destruct (n / base =? 0); [exact G|]. apply IH. exact G.
Qed.
Lemma upper_made s : made_of hexes s = true -> made_of hexes (upper_digits s) = true.
Proof.
  induction s as [|c s IH]; [reflexivity|]. cbn [made_of upper_digits]. intros H. apply andb_true_iff in H. destruct H as [H1 H2].
  rewrite (IH H2), andb_true_r. revert H1. destruct c as [[] [] [] [] [] [] [] []]; intros H1; vm_compute in H1; try discriminate H1; reflexivity.
Qed.
Lemma lead_made o v : made_of hexes (lead_of o v) = true.
Proof.
  unfold lead_of, sign_of, prefix_of. destruct (debug_hex o), (0 <=? v), (sign_plus o), (alternate o); reflexivity.
Qed.
Lemma digits_of_made o ty v : made_of hexes (digits_of o ty v) = true.
Proof.
  unfold digits_of. assert (H : made_of hexes (hex_digits ty v) = true) by (destruct ty; apply digits_made; reflexivity).
  destruct (debug_hex o) as [[]|]; [exact H|apply upper_made; exact H|apply digits_made; reflexivity].
Qed.
Lemma neutral_numeric c : neutral c -> ~ In c hexes.
Proof. intros [N _] H. apply N. cbn in *. intuition auto 40. Qed.

Lemma drop_int o ty v : neutral (fill o) ->
  exists k, drop (fill o) (int_text o ty v) = (lead_of o v ++ rep k "0" ++ digits_of o ty v)%string.
Proof.
  intros N. apply neutral_numeric in N. rewrite int_text_eq.
  assert (L : free (fill o) (lead_of o v) = true) by (apply (made_free hexes); [exact N|apply lead_made]).
  assert (D : free (fill o) (digits_of o ty v) = true) by (apply (made_free hexes); [exact N|apply digits_of_made]).
  destruct (zero_pad o).
  - destruct (zero_pad_text o (len (lead_of o v ++ digits_of o ty v)) (digits_of o ty v)) as [k ->]. exists k.
    apply drop_free. rewrite !free_app, L, D, free_rep; [reflexivity|]. intros E. apply N. rewrite <- E. cbn. auto.
  - exists O. cbn [rep append]. apply drop_pad. rewrite free_app, L, D. reflexivity.
Qed.
Lemma value_zeros base k s : 2 <= base <= 16 -> SpecText.value base (rep k "0" ++ s) 0 = SpecText.value base s 0.
Proof.
  intros B. induction k as [|k IH]; [reflexivity|]. cbn [rep append SpecText.value].
  change "0"%char with (digit_char 0). rewrite digit_value_char by lia. exact IH.
Qed.
Lemma lower_zeros k s : lower (rep k "0" ++ s) = (rep k "0" ++ lower s)%string.
Proof. induction k as [|k IH]; [reflexivity|]. cbn [rep append lower]. rewrite IH. reflexivity. Qed.

Lemma int_inj o ty v v' : neutral (fill o) -> fits ty v -> fits ty v' -> int_text o ty v = int_text o ty v' -> v = v'.
Proof.
  intros N F F' E. destruct (drop_int o ty v N) as [k K], (drop_int o ty v' N) as [k' K'].
  rewrite <- E, K in K'. clear E K. unfold lead_of, digits_of in K'. destruct (debug_hex o) as [c|].
  - apply app_cancel in K'. apply (f_equal lower) in K'. rewrite !lower_zeros in K'.
    pose proof (hex_digits_numeral ty v F) as A. pose proof (hex_digits_numeral ty v' F') as B.
    assert (G : forall v, fits ty v -> lower match c with Lower => hex_digits ty v | Upper => upper_digits (hex_digits ty v) end = hex_digits ty v).
    { intros u U. pose proof (hex_digits_numeral ty u U) as H. destruct (hex_upper _ _ _ (proj2 H)) as [H1 H2].
      destruct c; [|exact H2]. rewrite <- H2 at 1. clear - H2. rewrite <- H2 at 2.
      generalize (upper_digits (hex_digits ty u)). clear. intros s. induction s as [|c s IH]; [reflexivity|]. cbn [lower].
      rewrite IH. f_equal. clear. destruct c as [[] [] [] [] [] [] [] []]; reflexivity. }
    rewrite !G in K' by assumption. apply (f_equal (fun s => SpecText.value 16 s 0)) in K'. rewrite !value_zeros in K' by lia.
    destruct A as [_ A], B as [_ B]. rewrite A, B in K'. injection K' as K'. unfold pattern_of in K'.
    destruct ty; cbn [signed_of] in K'; [exact K'|]. cbn in F, F'.
    pose proof (Z.div_mod v (2 ^ 32) ltac:(lia)). pose proof (Z.div_mod v' (2 ^ 32) ltac:(lia)). lia.
  - assert (P : prefix_of o "" = ""%string) by (unfold prefix_of; destruct (alternate o); reflexivity).
    rewrite !P, !Text.append_nil in K'. clear P.
    assert (V : forall u j, SpecText.value 10 (rep j "0" ++ unsigned_str 10 (Z.abs u)) 0 = Some (Z.abs u)).
    { intros u j. rewrite value_zeros by lia. apply unsigned_numeral; lia. }
    assert (M : forall s u j, SpecText.value 10 (rep j "0" ++ unsigned_str 10 (Z.abs u)) 0 <> SpecText.value 10 (String s "" ++ rep k "0" ++ unsigned_str 10 (Z.abs v)) 0 \/ digit_value 10 s <> None).
    { intros s u j. destruct (digit_value 10 s) eqn:D; [right; discriminate|left]. rewrite V. cbn [append SpecText.value]. rewrite D. discriminate. }
    clear M.
    assert (R : forall u j, (fun s => match s with
        | String c s' => if (c =? "-")%char then option_map Z.opp (SpecText.value 10 s' 0) else if (c =? "+")%char then SpecText.value 10 s' 0 else SpecText.value 10 s 0
        | "" => None end%string) (sign_of o (0 <=? u)%Z ++ rep j "0" ++ unsigned_str 10 (Z.abs u))%string = Some u).
    { intros u j. unfold sign_of. destruct (Z.leb_spec 0 u) as [U|U]; cbn [negb].
      - destruct (sign_plus o).
        + cbn [append]. change ("+" =? "-")%char with false. change ("+" =? "+")%char with true. cbv iota. rewrite V. f_equal. lia.
        + cbn [append]. pose proof (V u j) as W. destruct (rep j "0" ++ unsigned_str 10 (Z.abs u))%string as [|c s] eqn:Q.
          * cbn in W. exfalso. assert (X : unsigned_str 10 (Z.abs u) = ""%string) by (destruct j; [exact Q|discriminate Q]).
            destruct (unsigned_numeral 10 (Z.abs u) ltac:(lia) ltac:(lia)) as [Y _]. rewrite X in Y. exact Y.
          * destruct (Ascii.eqb_spec c "-") as [->|]; [discriminate W|]. destruct (Ascii.eqb_spec c "+") as [->|]; [discriminate W|].
            rewrite W. f_equal. lia.
      - cbn [append]. change ("-" =? "-")%char with true. cbv iota. rewrite V. cbn. f_equal. lia. }
    pose proof (R v k) as A. rewrite K' in A. rewrite (R v' k') in A. injection A as A. congruence.
Qed.

Lemma fill_first c n m d x d' x' : d <> c -> d' <> c ->
  (rep n c ++ String d x = rep m c ++ String d' x')%string -> d = d'.
Proof.
  intros N N'. revert m. induction n as [|n IH]; intros [|m] E; cbn [rep append] in E.
  - congruence.
  - injection E as E _. congruence.
  - injection E as E _. congruence.
  - injection E as E. exact (IH m E).
Qed.
Lemma pad_shape o d n s : exists a b, pad_text o d n s = (rep a (fill o) ++ s ++ b)%string.
Proof.
  unfold pad_text. destruct (width o) as [w|]; [|exists O, ""%string; cbn; symmetry; apply Text.append_nil].
  destruct (n <? w); [|exists O, ""%string; cbn; symmetry; apply Text.append_nil]. eauto.
Qed.
Lemma bool_differ o e r r' : neutral (fill o) -> precision o = None ->
  (str_text o (bool_str true) ++ e ++ r <> str_text o (bool_str false) ++ e ++ r')%string.
Proof.
  intros N P. unfold str_text, cut. rewrite P.
  destruct (pad_shape o ALeft (len (bool_str true)) (bool_str true)) as [a [b ->]].
  destruct (pad_shape o ALeft (len (bool_str false)) (bool_str false)) as [a' [b' ->]].
  rewrite !append_assoc. cbn [bool_str append]. intros E. apply fill_first in E; [discriminate E| |];
    intros H; apply (proj1 N); rewrite <- H; cbn; auto 40.
Qed.

Lemma int_one_to_one o ty : neutral (fill o) -> one_to_one (fits ty) (int_text o ty).
Proof.
  intros N. split; [|intros v v' F F'; apply int_inj; assumption].
  intros v. split; (apply int_outside; [unfold outside; auto|]); intros E; apply (proj1 N); rewrite E; cbn; auto 40.
Qed.
Lemma sized_in i j (k : Instruction) : sized i -> sized j -> k = i \/ k = j ->
  all_in (fits Usize) (rd k) /\ all_in (fits Usize) (rs1 k) /\ all_in (fits Usize) (rs2 k) /\ all_in (fits I32) (imm k).
Proof. intros A B [-> | ->]; assumption. Qed.

Notation as_text o := (printed_node (int_text o Usize) (int_text o I32) (fun b => str_text o (bool_str b))).
Lemma debug_text_node o i : debug_text o (fields_of o i) = if alternate o then pretty 0 (as_text o i) else compact (as_text o i).
Proof. unfold debug_text. destruct (alternate o); symmetry; [apply pretty_text|apply compact_text]. Qed.

Lemma debug_text_inj o i j l : neutral (fill o) -> precision o = None -> sized i -> sized j ->
  fields_with o i l -> forall l', fields_with o j l' -> debug_text o l = debug_text o l' -> i = j.
Proof.
  intros N P S S' A l' B E. assert (U : usable o) by (intros m M; rewrite P in M; discriminate M).
  rewrite (fields_only o i l S U A), (fields_only o j l' S' U B), !debug_text_node in E. clear A B.
  destruct (alternate o).
  - rewrite !pretty_seven in E. apply (f_equal (fun s => s ++ "")%string) in E.
    exact (seven_inj _ _ _ _ _ _ _ _ _ _ _ _ _ _ _ _ i j _ _ (or_intror eq_refl) (int_one_to_one o Usize N)
      (int_one_to_one o I32 N) (fun r r' => bool_differ o _ r r' N P) (fun k => sized_in i j k S S') E).
  - rewrite !compact_seven in E. apply (f_equal (fun s => s ++ "")%string) in E.
    exact (seven_inj _ _ _ _ _ _ _ _ _ _ _ _ _ _ _ _ i j _ _ (or_introl eq_refl) (int_one_to_one o Usize N)
      (int_one_to_one o I32 N) (fun r r' => bool_differ o _ r r' N P) (fun k => sized_in i j k S S') E).
Qed.

(** ** {:?} and {:#?} *)

Lemma int_plain o ty v : width o = None -> sign_plus o = false -> debug_hex o = None -> int_text o ty v = dec_str v.
Proof.
  intros W S H. rewrite int_text_eq. unfold pad_text. cbn [zero_fill width]. rewrite W.
  unfold lead_of, digits_of, sign_of, prefix_of. rewrite S, H. unfold dec_str.
  destruct (Z.leb_spec 0 v), (Z.ltb_spec v 0); try lia; rewrite ?Z.abs_eq, ?Z.abs_neq by lia;
    destruct (zero_pad o), (alternate o); reflexivity.
Qed.
Lemma bool_plain o b : width o = None -> precision o = None -> str_text o (bool_str b) = bool_str b.
Proof. intros W P. unfold str_text, cut, pad_text. rewrite W, P. reflexivity. Qed.
Lemma printed_ext f f' g g' fl fl' i : (forall v, f v = f' v) -> (forall v, g v = g' v) -> (forall b, fl b = fl' b) ->
  printed_node f g fl i = printed_node f' g' fl' i.
Proof.
  intros F G B. destruct i as [op [d|] [s|] [t|] [m|] h z]; unfold printed_node; cbn; rewrite ?F, ?G, ?B; reflexivity.
Qed.
Lemma as_text_plain o i : width o = None -> precision o = None -> sign_plus o = false -> debug_hex o = None ->
  as_text o i = printed_node dec_str dec_str bool_str i.
Proof.
  intros W P S H. apply printed_ext; [intros v; apply int_plain; assumption..|]. intros b. apply bool_plain; assumption.
Qed.
Lemma feed_unlimited l : forall t, feed unlimited l t = ((t ++ joined l)%string, Ret true).
Proof.
  induction l as [|s l IH]; intros t; cbn [feed unlimited]; [cbn; rewrite Text.append_nil; reflexivity|].
  rewrite IH, joined_cons, append_assoc. reflexivity.
Qed.
Lemma plain_debug o i t : width o = None -> precision o = None -> sign_plus o = false -> debug_hex o = None ->
  (alternate o = true -> fill o <> ascii_of_nat 10) ->
  Instruction_debug_fmt unlimited i o t =
    ((t ++ if alternate o then pretty 0 (Instruction_debug i) else compact (Instruction_debug i))%string, Ret true).
Proof.
  intros W P S H N. destruct (writes_node o (Instruction_debug i)) as [l [G J]].
  unfold Instruction_debug_fmt. rewrite (G string unlimited t), feed_unlimited, J, (instruction_text o i N), debug_text_node.
  rewrite (as_text_plain o i W P S H), pretty_plain, compact_plain. reflexivity.
Qed.

(** ** Decoded instructions *)

Lemma decoded_sized i : decoded i -> sized i.
Proof.
  intros [p [isa [w [P [[W D]|[W D]]]]]].
  - destruct (Operands.reg_range32 p isa w i P W D) as [A [B C]]. pose proof (Operands.imm32 p isa w i P W D) as M.
    split; [intros v E; apply (A v E)|]. split; [intros v E; apply (B v E)|]. split; [intros v E; apply (C v E)|].
    intros v E. rewrite E in M. destruct (opc i) as [[]|[]|[]|[]|[]|[]|[]|[]|[]|[]], isa;
      cbn [imm_range32 imm_in] in M; try discriminate M; destruct M as [x [X R]]; injection X as <-; lia.
  - destruct (Operands.reg_range16 p isa w i P W D) as [A [B [C _]]]. pose proof (Operands.imm16 p isa w i P W D) as M.
    split; [intros v E; apply (A v E)|]. split; [intros v E; apply (B v E)|]. split; [intros v E; apply (C v E)|].
    intros v E. rewrite E in M. destruct (opc i) as [[]|[]|[]|[]|[]|[]|[]|[]|[]|[]];
      cbn [imm_range16 imm_in] in M; try discriminate M; destruct M as [x [X R]]; injection X as <-; lia.
Qed.

(** ** Text that does not identify the value *)

Lemma not_one_to_one :
  (exists o i j, fill o = " "%char /\ sized i /\ sized j /\ i <> j /\
     Instruction_debug_fmt unlimited i o ""%string = Instruction_debug_fmt unlimited j o ""%string) /\
  (exists o i j, precision o = None /\ sized i /\ sized j /\ i <> j /\
     Instruction_debug_fmt unlimited i o ""%string = Instruction_debug_fmt unlimited j o ""%string).
Proof.
  pose (i d z := {| opc := OBaseI I_LUI; rd := Some d; rs1 := None; rs2 := None; imm := Some 0;
    inst_format := UFormat; is_compressed := z |}).
  assert (S : forall d z, 0 <= d -> sized (i d z)).
  { intros d z D. split; [intros v E; injection E as <-; exact D|]. split; [intros v E; discriminate E|].
    split; [intros v E; discriminate E|]. intros v E. injection E as <-. lia. }
  split.
  - exists {| fill := " "; align := None; width := None; precision := Some 0; sign_plus := false;
      alternate := false; zero_pad := false; debug_hex := None |}, (i 1 true), (i 1 false).
    split; [reflexivity|]. split; [apply S; lia|]. split; [apply S; lia|]. split; [discriminate|]. vm_compute. reflexivity.
  - exists {| fill := "5"; align := Some ALeft; width := Some 2; precision := None; sign_plus := false;
      alternate := false; zero_pad := false; debug_hex := None |}, (i 5 true), (i 55 true).
    split; [reflexivity|]. split; [apply S; lia|]. split; [apply S; lia|]. split; [discriminate|]. vm_compute. reflexivity.
Qed.
