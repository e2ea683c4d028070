(** The lexer splits a line the way SpecGrammar.v says. *)
From Coq Require Import ZArith List Bool String Strings.Byte Lia.
From Verif Require Import SrcLine SrcLex SrcAst SpecGrammar.
Import ListNotations.
Local Open Scope string_scope.
Local Open Scope list_scope.

Lemma alpha_letter b : class_of b = Alpha <-> letter b.
Proof.
  split.
  - destruct b; try discriminate; intros _; vm_compute; intuition discriminate.
  - unfold letter. destruct b; intros [H|[H|H]]; try reflexivity; try discriminate H;
      exfalso; destruct H as [A B]; vm_compute in A, B; first [apply A; reflexivity|apply B; reflexivity].
Qed.
Lemma digit_decimal b : class_of b = Digit <-> decimal b.
Proof.
  split.
  - destruct b; try discriminate; intros _; vm_compute; intuition discriminate.
  - unfold decimal. destruct b; intros [A B]; try reflexivity;
      exfalso; vm_compute in A, B; first [apply A; reflexivity|apply B; reflexivity].
Qed.

Definition in_word (b : byte) : Prop := letter b \/ decimal b.
Lemma word_ok l w r : word l = (w, r) -> l = w ++ r /\ (forall c, In c w -> in_word c) /\
  (forall b r', r = b :: r' -> ~ in_word b).
Proof.
  revert w r. induction l as [|b l IH]; intros w r; cbn [word].
  { intros H. injection H as <- <-. repeat split; [intros c []|discriminate]. }
  assert (D : class_of b <> Alpha -> class_of b <> Digit -> ([], b :: l) = (w, r) -> b :: l = w ++ r /\ (forall c, In c w -> in_word c) /\
    (forall b r', r = b :: r' -> ~ in_word b)).
  { intros N1 N2 H. injection H as <- <-. repeat split; [intros c []|].
    intros c r' H. injection H as <- <-. intros [I|I]; [apply N1, alpha_letter, I|apply N2, digit_decimal, I]. }
  destruct (class_of b) eqn:C; try (apply D; discriminate); destruct (word l) as [w' r''] eqn:W; intros H; injection H as <- <-;
    destruct (IH _ _ eq_refl) as (-> & I & N); (repeat split; [|exact N]); intros c [<-|J]; auto;
    [left; apply alpha_letter, C|right; apply digit_decimal, C].
Qed.

Lemma bytes_string w : list_byte_of_string (string_of_list_byte w) = w.
Proof. apply list_byte_of_string_of_list_byte. Qed.
Lemma string_bytes s : string_of_list_byte (list_byte_of_string s) = s.
Proof. apply string_of_list_byte_of_string. Qed.

Lemma keywords_ok s k : find (fun e => fst e =? s) keywords = Some (s, k) -> keyword_text k = s.
Proof.
  intros H. apply find_some in H. destruct H as [H _]. cbn in H.
  repeat (destruct H as [H|H]; [injection H as <- <-; reflexivity|]). destruct H.
Qed.
Lemma find_word s x k : find (fun e => fst e =? s) keywords = Some (x, k) -> x = s.
Proof. intros H. apply find_some in H. destruct H as [_ H]. apply String.eqb_eq in H. exact H. Qed.
Lemma no_keyword s : find (fun e => fst e =? s) keywords = None -> forall k, keyword_text k <> s.
Proof.
  intros H k E. assert (I : In (keyword_text k, k) keywords) by (destruct k; cbn; auto 30).
  apply (find_none _ _ H) in I. cbn [fst] in I. rewrite E, String.eqb_refl in I. discriminate I.
Qed.

Lemma word_tok_ok w t : name w -> word_tok (string_of_list_byte w) = Some t -> spelled t w /\ ((exists k, t = TK k) \/ exists s, t = TId s).
Proof.
  intros N. unfold word_tok. destruct (find _ keywords) as [[x k]|] eqn:F.
  - intros H. injection H as <-. split; [|eauto]. pose proof (find_word _ _ _ F). subst x. apply keywords_ok in F.
    rewrite <- (bytes_string w), <- F. constructor.
  - destruct (existsb _ unused) eqn:U; [discriminate|]. intros H. injection H as <-. split; [|eauto].
    constructor; [exact N|exact (no_keyword _ F)|]. intros I.
    assert (existsb (String.eqb (string_of_list_byte w)) unused = true); [|congruence].
    apply existsb_exists. exists (string_of_list_byte w). split; [|apply String.eqb_refl].
    revert I. generalize (string_of_list_byte w). intros s I. cbn in I.
    repeat (destruct I as [<-|I]; [cbn; auto 40|]). destruct I.
Qed.

Lemma digit_of_ok b d base : digit_of b = Some d -> (d < base)%Z -> digit base b d.
Proof.
  intros H L. destruct b; try discriminate H; injection H as <-; (split; [lia|]); cbn [Byte.to_N Z.of_N]; lia.
Qed.

Lemma numeral_go base l : forall acc seen z r, numeral base acc seen l = Some (z, r) ->
  exists w, l = w ++ r /\
  (forall v, (if seen then numeral_of base v acc else acc = 0%Z /\ (forall u y, numeral_of base u y -> numeral_of base (v ++ u) y)) ->
   numeral_of base (v ++ w) z).
Proof.
  induction l as [|b l IH]; intros acc seen z r.
  { cbn. destruct seen; [|discriminate]. intros H. injection H as <- <-. exists []. split; [reflexivity|].
    intros v V. rewrite app_nil_r. exact V. }
  assert (D : b <> "_"%byte -> match digit_of b with
      | Some d =>
          if (d <? base)%Z then numeral base (acc * base + d)%Z true l
          else if seen then Some (acc, b :: l) else None
      | None => if seen then Some (acc, b :: l) else None
      end = Some (z, r) -> exists w, b :: l = w ++ r /\
  (forall v, (if seen then numeral_of base v acc else acc = 0%Z /\ (forall u y, numeral_of base u y -> numeral_of base (v ++ u) y)) ->
   numeral_of base (v ++ w) z)).
  { intros NU.
    assert (S : (if seen then Some (acc, b :: l) else None) = Some (z, r) -> exists w, b :: l = w ++ r /\
      (forall v, (if seen then numeral_of base v acc else acc = 0%Z /\ (forall u y, numeral_of base u y -> numeral_of base (v ++ u) y)) ->
        numeral_of base (v ++ w) z)).
    { destruct seen; [|discriminate]. intros H. injection H as <- <-. exists []. split; [reflexivity|].
      intros v V. rewrite app_nil_r. exact V. }
    destruct (digit_of b) as [d|] eqn:Q; [|exact S]. destruct (d <? base)%Z eqn:L; [|exact S]. clear S.
    apply Z.ltb_lt in L. pose proof (digit_of_ok _ _ _ Q L) as G. intros H. apply IH in H. destruct H as (w & -> & W).
    exists (b :: w). split; [reflexivity|]. intros v V. change (b :: w) with ([b] ++ w). rewrite app_assoc. apply W.
    destruct seen.
    - constructor; assumption.
    - destruct V as [-> V]. cbn [Z.mul Z.add]. apply V. constructor. exact G. }
  cbn [numeral]. destruct b; try (apply D; discriminate). clear D. intros H. apply IH in H. destruct H as (w & -> & W).
  exists ("_"%byte :: w). split; [reflexivity|]. intros v V. change ("_"%byte :: w) with (["_"%byte] ++ w). rewrite app_assoc.
  apply W. destruct seen.
  - constructor. exact V.
  - destruct V as [E V]. split; [exact E|]. intros u y U. rewrite <- app_assoc. apply V. cbn [app]. constructor. exact U.
Qed.
Lemma numeral_ok base l z r : numeral base 0 false l = Some (z, r) -> exists w, l = w ++ r /\ numeral_of base w z.
Proof.
  intros H. apply numeral_go in H. destruct H as (w & E & W). exists w. split; [exact E|].
  apply (W []). split; [reflexivity|]. intros u y U. exact U.
Qed.

Lemma suffixes_ok s : existsb (String.eqb s) suffixes = true -> integer_suffix s.
Proof.
  intros H. apply existsb_exists in H. destruct H as (x & I & E). apply String.eqb_eq in E. subst x. cbn in I.
  destruct I as [<-|I]; [left; reflexivity|right].
  repeat match type of I with _ \/ _ => destruct I as [I|I]; [subst s|] end; try contradiction;
  first
    [ exists "u", "8"; split; [reflexivity|cbn; auto 9; fail]
    | exists "u", "16"; split; [reflexivity|cbn; auto 9; fail]
    | exists "u", "32"; split; [reflexivity|cbn; auto 9; fail]
    | exists "u", "64"; split; [reflexivity|cbn; auto 9; fail]
    | exists "u", "128"; split; [reflexivity|cbn; auto 9; fail]
    | exists "u", "size"; split; [reflexivity|cbn; auto 9; fail]
    | exists "i", "8"; split; [reflexivity|cbn; auto 9; fail]
    | exists "i", "16"; split; [reflexivity|cbn; auto 9; fail]
    | exists "i", "32"; split; [reflexivity|cbn; auto 9; fail]
    | exists "i", "64"; split; [reflexivity|cbn; auto 9; fail]
    | exists "i", "128"; split; [reflexivity|cbn; auto 9; fail]
    | exists "i", "size"; split; [reflexivity|cbn; auto 9; fail] ].
Qed.

Lemma number_ok b w t : decimal b -> number (b :: w) = Some t -> spelled t (b :: w) /\ exists z s, t = TNum z s.
Proof.
  intros B. unfold number.
  assert (K : forall base start u, based base start -> (start = [] -> u = b :: w) -> b :: w = start ++ u -> 
    match numeral base 0 false u with
  | Some (z, suffix) =>
      let s := string_of_list_byte suffix in
      if existsb (String.eqb s) suffixes then Some (TNum z s) else None
  | None => None
  end = Some t -> spelled t (b :: w) /\ exists z s, t = TNum z s).
  { intros base start u BA SU E. destruct (numeral base 0 false u) as [[z r]|] eqn:N; [|discriminate].
    cbv zeta. destruct (existsb _ suffixes) eqn:S; [|discriminate]. intros H. injection H as <-. split; [|eauto].
    apply numeral_ok in N. destruct N as (v & -> & V). rewrite E. rewrite <- (bytes_string r) at 2.
    econstructor; [exact BA|exact V|exact (suffixes_ok _ S)|]. intros Z. specialize (SU Z).
    destruct v as [|c v]; [inversion V; match goal with H : _ ++ [_] = [] |- _ => destruct (app_cons_not_nil _ _ _ (eq_sym H)) end|].
    injection SU as -> _. eauto. }
  assert (K10 := K 10%Z [] (b :: w) ltac:(left; auto) ltac:(auto) eq_refl).
  destruct b; try exact K10. destruct w as [|c w]; [exact K10|]. destruct c; try exact K10.
  - apply (K 2%Z ["0"; "b"]%byte); [right; right; auto|discriminate|reflexivity].
  - apply (K 16%Z ["0"; "x"]%byte); [right; left; auto|discriminate|reflexivity].
Qed.

Lemma quoted_ok l w r : quoted l = Some (w, r) -> l = w ++ """"%byte :: r /\ forall b, In b w -> b <> """"%byte /\ b <> "\"%byte.
Proof.
  revert w r. induction l as [|b l IH]; intros w r; [discriminate|].
  assert (D : b <> """"%byte -> b <> "\"%byte ->
    match quoted l with Some (w, r) => Some (b :: w, r) | None => None end = Some (w, r) -> b :: l = w ++ """"%byte :: r /\ forall b, In b w -> b <> """"%byte /\ b <> "\"%byte).
  { intros N1 N2. destruct (quoted l) as [[w' r']|]; [|discriminate]. intros H. injection H as <- <-.
    destruct (IH _ _ eq_refl) as [-> I]. split; [reflexivity|]. intros c [<-|J]; auto. }
  cbn [quoted]. destruct b; try (apply D; discriminate); [|discriminate].
  intros H. injection H as <- <-. split; [reflexivity|]. intros b [].
Qed.

(** Longest operators.  [fits] tells whether [s] is at the front. *)
Fixpoint fits (s l : list byte) : bool :=
  match s, l with
  | [], _ => true
  | a :: s, b :: l => Byte.eqb a b && fits s l
  | _, [] => false
  end.
Lemma fits_ok s l r : l = s ++ r -> fits s l = true.
Proof. intros ->. induction s as [|a s IH]; [reflexivity|]. cbn. rewrite IH. destruct a; reflexivity. Qed.
Lemma longest w rest : forallb (fun s => negb (fits (list_byte_of_string s) (w ++ rest)) || 
     Nat.leb (List.length (list_byte_of_string s)) (List.length w)) punctuation = true ->
  forall s rest', In s punctuation -> w ++ rest = list_byte_of_string s ++ rest' ->
      (List.length (list_byte_of_string s) <= List.length w)%nat.
Proof.
  intros H s rest' I E. rewrite forallb_forall in H. specialize (H s I). rewrite (fits_ok _ _ _ E) in H.
  cbn in H. apply Nat.leb_le. exact H.
Qed.

Lemma punct_ok l s r : punct l = Some (s, r) -> exists w, l = w ++ r /\ spelled (TP s) w /\ ends (TP s) w r.
Proof.
  intros H. exists (list_byte_of_string (sign_text s)).
  assert (K : l = list_byte_of_string (sign_text s) ++ r /\ forallb (fun x => negb (fits (list_byte_of_string x) (list_byte_of_string (sign_text s) ++ r)) || 
     Nat.leb (List.length (list_byte_of_string x)) (List.length (list_byte_of_string (sign_text s)))) punctuation = true).
  { destruct l as [|b l]; [discriminate H|].
    destruct b; try discriminate H; cbn in H;
    repeat match type of H with
    | Some _ = Some _ => injection H as <- <-; split; reflexivity
    | None = Some _ => discriminate H
    | match ?l with [] => _ | _ => _ end = Some _ => destruct l; cbn in H
    | match ?b with _ => _ end = Some _ => destruct b; cbn in H
    end. }
  destruct K as [K1 K2]. split; [exact K1|]. split; [constructor|]. intros x rest'. exact (longest _ _ K2 x rest').
Qed.

Lemma word_ends_ok r : (forall b r', r = b :: r' -> ~ in_word b) -> word_ends r = true ->
  forall b rest', r = b :: rest' -> ~ letter b /\ ~ decimal b /\ b <> """"%byte /\ b <> "'"%byte /\ b <> "#"%byte.
Proof.
  intros N W b r' ->. specialize (N b r' eq_refl). unfold in_word in N. 
  repeat split; try (intros I; apply N; auto; fail); intros ->; discriminate W.
Qed.
Lemma number_ends_ok r : number_ends r = true -> word_ends r = true /\ forall rest', r = "."%byte :: rest' ->
  exists b rest2, rest' = b :: rest2 /\ (b = "."%byte \/ letter b).
Proof.
  unfold number_ends. intros H. apply andb_true_iff in H. destruct H as [W H]. split; [exact W|]. intros r' ->.
  destruct r' as [|b r']; [discriminate H|]. exists b, r'. split; [reflexivity|].
  destruct (class_of b) eqn:C; try (left; destruct b; (reflexivity || discriminate); fail).
  all: try (right; apply alpha_letter; exact C).
  all: left; destruct b; try discriminate C; try reflexivity; discriminate H.
Qed.

Lemma lex_ok n : forall l ts, lex n l = Some ts -> tokens l ts.
Proof.
  induction n as [|n IH]; intros l ts; [discriminate|]. destruct l as [|b l]; [intros H; injection H as <-; constructor|].
  assert (M : forall t r w, spelled t w -> ends t w r ->
    match lex n r with Some ts => Some (t :: ts) | None => None end = Some ts -> tokens (w ++ r) ts).
  { intros t r w S E. destruct (lex n r) as [us|] eqn:L; [|discriminate]. intros H. injection H as <-.
    apply IH in L. constructor; assumption. }
  cbn [lex]. cbv zeta. destruct (class_of b) eqn:C.
  - assert (b = " "%byte) as -> by (destruct b; try discriminate C; reflexivity). intros H. constructor. apply IH. exact H.
  - destruct (word (b :: l)) as [w r] eqn:W. destruct (word_ok _ _ _ W) as (-> & I & N).
    assert (NW : name w).
    { cbn [word] in W. rewrite C in W. destruct (word l) as [w' r']. injection W as <- <-. exists b, w'.
      split; [reflexivity|]. split; [apply alpha_letter, C|]. intros c J. apply I. right. exact J. }
    destruct (word_tok _) as [t|] eqn:T; [|discriminate]. apply (word_tok_ok w t NW) in T. destruct T as [S T].
    destruct (word_ends r) eqn:E; [|discriminate]. apply M; [exact S|].
    pose proof (word_ends_ok r N E) as Q. destruct T as [[k ->]|[s ->]]; (split; [exact Q|exact Logic.I]).
  - destruct (word (b :: l)) as [w r] eqn:W. pose proof (word_ok _ _ _ W) as (E0 & I & N). rewrite E0. clear E0.
    assert (exists w', w = b :: w') as [w' ->].
    { cbn [word] in W. rewrite C in W. destruct (word l) as [w' r']. injection W as <- <-. eauto. }
    destruct (number _) as [t|] eqn:T; [|discriminate]. apply number_ok in T; [|apply digit_decimal, C].
    destruct T as [S (z & s & ->)]. destruct (number_ends r) eqn:E; [|discriminate]. apply number_ends_ok in E. destruct E as [E F].
    apply M; [exact S|]. split; [exact (word_ends_ok r N E)|exact F].
  - assert (b = """"%byte) as -> by (destruct b; try discriminate C; reflexivity).
    destruct (quoted l) as [[w r]|] eqn:Q; [|discriminate]. apply quoted_ok in Q. destruct Q as [-> I].
    intros H. change ("""" :: w ++ """" :: r)%byte with ([""""%byte] ++ w ++ [""""%byte] ++ r).
    rewrite !app_assoc. rewrite <- (app_assoc [""""%byte]). revert H. apply M; [constructor; exact I|exact Logic.I].
  - assert (b = "'"%byte) as -> by (destruct b; try discriminate C; reflexivity).
    destruct (word l) as [w r] eqn:W. destruct (word_ok _ _ _ W) as (-> & I & N). destruct w as [|c w]; [discriminate|].
    destruct (class_of c) eqn:D; try discriminate. destruct (word_ends r) eqn:E; [|discriminate].
    rewrite app_comm_cons. apply M.
    + constructor. exists c, w. split; [reflexivity|]. split; [apply alpha_letter, D|]. intros e J. apply I. right. exact J.
    + split; [exact (word_ends_ok r N E)|exact Logic.I].
  - assert (b = "/"%byte) as -> by (destruct b; try discriminate C; reflexivity).
    destruct l as [|c l]; [discriminate|]. destruct c; try discriminate. intros H. injection H as <-. constructor.
  - destruct (punct _) as [[s r]|] eqn:P; [|discriminate]. apply punct_ok in P. destruct P as (w & -> & S & E).
    apply M; assumption.
  - discriminate.
Qed.

Theorem lex_line_ok l ts : lex_line l = Some ts -> tokens (bytes_of l) ts.
Proof. apply lex_ok. Qed.
