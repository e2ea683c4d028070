(** The lexer finds every way to split a line; so there is one at most. *)
From Coq Require Import ZArith List Bool String Strings.Byte Lia.
From Verif Require Import SrcLine SrcLex SrcAst SpecGrammar SrcLexOk.
Import ListNotations.
Local Open Scope string_scope.
Local Open Scope list_scope.

Lemma word_all w r : (forall c, In c w -> in_word c) -> (forall b r', r = b :: r' -> ~ in_word b) -> word (w ++ r) = (w, r).
Proof.
  intros I N. induction w as [|c w IH].
  - cbn [app]. destruct r as [|b r]; [reflexivity|]. cbn [word]. specialize (N b r eq_refl).
    destruct (class_of b) eqn:C; try reflexivity; destruct N; [left; apply alpha_letter, C|right; apply digit_decimal, C].
  - cbn [app word]. rewrite IH by (intros d J; apply I; right; exact J).
    destruct (I c (or_introl eq_refl)) as [L|D]; [apply alpha_letter in L; rewrite L|apply digit_decimal in D; rewrite D]; reflexivity.
Qed.

Lemma not_in_word r : (forall b rest', r = b :: rest' ->
        ~ letter b /\ ~ decimal b /\ b <> """"%byte /\ b <> "'"%byte /\ b <> "#"%byte) ->
  (forall b r', r = b :: r' -> ~ in_word b) /\ word_ends r = true.
Proof.
  intros H. split.
  - intros b r' E [L|D]; destruct (H b r' E) as (A & B & _); auto.
  - destruct r as [|b r]; [reflexivity|]. destruct (H b r eq_refl) as (_ & _ & A & B & C). destruct b; try reflexivity; congruence.
Qed.

Lemma keyword_found k : word_tok (keyword_text k) = Some (TK k).
Proof. destruct k; reflexivity. Qed.
Lemma keyword_name k : name (list_byte_of_string (keyword_text k)).
Proof.
  destruct k; eexists; eexists; (split; [reflexivity|]); (split; [apply alpha_letter; reflexivity|]);
    intros c H; cbn in H; repeat (destruct H as [<-|H]; [left; apply alpha_letter; reflexivity|]); destruct H.
Qed.
Lemma name_found w : (forall k, keyword_text k <> string_of_list_byte w) -> ~ In (string_of_list_byte w) other_keywords ->
  word_tok (string_of_list_byte w) = Some (TId (string_of_list_byte w)).
Proof.
  generalize (string_of_list_byte w). intros s K O. unfold word_tok.
  destruct (find _ keywords) as [[x k]|] eqn:F.
  { pose proof (find_word _ _ _ F). subst x. apply keywords_ok in F. destruct (K k F). }
  destruct (existsb _ unused) eqn:U; [|reflexivity]. apply existsb_exists in U. destruct U as (x & I & E).
  apply String.eqb_eq in E. subst x. destruct O. cbn in I.
  repeat (destruct I as [<-|I]; [cbn; auto 40|]). destruct I.
Qed.
Lemma name_in_word w : name w -> forall c, In c w -> in_word c.
Proof. intros (b & w' & -> & L & I) c [<-|J]; [left; exact L|exact (I c J)]. Qed.

(** The value read from the front, digit by digit. *)
Fixpoint reading (base acc : Z) (w : list byte) : option Z :=
  match w with
  | [] => Some acc
  | "_"%byte :: w => reading base acc w
  | b :: w => match digit_of b with Some d => if (d <? base)%Z then reading base (acc * base + d)%Z w else None | None => None end
  end.
Lemma digit_found base b d : (base <= 16)%Z -> digit base b d -> digit_of b = Some d /\ (d <? base)%Z = true /\ b <> "_"%byte.
Proof.
  intros L [R H]. split; [|split; [apply Z.ltb_lt; lia|intros ->; change (Z.of_N (Byte.to_N "_"%byte)) with 95%Z in H; lia]].
  assert (D : (d = 0 \/ d = 1 \/ d = 2 \/ d = 3 \/ d = 4 \/ d = 5 \/ d = 6 \/ d = 7 \/ d = 8 \/ d = 9 \/ d = 10 \/ d = 11 \/ d = 12 \/ d = 13 \/ d = 14 \/ d = 15)%Z) by lia.
  assert (B : forall n : N, Z.of_N (Byte.to_N b) = Z.of_N n -> Byte.of_N n = Some b).
  { intros n E. apply N2Z.inj in E. rewrite <- E. apply Byte.of_to_N. }
  destruct H as [[H K]|[[H K]|[H K]]];
  repeat match type of D with _ \/ _ => destruct D as [D|D] end; subst d; try lia;
  match type of H with Z.of_N _ = ?e => let v := eval vm_compute in (Z.to_N e) in specialize (B v H) end;
  vm_compute in B; injection B as <-; reflexivity.
Qed.
Lemma reading_one base acc b d : (base <= 16)%Z -> digit base b d -> forall w, reading base acc (b :: w) = reading base (acc * base + d)%Z w.
Proof.
  intros L D w. destruct (digit_found _ _ _ L D) as (F & G & N). cbn [reading]. rewrite F, G. destruct b; try reflexivity. congruence.
Qed.
Lemma reading_app base u : forall acc w, reading base acc (u ++ w) = match reading base acc u with Some a => reading base a w | None => None end.
Proof.
  induction u as [|b u IH]; intros acc w; [reflexivity|]. cbn [app reading].
  destruct b; try apply IH; cbn [digit_of]; try reflexivity; destruct (_ <? _)%Z; (reflexivity || apply IH).
Qed.
Lemma reading_ok base w z : (base <= 16)%Z -> numeral_of base w z ->
  reading base 0 w = Some z /\ (forall c, In c w -> c = "_"%byte \/ exists d, digit base c d) /\ exists c d, In c w /\ digit base c d.
Proof.
  intros L H. induction H as [b d D|w z H IH|w z b d H IH D|w z H IH].
  - rewrite (reading_one _ _ _ _ L D). split; [reflexivity|]. split; [|exists b, d; split; [left; reflexivity|exact D]].
    intros c [<-|[]]. eauto.
  - destruct IH as (R & A & c & d & I & D). split; [exact R|]. split.
    + intros e [<-|J]; [left; reflexivity|exact (A e J)].
    + exists c, d. split; [right; exact I|exact D].
  - destruct IH as (R & A & c & e & I & E). rewrite reading_app, R, (reading_one _ _ _ _ L D). split; [reflexivity|]. split.
    + intros f J. apply in_app_or in J. destruct J as [J|[<-|[]]]; eauto.
    + exists c, e. split; [apply in_or_app; left; exact I|exact E].
  - destruct IH as (R & A & c & e & I & E). rewrite reading_app, R. split; [reflexivity|]. split.
    + intros f J. apply in_app_or in J. destruct J as [J|[<-|[]]]; eauto.
    + exists c, e. split; [apply in_or_app; left; exact I|exact E].
Qed.

Lemma digit_in_word base c d : (base <= 16)%Z -> digit base c d -> in_word c.
Proof.
  intros L D. destruct (digit_found _ _ _ L D) as (F & _ & _). clear D.
  destruct c; try discriminate F; try (right; apply digit_decimal; reflexivity); left; apply alpha_letter; reflexivity.
Qed.

(** After the digits. *)
Definition stops (r : list byte) : Prop := r = [] \/ exists b r', r = b :: r' /\ digit_of b = None /\ b <> "_"%byte.
Lemma numeral_reads base r : stops r -> forall w acc seen z, reading base acc w = Some z ->
  seen = true \/ (exists c, In c w /\ c <> "_"%byte) -> numeral base acc seen (w ++ r) = Some (z, r).
Proof.
  intros S. induction w as [|b w IH]; intros acc seen z R G.
  - destruct G as [->|(c & [] & _)]. cbn [reading] in R. injection R as ->. cbn [app].
    destruct S as [->|(b & r' & -> & D & N)]; [reflexivity|]. cbn [numeral]. rewrite D. destruct b; try reflexivity. congruence.
  - assert (K : b <> "_"%byte -> (exists d, digit_of b = Some d /\ (d <? base)%Z = true /\ reading base (acc * base + d)%Z w = Some z) ->
      numeral base acc seen ((b :: w) ++ r) = Some (z, r)).
    { intros N (d & D & B & R'). cbn [app numeral]. rewrite D, B. rewrite (IH _ true _ R') by (left; reflexivity).
      destruct b; try reflexivity. congruence. }
    assert (Q : b <> "_"%byte -> exists d, digit_of b = Some d /\ (d <? base)%Z = true /\ reading base (acc * base + d)%Z w = Some z).
    { intros N. assert (R' : match digit_of b with Some d => if (d <? base)%Z then reading base (acc * base + d)%Z w else None | None => None end = Some z).
      { destruct b; try exact R. congruence. }
      destruct (digit_of b) as [d|]; [|discriminate R']. destruct (d <? base)%Z eqn:B; [|discriminate R']. eauto. }
    destruct b; try (apply K; [discriminate|apply Q; discriminate]).
    clear K Q. cbn [reading] in R. cbn [app numeral]. apply IH; [exact R|]. destruct G as [G|(c & [<-|I] & N)]; [left; exact G|congruence|].
    right. eauto.
Qed.

Lemma suffix_cases s : integer_suffix s -> In s suffixes.
Proof.
  intros [->|(a & b & -> & A & B)]; [left; reflexivity|]. cbn in A, B. destruct A as [<-|[<-|[]]];
    repeat (destruct B as [<-|B]; [cbn; auto 20|]); destruct B.
Qed.
Lemma suffix_stops s : integer_suffix s -> stops (list_byte_of_string s) /\ (forall c, In c (list_byte_of_string s) -> in_word c) /\
  existsb (String.eqb s) suffixes = true /\ forall b r, list_byte_of_string s = b :: r -> b = "u"%byte \/ b = "i"%byte.
Proof.
  intros H. apply suffix_cases in H. cbn in H. destruct H as [<-|H].
  { split; [left; reflexivity|]. split; [intros c []|]. split; [reflexivity|discriminate]. }
  repeat (destruct H as [<-|H]; [
    split; [right; eexists; eexists; split; [reflexivity|split; [reflexivity|discriminate]]|];
    split; [intros c I; cbn in I; repeat (destruct I as [<-|I]; [solve [left; apply alpha_letter; reflexivity|right; apply digit_decimal; reflexivity]|]); destruct I|];
    split; [reflexivity|intros b r E; injection E as <- _; auto]|]).
  destruct H.
Qed.

Lemma number_found base start w z s : based base start -> numeral_of base w z -> integer_suffix s ->
  (start = [] -> exists b w', w = b :: w' /\ decimal b) ->
  number (start ++ w ++ list_byte_of_string s) = Some (TNum z s) /\
  (exists b u, start ++ w ++ list_byte_of_string s = b :: u /\ decimal b) /\
  forall c, In c (start ++ w ++ list_byte_of_string s) -> in_word c.
Proof.
  intros B N S F. assert (L : (base <= 16)%Z) by (destruct B as [[-> _]|[[-> _]|[-> _]]]; lia).
  destruct (reading_ok _ _ _ L N) as (R & A & (c & d & I & D)). destruct (suffix_stops s S) as (ST & SW & SE & SB).
  assert (K : numeral base 0 false (w ++ list_byte_of_string s) = Some (z, list_byte_of_string s)).
  { apply numeral_reads; [exact ST|exact R|]. right. exists c. split; [exact I|]. exact (proj2 (proj2 (digit_found _ _ _ L D))). }
  assert (W : forall c, In c (w ++ list_byte_of_string s) -> in_word c).
  { intros e J. apply in_app_or in J. destruct J as [J|J]; [|exact (SW e J)]. destruct (A e J) as [->|(f & E)];
      [left; apply alpha_letter; reflexivity|exact (digit_in_word _ _ _ L E)]. }
  unfold number.
  destruct B as [[-> ->]|[[-> ->]|[-> ->]]].
  - destruct (F eq_refl) as (b & w' & -> & DB). split; [|split; [exists b, (w' ++ list_byte_of_string s); auto|exact W]].
    clear W. cbn [app] in K |- *.
    assert (NX : forall x r, w' ++ list_byte_of_string s = x :: r -> x <> "x"%byte /\ x <> "b"%byte).
    { intros x r E. destruct w' as [|y w'].
      - cbn [app] in E. destruct (SB _ _ E) as [->| ->]; split; discriminate.
      - injection E as -> _. destruct (A x (or_intror (or_introl eq_refl))) as [->|(f & G)]; [split; discriminate|].
        destruct G as [G1 G2]. split; intros ->; [change (Z.of_N (Byte.to_N "x"%byte)) with 120%Z in G2|change (Z.of_N (Byte.to_N "b"%byte)) with 98%Z in G2]; lia. }
    set (t := w' ++ list_byte_of_string s) in K, NX |- *. clearbody t.
    assert (G : match numeral 10 0 false (b :: t) with
      | Some (z0, suffix) => let s0 := string_of_list_byte suffix in
           if existsb (String.eqb s0) suffixes then Some (TNum z0 s0) else None
      | None => None end = Some (TNum z s)).
    { rewrite K. cbv zeta. rewrite string_bytes, SE. reflexivity. }
    destruct b; try exact G. destruct t as [|x t]; [exact G|]. destruct (NX x t eq_refl) as [N1 N2].
    destruct x; try exact G; congruence.
  - split; [|split].
    + cbn [app]. rewrite K. cbv zeta. rewrite string_bytes, SE. reflexivity.
    + exists "0"%byte, ("x"%byte :: w ++ list_byte_of_string s). split; [reflexivity|apply digit_decimal; reflexivity].
    + cbn [app]. intros e [<-|[<-|J]]; [right; apply digit_decimal; reflexivity|left; apply alpha_letter; reflexivity|exact (W e J)].
  - split; [|split].
    + cbn [app]. rewrite K. cbv zeta. rewrite string_bytes, SE. reflexivity.
    + exists "0"%byte, ("b"%byte :: w ++ list_byte_of_string s). split; [reflexivity|apply digit_decimal; reflexivity].
    + cbn [app]. intros e [<-|[<-|J]]; [right; apply digit_decimal; reflexivity|left; apply alpha_letter; reflexivity|exact (W e J)].
Qed.

Lemma quoted_all w r : (forall b, In b w -> b <> """"%byte /\ b <> "\"%byte) -> quoted (w ++ """"%byte :: r) = Some (w, r).
Proof.
  induction w as [|b w IH]; intros H; [reflexivity|]. cbn [app quoted].
  rewrite IH by (intros c I; apply H; right; exact I). destruct (H b (or_introl eq_refl)) as [N1 N2].
  destruct b; try reflexivity; congruence.
Qed.

Lemma shortest w rest : (forall s rest', In s punctuation -> w ++ rest = list_byte_of_string s ++ rest' ->
      (List.length (list_byte_of_string s) <= List.length w)%nat) ->
  forallb (fun s => negb (fits (list_byte_of_string s) (w ++ rest)) ||
     Nat.leb (List.length (list_byte_of_string s)) (List.length w)) punctuation = true.
Proof.
  intros H. apply forallb_forall. intros s I. destruct (fits _ _) eqn:F; [|reflexivity]. cbn [negb orb].
  apply Nat.leb_le. 
  assert (K : forall a l, fits a l = true -> exists r, l = a ++ r).
  { clear. induction a as [|x a IH]; intros l E; [exists l; reflexivity|]. destruct l as [|y l]; [discriminate E|].
    cbn in E. apply andb_true_iff in E. destruct E as [E1 E2]. destruct (IH _ E2) as (r & ->). exists r.
    assert (x = y) as -> by (apply Byte.byte_dec_bl; exact E1). reflexivity. }
  destruct (K _ _ F) as (r & E). exact (H s r I E).
Qed.

Lemma punct_found s r : ends (TP s) (list_byte_of_string (sign_text s)) r ->
  punct (list_byte_of_string (sign_text s) ++ r) = Some (s, r).
Proof.
  intros H. apply shortest in H. revert H. 
  destruct s; cbn [sign_text]; try reflexivity;
    (destruct r as [|b r]; [reflexivity|]; destruct b; try reflexivity; try (intros H; discriminate H));
    (destruct r as [|b r]; [reflexivity|]; destruct b; try reflexivity; try (intros H; discriminate H)).
Qed.

Lemma number_ends_all r : word_ends r = true -> (forall rest', r = "."%byte :: rest' ->
          exists b rest2, rest' = b :: rest2 /\ (b = "."%byte \/ letter b)) -> number_ends r = true.
Proof.
  intros W H. unfold number_ends. rewrite W. cbn [andb]. destruct r as [|b r]; [reflexivity|]. destruct b; try reflexivity.
  destruct (H r eq_refl) as (b & r2 & -> & [->|L]); [reflexivity|]. apply alpha_letter in L. rewrite L. destruct b; reflexivity.
Qed.

Lemma sign_class s : exists b u, list_byte_of_string (sign_text s) = b :: u /\ class_of b = Punct.
Proof. destruct s; eexists; eexists; (split; [reflexivity|reflexivity]). Qed.

Lemma lex_all l ts : tokens l ts -> forall n, (List.length l < n)%nat -> lex n l = Some ts.
Proof.
  induction 1 as [|l|l ts T IH|t w l ts S E T IH]; intros n L.
  - destruct n; [inversion L|reflexivity].
  - destruct n; [inversion L|reflexivity].
  - destruct n as [|n]; [inversion L|]. cbn [List.length] in L. cbn [lex]. cbn. apply IH. lia.
  - rewrite app_length in L. destruct n as [|n]; [lia|].
    assert (NX : (0 < List.length w)%nat -> lex n l = Some ts) by (intros P; apply IH; lia). clear IH.
    assert (WORD : name w -> forall t', word_tok (string_of_list_byte w) = Some t' -> (exists k, t' = TK k) \/ (exists s, t' = TId s) ->
      ends t' w l -> lex (Datatypes.S n) (w ++ l) = Some (t' :: ts)).
    { intros N t' WT TT EE. 
      assert (A : forall b rest', l = b :: rest' -> ~ letter b /\ ~ decimal b /\ b <> """"%byte /\ b <> "'"%byte /\ b <> "#"%byte)
        by (destruct TT as [[k ->]|[s ->]]; exact (proj1 EE)).
      apply not_in_word in A. destruct A as [A1 A2]. pose proof (word_all w l (name_in_word w N) A1) as WA.
      destruct N as (b & w' & -> & LB & I). apply alpha_letter in LB. cbn [app] in WA |- *. cbn [lex]. rewrite LB, WA. 
      rewrite WT, A2, NX by (cbn; lia). reflexivity. }
    inversion S; subst.
    + apply WORD; [apply keyword_name|rewrite string_bytes; apply keyword_found|eauto|exact E].
    + apply WORD; [assumption|apply name_found; assumption|eauto|exact E].
    + clear WORD. destruct E as [E1 E2]. apply not_in_word in E1. destruct E1 as [A1 A2].
      destruct (number_found base start w0 z suffix) as (N & (b & u & E & B) & W); try assumption.
      pose proof (word_all _ l W A1) as WA. pose proof (number_ends_all l A2 E2) as NE.
      rewrite E in *. cbn [app] in WA |- *. apply digit_decimal in B. cbn [lex]. rewrite B, WA, N, NE, NX by (cbn; lia). reflexivity.
    + clear WORD. rewrite <- app_assoc. cbn [app lex class_of]. rewrite <- app_assoc. cbn [app]. rewrite quoted_all by assumption.
      rewrite NX by (cbn; lia). reflexivity.
    + clear WORD. destruct E as [E1 _]. apply not_in_word in E1. destruct E1 as [A1 A2].
      match goal with H : name _ |- _ => pose proof (word_all _ l (name_in_word _ H) A1) as WA; destruct H as (b & w' & -> & LB & I) end.
      apply alpha_letter in LB. cbn [app] in WA |- *. cbn [lex class_of]. rewrite WA, LB, A2, NX by (cbn; lia). reflexivity.
    + clear WORD. pose proof (punct_found s l E) as P. destruct (sign_class s) as (b & u & EB & C). rewrite EB in *.
      cbn [app] in P |- *. cbn [lex]. rewrite C, P, NX by (cbn; lia). reflexivity.
Qed.

Theorem lex_line_all l ts : tokens (bytes_of l) ts -> lex_line l = Some ts.
Proof. intros H. apply (lex_all _ _ H). constructor. Qed.
Theorem tokens_unique l a b : tokens l a -> tokens l b -> a = b.
Proof. intros A B. pose proof (lex_all _ _ A _ (le_n _)) as P. rewrite (lex_all _ _ B _ (le_n _)) in P. injection P as <-. reflexivity. Qed.
