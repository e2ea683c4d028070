(** The meaning given by SpecMeaning.v is unique. *)
From Coq Require Import ZArith List Bool String Lia.
From Verif Require Import Rust SrcLex SrcAst SrcNames SrcSem SpecMeaning.
From Verif Require SpecText Numerals.
Import ListNotations.
Local Open Scope string_scope.
Local Open Scope Z_scope.

Lemma Finds_one {A} x (v w : A) l : Finds x v l -> Finds x w l -> v = w.
Proof. induction 1; intros F; inversion F; subst; try congruence; auto. Qed.

Lemma Int_named_one x t u : Int_named x t -> Int_named x u -> t = u.
Proof. intros H K. inversion H; subst; inversion K; reflexivity. Qed.

Lemma Int_name_one x y t : Int_named x t -> Int_named y t -> x = y.
Proof. intros H K. inversion H; subst; inversion K; reflexivity. Qed.

Lemma Common_one t u c d : Common t u c -> Common t u d -> c = d.
Proof. intros H K. inversion H; subst; inversion K; subst; reflexivity. Qed.

Lemma bool_one (r r' : bool) (A : Prop) : (r = true <-> A) -> (r' = true <-> A) -> r = r'.
Proof. intros H K. destruct r, r'; intuition discriminate. Qed.

Section One.
Variable p : platform.
Hypothesis ok : platform_ok p.

Lemma bits_pos t : has_size t -> 0 < bits p t.
Proof. destruct t; cbn; intros []; try lia. destruct ok as [E|[E|E]]; rewrite E; lia. Qed.

Lemma congruent m a b k l : 0 < m -> 0 <= a < m -> 0 <= b < m -> a + k * m = b + l * m -> a = b.
Proof. intros. assert (k = l) by nia. subst. lia. Qed.

Lemma Wraps_one t z y y' : has_size t -> Wraps p t z y -> Wraps p t z y' -> y = y'.
Proof.
  intros T (R & k & H) (R' & k' & H'). assert (B : 0 < 2 ^ bits p t) by (apply Z.pow_pos_nonneg; [lia|apply Z.lt_le_incl, bits_pos, T]).
  destruct t; try destruct T; cbn [in_range] in R, R';
    try (eapply congruent with (m := 2 ^ bits p _); try eassumption; rewrite <- H, <- H'; reflexivity).
  cbn [bits] in H, H', B. change (2 ^ 32) with 4294967296 in *. change (2 ^ 31) with 2147483648 in *.
  assert (y + 2147483648 = y' + 2147483648); [|lia].
  eapply congruent with (m := 4294967296) (k := k) (l := k'); lia.
Qed.

Lemma Settles_one t z r r' : Settles p t z r -> Settles p t z r' -> r = r'.
Proof.
  intros H K. destruct H; inversion K; subst; try contradiction; try congruence.
  f_equal. eapply Wraps_one; try eassumption. destruct t; cbn in *; tauto.
Qed.

Lemma Amount_one t n r r' : Amount p t n r -> Amount p t n r' -> r = r'.
Proof.
  intros H K. destruct H; inversion K; subst; try contradiction; try congruence.
  f_equal. match goal with H : exists _, _ |- _ => destruct H as (k & H) end.
  match goal with H : exists _, _ |- _ => destruct H as (l & H') end.
  first [eapply congruent with (m := bits p t) (k := k) (l := l); lia|eapply congruent with (m := bits p t) (k := l) (l := k); lia].
Qed.

Lemma Operation_one op t a u b r r' : Operation p op t a u b r -> Operation p op t a u b r' -> r = r'.
Proof.
  intros H K. destruct H; inversion K; subst;
    repeat match goal with
    | A : Common ?t ?u ?c, B : Common ?t ?u ?d |- _ => pose proof (Common_one _ _ _ _ A B); subst; clear A
    | A : Settles _ ?t ?u ?c, B : Settles _ ?t ?u ?d |- _ => pose proof (Settles_one _ _ _ _ A B); subst; clear A
    | A : Amount _ ?t ?u ?c, B : Amount _ ?t ?u ?d |- _ => pose proof (Amount_one _ _ _ _ A B); subst; clear A
    end; try reflexivity; repeat f_equal.
  - apply Z.bits_inj'. intros i I. rewrite H0 by exact I. symmetry. auto.
  - apply Z.bits_inj'. intros i I. rewrite H0 by exact I. symmetry. auto.
  - eapply bool_one; eassumption.
  - eapply bool_one; eassumption.
  - eapply bool_one; eassumption.
Qed.

Lemma Primitive_one x m vs v w : Primitive p x m vs v -> Primitive p x m vs w -> v = w.
Proof.
  intros H K. destruct H; inversion K; subst; try lia;
    repeat match goal with
    | A : Int_named ?x ?t, B : Int_named ?x ?u |- _ => pose proof (Int_named_one _ _ _ A B); subst; clear A
    end; try lia; reflexivity.
Qed.

Scheme Takes_mut := Minimality for Takes Sort Prop
  with Takes_all_mut := Minimality for Takes_all Sort Prop.
Combined Scheme Takes_both from Takes_mut, Takes_all_mut.

Ltac int_names :=
  repeat match goal with
  | A : Int_named ?x ?t, B : Int_named ?x ?u |- _ =>
      pose proof (Int_named_one _ _ _ A B); subst; clear A
  | A : Int_named ?x ?t, B : forall i, ~ Int_named ?x i |- _ => destruct (B _ A)
  end.

Lemma Takes_unique :
  (forall t v w, Takes p t v w -> forall w', Takes p t v w' -> w = w') /\
  (forall t vs ws, Takes_all p t vs ws -> forall ws', Takes_all p t vs ws' -> ws = ws').
Proof.
  apply Takes_both; intros; match goal with K : Takes _ _ _ ?r |- _ = ?r => inversion K; subst; clear K | K : Takes_all _ _ _ ?r |- _ = ?r => inversion K; subst; clear K end;
    int_names; try reflexivity; try congruence; auto;
    try (cbn in *; congruence);
    try solve [match goal with K : Int_named _ Lit |- _ => inversion K | K : Int_named _ Into |- _ => inversion K end];
    try solve [f_equal; auto]; try solve [do 2 f_equal; auto];
    try solve [exfalso; match goal with K : _ :: _ <> [] -> _ |- _ => eapply K; [discriminate|reflexivity|assumption] end].
Qed.

Lemma Takes_if_one t v w w' : Takes_if p t v w -> Takes_if p t v w' -> w = w'.
Proof. intros H K. destruct H; inversion K; subst; [reflexivity|]. eapply (proj1 Takes_unique); eassumption. Qed.

Lemma Binds_one ps vs s s1 s2 : Binds p ps vs s s1 -> Binds p ps vs s s2 -> s1 = s2.
Proof.
  induction 1; intros K; inversion K; subst; [reflexivity|].
  match goal with A : Takes_if _ _ _ w, B : Takes_if _ _ _ ?u |- _ => pose proof (Takes_if_one _ _ _ _ A B); subst end. auto.
Qed.

End One.

Scheme Meets_mut := Minimality for Meets Sort Prop
  with Meets_all_mut := Minimality for Meets_all Sort Prop.
Combined Scheme Meets_both from Meets_mut, Meets_all_mut.

Lemma Meets_unique :
  (forall q v b r, Meets q v b r -> forall r', Meets q v b r' -> r = r') /\
  (forall q v b r, Meets_all q v b r -> forall r', Meets_all q v b r' -> r = r').
Proof.
  apply Meets_both; intros; match goal with K : Meets _ _ _ ?r |- _ = ?r => inversion K; subst; clear K | K : Meets_all _ _ _ ?r |- _ = ?r => inversion K; subst; clear K end;
    try reflexivity; try congruence; try contradiction; auto;
    repeat match goal with
    | A : forall r', Meets ?q ?v ?b r' -> _ = r', B : Meets ?q ?v ?b _ |- _ => apply A in B; try discriminate B; try (injection B as ?; subst)
    end; auto; try reflexivity.
Qed.

Lemma Meets_one q v b r r' : Meets q v b r -> Meets q v b r' -> r = r'.
Proof. intros H. apply (proj1 Meets_unique _ _ _ _ H). Qed.

Lemma Picks_one v l b e b' e' : Picks v l b e -> Picks v l b' e' -> b = b' /\ e = e'.
Proof.
  induction 1 as [q e l b M|q e l b e1 M _ IH]; intros K; inversion K; subst;
    try (match goal with A : Meets q v [] _, B : Meets q v [] _ |- _ => pose proof (Meets_one _ _ _ _ _ A B) as E; try discriminate E; try (injection E as E; subst) end);
    auto.
Qed.

Section Derived.
Variable P : program.

Scheme Equal_mut := Minimality for Equal Sort Prop
  with Equal_all_mut := Minimality for Equal_all Sort Prop
  with Equal_fields_mut := Minimality for Equal_fields Sort Prop.
Combined Scheme Equal_three from Equal_mut, Equal_all_mut, Equal_fields_mut.

Lemma Equal_unique :
  (forall x y r, Equal P x y r -> forall r', Equal P x y r' -> r = r') /\
  (forall x y r, Equal_all P x y r -> forall r', Equal_all P x y r' -> r = r') /\
  (forall x y r, Equal_fields P x y r -> forall r', Equal_fields P x y r' -> r = r').
Proof.
  apply Equal_three; intros;
    match goal with K : Equal _ _ _ ?r |- _ = ?r => inversion K; subst; clear K
    | K : Equal_all _ _ _ ?r |- _ = ?r => inversion K; subst; clear K
    | K : Equal_fields _ _ _ ?r |- _ = ?r => inversion K; subst; clear K end;
    try reflexivity; try congruence; auto;
    try (eapply bool_one; eassumption);
    match goal with A : forall r', Equal _ ?x ?y r' -> _ = r', B : Equal _ ?x ?y _ |- _ => apply A in B; discriminate B end.
Qed.

Scheme Debugs_mut := Minimality for Debugs Sort Prop
  with Debugs_all_mut := Minimality for Debugs_all Sort Prop.
Combined Scheme Debugs_both from Debugs_mut, Debugs_all_mut.

Lemma Debugs_unique :
  (forall v s, Debugs P v s -> forall s', Debugs P v s' -> s = s') /\
  (forall v s, Debugs_all P v s -> forall s', Debugs_all P v s' -> s = s').
Proof.
  apply Debugs_both; intros;
    match goal with K : Debugs _ _ ?r |- _ = ?r => inversion K; subst; clear K
    | K : Debugs_all _ _ ?r |- _ = ?r => inversion K; subst; clear K end;
    try reflexivity; try congruence; auto.
  - eapply Numerals.decimal_unique; eassumption.
  - match goal with B : Debugs_all _ _ ?x, A : forall r, Debugs_all _ _ r -> _ |- _ => apply A in B; subst; reflexivity end.
  - match goal with B : Debugs_all _ _ ?x, A : forall r, Debugs_all _ _ r -> _ |- _ => apply A in B; subst; reflexivity end.
  - f_equal; auto.
Qed.

End Derived.

Lemma Hex_one t z s s' : Hex t z s -> Hex t z s' -> s = s'.
Proof.
  intros H K. destruct H; inversion K; subst; try lia;
    eapply Numerals.numeral_unique with (base := 16); try eassumption; lia.
Qed.

Lemma Ends_one f a b : Ends f a -> Ends f b -> a = b.
Proof. intros H K. destruct H; inversion K; reflexivity. Qed.

Lemma Says_ok_one a w w' : Says_ok a w -> Says_ok a w' -> w = w'.
Proof. intros H K. destruct H; inversion K; reflexivity. Qed.

Lemma app_one {A} (d d' s s' : list A) : (d ++ s = d' ++ s')%list -> List.length s = List.length s' -> s = s'.
Proof.
  intros E L. assert (N : List.length d = List.length d') by (apply (f_equal (@List.length A)) in E; rewrite !app_length in E; lia).
  revert d' E N. induction d as [|a d IH]; intros [|a' d'] E N; try discriminate N; [exact E|].
  injection E as _ E. injection N as N. apply (IH d' E N).
Qed.

Lemma Leaves_one s f g g' : Leaves s f g -> Leaves s f g' -> g = g'.
Proof.
  intros H K. destruct H; inversion K; subst; cbn in *; try contradiction; try reflexivity.
  f_equal. eapply app_one; [symmetry; eassumption|congruence].
Qed.

Lemma Methods_of_one v t u : Methods_of v t -> Methods_of v u -> t = u.
Proof. intros H K. destruct H; inversion K; subst; try reflexivity. eapply Int_name_one; eassumption. Qed.

Lemma Numbers_one i l l1 l2 : Numbers i l l1 -> Numbers i l l2 -> l1 = l2.
Proof. intros H. revert l2. induction H; intros l2 K; inversion K; subst; f_equal; auto. Qed.

Lemma Builtin_one p r m vs a b : platform_ok p -> Builtin p r m vs a -> Builtin p r m vs b -> a = b.
Proof.
  intros ok H K. destruct H; inversion K; subst; try reflexivity; try contradiction;
    try (match goal with O : _ \/ _ |- _ => destruct O as [O|[O|O]]; discriminate O end).
  - f_equal. eapply Settles_one; eassumption.
  - do 2 f_equal. eapply Numbers_one; eassumption.
Qed.

Lemma split_one {A} x (v w : A) : forall s1 s2 s1' s2' : list (string * A),
  (s1 ++ (x, v) :: s2 = s1' ++ (x, w) :: s2')%list -> ~ In x (map fst s1) -> ~ In x (map fst s1') ->
  s1 = s1' /\ v = w /\ s2 = s2'.
Proof.
  induction s1 as [|(y, u) s1 IH]; intros s2 [|(y', u') s1'] s2' E N N'; cbn in *.
  - injection E as -> ->. auto.
  - injection E as -> _ _. destruct N'. left. reflexivity.
  - injection E as <- _ _. destruct N. left. reflexivity.
  - injection E as <- <- E. destruct (IH s2 s1' s2' E) as (-> & -> & ->); [tauto..|]. auto.
Qed.

Lemma Finds_split {A} x (v : A) : forall s1 s2 : list (string * A), ~ In x (map fst s1) -> Finds x v (s1 ++ (x, v) :: s2)%list.
Proof.
  induction s1 as [|(y, u) s1 IH]; intros s2 N; [apply F_here|]. cbn in *. apply F_later; [intros ->; tauto|apply IH; tauto].
Qed.

Lemma Builtin_crate p r m vs a t : Builtin p r m vs a -> Methods_of r t ->
  ~ ((exists i z, r = VInt i z) /\ (m = "pow"%string \/ m = "into"%string)) -> False.
Proof.
  intros B M N. destruct B; inversion M; subst; try solve [apply N; split; eauto];
    try (match goal with K : ~ std_variant _ _ |- _ => apply K end; try (left; assumption); assumption).
Qed.

Scheme Eval_mut := Minimality for Eval Sort Prop
  with Evals_mut := Minimality for Evals Sort Prop
  with Then_mut := Minimality for Then Sort Prop
  with Block_mut := Minimality for Block Sort Prop
  with Loop_mut := Minimality for Loop Sort Prop
  with Shows_mut := Minimality for Shows Sort Prop
  with Formats_mut := Minimality for Formats Sort Prop
  with Method_mut := Minimality for Method Sort Prop
  with Calls_mut := Minimality for Calls Sort Prop.
Combined Scheme Eval_all from Eval_mut, Evals_mut, Then_mut, Block_mut, Loop_mut, Shows_mut,
  Formats_mut, Method_mut, Calls_mut.

Lemma Finds_in {A} x (v : A) l : Finds x v l -> In x (map fst l).
Proof. induction 1; [left; reflexivity|right; assumption]. Qed.

Section Unique.
Variable P : program.
Variable p : platform.
Hypothesis ok : platform_ok p.

Ltac same :=
  match goal with
  | A : forall r, Eval _ _ ?e ?s ?o r -> _ = r, B : Eval _ _ ?e ?s ?o _ |- _ => apply A in B
  | A : forall r, Evals _ _ ?e ?s ?o r -> _ = r, B : Evals _ _ ?e ?s ?o _ |- _ => apply A in B
  | A : forall r, Then _ _ ?e ?v ?s ?o r -> _ = r, B : Then _ _ ?e ?v ?s ?o _ |- _ => apply A in B
  | A : forall r, Block _ _ ?e ?v ?s ?o r -> _ = r, B : Block _ _ ?e ?v ?s ?o _ |- _ => apply A in B
  | A : forall r, Loop _ _ ?e ?v ?l ?s ?o r -> _ = r, B : Loop _ _ ?e ?v ?l ?s ?o _ |- _ => apply A in B
  | A : forall r, Shows _ _ ?e ?s ?o r -> _ = r, B : Shows _ _ ?e ?s ?o _ |- _ => apply A in B
  | A : Says_ok ?x _, B : Says_ok ?x _ |- _ => pose proof (Says_ok_one _ _ _ A B); clear A
  | A : forall r, Formats _ _ ?e ?v ?s ?o r -> _ = r, B : Formats _ _ ?e ?v ?s ?o _ |- _ => apply A in B
  | A : forall r, Method _ _ ?e ?v ?s ?o r -> _ = r, B : Method _ _ ?e ?v ?s ?o _ |- _ => apply A in B
  | A : forall r, Calls _ _ ?e ?s ?o r -> _ = r, B : Calls _ _ ?e ?s ?o _ |- _ => apply A in B
  | A : Finds ?x _ ?l, B : Finds ?x _ ?l |- _ => pose proof (Finds_one _ _ _ _ A B); clear A
  | A : Int_named ?x _, B : Int_named ?x _ |- _ => pose proof (Int_named_one _ _ _ A B); clear A
  | A : Settles _ ?x ?z _, B : Settles _ ?x ?z _ |- _ => pose proof (Settles_one _ ok _ _ _ _ A B); clear A
  | A : Operation _ ?q ?x ?z ?u ?v _, B : Operation _ ?q ?x ?z ?u ?v _ |- _ => pose proof (Operation_one _ ok _ _ _ _ _ _ _ A B); clear A
  | A : Primitive _ ?x ?z ?u _, B : Primitive _ ?x ?z ?u _ |- _ => pose proof (Primitive_one _ _ _ _ _ _ A B); clear A
  | A : Binds _ ?x ?z ?u _, B : Binds _ ?x ?z ?u _ |- _ => pose proof (Binds_one _ _ _ _ _ _ A B); clear A
  | A : Takes_if _ ?x ?z _, B : Takes_if _ ?x ?z _ |- _ => pose proof (Takes_if_one _ _ _ _ _ A B); clear A
  | A : Ends ?x _, B : Ends ?x _ |- _ => pose proof (Ends_one _ _ _ A B); clear A
  | A : Leaves ?s ?x _, B : Leaves ?s ?x _ |- _ => pose proof (Leaves_one _ _ _ _ A B); clear A
  | A : Meets ?s ?x ?b _, B : Meets ?s ?x ?b _ |- _ => pose proof (Meets_one _ _ _ _ _ A B); clear A
  | A : Picks ?s ?x _ _, B : Picks ?s ?x _ _ |- _ => destruct (Picks_one _ _ _ _ _ _ A B); clear A
  | A : Equal _ ?x ?y _, B : Equal _ ?x ?y _ |- _ => pose proof (proj1 (Equal_unique _) _ _ _ A _ B); clear A
  | A : Debugs _ ?x _, B : Debugs _ ?x _ |- _ => pose proof (proj1 (Debugs_unique _) _ _ A _ B); clear A
  | A : Hex ?x ?y _, B : Hex ?x ?y _ |- _ => pose proof (Hex_one _ _ _ _ A B); clear A
  | A : SpecText.decimal _ ?x, B : SpecText.decimal _ ?x |- _ => pose proof (Numerals.decimal_unique _ _ _ A B); clear A
  | A : Builtin _ ?r ?m ?v _, B : Builtin _ ?r ?m ?v _ |- _ => pose proof (Builtin_one _ _ _ _ _ _ ok A B); clear A
  | A : Methods_of ?r _, B : Methods_of ?r _ |- _ => pose proof (Methods_of_one _ _ _ A B); clear A
  | A : Builtin _ ?r ?m ?v _, B : Methods_of ?r _, C : ~ _ |- _ => destruct (Builtin_crate _ _ _ _ _ _ A B C)
  end;
  repeat match goal with
  | E : Goes _ _ _ = Goes _ _ _ |- _ => injection E as ?
  | E : Breaks _ = Breaks _ |- _ => injection E as ?
  | E : All_go _ _ _ = All_go _ _ _ |- _ => injection E as ?
  | E : Wrote _ = Wrote _ |- _ => injection E as ?
  | E : Broke _ = Broke _ |- _ => injection E as ?
  | E : Ret _ = Ret _ |- _ => injection E as ?
  | E : Panic _ = Panic _ |- _ => injection E as ?
  | E : Some _ = Some _ |- _ => injection E as ?
  | E : VClos _ _ _ = VClos _ _ _ |- _ => injection E as ?
  | E : VInt _ _ = VInt _ _ |- _ => injection E as ?
  end; subst; try discriminate; try (exfalso; assumption).

Ltac again :=
  match goal with
  | K : Eval _ _ _ _ _ ?r |- _ = ?r => inversion K; subst; clear K
  | K : Evals _ _ _ _ _ ?r |- _ = ?r => inversion K; subst; clear K
  | K : Then _ _ _ _ _ _ ?r |- _ = ?r => inversion K; subst; clear K
  | K : Block _ _ _ _ _ _ ?r |- _ = ?r => inversion K; subst; clear K
  | K : Loop _ _ _ _ _ _ _ ?r |- _ = ?r => inversion K; subst; clear K
  | K : Shows _ _ _ _ _ ?r |- _ = ?r => inversion K; subst; clear K
  | K : Formats _ _ _ _ _ _ ?r |- _ = ?r => inversion K; subst; clear K
  | K : Method _ _ _ _ _ _ ?r |- _ = ?r => inversion K; subst; clear K
  | K : Calls _ _ _ _ _ ?r |- _ = ?r => inversion K; subst; clear K
  end.

Lemma meaning_unique :
  (forall e s o f, Eval P p e s o f -> forall f', Eval P p e s o f' -> f = f') /\
  (forall e s o f, Evals P p e s o f -> forall f', Evals P p e s o f' -> f = f') /\
  (forall e v s o f, Then P p e v s o f -> forall f', Then P p e v s o f' -> f = f') /\
  (forall e v s o f, Block P p e v s o f -> forall f', Block P p e v s o f' -> f = f') /\
  (forall q e v s o f, Loop P p q e v s o f -> forall f', Loop P p q e v s o f' -> f = f') /\
  (forall e s o f, Shows P p e s o f -> forall f', Shows P p e s o f' -> f = f') /\
  (forall e v s o f, Formats P p e v s o f -> forall f', Formats P p e v s o f' -> f = f') /\
  (forall e v s o f, Method P p e v s o f -> forall f', Method P p e v s o f' -> f = f') /\
  (forall e s o f, Calls P p e s o f -> forall f', Calls P p e s o f' -> f = f').
Proof.
  apply Eval_all; intros; again; repeat same; try reflexivity; try congruence; auto.
  - match goal with K : Int_named "" _ |- _ => inversion K end.
  - match goal with K : Int_named "" _ |- _ => inversion K end.
  - do 2 f_equal. eapply Wraps_one; [exact ok| |eassumption|eassumption].
    match goal with K : Int_named _ _ |- _ => destruct K; exact I end.
  - match goal with E : (_ ++ _ = _ ++ _)%list |- _ => destruct (split_one _ _ _ _ _ _ _ E) as (-> & E' & ->); [assumption..|injection E' as -> ->] end.
    repeat same. reflexivity.
  - exfalso. match goal with F : Finds _ _ _ |- _ => pose proof (Finds_one _ _ _ _ F (Finds_split _ _ _ _ ltac:(eassumption))) as E end.
    injection E as -> ->. repeat same.
  - exfalso. match goal with F : Finds _ _ _ |- _ => pose proof (Finds_one _ _ _ _ F (Finds_split _ _ _ _ ltac:(eassumption))) as E end.
    injection E as -> ->. repeat same.
  - exfalso. match goal with L : Leaves _ _ _, A : abrupt _ |- _ => inversion L; subst; cbn in A; contradiction end.
  - exfalso. match goal with L : Leaves _ _ _, A : abrupt _ |- _ => inversion L; subst; cbn in A; contradiction end.
  - match goal with A : f_body ?f = Some _, B : f_body ?f = Some _ |- _ => rewrite A in B; injection B as -> end.
    repeat same. repeat match goal with H : match ?a with Gives _ _ => _ | Dies _ => _ end |- _ => destruct a; try contradiction end;
      repeat match goal with H : _ /\ _ |- _ => destruct H end; repeat same; congruence.
  - exfalso. match goal with F : Finds _ _ _, N : ~ In _ _ |- _ => apply N, (Finds_in _ _ _ F) end.
  - exfalso. match goal with F : Finds _ _ _, N : ~ In _ _ |- _ => apply N, (Finds_in _ _ _ F) end.
Qed.

Lemma Calls_one key vs o a b : Calls P p key vs o a -> Calls P p key vs o b -> a = b.
Proof. intros H. apply meaning_unique, H. Qed.

End Unique.
