(** More traps: the program does the same or dies in one. *)
From Coq Require Import ZArith List Bool String Lia.
From Verif Require Import Rust SrcAst SrcLink SrcSem SpecReach SrcTrap.
Import ListNotations.
Local Open Scope string_scope.

(** Without closures, [n] levels deep. *)
Definition all_opt {A} (f : A -> bool) (o : option A) : bool := match o with Some a => f a | None => true end.
Fixpoint no_clos (n : nat) (e : expr) : bool :=
  match n with
  | O => true
  | S n =>
      let go := no_clos n in
      match e with
      | ECall f es => go f && forallb go es
      | EMeth a _ es => go a && forallb go es
      | EField a _ | ETry a | EDeref a | ERef a | ENeg a | EAs a _ | EMatches a _ | EAssign _ _ a => go a
      | EBin _ a b => go a && go b
      | EClos _ _ => false
      | EIf c t f => go c && (go t && all_opt go f)
      | EMatch a arms => go a && forallb (fun r => go (snd r)) arms
      | EBlock ss t =>
          forallb (fun st => match st with SLet _ _ a | SExpr a => go a | SUse _ => true end) ss && all_opt go t
      | EArr es | EMac _ es | EPrint _ es => forallb go es
      | EStruct _ fs | ERecord _ fs => forallb (fun f => go (snd f)) fs
      | EReturn a => all_opt go a
      | EFor _ a b => go a && go b
      | EWrite f _ es => go f && forallb go es
      | ELit _ _ | EBool _ | EStr _ | EPath _ | EVar _ | EFn _ | EPrim _ _ | ECtor _ _ => true
      end
  end.

Definition agree {A} (r : A -> A -> Prop) (x y : nat * A) : Prop := fst x = fst y /\ r (snd x) (snd y).
Lemma through_agree {A} (r : A -> A -> Prop) f g (ok : A -> bool) l :
  (forall i a, ok a = true -> agree r (f i a) (g i a)) -> forallb ok l = true ->
  forall i, agree (Forall2 r) (through f i l) (through g i l).
Proof.
  intros H. induction l as [|a l IH]; intros O i; cbn [through]; [split; [reflexivity|constructor]|].
  cbn [forallb] in O. apply andb_true_iff in O. destruct O as [O1 O2].
  destruct (H i a O1) as [E1 R1]. destruct (f i a) as [i1 b1], (g i a) as [i2 b2]. cbn [fst snd] in *. subst i2.
  destruct (IH O2 i1) as [E2 R2]. destruct (through f i1 l), (through g i1 l). cbn [fst snd] in *.
  split; [exact E2|constructor; assumption].
Qed.
Lemma through_opt_agree {A} (r : A -> A -> Prop) f g (ok : A -> bool) x :
  (forall i a, ok a = true -> agree r (f i a) (g i a)) -> all_opt ok x = true ->
  forall i, agree (opt r) (through_opt f i x) (through_opt g i x).
Proof.
  intros H O i. destruct x as [a|]; cbn [through_opt]; [|split; [reflexivity|exact I]].
  destruct (H i a O) as [E1 R1]. destruct (f i a), (g i a). split; assumption.
Qed.

Definition under (a b : expr) : Prop := forall m, less m a b.
Definition bunder (a b : expr) : Prop := a = the_trap \/ under a b.

Section more.
Variables w1 w2 : nat -> bool.
Hypothesis more : forall i, w1 i = true -> w2 i = true.

Definition br w n i e := let '(j, e') := with_traps w n (S i) e in (j, if w i then the_trap else e').

Tactic Notation "both" constr(H) "as" ident(j) :=
  let E := fresh in let M := fresh "M" in let k := fresh in destruct H as [E M];
  match type of E with fst ?x = fst ?y => destruct x as [k ?], y as [j ?] end; cbn [fst snd] in E, M; subst k.

Lemma with_traps_under n : forall i e, no_clos n e = true ->
  agree under (with_traps w2 n i e) (with_traps w1 n i e).
Proof.
  induction n as [|n IH]; intros i e O; [split; [reflexivity|intros m; apply less_refl]|].
  assert (B : forall i e, no_clos n e = true -> agree bunder (br w2 n i e) (br w1 n i e)).
  { intros j a Q. unfold br. both (IH (S j) a Q) as n0. split; [reflexivity|]. cbn [snd]. specialize (more j).
    destruct (w2 j); [left; reflexivity|]. destruct (w1 j); [discriminate (more eq_refl)|right; exact M]. }
  assert (Bm : forall m x y, bunder x y -> x = the_trap \/ less m x y).
  { intros m x y [Q|Q]; [left; exact Q|right; apply Q]. }
  assert (Es : forall i es, forallb (no_clos n) es = true ->
    agree (Forall2 under) (through (with_traps w2 n) i es) (through (with_traps w1 n) i es)).
  { intros j es Q. exact (through_agree under _ _ (no_clos n) es IH Q j). }
  assert (Em : forall m es fs, Forall2 under es fs -> Forall2 (less m) es fs).
  { intros m es fs F. induction F; constructor; auto. }
  assert (Arms : forall i arms, forallb (fun r : pat * expr => no_clos n (snd r)) arms = true ->
    agree (Forall2 (fun r s => fst r = fst s /\ bunder (snd r) (snd s)))
      (through (fun i arm => let '(i, b) := br w2 n i (snd arm) in (i, (fst arm, b))) i arms)
      (through (fun i arm => let '(i, b) := br w1 n i (snd arm) in (i, (fst arm, b))) i arms)).
  { intros j arms Q. refine (through_agree _ _ _ (fun r => no_clos n (snd r)) arms _ Q j).
    intros k a Qa. both (B k (snd a) Qa) as n1. repeat split. exact M. }
  assert (Fs : forall i fs, forallb (fun r : string * expr => no_clos n (snd r)) fs = true ->
    agree (Forall2 (fun r s => fst r = fst s /\ under (snd r) (snd s)))
      (through (fun i f => let '(i, a) := with_traps w2 n i (snd f) in (i, (fst f, a))) i fs)
      (through (fun i f => let '(i, a) := with_traps w1 n i (snd f) in (i, (fst f, a))) i fs)).
  { intros j fs Q. refine (through_agree _ _ _ (fun r => no_clos n (snd r)) fs _ Q j).
    intros k a Qa. both (IH k (snd a) Qa) as n1. repeat split. exact M. }
  destruct e; cbn [no_clos] in O; try (split; [reflexivity|intro; apply less_refl]); cbn [with_traps];
    repeat match type of O with _ && _ = true => let O1 := fresh "O" in apply andb_true_iff in O; destruct O as [O1 O] end.
  - both (IH i _ O0) as n0. both (Es n0 _ O) as n1. split; [reflexivity|]. intros m.
    destruct m; (split; [intros [Q|Q]; discriminate Q|]); [exact I|]. repeat eexists; [apply M|apply Em, M0].
  - both (IH i _ O0) as n0. both (Es n0 _ O) as n1. split; [reflexivity|]. intros m'.
    destruct m'; (split; [intros [Q|Q]; discriminate Q|]); [exact I|]. repeat eexists; [apply M|apply Em, M0].
  - both (IH i _ O) as n0. split; [reflexivity|]. intros m.
    destruct m; (split; [intros [Q|Q]; discriminate Q|]); [exact I|]. repeat eexists; apply M.
  - both (IH i _ O) as n0. split; [reflexivity|]. intros m.
    destruct m; (split; [intros [Q|Q]; discriminate Q|]); [exact I|]. repeat eexists; apply M.
  - both (IH i _ O) as n0. split; [reflexivity|]. intros m.
    destruct m; (split; [intros [Q|Q]; discriminate Q|]); [exact I|]. repeat eexists; apply M.
  - both (IH i _ O) as n0. split; [reflexivity|]. intros m.
    destruct m; (split; [intros [Q|Q]; discriminate Q|]); [exact I|]. repeat eexists; apply M.
  - both (IH i _ O) as n0. split; [reflexivity|]. intros m.
    destruct m; (split; [intros [Q|Q]; discriminate Q|]); [exact I|]. repeat eexists; apply M.
  - both (IH i _ O0) as n0. both (IH n0 _ O) as n1. split; [reflexivity|]. intros m.
    destruct m; (split; [intros [Q|Q]; discriminate Q|]); [exact I|]. repeat eexists; [apply M|apply M0].
  - both (IH i _ O) as n0. split; [reflexivity|]. intros m.
    destruct m; (split; [intros [Q|Q]; discriminate Q|]); [exact I|]. repeat eexists; apply M.
  - discriminate O.
  - (* EIf *)
    change (agree under
      (let '(i, c') := with_traps w2 n i e1 in let '(i, t') := br w2 n i e2 in
       let '(i, f') := through_opt (br w2 n) i e3 in (i, EIf c' t' f'))
      (let '(i, c') := with_traps w1 n i e1 in let '(i, t') := br w1 n i e2 in
       let '(i, f') := through_opt (br w1 n) i e3 in (i, EIf c' t' f'))).
    both (IH i _ O0) as n0. both (B n0 _ O1) as n1.
    match goal with |- context [through_opt _ _ ?x] => both (through_opt_agree bunder _ _ (no_clos n) x B O n1) as n2 end.
    split; [reflexivity|]. intros m.
    destruct m; (split; [intros [Q|Q]; discriminate Q|]); [exact I|]. repeat eexists; [apply M|apply Bm, M0|].
    match goal with |- opt _ ?x ?y => destruct x, y; cbn [opt] in *; try exact I; try contradiction end. apply Bm, M1.
  - (* EMatch *)
    change (agree under
      (let '(i, a') := with_traps w2 n i e in
       let '(i, arms') := through (fun i arm => let '(i, b) := br w2 n i (snd arm) in (i, (fst arm, b))) i arms in
       (i, EMatch a' arms'))
      (let '(i, a') := with_traps w1 n i e in
       let '(i, arms') := through (fun i arm => let '(i, b) := br w1 n i (snd arm) in (i, (fst arm, b))) i arms in
       (i, EMatch a' arms'))).
    both (IH i _ O0) as n0. both (Arms n0 _ O) as n1.
    split; [reflexivity|]. intros m.
    destruct m; (split; [intros [Q|Q]; discriminate Q|]); [exact I|]. repeat eexists; [apply M|].
    clear -M0 Bm. induction M0 as [|? ? ? ? [? ?]]; constructor; [split; [assumption|apply Bm; assumption]|assumption].
  - (* EBlock *)
    match goal with |- context [through ?f i ?ss] =>
      assert (Ss : agree (Forall2 (fun r s =>
            match r, s with
            | SLet x u v, SLet y w z => x = y /\ u = w /\ under v z
            | SExpr v, SExpr z => under v z
            | SUse u, SUse w => True
            | _, _ => False
            end)) (through f i ss)
          (through (fun i st =>
            match st with
            | SLet x u a => let '(i, a') := with_traps w1 n i a in (i, SLet x u a')
            | SExpr a => let '(i, a') := with_traps w1 n i a in (i, SExpr a')
            | SUse us => (i, SUse us)
            end) i ss))
    end.
    { refine (through_agree _ _ _
        (fun st => match st with SLet _ _ a | SExpr a => no_clos n a | SUse _ => true end) _ _ O0 i).
      intros j [x u a|a|us] Q; [both (IH j a Q) as n0|both (IH j a Q) as n0|]; (split; [reflexivity|]); cbn [snd]; auto. }
    both Ss as n0.
    match goal with |- context [through_opt _ _ ?x] => both (through_opt_agree under _ _ (no_clos n) x IH O n0) as n1 end.
    split; [reflexivity|]. intros m.
    destruct m; (split; [intros [Q|Q]; discriminate Q|]); [exact I|]. repeat eexists.
    + match goal with |- opt _ ?x ?y => destruct x, y; cbn [opt] in *; try exact I; try contradiction end. apply M0.
    + clear -M. induction M as [|x y l1 l2 N]; constructor; [|assumption].
      destruct x, y; try contradiction; try exact I; [|apply N]. destruct N as (<- & <- & N). repeat split. apply N.
  - both (Es i _ O) as n0. split; [reflexivity|]. intros m.
    destruct m; (split; [intros [Q|Q]; discriminate Q|]); [exact I|]. repeat eexists. apply Em, M.
  - (* EStruct *)
    both (Fs i _ O) as n0. split; [reflexivity|]. intros m.
    destruct m; (split; [intros [Q|Q]; discriminate Q|]); [exact I|]. repeat eexists.
  - both (Es i _ O) as n0. split; [reflexivity|]. intros m'.
    destruct m'; (split; [intros [Q|Q]; discriminate Q|]); [exact I|]. repeat eexists. apply Em, M.
  - both (IH i _ O) as n0. split; [reflexivity|]. intros m.
    destruct m; (split; [intros [Q|Q]; discriminate Q|]); [exact I|]. repeat eexists; apply M.
  - (* EReturn *)
    match goal with |- context [through_opt _ _ ?x] => both (through_opt_agree under _ _ (no_clos n) x IH O i) as n0 end.
    split; [reflexivity|]. intros m.
    destruct m; (split; [intros [Q|Q]; discriminate Q|]); [exact I|]. repeat eexists.
    match goal with |- opt _ ?x ?y => destruct x, y; cbn [opt] in *; try exact I; try contradiction end. apply M.
  - both (IH i _ O) as n0. split; [reflexivity|]. intros m.
    destruct m; (split; [intros [Q|Q]; discriminate Q|]); [exact I|]. repeat eexists; apply M.
  - (* EFor *)
    change (agree under
      (let '(i, a') := with_traps w2 n i e1 in let '(i, b') := br w2 n i e2 in (i, EFor p a' b'))
      (let '(i, a') := with_traps w1 n i e1 in let '(i, b') := br w1 n i e2 in (i, EFor p a' b'))).
    both (IH i _ O0) as n0. both (B n0 _ O) as n1. split; [reflexivity|]. intros m.
    destruct m; (split; [intros [Q|Q]; discriminate Q|]); [exact I|]. repeat eexists; [apply M|apply Bm, M0].
  - (* ERecord *)
    both (Fs i _ O) as n0. split; [reflexivity|]. intros m.
    destruct m; (split; [intros [Q|Q]; discriminate Q|]); [exact I|]. repeat eexists.
    clear -M. induction M as [|? ? ? ? [? N]]; constructor; [split; [assumption|apply N]|assumption].
  - both (IH i _ O0) as n0. both (Es n0 _ O) as n1. split; [reflexivity|]. intros m.
    destruct m; (split; [intros [Q|Q]; discriminate Q|]); [exact I|]. repeat eexists; [apply M|apply Em, M0].
  - both (Es i _ O) as n0. split; [reflexivity|]. intros m.
    destruct m; (split; [intros [Q|Q]; discriminate Q|]); [exact I|]. repeat eexists. apply Em, M.
Qed.
End more.

(** ** Programs *)

Definition calm (l : list branch) (kf : string * fn) : bool :=
  negb (existsb (fun b => String.eqb (fst b) (fst kf)) l) ||
  match f_body (snd kf) with Some e => no_clos 100 e | None => true end.

Lemma assoc_map {A B} (f : string -> A -> B) key l :
  assoc key (map (fun kf => (fst kf, f (fst kf) (snd kf))) l) = option_map (f key) (assoc key l).
Proof.
  induction l as [|[k a] l IH]; [reflexivity|]. cbn [map assoc fst snd].
  destruct (String.eqb_spec key k) as [->|N]; [reflexivity|exact IH].
Qed.

(** Where nothing is replaced. *)
Lemma let_ext {X Y} (a b : nat * X) (k1 k2 : nat -> X -> Y) : a = b -> (forall i x, k1 i x = k2 i x) ->
  (let '(i, x) := a in k1 i x) = (let '(i, x) := b in k2 i x).
Proof. intros <- H. destruct a. apply H. Qed.
Lemma through_ext {A} (f g : nat -> A -> nat * A) l : (forall i a, f i a = g i a) ->
  forall i, through f i l = through g i l.
Proof.
  intros H. induction l as [|a l IH]; intros i; cbn [through]; [reflexivity|].
  apply let_ext; [apply H|]. intros. apply let_ext; [apply IH|reflexivity].
Qed.
Lemma through_opt_ext {A} (f g : nat -> A -> nat * A) x : (forall i a, f i a = g i a) ->
  forall i, through_opt f i x = through_opt g i x.
Proof. intros H i. destruct x; cbn [through_opt]; [apply let_ext; [apply H|reflexivity]|reflexivity]. Qed.
Lemma with_traps_ext w1 w2 n : (forall i, w1 i = w2 i) -> forall i e, with_traps w1 n i e = with_traps w2 n i e.
Proof.
  intros W. induction n as [|n IH]; intros i e; [reflexivity|].
  assert (B : forall i e, (let '(j, e') := with_traps w1 n (S i) e in (j, if w1 i then the_trap else e')) =
                          (let '(j, e') := with_traps w2 n (S i) e in (j, if w2 i then the_trap else e'))).
  { intros. apply let_ext; [apply IH|]. intros. rewrite W. reflexivity. }
  destruct e; cbn [with_traps]; try reflexivity;
    repeat first
      [ reflexivity | apply IH | apply B
      | apply let_ext; [|intros] | apply through_ext; intros | apply through_opt_ext; intros
      | match goal with |- context [match ?s with SLet _ _ _ => _ | SExpr _ => _ | SUse _ => _ end] => destruct s end ].
Qed.

Lemma run_R P p l1 l2 : (forall key i, among l1 key i = true -> among l2 key i = true) ->
  forallb (calm l2) (p_fns P) = true ->
  forall n key vs o, R (run (trapped l2 P) p n key vs o) (run (trapped l1 P) p n key vs o).
Proof.
  intros H C. induction n as [|n IH]; intros key vs o; [apply R_refl|]. cbn [run].
  unfold trapped at 1 5. cbn [p_fns].
  rewrite !(assoc_map (fun key f => snd (fn_with_traps (among _ key) f))).
  destruct (assoc key (p_fns P)) as [f|] eqn:E; cbn [option_map]; [|apply R_refl].
  assert (Cf : calm l2 (key, f) = true).
  { rewrite forallb_forall in C. apply C. clear -E. induction (p_fns P) as [|[k g] l IH]; [discriminate E|].
    cbn [assoc] in E. destruct (String.eqb_spec key k) as [->|]; [injection E as ->; left; reflexivity|right; exact (IH E)]. }
  unfold fn_with_traps. destruct (f_body f) as [e|] eqn:F.
  2:{ cbn [snd]. rewrite F. destruct (bind_params _ _ _); apply R_refl. }
  assert (L : let a := if among l2 key 0 then the_trap else snd (with_traps (among l2 key) 100 1 e) in
              let b := if among l1 key 0 then the_trap else snd (with_traps (among l1 key) 100 1 e) in
              a = the_trap \/ under a b).
  { cbv zeta. specialize (H key). unfold calm in Cf. cbn [fst snd] in Cf. rewrite F in Cf.
    apply orb_true_iff in Cf. destruct Cf as [Cf|Cf].
    - assert (N : forall i, among l2 key i = false).
      { intros i. apply not_true_is_false. intros N. unfold among in N. apply existsb_exists in N.
        destruct N as (b & I & N). apply andb_true_iff in N. destruct N as [N _]. apply negb_true_iff in Cf.
        rewrite <- not_true_iff_false in Cf. apply Cf. apply existsb_exists. exists b. split; assumption. }
      assert (N1 : forall i, among l1 key i = false).
      { intros i. specialize (H i). destruct (among l1 key i); [rewrite N in H; discriminate (H eq_refl)|reflexivity]. }
      rewrite N, N1. rewrite (with_traps_ext (among l2 key) (among l1 key)) by (intros; rewrite N, N1; reflexivity).
      right. intros m. apply less_refl.
    - destruct (with_traps_under (among l1 key) (among l2 key) H 100 1 e Cf) as [_ U].
      specialize (H 0). destruct (among l2 key 0); [left; reflexivity|].
      destruct (among l1 key 0); [discriminate (H eq_refl)|right; exact U]. }
  cbv zeta in L. destruct (with_traps (among l2 key) 100 1 e) as [j2 e2], (with_traps (among l1 key) 100 1 e) as [j1 e1].
  cbn [snd f_params f_ret f_body] in L |- *.
  destruct (bind_params _ _ _) as [s|]; [|apply R_refl].
  assert (K : forall key vs o k1 k2, (forall v o', R (k1 v o') (k2 v o')) ->
    R (match run (trapped l2 P) p n key vs o with Done v o' => k1 v o' | Halt w => Halt w | Wrong w => Wrong w end)
      (match run (trapped l1 P) p n key vs o with Done v o' => k2 v o' | Halt w => Halt w | Wrong w => Wrong w end)).
  { intros key' vs' o' k1 k2 Hk. destruct (IH key' vs' o') as [Q|Q]; rewrite Q; [left; reflexivity|].
    destruct (run (trapped l1 P) p n key' vs' o'); [apply Hk|apply R_refl..]. }
  destruct L as [->|L]; [left; reflexivity|].
  apply (ev_R p _ _ _ K depth _ _ (L depth)); intros; apply R_refl.
Qed.
