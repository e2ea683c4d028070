(** A program with traps does what the program without them does, or dies in a trap. *)
From Coq Require Import ZArith List Bool String Lia.
From Verif Require Import Rust SrcAst SrcLink SrcSem SpecReach.
Import ListNotations.
Local Open Scope string_scope.

Definition trap : ans := Halt (Says "reached").
Definition R (a b : ans) : Prop := a = trap \/ a = b.
Lemma R_refl a : R a a.
Proof. right. reflexivity. Qed.
Global Hint Resolve R_refl : core.

(** ** The parts of the evaluator *)

Lemma seq_R m k1 k2 : (forall z, R (k1 z) (k2 z)) -> R (seq m k1) (seq m k2).
Proof. intros H. destruct m; cbn [seq]; [apply H|auto]. Qed.

Lemma arith_R p op ta a tb b k1 k2 : (forall v, R (k1 v) (k2 v)) ->
  R (arith p op ta a tb b k1) (arith p op ta a tb b k2).
Proof.
  intros H. unfold arith.
  destruct op; try (destruct (join ta tb); [|auto]); try solve [auto]; try apply H;
    try (apply seq_R; intros; apply H);
    destruct ta; try solve [auto]; apply seq_R; intros; apply H.
Qed.

Lemma pmatch_R q : forall v b ks1 ks2 kf1 kf2,
  (forall b, R (ks1 b) (ks2 b)) -> R (kf1 tt) (kf2 tt) ->
  R (pmatch q v b ks1 kf1) (pmatch q v b ks2 kf2).
Proof.
  revert q. fix IH 1. intros q v b k1 k2 kf1 kf2 Hs Hf.
  assert (All : forall ps vs b, R
    ((fix all (ps : list pat) (vs : list value) (b : env) : ans :=
       match ps, vs with
       | [], [] => k1 b
       | p :: ps', v :: vs' => pmatch p v b (fun b' => all ps' vs' b') kf1
       | _, _ => Wrong "pattern"
       end) ps vs b)
    ((fix all (ps : list pat) (vs : list value) (b : env) : ans :=
       match ps, vs with
       | [], [] => k2 b
       | p :: ps', v :: vs' => pmatch p v b (fun b' => all ps' vs' b') kf2
       | _, _ => Wrong "pattern"
       end) ps vs b)).
  { fix IHl 1. intros [|q' ps] [|v' vs] b'; try apply R_refl; [apply Hs|].
    apply IH; [intros b''; apply IHl|exact Hf]. }
  destruct q; cbn [pmatch]; try apply R_refl; try apply Hs.
  - destruct v; try apply R_refl. destruct (Z.eqb _ _); [apply Hs|exact Hf].
  - destruct v; try apply R_refl. destruct (_ && _); [apply Hs|exact Hf].
  - destruct v; try apply R_refl. apply All.
  - induction ps as [|q' ps' IHp]; [exact Hf|]. apply IH; [exact Hs|exact IHp].
  - destruct v; try apply R_refl. destruct (_ =? _); [|apply R_refl].
    destruct (_ =? _); [apply All|exact Hf].
Qed.

Lemma each_R f1 f2 l : forall s o k1 k2,
  (forall x s o k1 k2, (forall s o, R (k1 s o) (k2 s o)) -> R (f1 x s o k1) (f2 x s o k2)) ->
  (forall s o, R (k1 s o) (k2 s o)) -> R (each f1 l s o k1) (each f2 l s o k2).
Proof.
  induction l as [|x l IH]; intros s o k1 k2 Hf Hk; cbn [each]; [apply Hk|].
  apply Hf. intros. apply IH; assumption.
Qed.

Section sim.

Variables (p : platform) (d : list string).
Variables c1 c2 : string -> list value -> string -> (value -> string -> ans) -> ans.
Hypothesis c_R : forall key vs o k1 k2, (forall v o', R (k1 v o') (k2 v o')) ->
  R (c1 key vs o k1) (c2 key vs o k2).

Lemma prim_call_R t m vs k1 k2 : (forall v, R (k1 v) (k2 v)) ->
  R (prim_call p t m vs k1) (prim_call p t m vs k2).
Proof.
  intros H. unfold prim_call.
  repeat match goal with
  | |- context [match ?x with _ => _ end] => destruct x
  end; try apply R_refl; apply H.
Qed.

Lemma show_R spec v o k1 k2 : (forall o, R (k1 o) (k2 o)) -> R (show c1 spec v o k1) (show c2 spec v o k2).
Proof.
  intros H. unfold show. destruct (spec =? "").
  { destruct v; try apply R_refl; try apply H; apply c_R; intros w o';
      destruct (is_variant _ _ _); [apply H|apply R_refl|apply H|apply R_refl]. }
  destruct (spec =? "x").
  { destruct v as [t z| | | | | | | | | |]; try apply R_refl. destruct t; try apply R_refl; apply H. }
  destruct (spec =? "#x").
  { destruct v as [t z| | | | | | | | | |]; try apply R_refl. destruct t; try apply R_refl; apply H. }
  destruct (spec =? "?"); [|apply R_refl].
  apply c_R. intros w o'. destruct (is_variant _ _ _); [apply H|apply R_refl].
Qed.

Lemma emit_R ps : forall s vs o k1 k2, (forall o, R (k1 o) (k2 o)) ->
  R (emit c1 ps s vs o k1) (emit c2 ps s vs o k2).
Proof.
  induction ps as [|q ps IH]; intros s vs o k1 k2 H; cbn [emit].
  - destruct vs; [apply H|apply R_refl].
  - destruct q.
    + apply IH, H.
    + destruct vs as [|v vs]; [apply R_refl|]. apply show_R. intros. apply IH, H.
    + destruct (assoc x s); [|apply R_refl]. apply show_R. intros. apply IH, H.
Qed.

Lemma method_R r m vs o k1 k2 : (forall v o, R (k1 v o) (k2 v o)) ->
  R (method p c1 r m vs o k1) (method p c2 r m vs o k2).
Proof.
  intros H.
  assert (C : R match type_name r with
              | Some t => c1 (t ++ "." ++ m) (r :: vs) o k1 | None => Wrong "method" end
              match type_name r with
              | Some t => c2 (t ++ "." ++ m) (r :: vs) o k2 | None => Wrong "method" end).
  { destruct (type_name r); [apply c_R, H|apply R_refl]. }
  unfold method. cbv zeta. revert C.
  generalize (match type_name r with
              | Some t => c1 (t ++ "." ++ m) (r :: vs) o k1 | None => Wrong "method" end).
  generalize (match type_name r with
              | Some t => c2 (t ++ "." ++ m) (r :: vs) o k2 | None => Wrong "method" end).
  intros b a C. destruct r; try exact C.
  - destruct (m =? "pow").
    { destruct vs as [|[] [|]]; try apply R_refl. apply seq_R. intros. apply H. }
    destruct (m =? "into"); [|exact C]. destruct t; try apply R_refl. destruct vs; [apply H|apply R_refl].
  - destruct (is_variant _ _ _ || is_variant _ _ _).
    { destruct (_ || _); [|apply R_refl]. destruct args as [|x [|]]; try apply R_refl. apply H. }
    destruct (is_variant _ _ _ || is_variant _ _ _); [apply R_refl|exact C].
  - destruct (m =? "iter"); [apply H|]. destruct (m =? "rev"); [apply H|].
    destruct (m =? "enumerate"); [apply H|apply R_refl].
  - apply H.
Qed.

End sim.

(** ** Expressions *)

(** Whose form the evaluator looks at from outside. *)
Definition plain (e : expr) : bool :=
  match e with EFn _ | ECtor _ _ | EPrim _ _ | EVar _ | EStr _ | EClos _ _ => true | _ => false end.

(** [a] is [b] with traps, as far as [n] levels go. *)
Definition opt {A B} (r : A -> B -> Prop) (a : option A) (b : option B) : Prop :=
  match a, b with Some x, Some y => r x y | None, None => True | _, _ => False end.
Fixpoint less (n : nat) (a b : expr) : Prop :=
  (plain a = true \/ plain b = true -> a = b) /\
  match n with
  | O => True
  | S n =>
      let br x y := x = the_trap \/ less n x y in
      match a with
      | ECall f es => exists g fs, b = ECall g fs /\ less n f g /\ Forall2 (less n) es fs
      | EMeth x m es => exists y fs, b = EMeth y m fs /\ less n x y /\ Forall2 (less n) es fs
      | EField x f => exists y, b = EField y f /\ less n x y
      | ETry x => exists y, b = ETry y /\ less n x y
      | EDeref x => exists y, b = EDeref y /\ less n x y
      | ERef x => exists y, b = ERef y /\ less n x y
      | ENeg x => exists y, b = ENeg y /\ less n x y
      | EBin op x z => exists y w, b = EBin op y w /\ less n x y /\ less n z w
      | EAs x t => exists y, b = EAs y t /\ less n x y
      | EIf c t f => exists c' t' f', b = EIf c' t' f' /\ less n c c' /\ br t t' /\ opt br f f'
      | EMatch x arms => exists y arms', b = EMatch y arms' /\ less n x y /\
          Forall2 (fun r s => fst r = fst s /\ br (snd r) (snd s)) arms arms'
      | EBlock ss t => exists ss' t', b = EBlock ss' t' /\ opt (less n) t t' /\
          Forall2 (fun r s =>
            match r, s with
            | SLet x u v, SLet y w z => x = y /\ u = w /\ less n v z
            | SExpr v, SExpr z => less n v z
            | SUse u, SUse w => True
            | _, _ => False
            end) ss ss'
      | EArr es => exists fs, b = EArr fs /\ Forall2 (less n) es fs
      | EStruct x _ => exists fs, b = EStruct x fs
      | EMac m es => exists fs, b = EMac m fs /\ Forall2 (less n) es fs
      | EMatches x q => exists y, b = EMatches y q /\ less n x y
      | EReturn x => exists y, b = EReturn y /\ opt (less n) x y
      | EAssign op v x => exists y, b = EAssign op v y /\ less n x y
      | EFor q x z => exists y w, b = EFor q y w /\ less n x y /\ br z w
      | ERecord t es => exists fs, b = ERecord t fs /\
          Forall2 (fun r s => fst r = fst s /\ less n (snd r) (snd s)) es fs
      | EWrite f ps es => exists g fs, b = EWrite g ps fs /\ less n f g /\ Forall2 (less n) es fs
      | EPrint ps es => exists fs, b = EPrint ps fs /\ Forall2 (less n) es fs
      | ELit _ _ | EBool _ | EStr _ | EPath _ | EVar _ | EFn _ | EPrim _ _ | ECtor _ _ | EClos _ _ => a = b
      end
  end.

Lemma Forall2_refl {A} (r : A -> A -> Prop) l : (forall x, r x x) -> Forall2 r l l.
Proof. intros H. induction l; constructor; auto. Qed.
Lemma opt_refl {A} (r : A -> A -> Prop) x : (forall x, r x x) -> opt r x x.
Proof. intros H. destruct x; cbn; auto. Qed.

Lemma less_refl n : forall e, less n e e.
Proof.
  induction n as [|n IH]; intros e; split; try reflexivity; try exact I.
  destruct e; try reflexivity; repeat eexists; try apply IH; try (right; apply IH);
    try (apply Forall2_refl; intros x; try apply IH; try (split; [reflexivity|]; try apply IH; right; apply IH));
    try (apply opt_refl; intros x; try apply IH; right; apply IH).
  destruct x; repeat split; apply IH.
Qed.
Lemma less_plain n a b : less n a b -> plain a = true \/ plain b = true -> a = b.
Proof. destruct n; intros [H _]; exact H. Qed.

Section sim2.

Variables (p : platform) (d : list string).
Variables c1 c2 : string -> list value -> string -> (value -> string -> ans) -> ans.
Hypothesis c_R : forall key vs o k1 k2, (forall v o', R (k1 v o') (k2 v o')) ->
  R (c1 key vs o k1) (c2 key vs o k2).

Lemma ev_R n : forall a b, less n a b -> forall s o kr1 kr2 k1 k2,
  (forall v o, R (kr1 v o) (kr2 v o)) -> (forall v s o, R (k1 v s o) (k2 v s o)) ->
  R (ev p d c1 n a s o kr1 k1) (ev p d c2 n b s o kr2 k2).
Proof.
  induction n as [|n IH]; intros a b L s o kr1 kr2 k1 k2 Hr H; [apply R_refl|].
  assert (Br : forall x y, x = the_trap \/ less n x y -> forall s o k1 k2,
    (forall v s o, R (k1 v s o) (k2 v s o)) -> R (ev p d c1 n x s o kr1 k1) (ev p d c2 n y s o kr2 k2)).
  { intros x y [->|M] s' o' j1 j2 Hj; [|apply IH; assumption].
    destruct n; [apply R_refl|]. left. reflexivity. }
  assert (Evs : forall es fs, Forall2 (less n) es fs -> forall s o k1 k2,
    (forall vs s o, R (k1 vs s o) (k2 vs s o)) -> R
    ((fix evs (es : list expr) (s : env) (o : string) (k : list value -> env -> string -> ans) : ans :=
        match es with
        | [] => k [] s o
        | a :: es' =>
            ev p d c1 n a s o kr1 (fun v s1 o1 => evs es' s1 o1 (fun vs s2 o2 => k (v :: vs) s2 o2))
        end) es s o k1)
    ((fix evs (es : list expr) (s : env) (o : string) (k : list value -> env -> string -> ans) : ans :=
        match es with
        | [] => k [] s o
        | a :: es' =>
            ev p d c2 n a s o kr2 (fun v s1 o1 => evs es' s1 o1 (fun vs s2 o2 => k (v :: vs) s2 o2))
        end) fs s o k2)).
  { induction 1 as [|x y es fs M Ms IHes]; intros s' o' j1 j2 Hj; [apply Hj|].
    apply IH; [exact M|exact Hr|]. intros v s1 o1. apply IHes. intros. apply Hj. }
  destruct L as [Q L]. destruct a; cbn beta iota zeta in L; clear Q;
    repeat match type of L with exists _, _ => destruct L as [? L] end;
    try match type of L with _ /\ _ => destruct L as [-> L] end; try subst b; cbn [ev]; try apply R_refl; try apply H.
  - (* ELit *) destruct (suffix =? ""); [apply H|]. destruct (prim_ity suffix); [|apply R_refl].
    destruct (suffix_fits _ _ _); [apply H|apply R_refl].
  - (* ECall *)
    destruct L as [F L]. apply Evs; [exact L|]. intros vs s1 o1.
    pose proof (less_plain _ _ _ F) as Fp.
    destruct a; try (rewrite <- Fp by (left; reflexivity));
      try (destruct x; try apply R_refl; exfalso;
           match type of Fp with _ -> ?l = ?r => assert (E : l = r) by (apply Fp; right; reflexivity); discriminate E end);
      try apply R_refl.
    + destruct (assoc _ s1) as [w|]; [|apply R_refl]. destruct w; try apply R_refl.
      destruct (bind_params _ _ _); [|apply R_refl]. apply IH; [apply less_refl|intros; apply H..].
    + apply c_R. intros. apply H.
    + apply prim_call_R. intros. apply H.
    + apply H.
  - (* EMeth *)
    destruct L as [F L]. apply IH; [exact F|exact Hr|]. intros v s1 o1.
    apply Evs.
    { inversion L as [|x1 y1 l1 l2 M Ms]; subst; [constructor|].
      inversion Ms as [|x2 y2 l3 l4 M2 Ms2]; subst.
      - pose proof (less_plain _ _ _ M) as Fp.
        destruct (plain x1) eqn:P1; [rewrite <- (Fp (or_introl eq_refl)); destruct x1; try discriminate P1;
          try (constructor; [apply less_refl|constructor]); destruct (m =? "unwrap_or_else"); repeat constructor; apply less_refl|].
        destruct (plain y1) eqn:P2; [rewrite (Fp (or_intror eq_refl)) in P1; congruence|].
        destruct x1; try discriminate P1; destruct y1; try discriminate P2; exact L.
      - destruct x1, y1; exact L. }
    intros. apply (method_R p c1 c2 c_R). intros. apply H.
  - (* EField *)
    apply IH; [exact L|exact Hr|]. intros v s1 o1. destruct v; try apply R_refl.
    destruct (assoc _ _); [apply H|apply R_refl].
  - (* ETry *)
    apply IH; [exact L|exact Hr|]. intros v s1 o1. unfold question. destruct v; try apply R_refl.
    destruct args as [|x1 [|]]; try apply R_refl. destruct (_ =? "Result"); [|apply R_refl].
    destruct (_ =? "Ok"); [apply H|apply Hr].
  - apply IH; assumption.
  - apply IH; assumption.
  - (* ENeg *)
    apply IH; [exact L|exact Hr|]. intros v s1 o1. destruct v as [t z| | | | | | | | | |]; try apply R_refl.
    destruct t; try apply R_refl; [|apply H]. apply seq_R. intros. apply H.
  - (* EBin *)
    destruct L as [L1 L2]. apply IH; [exact L1|exact Hr|]. intros v s1 o1.
    apply IH; [exact L2|exact Hr|]. intros w s2 o2.
    destruct v; try apply R_refl. destruct w; try apply R_refl. apply arith_R. intros. apply H.
  - (* EAs *)
    apply IH; [exact L|exact Hr|]. intros v s1 o1. destruct v as [ti z| | | | | | | | | |]; try apply R_refl.
    destruct ti; try apply R_refl; destruct t as [[|y [|]] ? | |]; try apply R_refl;
      (destruct (prim_ity _); [apply H|apply R_refl]).
  - (* EIf *)
    destruct L as (L1 & L2 & L3). apply IH; [exact L1|exact Hr|]. intros v s1 o1.
    destruct v; try apply R_refl. destruct b.
    + apply Br; assumption.
    + match type of L3 with opt _ ?x ?y => destruct x, y; cbn [opt] in L3; try destruct L3 end;
        try (apply Br; [auto|exact H]). apply H.
  - (* EMatch *)
    destruct L as [L1 L2]. apply IH; [exact L1|exact Hr|]. intros v s1 o1.
    induction L2 as [|[q1 b1] [q2 b2] l1 l2 [E B] L2 IHa]; [apply R_refl|]. cbn [fst snd] in E, B. subst q2.
    apply pmatch_R; [|exact IHa].
    intros b'. apply Br; [exact B|]. intros. apply H.
  - (* EBlock *)
    destruct L as [L1 L2]. generalize s at 3 6. intros s1. revert s1 o.
    induction L2 as [|x1 x2 l1 l2 E L2 IHs]; intros s1 o1.
    + match type of L1 with opt _ ?x ?y => destruct x, y; cbn [opt] in L1; try destruct L1 end; [|apply H].
      apply IH; [exact L1|exact Hr|]. intros. apply H.
    + destruct x1, x2; try (exfalso; exact E).
      * destruct E as (<- & <- & M). apply IH; [exact M|exact Hr|]. intros v s2 o2.
        destruct (coerce_opt _ _); [apply IHs|apply R_refl].
      * apply IH; [exact E|exact Hr|]. intros. apply IHs.
      * apply IHs.
  - apply Evs; [exact L|]. intros. apply H.
  - (* EMac *)
    destruct (_ =? "unreachable"); [apply R_refl|]. destruct (_ =? "panic").
    { inversion L as [|x1 y1 l1 l2 M Ms]; subst; [apply R_refl|]. pose proof (less_plain _ _ _ M) as Fp.
      destruct (plain x1) eqn:P1; [rewrite <- (Fp (or_introl eq_refl)); destruct x1; apply R_refl|].
      destruct (plain y1) eqn:P2; [rewrite (Fp (or_intror eq_refl)) in P1; congruence|].
      destruct x1; try discriminate P1; destruct y1; try discriminate P2; apply R_refl. }
    destruct (_ =? "assert").
    { inversion L as [|x1 y1 l1 l2 M Ms]; subst; [apply R_refl|]. apply IH; [exact M|exact Hr|]. intros v s1 o1.
      destruct v; try apply R_refl. destruct b; [apply H|apply R_refl]. }
    destruct (_ || _); [|apply R_refl].
    inversion L as [|x1 y1 l1 l2 M Ms]; subst; [apply R_refl|].
    inversion Ms as [|x2 y2 l3 l4 M2 Ms2]; subst; [apply R_refl|].
    apply IH; [exact M|exact Hr|]. intros v s1 o1. apply IH; [exact M2|exact Hr|]. intros w s2 o2.
    destruct (veq _ _ _ _); [|apply R_refl]. destruct (Bool.eqb _ _); [apply H|apply R_refl].
  - (* EMatches *)
    apply IH; [exact L|exact Hr|]. intros v s1 o1. apply pmatch_R; intros; apply H.
  - match type of L with opt _ ?x ?y => destruct x, y; cbn [opt] in L; try destruct L end; [|apply Hr].
    apply IH; [assumption|exact Hr|]. intros. apply Hr.
  - (* EAssign *)
    apply IH; [exact L|exact Hr|]. intros v s1 o1. destruct (assoc _ _) as [w|]; [|apply R_refl].
    destruct w; try apply R_refl. destruct v; try apply R_refl. apply arith_R. intros. apply H.
  - (* EFor *)
    destruct L as [L1 L2]. apply IH; [exact L1|exact Hr|]. intros v s1 o1. destruct v; try apply R_refl.
    apply each_R; [|intros; apply H]. intros y s2 o2 j1 j2 Hj.
    apply pmatch_R; [|apply R_refl]. intros b'. apply Br; [exact L2|]. intros. apply Hj.
  - (* EVar *) destruct (assoc x s); [apply H|apply R_refl].
  - (* ERecord *)
    match type of L with Forall2 _ ?es ?fs =>
      assert (E : map fst es = map fst fs) by (clear -L; induction L as [|? ? ? ? [M _]]; cbn; congruence);
      assert (F : Forall2 (less n) (map snd es) (map snd fs))
        by (clear -L; induction L as [|? ? ? ? [_ M]]; cbn; constructor; assumption)
    end.
    rewrite E. apply Evs; [exact F|]. intros. apply H.
  - (* EWrite *)
    destruct L as [L1 L2]. apply IH; [exact L1|exact Hr|]. intros v s1 o1. apply Evs; [exact L2|].
    intros. destruct v; try apply R_refl.
    apply (emit_R c1 c2 c_R). intros. apply H.
  - (* EPrint *) apply Evs; [exact L|]. intros. apply (emit_R c1 c2 c_R). intros. apply H.
Qed.
End sim2.
