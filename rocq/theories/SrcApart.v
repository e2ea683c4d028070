(** A function that never comes to a function with traps does the same without them. *)
From Coq Require Import ZArith List Bool String Lia.
From Verif Require Import Rust SrcAst SrcLink SrcSem SpecReach SrcTrap SrcTrap2.
Import ListNotations.
Local Open Scope string_scope.

(** ** The parts of the evaluator *)

Lemma seq_same m k1 k2 : (forall z, eq (k1 z) (k2 z)) -> eq (seq m k1) (seq m k2).
Proof. intros H. destruct m; cbn [seq]; [apply H|auto]. Qed.

Lemma arith_same p op ta a tb b k1 k2 : (forall v, eq (k1 v) (k2 v)) ->
  eq (arith p op ta a tb b k1) (arith p op ta a tb b k2).
Proof.
  intros H. unfold arith.
  destruct op; try (destruct (join ta tb); [|auto]); try solve [auto]; try apply H;
    try (apply seq_same; intros; apply H);
    destruct ta; try solve [auto]; apply seq_same; intros; apply H.
Qed.

Lemma pmatch_same q : forall v b ks1 ks2 kf1 kf2,
  (forall b, eq (ks1 b) (ks2 b)) -> eq (kf1 tt) (kf2 tt) ->
  eq (pmatch q v b ks1 kf1) (pmatch q v b ks2 kf2).
Proof.
  revert q. fix IH 1. intros q v b k1 k2 kf1 kf2 Hs Hf.
  assert (All : forall ps vs b, eq
    ((fix all (ps : list pat) (vs : list value) (b : env) : ans :=
       match ps, vs with
       | [], [] => k1 b
       | p :: ps', v :: vs' => pmatch p v b (fun b' => all ps' vs' b') kf1
       | _, _ => Wrong "pattern"
       end) ps vs b)
    ((fix all (ps : list pat) (vs : list value) (b : env) : ans :=
       match ps, vs with
       | [], [] => k2 b
       | p :: ps', v :: vs' => pmatch p v b (fun b' => all ps' vs' b') kf2
       | _, _ => Wrong "pattern"
       end) ps vs b)).
  { fix IHl 1. intros [|q' ps] [|v' vs] b'; try reflexivity; [apply Hs|].
    apply IH; [intros b''; apply IHl|exact Hf]. }
  destruct q; cbn [pmatch]; try reflexivity; try apply Hs.
  - destruct v; try reflexivity. destruct (Z.eqb _ _); [apply Hs|exact Hf].
  - destruct v; try reflexivity. destruct (_ && _); [apply Hs|exact Hf].
  - destruct v; try reflexivity. apply All.
  - induction ps as [|q' ps' IHp]; [exact Hf|]. apply IH; [exact Hs|exact IHp].
  - destruct v; try reflexivity. destruct (_ =? _); [|reflexivity].
    destruct (_ =? _); [apply All|exact Hf].
Qed.

Lemma each_same f1 f2 l : forall s o k1 k2,
  (forall x s o k1 k2, (forall s o, eq (k1 s o) (k2 s o)) -> eq (f1 x s o k1) (f2 x s o k2)) ->
  (forall s o, eq (k1 s o) (k2 s o)) -> eq (each f1 l s o k1) (each f2 l s o k2).
Proof.
  induction l as [|x l IH]; intros s o k1 k2 Hf Hk; cbn [each]; [apply Hk|].
  apply Hf. intros. apply IH; assumption.
Qed.

Section sim.

Variables (p : platform) (d : list string).
Variables c1 c2 : string -> list value -> string -> (value -> string -> ans) -> ans.
Variable ok : string -> bool.
Hypothesis c_same : forall key, ok key = true -> forall vs o k1 k2, (forall v o', eq (k1 v o') (k2 v o')) ->
  eq (c1 key vs o k1) (c2 key vs o k2).
(** The method [m] of every type. *)
Definition every (m : string) : Prop := forall t, ok (t ++ "." ++ m) = true.

Lemma prim_call_same t m vs k1 k2 : (forall v, eq (k1 v) (k2 v)) ->
  eq (prim_call p t m vs k1) (prim_call p t m vs k2).
Proof.
  intros H. unfold prim_call.
  repeat match goal with
  | |- context [match ?x with _ => _ end] => destruct x
  end; try reflexivity; apply H.
Qed.

Hypothesis fmt_ok : every "fmt".
Hypothesis debug_ok : ok "{:?}" = true.
Lemma show_same spec v o k1 k2 : (forall o, eq (k1 o) (k2 o)) -> eq (show c1 spec v o k1) (show c2 spec v o k2).
Proof.
  intros H. unfold show. destruct (spec =? "").
  { destruct v; try reflexivity; try apply H; apply c_same; try apply fmt_ok; intros w o';
      destruct (is_variant _ _ _); [apply H|reflexivity|apply H|reflexivity]. }
  destruct (spec =? "x").
  { destruct v as [t z| | | | | | | | | |]; try reflexivity. destruct t; try reflexivity; apply H. }
  destruct (spec =? "#x").
  { destruct v as [t z| | | | | | | | | |]; try reflexivity. destruct t; try reflexivity; apply H. }
  destruct (spec =? "?"); [|reflexivity].
  apply c_same; [exact debug_ok|]. intros w o'. destruct (is_variant _ _ _); [apply H|reflexivity].
Qed.

Lemma emit_same ps : forall s vs o k1 k2, (forall o, eq (k1 o) (k2 o)) ->
  eq (emit c1 ps s vs o k1) (emit c2 ps s vs o k2).
Proof.
  induction ps as [|q ps IH]; intros s vs o k1 k2 H; cbn [emit].
  - destruct vs; [apply H|reflexivity].
  - destruct q.
    + apply IH, H.
    + destruct vs as [|v vs]; [reflexivity|]. apply show_same. intros. apply IH, H.
    + destruct (assoc x s); [|reflexivity]. apply show_same. intros. apply IH, H.
Qed.

Lemma method_same r m vs o k1 k2 : every m -> (forall v o, eq (k1 v o) (k2 v o)) ->
  eq (method p c1 r m vs o k1) (method p c2 r m vs o k2).
Proof.
  intros M H.
  assert (C : match type_name r with
              | Some t => c1 (t ++ "." ++ m) (r :: vs) o k1 | None => Wrong "method" end =
              match type_name r with
              | Some t => c2 (t ++ "." ++ m) (r :: vs) o k2 | None => Wrong "method" end).
  { destruct (type_name r); [apply c_same; [apply M|apply H]|reflexivity]. }
  unfold method. cbv zeta. revert C.
  generalize (match type_name r with
              | Some t => c1 (t ++ "." ++ m) (r :: vs) o k1 | None => Wrong "method" end).
  generalize (match type_name r with
              | Some t => c2 (t ++ "." ++ m) (r :: vs) o k2 | None => Wrong "method" end).
  intros b a C. destruct r; try exact C.
  - destruct (m =? "pow").
    { destruct vs as [|[] [|]]; try reflexivity. apply seq_same. intros. apply H. }
    destruct (m =? "into"); [|exact C]. destruct t; try reflexivity. destruct vs; [apply H|reflexivity].
  - destruct (is_variant _ _ _ || is_variant _ _ _).
    { destruct (_ || _); [|reflexivity]. destruct args as [|x [|]]; try reflexivity. apply H. }
    destruct (is_variant _ _ _ || is_variant _ _ _); [reflexivity|exact C].
  - destruct (m =? "iter"); [apply H|]. destruct (m =? "rev"); [apply H|].
    destruct (m =? "enumerate"); [apply H|reflexivity].
  - apply H.
Qed.




(** ** Expressions *)

Variable okm : string -> bool.
Hypothesis okm_ok : forall m, okm m = true -> every m.

(** Which calls only functions that are [ok], and no closure, [n] levels deep. *)
Fixpoint within (n : nat) (e : expr) : bool :=
  match n with
  | O => true
  | S n =>
      let go := within n in
      match e with
      | ECall f es => match f with EFn key => ok key | EVar _ => false | _ => true end && forallb go es
      | EMeth a m es => go a && (okm m && forallb go es)
      | EField a _ | ETry a | EDeref a | ERef a | ENeg a | EAs a _ | EMatches a _ | EAssign _ _ a => go a
      | EBin _ a b => go a && go b
      | EIf c t f => go c && (go t && all_opt go f)
      | EMatch a arms => go a && forallb (fun r => go (snd r)) arms
      | EBlock ss t =>
          forallb (fun st => match st with SLet _ _ a | SExpr a => go a | SUse _ => true end) ss && all_opt go t
      | EArr es | EMac _ es | EPrint _ es => forallb go es
      | ERecord _ fs => forallb (fun f => go (snd f)) fs
      | EReturn a => all_opt go a
      | EFor _ a b => go a && go b
      | EWrite f _ es => go f && forallb go es
      | _ => true
      end
  end.

Lemma ev_same n : forall e, within n e = true -> forall s o kr1 kr2 k1 k2,
  (forall v o, kr1 v o = kr2 v o) -> (forall v s o, k1 v s o = k2 v s o) ->
  ev p d c1 n e s o kr1 k1 = ev p d c2 n e s o kr2 k2.
Proof.
  induction n as [|n IH]; intros e L s o kr1 kr2 k1 k2 Hr H; [reflexivity|].
  assert (Evs : forall es, forallb (within n) es = true -> forall s o k1 k2,
    (forall vs s o, k1 vs s o = k2 vs s o) ->
    ((fix evs (es : list expr) (s : env) (o : string) (k : list value -> env -> string -> ans) : ans :=
        match es with
        | [] => k [] s o
        | a :: es' =>
            ev p d c1 n a s o kr1 (fun v s1 o1 => evs es' s1 o1 (fun vs s2 o2 => k (v :: vs) s2 o2))
        end) es s o k1) =
    ((fix evs (es : list expr) (s : env) (o : string) (k : list value -> env -> string -> ans) : ans :=
        match es with
        | [] => k [] s o
        | a :: es' =>
            ev p d c2 n a s o kr2 (fun v s1 o1 => evs es' s1 o1 (fun vs s2 o2 => k (v :: vs) s2 o2))
        end) es s o k2)).
  { induction es as [|x es IHes]; intros M s' o' j1 j2 Hj; [apply Hj|].
    cbn [forallb] in M. apply andb_true_iff in M. destruct M as [M Ms].
    apply IH; [exact M|exact Hr|]. intros v s1 o1. apply IHes; [exact Ms|]. intros. apply Hj. }
  destruct e; cbn [within] in L;
    repeat match type of L with _ && _ = true => let L1 := fresh "L" in apply andb_true_iff in L; destruct L as [L1 L] end;
    cbn [ev]; try reflexivity; try apply H.
  - (* ELit *) destruct (suffix =? ""); [apply H|]. destruct (prim_ity suffix); [|reflexivity].
    destruct (suffix_fits _ _ _); [apply H|reflexivity].
  - (* ECall *)
    apply Evs; [exact L|]. intros vs s1 o1. destruct e; try reflexivity; try discriminate L0.
    + apply c_same; [exact L0|]. intros. apply H.
    + apply prim_call_same. intros. apply H.
    + apply H.
  - (* EMeth *)
    apply IH; [exact L0|exact Hr|]. intros v s1 o1.
    apply Evs.
    { destruct args as [|x1 [|]]; try exact L; destruct x1; try exact L. destruct (m =? "unwrap_or_else"); [reflexivity|exact L]. }
    intros. apply method_same; [apply okm_ok; exact L1|]. intros. apply H.
  - (* EField *)
    apply IH; [exact L|exact Hr|]. intros v s1 o1. destruct v; try reflexivity.
    destruct (assoc _ _); [apply H|reflexivity].
  - (* ETry *)
    apply IH; [exact L|exact Hr|]. intros v s1 o1. unfold question. destruct v; try reflexivity.
    destruct args as [|x1 [|]]; try reflexivity. destruct (_ =? "Result"); [|reflexivity].
    destruct (_ =? "Ok"); [apply H|apply Hr].
  - apply IH; assumption.
  - apply IH; assumption.
  - (* ENeg *)
    apply IH; [exact L|exact Hr|]. intros v s1 o1. destruct v as [t z| | | | | | | | | |]; try reflexivity.
    destruct t; try reflexivity; [|apply H]. apply seq_same. intros. apply H.
  - (* EBin *)
    apply IH; [exact L0|exact Hr|]. intros v s1 o1.
    apply IH; [exact L|exact Hr|]. intros w s2 o2.
    destruct v; try reflexivity. destruct w; try reflexivity. apply arith_same. intros. apply H.
  - (* EAs *)
    apply IH; [exact L|exact Hr|]. intros v s1 o1. destruct v as [ti z| | | | | | | | | |]; try reflexivity.
    destruct ti; try reflexivity; destruct t as [[|y [|]] ? | |]; try reflexivity;
      (destruct (prim_ity _); [apply H|reflexivity]).
  - (* EIf *)
    apply IH; [exact L0|exact Hr|]. intros v s1 o1.
    destruct v; try reflexivity. destruct b.
    + apply IH; assumption.
    + match type of L with all_opt _ ?x = true => destruct x; cbn [all_opt] in L end; [|apply H].
      apply IH; assumption.
  - (* EMatch *)
    apply IH; [exact L0|exact Hr|]. intros v s1 o1.
    induction arms as [|[q1 b1] l1 IHa]; [reflexivity|].
    cbn [forallb snd] in L. apply andb_true_iff in L. destruct L as [B L].
    apply pmatch_same; [|exact (IHa L)].
    intros b'. apply IH; [exact B|exact Hr|]. intros. apply H.
  - (* EBlock *)
    generalize s at 3 6. intros s1. revert s1 o.
    match type of L0 with forallb _ ?l = true => induction l as [|x1 l1 IHs] end; intros s1 o1.
    + match type of L with all_opt _ ?x = true => destruct x; cbn [all_opt] in L end; [|apply H].
      apply IH; [exact L|exact Hr|]. intros. apply H.
    + cbn [forallb] in L0. apply andb_true_iff in L0. destruct L0 as [E L0]. specialize (IHs L0). destruct x1.
      * apply IH; [exact E|exact Hr|]. intros v s2 o2.
        destruct (coerce_opt _ _); [apply IHs|reflexivity].
      * apply IH; [exact E|exact Hr|]. intros. apply IHs.
      * apply IHs.
  - apply Evs; [exact L|]. intros. apply H.
  - (* EMac *)
    destruct (_ =? "unreachable"); [reflexivity|]. destruct (_ =? "panic"); [reflexivity|].
    destruct (_ =? "assert").
    { destruct args as [|x1 l1]; [reflexivity|]. cbn [forallb] in L. apply andb_true_iff in L. destruct L as [M _].
      apply IH; [exact M|exact Hr|]. intros v s1 o1.
      destruct v; try reflexivity. destruct b; [apply H|reflexivity]. }
    destruct (_ || _); [|reflexivity].
    destruct args as [|x1 [|x2 l1]]; try reflexivity. cbn [forallb] in L. apply andb_true_iff in L. destruct L as [M L].
    apply andb_true_iff in L. destruct L as [M2 _].
    apply IH; [exact M|exact Hr|]. intros v s1 o1. apply IH; [exact M2|exact Hr|]. intros w s2 o2.
    destruct (veq _ _ _ _); [|reflexivity]. destruct (Bool.eqb _ _); [apply H|reflexivity].
  - (* EMatches *)
    apply IH; [exact L|exact Hr|]. intros v s1 o1. apply pmatch_same; intros; apply H.
  - match type of L with all_opt _ ?x = true => destruct x; cbn [all_opt] in L end; [|apply Hr].
    apply IH; [assumption|exact Hr|]. intros. apply Hr.
  - (* EAssign *)
    apply IH; [exact L|exact Hr|]. intros v s1 o1. destruct (assoc _ _) as [w|]; [|reflexivity].
    destruct w; try reflexivity. destruct v; try reflexivity. apply arith_same. intros. apply H.
  - (* EFor *)
    apply IH; [exact L0|exact Hr|]. intros v s1 o1. destruct v; try reflexivity.
    apply each_same; [|intros; apply H]. intros y s2 o2 j1 j2 Hj.
    apply pmatch_same; [|reflexivity]. intros b'. apply IH; [exact L|exact Hr|]. intros. apply Hj.
  - (* EVar *) destruct (assoc x s); [apply H|reflexivity].
  - (* ERecord *)
    apply Evs; [|intros; apply H]. clear -L.
    match type of L with forallb _ ?l = true => induction l as [|f l IHl] end; [reflexivity|].
    cbn [forallb map] in L |- *. apply andb_true_iff in L. destruct L as [A B]. rewrite A. exact (IHl B).
  - (* EWrite *)
    apply IH; [exact L0|exact Hr|]. intros v s1 o1. apply Evs; [exact L|].
    intros. destruct v; try reflexivity. apply emit_same. intros. apply H.
  - (* EPrint *) apply Evs; [exact L|]. intros. apply emit_same. intros. apply H.
Qed.
End sim.

(** ** Programs *)

Fixpoint ends (s k : string) : bool :=
  (k =? s) || match k with EmptyString => false | String _ k' => ends s k' end.
Lemma ends_ok s t : ends s (t ++ s) = true.
Proof.
  induction t as [|c t IH].
  - change ("" ++ s) with s. destruct s; cbn [ends]; rewrite String.eqb_refl; reflexivity.
  - change (String c t ++ s) with (String c (t ++ s)). cbn [ends]. rewrite IH. apply orb_true_r.
Qed.

Section programs.
Variable P : program.
(** The keys of the functions that never come to one with a trap. *)
Variable good : string -> bool.

Definition known (key : string) : bool := existsb (fun kf => fst kf =? key) (p_fns P).
Definition good_key (key : string) : bool := negb (known key) || good key.
Definition good_method (m : string) : bool :=
  forallb (fun kf => good (fst kf) || negb (ends ("." ++ m) (fst kf))) (p_fns P).

Definition apart (l : list branch) : bool :=
  good_method "fmt" && good_key "{:?}" &&
  forallb (fun kf => negb (good (fst kf)) ||
    (negb (existsb (fun b => fst b =? fst kf) l) &&
     match f_body (snd kf) with Some e => within good_key good_method depth e | None => true end)) (p_fns P).

Lemma good_every m : good_method m = true -> every good_key m.
Proof.
  intros G t. unfold good_key. destruct (known (t ++ "." ++ m)) eqn:K; [|reflexivity]. cbn [negb orb].
  apply existsb_exists in K. destruct K as (kf & I & E). apply String.eqb_eq in E.
  unfold good_method in G. rewrite forallb_forall in G. specialize (G kf I). rewrite E in G.
  rewrite ends_ok in G. rewrite orb_false_r in G. exact G.
Qed.
Lemma assoc_known {A} key (l : list (string * A)) f : assoc key l = Some f -> In (key, f) l.
Proof.
  induction l as [|[k g] l IH]; intros E; [discriminate E|].
  cbn [assoc] in E. destruct (String.eqb_spec key k) as [->|]; [injection E as ->; left; reflexivity|right; exact (IH E)].
Qed.

Lemma run_same l p : apart l = true -> trapped [] P = P ->
  forall n key vs o, good_key key = true -> run (trapped l P) p n key vs o = run P p n key vs o.
Proof.
  intros A T. unfold apart in A. apply andb_true_iff in A. destruct A as [A B]. apply andb_true_iff in A. destruct A as [F D].
  enough (X : forall n key vs o, good_key key = true -> run (trapped l P) p n key vs o = run (trapped [] P) p n key vs o)
    by (rewrite T in X; exact X).
  induction n as [|n IH]; intros key vs o G; [reflexivity|]. cbn [run].
  unfold trapped at 1 5. cbn [p_fns].
  rewrite !(assoc_map (fun key f => snd (fn_with_traps (among _ key) f))).
  destruct (assoc key (p_fns P)) as [f|] eqn:E; cbn [option_map]; [|reflexivity].
  apply assoc_known in E. rewrite forallb_forall in B. specialize (B _ E). cbn [fst snd] in B.
  assert (K : known key = true).
  { apply existsb_exists. exists (key, f). split; [exact E|apply String.eqb_refl]. }
  unfold good_key in G. rewrite K in G. cbn [negb orb] in G. rewrite G in B. cbn [negb orb] in B.
  apply andb_true_iff in B. destruct B as [B W].
  assert (N : forall i, among l key i = false).
  { intros i. apply not_true_is_false. intros N. unfold among in N. apply existsb_exists in N.
    destruct N as (b & I & N). apply andb_true_iff in N. destruct N as [N _]. apply negb_true_iff in B.
    rewrite <- not_true_iff_false in B. apply B. apply existsb_exists. exists b. split; assumption. }
  assert (Q : fn_with_traps (among l key) f = fn_with_traps (among [] key) f).
  { unfold fn_with_traps. destruct (f_body f); [|reflexivity]. rewrite N.
    rewrite (with_traps_ext (among l key) (among [] key)) by (intros; rewrite N; reflexivity). reflexivity. }
  rewrite Q.
  assert (Q2 : snd (fn_with_traps (among [] key) f) = f).
  { apply (f_equal p_fns) in T. unfold trapped in T. cbn [p_fns] in T. clear -T E.
    induction (p_fns P) as [|[k g] fs IHf]; [destruct E|]. cbn [map fst snd] in T. injection T as T1 T2.
    destruct E as [E|E]; [injection E as -> ->; exact T1|exact (IHf T2 E)]. }
  rewrite Q2. destruct (bind_params _ _ _) as [s|]; [|reflexivity]. destruct (f_body f) as [e|]; [|reflexivity].
  apply (ev_same p _ _ _ good_key) with (okm := good_method).
  - intros key' G' vs' o' k1 k2 Hk. rewrite IH by exact G'.
    destruct (run (trapped [] P) p n key' vs' o'); [apply Hk|reflexivity..].
  - exact (good_every _ F).
  - exact D.
  - exact good_every.
  - exact W.
  - reflexivity.
  - reflexivity.
Qed.
End programs.
