(** The evaluator only uses what a call answers. *)
From Coq Require Import ZArith List Bool String.
From Verif Require Import Rust SrcLex SrcAst SrcParse SrcLink SrcSem.
Import ListNotations.
Local Open Scope string_scope.

Lemma seq_ext m k1 k2 : (forall z, k1 z = k2 z) -> seq m k1 = seq m k2.
Proof. intros H. destruct m; cbn [seq]; [apply H|reflexivity]. Qed.

Lemma arith_ext p op ta a tb b k1 k2 : (forall v, k1 v = k2 v) ->
  arith p op ta a tb b k1 = arith p op ta a tb b k2.
Proof.
  intros H. unfold arith.
  destruct op; try (destruct (join ta tb); [|reflexivity]); try reflexivity; try apply H;
    try (apply seq_ext; intros; apply H);
    destruct ta; try reflexivity; apply seq_ext; intros; apply H.
Qed.

Lemma pmatch_ext q : forall v b ks1 ks2 kf1 kf2,
  (forall b, ks1 b = ks2 b) -> (kf1 tt = kf2 tt) ->
  pmatch q v b ks1 kf1 = pmatch q v b ks2 kf2.
Proof.
  revert q. fix IH 1. intros q v b k1 k2 kf1 kf2 Hs Hf.
  assert (All : forall ps vs b, 
    (fix all (ps : list pat) (vs : list value) (b : env) : ans :=
       match ps, vs with
       | [], [] => k1 b
       | p :: ps', v :: vs' => pmatch p v b (fun b' => all ps' vs' b') kf1
       | _, _ => Wrong "pattern"
       end) ps vs b =
    (fix all (ps : list pat) (vs : list value) (b : env) : ans :=
       match ps, vs with
       | [], [] => k2 b
       | p :: ps', v :: vs' => pmatch p v b (fun b' => all ps' vs' b') kf2
       | _, _ => Wrong "pattern"
       end) ps vs b).
  { fix IHl 1. intros [|q' ps] [|v' vs] b'; try reflexivity; [apply Hs|].
    apply IH; [intros b''; apply IHl|exact Hf]. }
  destruct q; cbn [pmatch]; try reflexivity; try apply Hs.
  - destruct v; try reflexivity. destruct (Z.eqb _ _); [apply Hs|exact Hf].
  - destruct v; try reflexivity. destruct (_ && _); [apply Hs|exact Hf].
  - destruct v; try reflexivity. apply All.
  - induction ps as [|q' ps' IHp]; [exact Hf|]. apply IH; [exact Hs|exact IHp].
  - destruct v; try reflexivity. destruct (_ =? _); [|reflexivity].
    destruct (_ =? _); [apply All|exact Hf].
Qed.

Lemma each_ext f1 f2 l : forall s o k1 k2,
  (forall x s o k1 k2, (forall s o, k1 s o = k2 s o) -> f1 x s o k1 = f2 x s o k2) ->
  (forall s o, k1 s o = k2 s o) -> each f1 l s o k1 = each f2 l s o k2.
Proof.
  induction l as [|x l IH]; intros s o k1 k2 Hf Hk; cbn [each]; [apply Hk|].
  apply Hf. intros. apply IH; assumption.
Qed.

Section ext.

Variables (p : platform) (d : list string).
Variables c1 c2 : string -> list value -> string -> (value -> string -> ans) -> ans.
Hypothesis c_ext : forall key vs o k1 k2, (forall v o', k1 v o' = k2 v o') ->
  c1 key vs o k1 = c2 key vs o k2.

Lemma prim_call_ext t m vs k1 k2 : (forall v, k1 v = k2 v) ->
  prim_call p t m vs k1 = prim_call p t m vs k2.
Proof.
  intros H. unfold prim_call.
  repeat match goal with
  | |- context [match ?x with _ => _ end] => destruct x
  end; try reflexivity; apply H.
Qed.

Lemma show_ext spec v o k1 k2 : (forall o, k1 o = k2 o) -> show c1 spec v o k1 = show c2 spec v o k2.
Proof.
  intros H. unfold show. destruct (spec =? "").
  { destruct v; try reflexivity; try apply H; apply c_ext; intros w o';
      destruct (is_variant _ _ _); [apply H|reflexivity|apply H|reflexivity]. }
  destruct (spec =? "x").
  { destruct v as [t z| | | | | | | | | |]; try reflexivity. destruct t; try reflexivity; apply H. }
  destruct (spec =? "#x").
  { destruct v as [t z| | | | | | | | | |]; try reflexivity. destruct t; try reflexivity; apply H. }
  destruct (spec =? "?"); [|reflexivity].
  apply c_ext. intros w o'. destruct (is_variant _ _ _); [apply H|reflexivity].
Qed.

Lemma emit_ext ps : forall s vs o k1 k2, (forall o, k1 o = k2 o) ->
  emit c1 ps s vs o k1 = emit c2 ps s vs o k2.
Proof.
  induction ps as [|q ps IH]; intros s vs o k1 k2 H; cbn [emit].
  - destruct vs; [apply H|reflexivity].
  - destruct q.
    + apply IH, H.
    + destruct vs as [|v vs]; [reflexivity|]. apply show_ext. intros. apply IH, H.
    + destruct (assoc x s); [|reflexivity]. apply show_ext. intros. apply IH, H.
Qed.

Lemma method_ext r m vs o k1 k2 : (forall v o, k1 v o = k2 v o) ->
  method p c1 r m vs o k1 = method p c2 r m vs o k2.
Proof.
  intros H.
  assert (C : match type_name r with
              | Some t => c1 (t ++ "." ++ m) (r :: vs) o k1 | None => Wrong "method" end =
              match type_name r with
              | Some t => c2 (t ++ "." ++ m) (r :: vs) o k2 | None => Wrong "method" end).
  { destruct (type_name r); [apply c_ext, H|reflexivity]. }
  unfold method. cbv zeta. rewrite C. clear C.
  generalize (match type_name r with
              | Some t => c2 (t ++ "." ++ m) (r :: vs) o k2 | None => Wrong "method" end).
  intros c. destruct r; try reflexivity.
  - destruct (m =? "pow").
    { destruct vs as [|[] [|]]; try reflexivity. apply seq_ext. intros. apply H. }
    destruct (m =? "into"); [|reflexivity]. destruct t; try reflexivity. destruct vs; [apply H|reflexivity].
  - destruct (is_variant _ _ _ || is_variant _ _ _).
    { destruct (_ || _); [|reflexivity]. destruct args as [|a [|]]; try reflexivity. apply H. }
    reflexivity.
  - destruct (m =? "iter"); [apply H|]. destruct (m =? "rev"); [apply H|].
    destruct (m =? "enumerate"); [apply H|reflexivity].
  - apply H.
Qed.

Lemma ev_ext n : forall e s o kr1 kr2 k1 k2,
  (forall v o, kr1 v o = kr2 v o) -> (forall v s o, k1 v s o = k2 v s o) ->
  ev p d c1 n e s o kr1 k1 = ev p d c2 n e s o kr2 k2.
Proof.
  induction n as [|n IH]; intros e s o kr1 kr2 k1 k2 Hr H; [reflexivity|].
  assert (Evs : forall es s o k1 k2, (forall vs s o, k1 vs s o = k2 vs s o) ->
    (fix evs (es : list expr) (s : env) (o : string) (k : list value -> env -> string -> ans) : ans :=
        match es with
        | [] => k [] s o
        | a :: es' =>
            ev p d c1 n a s o kr1 (fun v s1 o1 => evs es' s1 o1 (fun vs s2 o2 => k (v :: vs) s2 o2))
        end) es s o k1 =
    (fix evs (es : list expr) (s : env) (o : string) (k : list value -> env -> string -> ans) : ans :=
        match es with
        | [] => k [] s o
        | a :: es' =>
            ev p d c2 n a s o kr2 (fun v s1 o1 => evs es' s1 o1 (fun vs s2 o2 => k (v :: vs) s2 o2))
        end) es s o k2).
  { induction es as [|a es IHes]; intros s' o' j1 j2 Hj; [apply Hj|].
    apply IH; [exact Hr|]. intros v s1 o1. apply IHes. intros. apply Hj. }
  destruct e; cbn [ev]; try reflexivity; try apply H.
  - (* ELit *) destruct (suffix =? ""); [apply H|]. destruct (prim_ity suffix); [|reflexivity].
    destruct (suffix_fits _ _ _); [apply H|reflexivity].
  - (* ECall *)
    apply Evs. intros vs s1 o1. destruct e; try reflexivity.
    + destruct (assoc x s1) as [w|]; [|reflexivity]. destruct w; try reflexivity.
      destruct (bind_params _ _ _); [|reflexivity]. apply IH; intros; apply H.
    + apply c_ext. intros. apply H.
    + apply prim_call_ext. intros. apply H.
    + apply H.
  - (* EMeth *)
    apply IH; [exact Hr|]. intros v s1 o1. apply Evs. intros. apply method_ext. intros. apply H.
  - (* EField *)
    apply IH; [exact Hr|]. intros v s1 o1. destruct v; try reflexivity.
    destruct (assoc _ _); [apply H|reflexivity].
  - (* ETry *)
    apply IH; [exact Hr|]. intros v s1 o1. unfold question. destruct v; try reflexivity.
    destruct args as [|a [|]]; try reflexivity. destruct (_ =? "Result"); [|reflexivity].
    destruct (_ =? "Ok"); [apply H|apply Hr].
  - apply IH; assumption.
  - apply IH; assumption.
  - (* ENeg *)
    apply IH; [exact Hr|]. intros v s1 o1. destruct v as [t z| | | | | | | | | |]; try reflexivity.
    destruct t; try reflexivity; [|apply H]. apply seq_ext. intros. apply H.
  - (* EBin *)
    apply IH; [exact Hr|]. intros v s1 o1. apply IH; [exact Hr|]. intros w s2 o2.
    destruct v; try reflexivity. destruct w; try reflexivity. apply arith_ext. intros. apply H.
  - (* EAs *)
    apply IH; [exact Hr|]. intros v s1 o1. destruct v as [ti z| | | | | | | | | |]; try reflexivity.
    destruct ti; try reflexivity; destruct t as [[|x [|]] ? | |]; try reflexivity;
      (destruct (prim_ity _); [apply H|reflexivity]).
  - (* EIf *)
    apply IH; [exact Hr|]. intros v s1 o1. destruct v; try reflexivity. destruct b.
    + apply IH; assumption.
    + match goal with |- match ?x with Some _ => _ | None => _ end = _ => destruct x end; [apply IH; assumption|apply H].
  - (* EMatch *)
    apply IH; [exact Hr|]. intros v s1 o1.
    induction arms as [|[q body] arms IHa]; [reflexivity|]. apply pmatch_ext; [|exact IHa].
    intros b. apply IH; [exact Hr|]. intros. apply H.
  - (* EBlock *)
    generalize s at 3 6. intros s1. revert s1 o.
    induction ss as [|x ss IHs]; intros s1 o1.
    + destruct tail; [|apply H]. apply IH; [exact Hr|]. intros. apply H.
    + destruct x.
      * apply IH; [exact Hr|]. intros v s2 o2. destruct (coerce_opt _ _); [apply IHs|reflexivity].
      * apply IH; [exact Hr|]. intros. apply IHs.
      * apply IHs.
  - apply Evs. intros. apply H.
  - (* EMac *)
    destruct (_ =? "unreachable"); [reflexivity|]. destruct (_ =? "panic"); [reflexivity|].
    destruct (_ =? "assert").
    { destruct args; [reflexivity|]. apply IH; [exact Hr|]. intros v s1 o1.
      destruct v; try reflexivity. destruct b; [apply H|reflexivity]. }
    destruct (_ || _); [|reflexivity].
    destruct args as [|a [|b ?]]; try reflexivity. apply IH; [exact Hr|]. intros v s1 o1.
    apply IH; [exact Hr|]. intros w s2 o2. destruct (veq 10 d v w); [|reflexivity].
    destruct (Bool.eqb _ _); [apply H|reflexivity].
  - (* EMatches *)
    apply IH; [exact Hr|]. intros v s1 o1. apply pmatch_ext; intros; apply H.
  - destruct e; [|apply Hr]. apply IH; [exact Hr|]. intros. apply Hr.
  - (* EAssign *)
    apply IH; [exact Hr|]. intros v s1 o1. destruct (assoc _ _) as [w|]; [|reflexivity].
    destruct w; try reflexivity. destruct v; try reflexivity. apply arith_ext. intros. apply H.
  - (* EFor *)
    apply IH; [exact Hr|]. intros v s1 o1. destruct v; try reflexivity.
    apply each_ext; [|intros; apply H]. intros x s2 o2 j1 j2 Hj.
    apply pmatch_ext; [|reflexivity]. intros b. apply IH; [exact Hr|]. intros. apply Hj.
  - (* EVar *) destruct (assoc x s); [apply H|reflexivity].
  - (* ERecord *) apply Evs. intros. apply H.
  - (* EWrite *)
    apply IH; [exact Hr|]. intros v s1 o1. apply Evs. intros. destruct v; try reflexivity.
    apply emit_ext. intros. apply H.
  - (* EPrint *) apply Evs. intros. apply emit_ext. intros. apply H.
Qed.

End ext.
