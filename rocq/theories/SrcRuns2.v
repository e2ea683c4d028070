(** The evaluator finds what SpecMeaning.v says: expressions and calls. *)
From Coq Require Import ZArith List Bool String Lia.
From Verif Require Import Rust Fmt Debug SrcLex SrcAst SrcNames SrcLink SrcSem SpecMeaning SrcRuns.
From Verif Require SpecText Numerals.
Import ListNotations.
Local Open Scope string_scope.
Local Open Scope Z_scope.

Section Eval.
Variable P : program.
Variable p : platform.
Hypothesis ok : platform_ok p.
Variable call : string -> list value -> string -> (value -> string -> ans) -> ans.
Hypothesis call_ok : forall key vs o k a, call key vs o k = a -> fine a ->
  exists r, Calls P p key vs o r /\ match r with Gives v o' => k v o' = a | Dies w => Halt w = a end.

Notation ev := (ev p (with_eq P) call).

Lemma says_ok key v o k a :
  call key [v; VFmt] o (fun r o' => if is_variant "Result" "Ok" r then k o' else Wrong "write") = a -> fine a ->
  exists r w, Calls P p key [v; VFmt] o r /\ Says_ok r w /\ match w with Wrote o' => k o' = a | Broke w => Halt w = a end.
Proof.
  intros H F. destruct (call_ok _ _ _ _ _ H F) as ([r o'|w] & C & K); cbv beta iota in K.
  - destruct (is_variant "Result" "Ok" r) eqn:R; [|bad]. apply variant_iff in R. destruct R as (vs & ->).
    do 2 eexists. split; [exact C|]. split; [apply S_ok|exact K].
  - do 2 eexists. split; [exact C|]. split; [apply S_dies|exact K].
Qed.

Lemma app_assoc_w (a b c : string) : (a ++ b) ++ c = a ++ b ++ c.
Proof. induction a; cbn; [reflexivity|f_equal; assumption]. Qed.

Lemma show_ok spec v o k a : show call spec v o k = a -> fine a ->
  exists w, Shows P p spec v o w /\ match w with Wrote o' => k o' = a | Broke w => Halt w = a end.
Proof.
  unfold show. intros H F. destruct (spec =? "")%string eqn:S0; strings; [subst spec|].
  { destruct v as [t z| |t| |t c vs|t fs| | | | |]; try bad.
    - exists (Wrote (o ++ dec_str z)). split; [apply S_int, Numerals.dec_str_decimal|exact H].
    - exists (Wrote (o ++ t)). split; [apply S_str|exact H].
    - destruct (says_ok _ _ _ _ _ H F) as (r & w & C & S & K). exists w. split; [eapply S_enum; eassumption|exact K].
    - destruct (says_ok _ _ _ _ _ H F) as (r & w & C & S & K). exists w. split; [eapply S_struct; eassumption|exact K]. }
  destruct (spec =? "x")%string eqn:S1; strings; [subst spec|].
  { destruct v as [t z| | | | | | | | | |]; try bad. destruct t; try bad.
    - eexists. split; [apply S_hex, hex_i32_ok|exact H].
    - eexists. split; [apply S_hex, hex_usize_ok|exact H]. }
  destruct (spec =? "#x")%string eqn:S2; strings; [subst spec|].
  { destruct v as [t z| | | | | | | | | |]; try bad. destruct t; try bad; unfold write in H; rewrite app_assoc_w in H.
    - eexists. split; [apply S_hash, hex_i32_ok|exact H].
    - eexists. split; [apply S_hash, hex_usize_ok|exact H]. }
  destruct (spec =? "?")%string eqn:S3; strings; [subst spec|bad].
  destruct (says_ok _ _ _ _ _ H F) as (r & w & C & S & K). exists w. split; [eapply S_debug; eassumption|exact K].
Qed.

Lemma emit_ok ps : forall s vs o k a, emit call ps s vs o k = a -> fine a ->
  exists w, Formats P p ps s vs o w /\ match w with Wrote o' => k o' = a | Broke w => Halt w = a end.
Proof.
  induction ps as [|[t|spec|x spec] ps IH]; intros s vs o k a H F; cbn [emit] in H.
  - destruct vs; [|bad]. eexists. split; [apply F_end|exact H].
  - destruct (IH _ _ _ _ _ H F) as (w & W & K). exists w. split; [apply F_text, W|exact K].
  - destruct vs as [|v vs]; [bad|]. destruct (show_ok _ _ _ _ _ H F) as ([o'|w] & S & K).
    + destruct (IH _ _ _ _ _ K F) as (w & W & L). exists w. split; [eapply F_next; eassumption|exact L].
    + exists (Broke w). split; [eapply F_next_stop; eassumption|exact K].
  - destruct (assoc x s) as [v|] eqn:A; [|bad]. apply assoc_finds in A.
    destruct (show_ok _ _ _ _ _ H F) as ([o'|w] & S & K).
    + destruct (IH _ _ _ _ _ K F) as (w & W & L). exists w. split; [eapply F_var; eassumption|exact L].
    + exists (Broke w). split; [eapply F_var_stop; eassumption|exact K].
Qed.

Definition replies (r : reply) (k : value -> string -> ans) : ans :=
  match r with Gives v o => k v o | Dies w => Halt w end.

Lemma crate_ok r t m vs o k a : Methods_of r t ->
  ~ ((exists i z, r = VInt i z) /\ (m = "pow" \/ m = "into")) ->
  call (t ++ "." ++ m) (r :: vs) o k = a -> fine a ->
  exists b, Method P p r m vs o b /\ replies b k = a.
Proof.
  intros T N H F. destruct (call_ok _ _ _ _ _ H F) as (b & C & K). exists b.
  split; [eapply M_crate; eassumption|]. destruct b; exact K.
Qed.

Lemma builtin_ok r m vs o k a v : Builtin p r m vs (Ret v) -> k v o = a ->
  exists b, Method P p r m vs o b /\ replies b k = a.
Proof. intros B K. exists (Gives v o). split; [apply M_builtin, B|exact K]. Qed.

Lemma std_iff v : is_variant "Option" "None" v || is_variant "Result" "Err" v = true <->
  exists t c vs, v = VEnum t c vs /\ (t = "Option" /\ c = "None" \/ t = "Result" /\ c = "Err").
Proof.
  rewrite orb_true_iff, !variant_iff. split.
  - intros [(vs & ->)|(vs & ->)]; do 3 eexists; (split; [reflexivity|]); [left|right]; auto.
  - intros (t & c & vs & -> & [[-> ->]|[-> ->]]); eauto.
Qed.

Lemma method_ok r m vs o k a : method p call r m vs o k = a -> fine a ->
  exists b, Method P p r m vs o b /\ replies b k = a.
Proof.
  unfold method. cbv zeta. intros H F. destruct r as [t z|b|s| |t c args|t fs|ws|l|cs ps b| |]; cbn [type_name] in H; try bad.
  - destruct (m =? "pow")%string eqn:M1; strings; [subst m|].
    { destruct vs as [|[u y| | | | | | | | | |] [|]]; try bad. apply seq_ok in H.
      pose proof (I_pow p t z u y _ (checked_settles p ok t (z ^ y))) as B.
      destruct (checked p t (z ^ y)) as [x|w]; [eapply builtin_ok; eassumption|].
      exists (Dies (Why w)). split; [apply M_builtin_panics, B|exact H]. }
    destruct (m =? "into")%string eqn:M2; strings; [subst m|].
    { destruct t; try bad. destruct vs; [|bad]. eapply builtin_ok; [apply I_into|exact H]. }
    assert (T : has_size t) by (destruct t; try exact I; bad).
    assert (H' : call (ity_name t ++ "." ++ m) (VInt t z :: vs) o k = a) by (destruct t; try destruct T; exact H).
    eapply crate_ok; [apply V_int, int_name, T| |exact H'|exact F]. intros (_ & [E|E]); congruence.
  - destruct (is_variant "Option" "Some" (VEnum t c args) || is_variant "Result" "Ok" (VEnum t c args)) eqn:S.
    { apply some_ok_iff in S. destruct S as (t' & c' & vs' & E & S). injection E as <- <- <-.
      destruct ((m =? "unwrap")%string || (m =? "expect")%string || (m =? "unwrap_or_else")%string) eqn:M; [|bad].
      destruct args as [|v [|]]; try bad. eapply builtin_ok; [apply I_get; [exact S|]|exact H].
      apply orb_true_iff in M. destruct M as [M|M]; [|strings; auto]. apply orb_true_iff in M. destruct M as [M|M]; strings; auto. }
    assert (NS : ~ some_or_ok t c).
    { intros K. rewrite (proj2 (some_ok_iff _)) in S; [discriminate S|eauto 6]. }
    destruct (is_variant "Option" "None" (VEnum t c args) || is_variant "Result" "Err" (VEnum t c args)) eqn:N.
    { apply std_iff in N. destruct N as (t' & c' & vs' & E & N). injection E as <- <- <-.
      destruct (m =? "unwrap")%string eqn:M1; strings; [subst m|].
      { exists (Dies (Why PUnwrap)). split; [apply M_builtin_panics, I_unwrap; [right; exact N|exact NS]|exact H]. }
      destruct (m =? "expect")%string eqn:M2; strings; [subst m|bad].
      exists (Dies (Why PExpect)). split; [apply M_builtin_panics, I_expect; [right; exact N|exact NS]|exact H]. }
    eapply crate_ok; [apply V_enum| |exact H|exact F].
    + intros [K|K]; [exact (NS K)|]. rewrite (proj2 (std_iff _)) in N; [discriminate N|eauto 6].
    + intros ((i & z & E) & _). discriminate E.
  - eapply crate_ok; [apply V_struct| |exact H|exact F]. intros ((i & z & E) & _). discriminate E.
  - destruct (m =? "iter")%string eqn:M1; strings; [subst m; eapply builtin_ok; [apply I_iter|exact H]|].
    destruct (m =? "rev")%string eqn:M2; strings; [subst m; eapply builtin_ok; [apply I_rev|exact H]|].
    destruct (m =? "enumerate")%string eqn:M3; strings; [subst m; eapply builtin_ok; [apply I_enumerate, number_numbers|exact H]|bad].
  - eapply builtin_ok; [apply I_opaque|exact H].
Qed.

(** ** Expressions *)

Definition after (f : flow) (kr : value -> string -> ans) (k : value -> env -> string -> ans) : ans :=
  match f with Goes v s o => k v s o | Returns v o => kr v o | Stops w => Halt w end.
Definition keeps (s : env) (f : flow) : Prop :=
  match f with Goes _ s' _ => List.length s' = List.length s | _ => True end.
Definition afters (f : flows) (kr : value -> string -> ans) (k : list value -> env -> string -> ans) : ans :=
  match f with All_go vs s o => k vs s o | Breaks f => after f kr (fun _ _ _ => Wrong "") end.
Definition keeps_all (s : env) (f : flows) : Prop :=
  match f with All_go _ s' _ => List.length s' = List.length s | Breaks f => abrupt f end.

Definition good (n : nat) : Prop := forall e s o kr k a, ev n e s o kr k = a -> fine a ->
  exists f, Eval P p e s o f /\ keeps s f /\ after f kr k = a.

Lemma evs_ok n : good n -> forall kr es s o k a,
  (fix evs (es : list expr) (s : env) (o : string) (k : list value -> env -> string -> ans) : ans :=
        match es with
        | [] => k [] s o
        | a :: es' =>
            ev n a s o kr (fun v s1 o1 => evs es' s1 o1 (fun vs s2 o2 => k (v :: vs) s2 o2))
        end) es s o k = a -> fine a ->
  exists f, Evals P p es s o f /\ keeps_all s f /\ afters f kr k = a.
Proof.
  intros IH kr. induction es as [|e es IHes]; intros s o k a H F.
  - eexists. split; [apply Es_nil|]. split; [reflexivity|exact H].
  - destruct (IH _ _ _ _ _ _ H F) as ([v s1 o1|v o1|w] & E & L & A); cbn [after] in A.
    + destruct (IHes _ _ _ _ A F) as ([vs s2 o2|f] & E' & L' & A').
      * exists (All_go (v :: vs) s2 o2). split; [eapply Es_go; eassumption|]. split; [cbn in *; congruence|exact A'].
      * exists (Breaks f). split; [eapply Es_later; eassumption|]. split; [exact L'|exact A'].
    + exists (Breaks (Returns v o1)). split; [apply Es_stop; [exact E|exact I]|]. split; [exact I|exact A].
    + exists (Breaks (Stops w)). split; [apply Es_stop; [exact E|exact I]|]. split; [exact I|exact A].
Qed.

Lemma breaks e s o f kr (k : value -> env -> string -> ans) a : Evals P p (parts e) s o (Breaks f) -> abrupt f ->
  after f kr (fun _ _ _ => Wrong "") = a ->
  exists f, Eval P p e s o f /\ keeps s f /\ after f kr k = a.
Proof.
  intros E A H. exists f. split; [apply E_break, E|]. destruct f; [destruct A|..]; (split; [exact I|exact H]).
Qed.

Lemma goes e s o vs s1 o1 f kr k a : Evals P p (parts e) s o (All_go vs s1 o1) -> List.length s1 = List.length s ->
  Then P p e vs s1 o1 f -> keeps s1 f -> after f kr k = a ->
  exists f, Eval P p e s o f /\ keeps s f /\ after f kr k = a.
Proof.
  intros E L T K H. exists f. split; [eapply E_then; eassumption|]. split; [|exact H].
  destruct f; [cbn in *; congruence|exact I..].
Qed.

Lemma one n e x s o kr k k' a : good n -> parts e = [x] -> ev n x s o kr k' = a -> fine a ->
  (forall v s1 o1, Evals P p (parts e) s o (All_go [v] s1 o1) -> List.length s1 = List.length s -> k' v s1 o1 = a ->
     exists f, Then P p e [v] s1 o1 f /\ keeps s1 f /\ after f kr k = a) ->
  exists f, Eval P p e s o f /\ keeps s f /\ after f kr k = a.
Proof.
  intros IH Q H F G. destruct (IH _ _ _ _ _ _ H F) as ([v s1 o1|v o1|w] & E & L & A); cbn [after] in A.
  - assert (E' : Evals P p (parts e) s o (All_go [v] s1 o1)) by (rewrite Q; eapply Es_go; [exact E|apply Es_nil]).
    destruct (G _ _ _ E' L A) as (f & T & K & A'). eapply goes; eassumption.
  - eapply breaks; [rewrite Q; apply Es_stop; [exact E|exact I]|exact I|exact A].
  - eapply breaks; [rewrite Q; apply Es_stop; [exact E|exact I]|exact I|exact A].
Qed.

Lemma two n e x y s o kr k k' a : good n -> parts e = [x; y] ->
  ev n x s o kr (fun v s1 o1 => ev n y s1 o1 kr (k' v)) = a -> fine a ->
  (forall v w s1 o1, k' v w s1 o1 = a -> exists f, Then P p e [v; w] s1 o1 f /\ keeps s1 f /\ after f kr k = a) ->
  exists f, Eval P p e s o f /\ keeps s f /\ after f kr k = a.
Proof.
  intros IH Q H F G. destruct (IH _ _ _ _ _ _ H F) as ([v s1 o1|v o1|w] & E & L & A); cbn [after] in A.
  - destruct (IH _ _ _ _ _ _ A F) as ([w s2 o2|w o2|w] & E' & L' & A'); cbn [after] in A'.
    + destruct (G _ _ _ _ A') as (f & T & K & A2). eapply goes; [rewrite Q; eapply Es_go; [exact E|eapply Es_go; [exact E'|apply Es_nil]]| |exact T|exact K|exact A2].
      cbn in *. congruence.
    + eapply breaks; [rewrite Q; eapply Es_later; [exact E|]; apply Es_stop; [exact E'|exact I]|exact I|exact A'].
    + eapply breaks; [rewrite Q; eapply Es_later; [exact E|]; apply Es_stop; [exact E'|exact I]|exact I|exact A'].
  - eapply breaks; [rewrite Q; apply Es_stop; [exact E|exact I]|exact I|exact A].
  - eapply breaks; [rewrite Q; apply Es_stop; [exact E|exact I]|exact I|exact A].
Qed.

(** A construct all of whose parts are evaluated by [evs]. *)
Lemma many n e s o kr k k' a : good n ->
  (fix evs (es : list expr) (s : env) (o : string) (k : list value -> env -> string -> ans) : ans :=
        match es with
        | [] => k [] s o
        | a :: es' =>
            ev n a s o kr (fun v s1 o1 => evs es' s1 o1 (fun vs s2 o2 => k (v :: vs) s2 o2))
        end) (parts e) s o k' = a -> fine a ->
  (forall vs s1 o1, k' vs s1 o1 = a -> exists f, Then P p e vs s1 o1 f /\ keeps s1 f /\ after f kr k = a) ->
  exists f, Eval P p e s o f /\ keeps s f /\ after f kr k = a.
Proof.
  intros IH H F G. destruct (evs_ok n IH _ _ _ _ _ _ H F) as ([vs s1 o1|f] & E & L & A); cbn [afters keeps_all] in *.
  - destruct (G _ _ _ A) as (f & T & K & A'). eapply goes; eassumption.
  - eapply breaks; eassumption.
Qed.

(** No parts. *)
Lemma none e s o kr k a f : parts e = [] -> Then P p e [] s o f -> keeps s f -> after f kr k = a ->
  exists f, Eval P p e s o f /\ keeps s f /\ after f kr k = a.
Proof. intros Q T K A. eapply goes; [rewrite Q; apply Es_nil|reflexivity|exact T|exact K|exact A]. Qed.

Lemma leave_leaves s (d : env) s' v o : List.length s' = (List.length d + List.length s)%nat ->
  Leaves s (Goes v s' o) (Goes v (leave s s') o) /\ List.length (leave s s') = List.length s.
Proof.
  intros L. unfold leave. rewrite L. replace (List.length d + List.length s - List.length s)%nat with (List.length d) by lia.
  assert (K : List.length (skipn (List.length d) s') = List.length s) by (rewrite skipn_length; lia).
  split; [|exact K]. rewrite <- (firstn_skipn (List.length d) s') at 1. apply L_goes, K.
Qed.

Lemma after_back s r kr k : after (back s r) kr k = replies r (fun v o => k v s o).
Proof. destruct r; reflexivity. Qed.
Lemma keeps_back s r : keeps s (back s r).
Proof. destruct r; [reflexivity|exact I]. Qed.
Lemma keeps_result s o r : keeps s (result s o r).
Proof. destruct r; [reflexivity|exact I]. Qed.

(** The body of a match arm or a loop, with the bindings [b]. *)
Lemma body_ok n b e s o kr k a : good n -> ev n e (b ++ s)%list o kr (fun w s2 o2 => k w (leave s s2) o2) = a -> fine a ->
  exists f f', Eval P p e (b ++ s)%list o f /\ Leaves s f f' /\ keeps s f' /\ after f' kr k = a.
Proof.
  intros IH H F. destruct (IH _ _ _ _ _ _ H F) as ([v s1 o1|v o1|w] & E & L & A); cbn [after keeps] in *.
  - destruct (leave_leaves s b s1 v o1) as [K1 K2]; [rewrite L, app_length; reflexivity|].
    do 2 eexists. split; [exact E|]. split; [exact K1|]. split; [exact K2|exact A].
  - do 2 eexists. split; [exact E|]. split; [apply L_abrupt; exact I|]. split; [exact I|exact A].
  - do 2 eexists. split; [exact E|]. split; [apply L_abrupt; exact I|]. split; [exact I|exact A].
Qed.

Lemma arms_ok n v s o kr k a arms : good n ->
  (fix try_arms (arms : list (pat * expr)) : ans :=
               match arms with
               | [] => Wrong "no arm"
               | (q, body) :: arms' =>
                   pmatch q v []
                     (fun b => ev n body (b ++ s)%list o kr (fun w s2 o2 => k w (leave s s2) o2))
                     (fun _ => try_arms arms')
               end) arms = a -> fine a ->
  exists b e f f', Picks v arms b e /\ Eval P p e (b ++ s)%list o f /\ Leaves s f f' /\ keeps s f' /\ after f' kr k = a.
Proof.
  intros IH H F. induction arms as [|[q e] arms IHa]; [bad|].
  destruct (pmatch_ok _ _ _ _ _ _ H F) as ([b|] & M & K).
  - destruct (body_ok n b e s o kr k a IH K F) as (f & f' & E & L & KK & A).
    exists b, e, f, f'. split; [apply Q_here, M|]. auto.
  - destruct (IHa K) as (b & e' & f & f' & Pk & R). exists b, e', f, f'. split; [apply Q_later; assumption|exact R].
Qed.

Definition grows (s : env) (f : flow) : Prop :=
  match f with Goes _ s' _ => exists d : env, List.length s' = (List.length d + List.length s)%nat | _ => True end.

Lemma block_ok n (s0 : env) tail kr k a ss : good n -> forall s1 o1,
  (fix stmts (ss : list stmt) (s1 : env) (o1 : string) : ans :=
             match ss with
             | [] =>
                 match tail with
                 | Some a => ev n a s1 o1 kr (fun v s2 o2 => k v (leave s0 s2) o2)
                 | None => k VUnit (leave s0 s1) o1
                 end
             | SLet x t a :: ss' =>
                 ev n a s1 o1 kr (fun v s2 o2 =>
                   match coerce_opt t v with
                   | Some v' => stmts ss' ((x, v') :: s2) o2
                   | None => Wrong "let"
                   end)
             | SExpr a :: ss' => ev n a s1 o1 kr (fun _ s2 o2 => stmts ss' s2 o2)
             | SUse _ :: ss' => stmts ss' s1 o1
             end) ss s1 o1 = a -> fine a ->
  exists f, Block P p ss tail s1 o1 f /\ grows s1 f /\ after f kr (fun v s2 o2 => k v (leave s0 s2) o2) = a.
Proof.
  intros IH. induction ss as [|st ss IHs]; intros s1 o1 H F.
  - destruct tail as [e|].
    + destruct (IH _ _ _ _ _ _ H F) as (f & E & L & A). exists f. split; [apply B_value, E|]. split; [|exact A].
      destruct f; try exact I. exists []. exact L.
    + eexists. split; [apply B_end|]. split; [exists []; reflexivity|exact H].
  - destruct st as [x t e|e|us].
    + destruct (IH _ _ _ _ _ _ H F) as ([v s2 o2|v o2|w] & E & L & A); cbn [after keeps] in *.
      * destruct (coerce_opt t v) as [w|] eqn:C; [|bad]. destruct (IHs _ _ A F) as (f & B & G & A').
        exists f. split; [eapply B_let; [exact E|apply (coerce_opt_takes p ok), C|exact B]|]. split; [|exact A'].
        destruct f; try exact I. destruct G as (d & G). exists ((x, w) :: d)%list. cbn in *. lia.
      * exists (Returns v o2). split; [apply B_let_stop; [exact E|exact I]|]. split; [exact I|exact A].
      * exists (Stops w). split; [apply B_let_stop; [exact E|exact I]|]. split; [exact I|exact A].
    + destruct (IH _ _ _ _ _ _ H F) as ([v s2 o2|v o2|w] & E & L & A); cbn [after keeps] in *.
      * destruct (IHs _ _ A F) as (f & B & G & A').
        exists f. split; [eapply B_expr; [exact E|exact B]|]. split; [|exact A'].
        destruct f; try exact I. destruct G as (d & G). exists d. lia.
      * exists (Returns v o2). split; [apply B_expr_stop; [exact E|exact I]|]. split; [exact I|exact A].
      * exists (Stops w). split; [apply B_expr_stop; [exact E|exact I]|]. split; [exact I|exact A].
    + destruct (IHs _ _ H F) as (f & B & G & A). exists f. split; [apply B_use, B|]. auto.
Qed.

Lemma loop_ok n q body kr k a l : good n -> forall s o,
  each (fun x s2 o2 next =>
          pmatch q x []
            (fun b => ev n body (b ++ s2)%list o2 kr (fun _ s3 o3 => next (leave s2 s3) o3))
            (fun _ => Wrong "for")) l s o k = a -> fine a ->
  exists f, Loop P p q body l s o f /\ keeps s f /\ after f kr (fun _ s2 o2 => k s2 o2) = a.
Proof.
  intros IH. induction l as [|v l IHl]; intros s o H F; cbn [each] in H.
  - eexists. split; [apply L_end|]. split; [reflexivity|exact H].
  - destruct (pmatch_ok _ _ _ _ _ _ H F) as ([b|] & M & K); [|bad].
    destruct (body_ok n b body s o kr (fun _ s3 o3 => each _ l s3 o3 k) a IH K F) as (f & f' & E & L & KK & A).
    destruct f' as [w s1 o1|w o1|w]; cbn [after] in A.
    + destruct (IHl _ _ A F) as (g & G & KG & AG). exists g. split; [eapply L_next; eassumption|]. split; [|exact AG].
      destruct g; cbn in *; congruence.
    + exists (Returns w o1). inversion L; subst. split; [eapply L_stop; eassumption|]. split; [exact I|exact A].
    + exists (Stops w). inversion L; subst. split; [eapply L_stop; eassumption|]. split; [exact I|exact A].
Qed.

Lemma loop_unit q e s o v s' o' : forall l, Loop P p q e l s o (Goes v s' o') -> v = VUnit.
Proof.
  intros l. revert s o. induction l as [|x l IH]; intros s o L; inversion L; subst; [reflexivity|eapply IH; eassumption|].
  match goal with A : abrupt _ |- _ => destruct A end.
Qed.

Lemma ev_ok n : good n.
Proof.
  induction n as [|n IH]; intros e s o kr k a H F; cbn [SrcSem.ev] in H; [bad|]. cbv zeta in H. destruct e; try bad.
  - (* ELit *)
    destruct (suffix =? "")%string eqn:S; strings.
    + subst suffix. eapply none; [reflexivity|apply T_literal|reflexivity|exact H].
    + destruct (prim_ity suffix) as [t|] eqn:T; [|bad]. destruct (suffix_fits p t z) eqn:R; [|bad].
      eapply none; [reflexivity|apply T_suffix; [apply prim_named, T|apply (suffix_range p ok), R]|reflexivity|exact H].
  - eapply none; [reflexivity|apply T_bool|reflexivity|exact H].
  - eapply none; [reflexivity|apply T_str|reflexivity|exact H].
  - (* ECall *)
    eapply (many n (ECall e args)); [exact IH|exact H|exact F|]. clear H. intros vs s1 o1 H. cbv beta in H. destruct e; try bad.
    + destruct (assoc x s1) as [v|] eqn:A; [|bad]. apply assoc_finds in A. destruct v as [| | | | | | | |cs ps body| |]; try bad.
      destruct (bind_params ps vs cs) as [cs'|] eqn:B; [|bad]. apply (bind_binds p ok) in B.
      destruct (IH _ _ _ _ _ _ H F) as (f & E & _ & K).
      assert (R : exists r, Ends f r /\ replies r (fun v o2 => k v s1 o2) = a)
        by (destruct f; eexists; (split; [constructor|exact K])).
      destruct R as (r & R & K'). exists (back s1 r). split; [eapply T_apply; eassumption|].
      split; [apply keeps_back|rewrite after_back; exact K'].
    + destruct (call_ok _ _ _ _ _ H F) as (r & C & K). exists (back s1 r). split; [apply T_call, C|].
      split; [apply keeps_back|rewrite after_back; destruct r; exact K].
    + destruct (prim_call_ok p _ _ _ _ _ H F) as (v & C & K). eexists. split; [apply T_primitive, C|]. split; [reflexivity|eassumption].
    + eexists. split; [apply T_variant|]. split; [reflexivity|eassumption].
  - (* EMeth *)
    set (es := match args with [EClos _ _] => if (m =? "unwrap_or_else")%string then [] else args | _ => args end) in *.
    assert (Q : parts (EMeth e m args) = (e :: es)%list).
    { unfold es. cbn [parts]. destruct args as [|x [|]]; try reflexivity; destruct x; try reflexivity. destruct (m =? "unwrap_or_else")%string; reflexivity. }
    eapply (many n (EMeth e m args)) with (k' := fun vs s2 o2 => match vs with r :: vs => method p call r m vs o2 (fun v o3 => k v s2 o3) | [] => Wrong "" end);
      [exact IH|rewrite Q; exact H|exact F|]. clear H. intros [|r vs] s1 o1 H; [bad|].
    destruct (method_ok _ _ _ _ _ _ H F) as (b & M & K). exists (back s1 b). split; [apply T_method, M|].
    split; [apply keeps_back|rewrite after_back; exact K].
  - (* EField *)
    eapply one; [exact IH|reflexivity|exact H|exact F|]. cbv beta. intros v s1 o1 _ _ H1. destruct v; try bad.
    destruct (assoc f fs) as [x|] eqn:A; [|bad]. eexists. split; [apply T_field, assoc_finds, A|]. split; [reflexivity|eassumption].
  - (* ETry *)
    eapply one; [exact IH|reflexivity|exact H|exact F|]. cbv beta. intros v s1 o1 _ _ H1. unfold question in H1.
    destruct v as [| | | |t c vs| | | | | |]; try bad. destruct vs as [|x [|]]; try bad.
    destruct (t =? "Result")%string eqn:T; [|bad]. strings. subst t. destruct (c =? "Ok")%string eqn:C; strings.
    + subst c. eexists. split; [apply T_try_ok|]. split; [reflexivity|eassumption].
    + eexists. split; [apply T_try_err, C|]. split; [exact I|exact H1].
  - eapply one; [exact IH|reflexivity|exact H|exact F|]. cbv beta. intros v s1 o1 _ _ H1. eexists. split; [apply T_deref|]. split; [reflexivity|eassumption].
  - eapply one; [exact IH|reflexivity|exact H|exact F|]. cbv beta. intros v s1 o1 _ _ H1. eexists. split; [apply T_ref|]. split; [reflexivity|eassumption].
  - (* ENeg *)
    eapply one; [exact IH|reflexivity|exact H|exact F|]. cbv beta. intros v s1 o1 _ _ H1. destruct v as [t z| | | | | | | | | |]; try bad.
    destruct t; try bad.
    + pose proof (checked_settles p ok I32 (- z)) as C. cbn [checked] in C. apply seq_ok in H1.
      exists (result s1 o1 (map_outcome (VInt I32) (ck_i32 p (- z)))). split; [apply T_neg, C|].
      split; [apply keeps_result|]. destruct (ck_i32 p (- z)); exact H1.
    + eexists. split; [apply T_neg_literal|]. split; [reflexivity|eassumption].
  - (* EBin *)
    eapply (two n (EBin op e1 e2)); [exact IH|reflexivity|exact H|exact F|]. cbv beta. intros v w s1 o1 H1.
    destruct v; try bad. destruct w; try bad. destruct (arith_ok p ok _ _ _ _ _ _ _ H1 F) as (r & O & K).
    exists (result s1 o1 r). split; [apply T_bin, O|]. split; [apply keeps_result|]. destruct r; exact K.
  - (* EAs *)
    eapply one; [exact IH|reflexivity|exact H|exact F|]. cbv beta. intros v s1 o1 _ _ H1. destruct v as [u z| | | | | | | | | |]; try bad.
    assert (U : has_size u) by (destruct u; try exact I; bad).
    destruct t as [[|x [|]] l| |]; try (destruct u; bad).
    assert (H2 : match prim_ity x with Some i => k (VInt i (cast p i z)) s1 o1 | None => Wrong "cast" end = a)
      by (destruct u; try destruct U; exact H1).
    destruct (prim_ity x) as [i|] eqn:T; [|bad]. apply prim_named in T. exists (Goes (VInt i (cast p i z)) s1 o1).
    split; [|split; [reflexivity|exact H2]]. eapply T_as; [exact U|exact T|]. inversion T; subst i; cbn [cast]; try (apply (mod_wraps p ok); exact I).
    apply wrap_wraps.
  - eapply none; [reflexivity|apply T_closure|reflexivity|exact H].
  - (* EIf *)
    eapply one; [exact IH|reflexivity|exact H|exact F|]. cbv beta. intros v s1 o1 _ _ H1. destruct v as [|b| | | | | | | | |]; try bad.
    destruct b.
    + destruct (IH _ _ _ _ _ _ H1 F) as (f & E & L & K). exists f. split; [apply T_if_true, E|]. auto.
    + destruct e3 as [e3|].
      * destruct (IH _ _ _ _ _ _ H1 F) as (f & E & L & K). exists f. split; [apply T_if_false, E|]. auto.
      * eexists. split; [apply T_if_none|]. split; [reflexivity|eassumption].
  - (* EMatch *)
    eapply one; [exact IH|reflexivity|exact H|exact F|]. cbv beta. intros v s1 o1 _ _ H1.
    destruct (arms_ok n v s1 o1 kr k a arms IH H1 F) as (b & e' & f & f' & Pk & E & L & KK & A).
    exists f'. split; [eapply T_match; eassumption|]. auto.
  - (* EBlock *)
    destruct (block_ok n s tail kr k a ss IH s o H F) as (f & B & G & A).
    assert (R : exists f', Leaves s f f' /\ keeps s f' /\ after f' kr k = a).
    { destruct f as [v s2 o2|v o2|w].
      - destruct G as (d & G). destruct (leave_leaves s d s2 v o2 G) as [K1 K2]. eexists. split; [exact K1|]. split; [exact K2|exact A].
      - eexists. split; [apply L_abrupt; exact I|]. split; [exact I|exact A].
      - eexists. split; [apply L_abrupt; exact I|]. split; [exact I|exact A]. }
    destruct R as (f' & L & K & A'). eapply none; [reflexivity|eapply T_block; eassumption|exact K|exact A'].
  - eapply (many n (EArr es)); [exact IH|exact H|exact F|]. cbv beta. intros vs s1 o1 H1. eexists. split; [apply T_array|]. split; [reflexivity|eassumption].
  - (* EMac *)
    destruct (name =? "unreachable")%string eqn:M0; strings; [subst name|].
    { eapply none; [reflexivity|apply T_unreachable|exact I|exact H]. }
    destruct (name =? "panic")%string eqn:M1; strings; [subst name|].
    { destruct args as [|[] args]; try bad. eapply none; [reflexivity|apply T_panic|exact I|exact H]. }
    destruct (name =? "assert")%string eqn:M2; strings; [subst name|].
    { destruct args as [|x args]; [bad|]. eapply (one n (EMac "assert" (x :: args))); [exact IH|reflexivity|exact H|exact F|].
      cbv beta. intros v s1 o1 _ _ H1. destruct v as [|b| | | | | | | | |]; try bad. eexists. split; [apply T_assert|].
      destruct b; (split; [first [reflexivity|exact I]|exact H1]). }
    destruct ((name =? "assert_eq")%string || (name =? "assert_ne")%string) eqn:M3; [|bad].
    destruct args as [|x [|y args]]; try bad.
    eapply (two n (EMac name (x :: y :: args))); [exact IH| |exact H|exact F|].
    { cbn [parts]. rewrite (proj2 (String.eqb_neq _ _) M2), M3. reflexivity. }
    cbv beta. intros v w s1 o1 H1. destruct (veq 10 (with_eq P) v w) as [r|] eqn:V; [|bad]. apply veq_equal in V.
    destruct (name =? "assert_eq")%string eqn:M4.
    + apply String.eqb_eq in M4. subst name. eexists. split; [apply T_assert_eq, V|].
      destruct r; (split; [first [reflexivity|exact I]|exact H1]).
    + cbn [orb] in M3. apply String.eqb_eq in M3. subst name. eexists. split; [apply T_assert_ne, V|].
      destruct r; (split; [first [reflexivity|exact I]|exact H1]).
  - (* EMatches *)
    eapply one; [exact IH|reflexivity|exact H|exact F|]. cbv beta. intros v s1 o1 _ _ H1.
    destruct (pmatch_ok _ _ _ _ _ _ H1 F) as (r & M & K). eexists. split; [apply T_matches, M|].
    split; [reflexivity|]. destruct r; exact K.
  - (* EReturn *)
    destruct e as [e|].
    + eapply one; [exact IH|reflexivity|exact H|exact F|]. cbv beta. intros v s1 o1 _ _ H1.
      eexists. split; [apply T_return|]. split; [exact I|exact H1].
    + eapply none; [reflexivity|apply T_return_unit|exact I|exact H].
  - (* EAssign *)
    eapply one; [exact IH|reflexivity|exact H|exact F|]. cbv beta. intros v s1 o1 _ _ H1.
    destruct (assoc x s1) as [[t i| | | | | | | | | |]|] eqn:A; try bad. destruct v as [u j| | | | | | | | | |]; try bad.
    destruct (arith_ok p ok _ _ _ _ _ _ _ H1 F) as ([w|w] & O & K).
    + destruct (assoc_split _ _ _ A) as (l1 & l2 & -> & N). rewrite (update_split _ _ _ _ _ N) in K.
      eexists. split; [eapply T_assign; eassumption|]. split; [cbn [keeps]; rewrite !app_length; reflexivity|exact K].
    + eexists. split; [eapply T_assign_panics; [apply assoc_finds, A|exact O]|]. split; [exact I|exact K].
  - (* EFor *)
    eapply one; [exact IH|reflexivity|exact H|exact F|]. cbv beta. intros v s1 o1 _ _ H1. destruct v; try bad.
    destruct (loop_ok n _ _ kr _ a _ IH _ _ H1 F) as (f & L & K & A).
    exists f. split; [apply T_for, L|]. split; [exact K|].
    destruct f as [v s2 o2| |]; [rewrite (loop_unit _ _ _ _ _ _ _ _ L)|..]; exact A.
  - destruct (assoc x s) as [v|] eqn:A; [|bad].
    eapply none; [reflexivity|apply T_var, assoc_finds, A|reflexivity|exact H].
  - eapply none; [reflexivity|apply T_unit_variant|reflexivity|exact H].
  - eapply (many n (ERecord t fs)); [exact IH|exact H|exact F|]. cbv beta. intros vs s1 o1 H1. eexists. split; [apply T_struct|]. split; [reflexivity|eassumption].
  - (* EWrite *)
    eapply (many n (EWrite e ps args)) with (k' := fun vs s2 o2 => match vs with
      | VFmt :: vs => emit call ps s2 vs o2 (fun o3 => k ok_unit s2 o3) | _ => Wrong "write!" end).
    + exact IH.
    + exact H.
    + exact F.
    + clear H. intros [|r ws] s1 o1 H; [bad|]. destruct r; try bad. destruct (emit_ok _ _ _ _ _ _ H F) as ([o'|w] & W & K).
      * eexists. split; [apply T_write, W|]. split; [reflexivity|eassumption].
      * eexists. split; [apply T_write_panics, W|]. split; [exact I|exact K].
  - eapply (many n (EPrint ps args)); [exact IH|exact H|exact F|]. intros vs s1 o1 H1.
    destruct (emit_ok _ _ _ _ _ _ H1 F) as ([o'|w] & W & K).
    + eexists. split; [apply T_print, W|]. split; [reflexivity|eassumption].
    + eexists. split; [apply T_print_panics, W|]. split; [exact I|exact K].
Qed.

End Eval.

(** ** Calls *)

Lemma run_ok P p : platform_ok p -> forall fuel key vs o a, run P p fuel key vs o = a -> fine a ->
  exists r, Calls P p key vs o r /\ answer r = a.
Proof.
  intros ok. induction fuel as [|fuel IH]; intros key vs o a H F; cbn [run] in H; [bad|].
  destruct (assoc key (p_fns P)) as [f|] eqn:A.
  - destruct (bind_params _ vs []) as [s|] eqn:B; [|bad]. destruct (f_body f) as [body|] eqn:Y; [|bad]. cbv zeta in H.
    set (call := fun key vs o (k : value -> string -> ans) =>
      match run P p fuel key vs o with Done v o' => k v o' | Halt w => Halt w | Wrong w => Wrong w end) in H.
    assert (call_ok : forall key vs o k a, call key vs o k = a -> fine a ->
      exists r, Calls P p key vs o r /\ match r with Gives v o' => k v o' = a | Dies w => Halt w = a end).
    { intros key' vs' o' k a' H' F'. unfold call in H'.
      destruct (run P p fuel key' vs' o') as [v o1|w|w] eqn:R; [| |bad].
      - destruct (IH _ _ _ _ R I) as ([v' o2|w] & C & E); [|discriminate E]. injection E as -> ->.
        eexists. split; [exact C|exact H'].
      - destruct (IH _ _ _ _ R I) as ([v' o2|w'] & C & E); [discriminate E|]. injection E as ->.
        eexists. split; [exact C|exact H']. }
    destruct (ev_ok P p ok call call_ok depth body s o _ _ a H F) as (g & E & _ & K).
    assert (R : exists r, Ends g r /\ match r with
      | Gives v o' => match coerce_opt (f_ret f) v with Some v' => Done v' o' | None => Wrong "result" end
      | Dies w => Halt w end = a) by (destruct g; eexists; (split; [constructor|exact K])).
    destruct R as (r & R & K'). apply assoc_finds in A. apply (bind_binds p ok) in B. destruct r as [v o'|w].
    + destruct (coerce_opt (f_ret f) v) as [v'|] eqn:C; [|bad]. exists (Gives v' o'). split; [|exact K'].
      eapply C_fn; try eassumption. cbv beta iota. split; [apply (coerce_opt_takes p ok), C|reflexivity].
    + exists (Dies w). split; [|exact K']. eapply C_fn; try eassumption. reflexivity.
  - unfold derived_fn in H. destruct (key =? "{:?}")%string eqn:K; [|bad]. strings. subst key.
    destruct vs as [|v [|[] [|]]]; try bad. destruct (derived_debug P 10 v) as [d|] eqn:D; [|bad].
    exists (Gives ok_unit (o ++ compact d)). split; [|exact H]. apply C_debug; [apply assoc_none, A|eapply debug_debugs, D].
Qed.
