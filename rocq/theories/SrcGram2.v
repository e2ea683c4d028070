(** The parser reads what the grammar says: expressions. *)
From Coq Require Import ZArith List Bool String Lia.
From Verif Require Import SrcLex SrcAst SrcParse SpecGrammar SrcGram.
Import ListNotations.
Local Open Scope string_scope.
Local Open Scope list_scope.

Lemma ends_other w t : (forall x, t <> TId x) -> ~ ends_in_field (w ++ [t]).
Proof.
  intros T (u & x & E). change [TP Dot; TId x] with ([TP Dot] ++ [TId x]) in E. rewrite app_assoc in E.
  apply app_inj_tail in E. exact (T x (proj2 E)).
Qed.

Lemma path_no_field p ts : Path p ts -> ~ ends_in_field ts.
Proof.
  intros P (u & x & E). revert u E. induction P as [y|y p ts P IH]; intros u E.
  - destruct u as [|a [|b u]]; discriminate E.
  - destruct u as [|a [|b u]]; try discriminate E. injection E as _ _ E. exact (IH _ E).
Qed.

(** A primary is a path, or does not end in a name. *)
Definition last_other (ts : list tok) : Prop := exists w t, ts = w ++ [t] /\ forall x, t <> TId x.
Lemma last_app a b : last_other b -> last_other (a ++ b).
Proof. intros (w & t & -> & T). exists (a ++ w), t. rewrite app_assoc. auto. Qed.
Lemma last_cons a b : last_other b -> last_other (a :: b).
Proof. apply (last_app [a]). Qed.
Lemma last_one t : (forall x, t <> TId x) -> last_other [t].
Proof. intros T. exists [], t. auto. Qed.
Ltac lasts := repeat first [apply last_app | apply last_cons]; first [assumption|apply last_one; discriminate].

Lemma block_last e ts : Block e ts -> last_other ts.
Proof. intros [ss tail us _]. change (last_other ((TP LBrace :: us) ++ [TP RBrace])). apply last_app, last_one. discriminate. Qed.

Lemma primary_last : forall ok e ts, Primary ok e ts -> (exists p, Path p ts) \/ last_other ts.
Proof.
  fix F 4. intros ok e ts P.
  destruct P as [| | | |ok p ts P| | |p ts fs us P C| | |ok e ts B|ok c ts t us C B|ok c ts t us e vs C B B'
    |ok c ts t us e vs C B P I|ok p ts e us b vs P E B| |ok p ts e us b vs P E B];
    try (left; eexists; eassumption); right;
    try (apply block_last in B); try (apply block_last in B').
  13: { destruct (F _ _ _ P) as [(q & Q)|Q].
        - destruct I as (vs' & ->). inversion Q.
        - apply last_cons, last_app, last_app, last_cons. exact Q. }
  all: first [apply last_one; discriminate | assumption
    | apply last_cons, last_app, last_one; discriminate
    | apply last_app, last_cons, last_app, last_one; discriminate
    | apply last_cons, last_cons, last_cons, last_app, last_one; discriminate
    | apply last_cons, last_cons, last_cons, last_app, last_cons, last_app, last_one; discriminate
    | apply last_cons, last_app; assumption
    | apply last_cons, last_app, last_app, last_cons; assumption
    | apply last_cons, last_cons, last_app, last_cons, last_app; assumption
    | apply last_cons, last_app, last_cons, last_app, last_one; discriminate
    | apply last_cons, last_app, last_cons, last_app; assumption].
Qed.

Lemma primary_no_field ok e ts : Primary ok e ts -> ~ ends_in_field ts.
Proof.
  intros P. apply primary_last in P. destruct P as [(p & P)|(w & t & -> & T)].
  - eapply path_no_field. exact P.
  - apply ends_other. exact T.
Qed.

(** An operand was read; no [<] comes after it if it ends in a type. *)
Definition no_angle (c : bool) (r : list tok) : Prop := c = true -> next_is Lt r = false /\ next_is Shl r = false.
Definition read (G : bool -> list tok -> Prop) (ts r : list tok) : Prop := exists c, took (G c) ts r /\ no_angle c r.

Lemma read_imp (G H : bool -> list tok -> Prop) ts r : (forall c u, G c u -> H c u) -> read G ts r -> read H ts r.
Proof. intros I (c & T & N). exists c. split; [revert T; apply took_imp, I|exact N]. Qed.
Lemma read_glue (G : list tok -> Prop) (H : bool -> list tok -> Prop) ts r1 r : took G ts r1 ->
  (forall u, G u -> read (fun c v => H c (u ++ v)) r1 r) -> read H ts r.
Proof.
  intros (u & S & U) K. destruct (K u U) as (c & T & N). exists c. split; [|exact N].
  eapply glue; [exists u; split; [exact S|exact (eq_refl u)]|]. intros w <-. exact T.
Qed.
Lemma read_one (H : bool -> list tok -> Prop) t ts r : read (fun c v => H c (t :: v)) ts r -> read H (t :: ts) r.
Proof. intros (c & T & N). exists c. split; [apply glue_one; exact T|exact N]. Qed.
Lemma read_end (H : bool -> list tok -> Prop) c ts : H c [] -> no_angle c ts -> read H ts ts.
Proof. intros E N. exists c. split; [apply glue_end; exact E|exact N]. Qed.
Lemma took_read (G : list tok -> Prop) (H : bool -> list tok -> Prop) ts r : took G ts r -> (forall u, G u -> H false u) -> read H ts r.
Proof. intros T I. exists false. split; [revert T; apply took_imp, I|discriminate]. Qed.

Definition good_binary n := forall ok l, (l <= 9)%nat -> forall ts e r, binary n ok l ts = Got e r ->
  read (fun c => Operand ok l c e) ts r.
Definition good_cast n := forall ok ts e r, cast n ok ts = Got e r -> read (fun c => Operand ok 9 c e) ts r.
Definition good_unary n := forall ok ts e r, unary n ok ts = Got e r -> read (fun c => Operand ok 10 c e) ts r.
Definition good_postfix n := forall ok e ts a r u, postfix n e ts = Got a r -> Operand ok 11 false e u ->
  (next_is LParen ts = true -> ~ ends_in_field u) -> took (fun v => Operand ok 11 false a (u ++ v)) ts r.

Definition all_good n :=
  (forall ok, sound (expr_ n ok) (Expr ok)) /\ good_binary n /\ good_cast n /\ good_unary n /\
  good_postfix n /\ (forall ok, sound (primary n ok) (Primary ok)) /\ sound (block n) Block.

Lemma more_ok n ok lvl : (lvl <= 9)%nat -> good_binary n ->
  forall m a ts x r u c,
  (fix more (m : nat) (a : expr) (ts : list tok) : res expr :=
     match m with
     | O => Bad ts
     | S m =>
         match ts with
         | TP op :: r =>
             match level op with
             | Some l =>
                 if Nat.eqb l lvl then
                   do (b, r') <- binary n ok (S lvl) r;
                   if Nat.eqb lvl 2 then Got (EBin op a b) r' else more m (EBin op a b) r'
                 else Got a ts
             | None => Got a ts
             end
         | _ => Got a ts
         end
     end) m a ts = Got x r ->
  Operand ok (S lvl) c a u \/ lvl <> 2%nat /\ Operand ok lvl c a u -> no_angle c ts ->
  read (fun c v => Operand ok lvl c x (u ++ v)) ts r.
Proof.
  intros L B. induction m as [|m IH]; intros a ts x r u c; [discriminate|]. intros H A N.
  assert (D : Got a ts = Got x r -> read (fun c v => Operand ok lvl c x (u ++ v)) ts r).
  { intros E. injection E as <- <-. apply (read_end _ c); [|exact N]. rewrite app_nil_r.
    destruct A as [A|[_ A]]; [apply operand_up; exact A|exact A]. }
  destruct ts as [|[| | | | |op] ts]; try (exact (D H)).
  destruct (level op) as [l|] eqn:V; [|exact (D H)]. destruct (Nat.eqb l lvl) eqn:Q; [|exact (D H)].
  clear D. apply Nat.eqb_eq in Q. subst l. rewrite level_ok in V. revert H. step.
  assert (L' : (S lvl <= 9)%nat).
  { clear - V. destruct op; try discriminate V; injection V as <-; lia. }
  assert (AC : after_cast c op).
  { intros C. destruct (N C) as [N1 N2]. split; intros ->; [discriminate N1|discriminate N2]. }
  apply (B ok _ L') in E. destruct E as (d & E & M). intros H. apply read_one. eapply read_glue; [exact E|]. intros w W.
  destruct (Nat.eqb lvl 2) eqn:T.
  - apply Nat.eqb_eq in T. subst lvl. revert H. step. apply (read_end _ d); [|exact M]. rewrite app_nil_r.
    destruct A as [A|[F _]]; [|congruence]. eapply operand_compare; eassumption.
  - apply Nat.eqb_neq in T. apply (IH _ _ _ _ (u ++ TP op :: w) d) in H.
    + revert H. apply read_imp. intros c' v Hv. rewrite <- app_assoc in Hv. exact Hv.
    + right. split; [exact T|]. eapply operand_left; try eassumption.
      destruct A as [A|[_ A]]; [apply operand_up; exact A|exact A].
    + exact M.
Qed.

Lemma cast_more_ok n ok : forall m a ts x r u c,
  (fix more (m : nat) (a : expr) (ts : list tok) : res expr :=
     match m with
     | O => Bad ts
     | S m =>
         if next_word Kas ts then
           do (t, r') <- type n (List.tl ts);
           if next_is Lt r' || next_is Shl r' then Bad r' else more m (EAs a t) r'
         else Got a ts
     end) m a ts = Got x r ->
  Operand ok 9 c a u -> no_angle c ts -> read (fun c v => Operand ok 9 c x (u ++ v)) ts r.
Proof.
  induction m as [|m IH]; intros a ts x r u c; [discriminate|]. step.
  - tidy. step. apply type_ok in E. destruct (next_is Lt rest || next_is Shl rest) eqn:B; [discriminate|].
    apply orb_false_iff in B. intros H O _. apply read_one. eapply read_glue; [exact E|]. intros w W.
    apply (IH _ _ _ _ (u ++ TK Kas :: w) true) in H.
    + revert H. apply read_imp. intros c' v Hv. rewrite <- app_assoc in Hv. exact Hv.
    + eapply operand_as; eassumption.
    + intros _. exact B.
  - intros H O N. injection H as <- <-. apply (read_end _ c); [|exact N]. rewrite app_nil_r. exact O.
Qed.

Lemma primary_nonempty ok e ts : Primary ok e ts -> ts <> [].
Proof.
  intros P. apply primary_last in P. destruct P as [(p & P)|(w & t & -> & T)].
  - inversion P; discriminate.
  - destruct w; discriminate.
Qed.

Lemma starts_block_split ts u r : splits ts (u ++ r) -> starts_block u -> starts_block ts.
Proof.
  intros S (t & u' & -> & T). cbn in S. inversion S; subst.
  - eexists; eexists; split; [reflexivity|exact T].
  - destruct T as [T|[T|[T|T]]]; discriminate T.
Qed.
Lemma starts_block_take ts u r : splits ts (u ++ r) -> u <> [] -> starts_block ts -> starts_block u.
Proof.
  intros S N (t & ts' & -> & T). destruct u as [|x u]; [congruence|]. cbn in S. inversion S; subst.
  - eexists; eexists; split; [reflexivity|exact T].
  - destruct T as [T|[T|[T|T]]]; discriminate T.
Qed.

Lemma body_ok n : (forall ok, sound (expr_ n ok) (Expr ok)) -> (forall ok, sound (primary n ok) (Primary ok)) ->
  forall ts b r, (if block_start ts then primary n true ts else expr_ n true ts) = Got b r ->
  took (fun u => Body b u /\ (block_start ts = true -> starts_block u)) ts r.
Proof.
  intros X P ts b r. destruct (block_start ts) eqn:B; intros H.
  - apply P in H. destruct H as (u & S & H). exists u. split; [exact S|].
    assert (Q : starts_block u).
    { eapply starts_block_take; [exact S|eapply primary_nonempty; exact H|apply block_start_ok; exact B]. }
    split; [constructor; assumption|intros _; exact Q].
  - apply X in H. destruct H as (u & S & H). exists u. split; [exact S|]. split; [|discriminate].
    apply body_other; [|exact H]. intros Q. apply (block_start_no _ B). eapply starts_block_split; eassumption.
Qed.

Lemma arms_ok n (e : expr) : (forall ok, sound (expr_ n ok) (Expr ok)) -> (forall ok, sound (primary n ok) (Primary ok)) ->
  forall m acc ts x r,
  (fix arms (m : nat) (acc : list (pat * expr)) (ts : list tok) : res expr :=
     match m with
     | O => Bad ts
     | S m =>
         if next_is RBrace ts then Got (EMatch e acc) (List.tl ts)
         else
           do (p, r) <- pattern n ts;
           do (u, r1) <- eat FatArrow r;
           do (b, r2) <- (if block_start r1 then primary n true r1 else expr_ n true r1);
           if next_is Comma r2 then arms m (acc ++ [(p, b)])%list (List.tl r2)
           else if block_start r1 then arms m (acc ++ [(p, b)])%list r2
           else if next_is RBrace r2 then arms m (acc ++ [(p, b)])%list r2
           else Bad r2
     end) m acc ts = Got x r ->
  exists l, x = EMatch e (acc ++ l) /\ took (fun u => exists v, u = v ++ [TP RBrace] /\ Arms l v) ts r.
Proof.
  intros X P. induction m as [|m IH]; intros acc ts x r; [discriminate|]. step.
  { tidy. step. exists []. rewrite app_nil_r. split; [reflexivity|]. apply glue_one, glue_end.
    exists []. split; [reflexivity|constructor]. }
  step. apply pattern_ok in E. step. tidy. intros H.
  destruct (if block_start rest0 then primary n true rest0 else expr_ n true rest0) as [b r2|] eqn:Q; [|discriminate H].
  apply (body_ok _ X P) in Q. revert H. step.
  - tidy. intros H. apply IH in H. destruct H as (l & -> & H). rewrite <- app_assoc. eexists. split; [reflexivity|].
    eapply glue; [exact E|]. intros u U. apply glue_one. eapply glue; [exact Q|]. intros w (W & _).
    apply glue_one. revert H. apply took_imp. intros v (v' & -> & V).
    exists (u ++ TP FatArrow :: w ++ TP Comma :: v'). split.
    + rewrite <- app_assoc. cbn [app]. rewrite <- app_assoc. reflexivity.
    + apply arms_comma; assumption.
  - destruct (block_start rest0) eqn:K.
    + intros H. apply IH in H. destruct H as (l & -> & H). rewrite <- app_assoc. eexists. split; [reflexivity|].
      eapply glue; [exact E|]. intros u U. apply glue_one. eapply glue; [exact Q|]. intros w (W & Z).
      revert H. apply took_imp. intros v (v' & -> & V).
      exists (u ++ TP FatArrow :: w ++ v'). split.
      * rewrite <- app_assoc. cbn [app]. rewrite <- app_assoc. reflexivity.
      * apply arms_block; try assumption. apply Z. reflexivity.
    + step; [|discriminate]. tidy. intros H. destruct m as [|m]; [discriminate H|].
      cbn [next_is sign_eqb] in H. change (sign_eqb RBrace RBrace) with true in H. cbn [List.tl] in H. revert H. step.
      exists [(a, b)]. split; [reflexivity|].
      eapply glue; [exact E|]. intros u U. apply glue_one. eapply glue; [exact Q|]. intros w (W & _).
      apply glue_one, glue_end. exists (u ++ TP FatArrow :: w). split.
      * rewrite <- app_assoc. reflexivity.
      * apply arms_last; assumption.
Qed.

Lemma default_ok n acc (go : list stmt -> list tok -> res expr) :
  (forall ok, sound (expr_ n ok) (Expr ok)) -> (forall ok, sound (primary n ok) (Primary ok)) ->
  (forall acc ts x r, go acc ts = Got x r -> exists ss tail, x = EBlock (acc ++ ss) tail /\
    took (fun u => exists v, u = v ++ [TP RBrace] /\ Statements ss tail v) ts r) ->
  forall ts x r,
  (if block_start ts then
     do (e, r) <- primary n true ts;
     if next_is RBrace r then Got (EBlock acc (Some e)) (List.tl r)
     else if next_is Semi r then go (acc ++ [SExpr e])%list (List.tl r)
     else go (acc ++ [SExpr e])%list r
   else
     do (e, r) <- expr_ n true ts;
     if next_is Semi r then go (acc ++ [SExpr e])%list (List.tl r)
     else do (u, r') <- eat RBrace r; Got (EBlock acc (Some e)) r') = Got x r ->
  exists ss tail, x = EBlock (acc ++ ss) tail /\
    took (fun u => exists v, u = v ++ [TP RBrace] /\ Statements ss tail v) ts r.
Proof.
  intros X P IH ts x r.
  assert (Tail : forall e r1, took (fun u => Body e u /\ (block_start ts = true -> starts_block u)) ts (TP RBrace :: r1) ->
    Got (EBlock acc (Some e)) r1 = Got x r -> exists ss tail, x = EBlock (acc ++ ss) tail /\
    took (fun u => exists v, u = v ++ [TP RBrace] /\ Statements ss tail v) ts r).
  { intros e r1 B. step. exists [], (Some e). rewrite app_nil_r. split; [reflexivity|].
    eapply glue; [exact B|]. intros u (U & _). apply glue_one, glue_end. exists u. split; [reflexivity|].
    constructor. exact U. }
  assert (Semi_ : forall e r1, took (fun u => Body e u /\ (block_start ts = true -> starts_block u)) ts (TP Semi :: r1) ->
    go (acc ++ [SExpr e]) r1 = Got x r -> exists ss tail, x = EBlock (acc ++ ss) tail /\
    took (fun u => exists v, u = v ++ [TP RBrace] /\ Statements ss tail v) ts r).
  { intros e r1 B H. apply IH in H. destruct H as (ss & tail & -> & H). rewrite <- app_assoc.
    eexists; eexists. split; [reflexivity|]. eapply glue; [exact B|]. intros u (U & _). apply glue_one.
    revert H. apply took_imp. intros w (v & -> & V). exists (u ++ TP Semi :: v).
    rewrite <- app_assoc. split; [reflexivity|]. apply statements_semi; assumption. }
  pose proof (body_ok _ X P ts) as BO. destruct (block_start ts) eqn:K.
  - step. clear E. specialize (BO _ _ eq_refl) as E. clear BO. step; [tidy; intros H; eapply Tail; eassumption|].
    step; [tidy; intros H; eapply Semi_; eassumption|].
    intros H. apply IH in H. destruct H as (ss & tail & -> & H). rewrite <- app_assoc.
    eexists; eexists. split; [reflexivity|]. eapply glue; [exact E|]. intros u (U & Z).
    destruct H as (w & S & v & -> & V). exists (v ++ [TP RBrace]). split; [exact S|].
    exists (u ++ v). rewrite <- app_assoc. split; [reflexivity|].
    apply statements_block; [apply Z; reflexivity|exact U|exact V|].
    intros ->. cbn in S. inversion S; subst. discriminate B.
  - step. clear E. specialize (BO _ _ eq_refl) as E. clear BO. step; [tidy; intros H; eapply Semi_; eassumption|].
    step. tidy. intros H. eapply Tail; eassumption.
Qed.

Lemma stmts_ok n : (forall ok, sound (expr_ n ok) (Expr ok)) -> (forall ok, sound (primary n ok) (Primary ok)) ->
  forall m acc ts x r,
  (fix stmts (m : nat) (acc : list stmt) (ts : list tok) : res expr :=
     match m with
     | O => Bad ts
     | S m =>
         match ts with
         | TP RBrace :: r => Got (EBlock acc None) r
         | TK Klet :: r =>
             do (x, r1) <- ident (skip_mut r);
             do (t, r2) <- (if next_is Colon r1 then
                              do (t, r') <- type n (List.tl r1); Got (Some t) r'
                            else Got None r1);
             do (u, r3) <- eat Eq r2;
             do (e, r4) <- expr_ n true r3;
             do (u, r5) <- eat Semi r4;
             stmts m (acc ++ [SLet x t e])%list r5
         | TK Kuse :: r =>
             do (us, r1) <- use_tree n [] r;
             do (u, r2) <- eat Semi r1;
             stmts m (acc ++ [SUse us])%list r2
         | TId x :: TP BarEq :: r =>
             do (e, r1) <- expr_ n true r;
             do (u, r2) <- eat Semi r1;
             stmts m (acc ++ [SExpr (EAssign Bar x e)])%list r2
         | _ =>
             if block_start ts then
               do (e, r) <- primary n true ts;
               if next_is RBrace r then Got (EBlock acc (Some e)) (List.tl r)
               else if next_is Semi r then stmts m (acc ++ [SExpr e])%list (List.tl r)
               else stmts m (acc ++ [SExpr e])%list r
             else
               do (e, r) <- expr_ n true ts;
               if next_is Semi r then stmts m (acc ++ [SExpr e])%list (List.tl r)
               else do (u, r') <- eat RBrace r; Got (EBlock acc (Some e)) r'
         end
     end) m acc ts = Got x r ->
  exists ss tail, x = EBlock (acc ++ ss) tail /\
    took (fun u => exists v, u = v ++ [TP RBrace] /\ Statements ss tail v) ts r.
Proof.
  intros X P. induction m as [|m IH]; intros acc ts x r; [discriminate|].
  destruct ts as [|[y|[]| | | |[]] ts]; try (match goal with |- _ -> exists _ _, _ /\ took _ ?t _ => exact (default_ok n acc _ X P IH t x r) end).
  - destruct ts as [|[| | | | |[]] ts]; try (match goal with |- _ -> exists _ _, _ /\ took _ ?t _ => exact (default_ok n acc _ X P IH t x r) end).
    step. apply X in E. step. tidy. intros H. apply IH in H. destruct H as (ss & tail & -> & H). rewrite <- app_assoc.
    eexists; eexists. split; [reflexivity|]. apply glue_one, glue_one. eapply glue; [exact E|]. intros u U.
    apply glue_one. revert H. apply took_imp. intros w (v & -> & V).
    exists (TId y :: TP BarEq :: u ++ TP Semi :: v). cbn [app]. rewrite <- app_assoc. split; [reflexivity|].
    constructor; assumption.
  - pose proof (skip_mut_ok ts) as M. step. tidy. rewrite E in M. clear E.
    match goal with |- (match ?q with Got _ _ => _ | Bad _ => _ end) = _ -> _ => destruct q as [t r2|] eqn:Q; [|discriminate] end.
    assert (A : took (Annotation t) rest r2).
    { revert Q. step.
      - tidy. step. step. apply type_ok in E. apply glue_one. revert E. apply took_imp. intros u U. exists u. auto.
      - step. apply glue_end. reflexivity. }
    clear Q. step. tidy. step. apply X in E. step. tidy. intros H. apply IH in H.
    destruct H as (ss & tail & -> & H). rewrite <- app_assoc.
    eexists; eexists. split; [reflexivity|]. apply glue_one.
    eapply glue; [exact M|]. intros k K. apply glue_one. eapply glue; [exact A|]. intros us US. apply glue_one.
    eapply glue; [exact E|]. intros u U. apply glue_one. revert H. apply took_imp. intros w (v & -> & V).
    exists (TK Klet :: k ++ TId a :: us ++ TP Eq :: u ++ TP Semi :: v). split.
    + cbn [app]. rewrite <- !app_assoc. cbn [app]. rewrite <- !app_assoc. cbn [app]. rewrite <- !app_assoc. reflexivity.
    + apply statements_let; assumption.
  - step. apply use_ok in E. step. tidy. intros H. apply IH in H. destruct H as (ss & tail & -> & H). rewrite <- app_assoc.
    eexists; eexists. split; [reflexivity|]. apply glue_one. eapply glue; [exact E|]. intros u U.
    apply glue_one. revert H. apply took_imp. intros w (v & -> & V).
    exists (TK Kuse :: u ++ TP Semi :: v). cbn [app]. rewrite <- app_assoc. split; [reflexivity|].
    constructor; assumption.
  - step. exists [], None. rewrite app_nil_r. split; [reflexivity|]. apply glue_one, glue_end.
    exists []. split; [reflexivity|constructor].
Qed.
