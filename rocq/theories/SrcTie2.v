(** The linker finds what SpecNames.v says, and only that: types, format strings, patterns, expressions. *)
From Coq Require Import ZArith List Bool String Ascii Lia.
From Verif Require Import SrcLex SrcAst SrcNames SpecNames SrcLink SrcTie.
Import ListNotations.
Local Open Scope string_scope.

Definition Good (s : scope) : Prop := Clear s /\ NoDup (map fst (s_types s)).
Lemma good_vars s xs : Good s -> Good (with_vars s xs).
Proof. exact (fun H => H). Qed.
Lemma good_uses s us : Good s -> clear_uses s us = true -> Good (with_uses s us).
Proof. intros [C N] H. split; [exact (clear_uses_ok s us C H)|exact N]. Qed.

Local Opaque look unknown.

(** ** Types *)

Section TyInd.
  Context (Q : ty -> Prop)
    (HP : forall q ts, Forall Q ts -> Q (TyPath q ts)) (HR : forall t, Q t -> Q (TyRef t)) (HS : forall t, Q t -> Q (TySlice t)).
  Fixpoint ty_ind' (t : ty) : Q t :=
    match t with
    | TyPath q ts => HP q ts ((fix go l : Forall Q l := match l with [] => Forall_nil _ | a :: l => Forall_cons _ (ty_ind' a) (go l) end) ts)
    | TyRef t => HR t (ty_ind' t)
    | TySlice t => HS t (ty_ind' t)
    end.
End TyInd.

Lemma mapo_sound_in {A B} (f : A -> option B) (R : A -> B -> Prop) l :
  Forall (fun a => forall b, f a = Some b -> R a b) l -> forall m, mapo f l = Some m -> Forall2 R l m.
Proof.
  induction 1; intros m M; cbn [mapo] in M; [injection M as <-; constructor|].
  destruct (f x) eqn:E; [|discriminate M]. destruct (mapo f l); [|discriminate M]. injection M as <-. constructor; auto.
Qed.
Lemma mapo_unique_in {A B} (f : A -> option B) (R : A -> B -> Prop) l :
  Forall (fun a => forall b b', f a = Some b -> R a b' -> b' = b) l ->
  forall m m', mapo f l = Some m -> Forall2 R l m' -> m' = m.
Proof.
  induction 1; intros m m' M F; cbn [mapo] in M; [injection M as <-; inversion F; reflexivity|].
  destruct (f x) eqn:E; [|discriminate M]. destruct (mapo f l); [|discriminate M]. injection M as <-.
  inversion F; subst. f_equal; [eapply H; eauto|eapply IHForall; eauto].
Qed.

Lemma is_type_ok q e : is_type q e = true -> Is_type q e.
Proof. destruct e; cbn [is_type Is_type]; intros H; try discriminate H; try exact I; apply String.eqb_eq; exact H. Qed.

Lemma link_ty_ok s t : forall u, link_ty s t = Some u -> Ties_ty s t u.
Proof.
  induction t as [q ts IH|t IH|t IH] using ty_ind'; intros u H; cbn [link_ty] in H.
  - destruct (hd "" q =? "Self") eqn:S.
    + apply String.eqb_eq in S. destruct q as [|x [|y [|z q]]]; destruct ts; try discriminate H; cbn [hd] in S; subst.
      * injection H as <-. apply TT_self.
      * apply TT_assoc. exact (assoc_in _ _ _ H).
    + apply String.eqb_neq in S.
      assert (G : forall us, Forall2 (Ties_ty s) ts us -> forall e, Means s q e -> Is_type q e -> Ties_ty s (TyPath q ts) (TyPath q us)).
      { intros us M e L T. eapply TT_path; eassumption. }
      destruct q as [|x [|y q]]; [|destruct ts|]; cbn [hd] in S;
        try (match type of H with context [look ?a ?b] => destruct (look a b) as [e|] eqn:L; [|discriminate H]; destruct (is_type b e) eqn:T; [|discriminate H] end;
             match type of H with context [mapo ?f ?l] => destruct (mapo f l) as [us|] eqn:M; [|discriminate H] end;
             injection H as <-; exact (G _ (mapo_sound_in _ _ _ IH _ M) _ (look_ok _ _ _ L) (is_type_ok _ _ T))).
      destruct (mem x (s_params s)) eqn:P.
      * destruct (unknown s x); [|discriminate H]. injection H as <-. apply TT_param; [exact S|]. apply mem_true. exact P.
      * destruct (look s [x]) as [e|] eqn:L; [|discriminate H]. destruct (is_type [x] e) eqn:T; [|discriminate H].
        injection H as <-. exact (G [] (Forall2_nil _) _ (look_ok _ _ _ L) (is_type_ok _ _ T)).
  - destruct (link_ty s t); [|discriminate H]. injection H as <-. apply TT_ref. auto.
  - destruct (link_ty s t); [|discriminate H]. injection H as <-. apply TT_slice. auto.
Qed.

Lemma link_ty_unique s t : Good s -> forall u u', link_ty s t = Some u -> Ties_ty s t u' -> u' = u.
Proof.
  intros [C N]. induction t as [q ts IH|t IH|t IH] using ty_ind'; intros u u' H T; cbn [link_ty] in H.
  - destruct (hd "" q =? "Self") eqn:S.
    + apply String.eqb_eq in S. inversion T; subst; cbn [hd] in *; try congruence.
      match goal with K : In (_, _) (s_types s) |- _ => exact (nodup_assoc _ _ _ _ N K (assoc_in _ _ _ H)) end.
    + apply String.eqb_neq in S. inversion T; subst; cbn [hd] in *; try congruence.
      * match goal with K : In _ (s_params s) |- _ => rewrite (proj2 (mem_true _ _) K) in H end. destruct (unknown s x); congruence.
      * destruct q as [|x [|y q]]; [|destruct ts|];
          try (match type of H with context [look ?a ?b] => destruct (look a b) as [e0|] eqn:L; [|discriminate H]; destruct (is_type b e0) eqn:Y; [|discriminate H] end;
               match type of H with context [mapo ?f ?l] => destruct (mapo f l) as [vs|] eqn:M; [|discriminate H] end;
               injection H as <-; f_equal; eapply mapo_unique_in; [exact IH|exact M|eassumption]).
        match goal with F : Forall2 _ [] us |- _ => inversion F; subst end.
        destruct (mem x (s_params s)) eqn:P.
        { destruct (unknown s x); [|discriminate H]. injection H as <-. reflexivity. }
        destruct (look s [x]) as [e0|]; [|discriminate H]. destruct (is_type [x] e0); [|discriminate H]. injection H as <-. reflexivity.
  - destruct (link_ty s t); [|discriminate H]. injection H as <-. inversion T; subst. f_equal. eapply IH; eauto.
  - destruct (link_ty s t); [|discriminate H]. injection H as <-. inversion T; subst. f_equal. eapply IH; eauto.
Qed.

Lemma opto_ok {A B} (f : A -> option B) (R : A -> B -> Prop) o o' :
  (forall a b, f a = Some b -> R a b) -> opto f o = Some o' -> Ties_opt R o o'.
Proof.
  intros H. destruct o as [a|]; cbn [opto]; [|intros E; injection E as <-; constructor].
  destruct (f a) eqn:F; [|discriminate]. intros E. injection E as <-. constructor. auto.
Qed.
Lemma opto_unique {A B} (f : A -> option B) (R : A -> B -> Prop) o o' o'' :
  (forall a b b', f a = Some b -> R a b' -> b' = b) -> opto f o = Some o' -> Ties_opt R o o'' -> o'' = o'.
Proof.
  intros H. destruct o as [a|]; cbn [opto]; intros E T; inversion T; subst; [|congruence].
  destruct (f a) eqn:F; [|discriminate E]. injection E as <-. f_equal. eapply H; eauto.
Qed.

(** ** Format strings *)

Lemma sapp_nil s : s ++ "" = s.
Proof. induction s as [|c s IH]; [reflexivity|]. cbn. rewrite IH. reflexivity. Qed.
Lemma sapp_assoc a b c : (a ++ b) ++ c = a ++ (b ++ c).
Proof. induction a as [|x a IH]; [reflexivity|]. cbn. rewrite IH. reflexivity. Qed.
Lemma plain_app b t u : Plain b t -> Plain b u -> Plain b (t ++ u).
Proof.
  intros H K c I. assert (E : list_ascii_of_string (t ++ u) = (list_ascii_of_string t ++ list_ascii_of_string u)%list).
  { clear. induction t as [|x t IH]; [reflexivity|]. cbn. rewrite IH. reflexivity. }
  rewrite E in I. apply in_app_or in I. destruct I as [I|I]; [exact (H c I)|exact (K c I)].
Qed.
Lemma plain_nil b : Plain b "".
Proof. intros c []. Qed.
Lemma plain_char c : Ascii.eqb c "{" = false -> Ascii.eqb c "}" = false -> Plain true (String c "").
Proof. intros A B d [<-|[]]. apply Ascii.eqb_neq in A, B. auto. Qed.

Lemma split_colon_ok t : Plain true t -> forall a b, split_colon t = (a, b) ->
  Plain false a /\ Plain true b /\ (t = a /\ b = "" \/ t = a ++ ":" ++ b).
Proof.
  induction t as [|c t IH]; intros P a b H; cbn [split_colon] in H.
  - injection H as <- <-. split; [apply plain_nil|]. split; [apply plain_nil|]. left. auto.
  - assert (P' : Plain true t) by (intros d D; apply P; right; exact D).
    destruct (Ascii.eqb c ":") eqn:E.
    + injection H as <- <-. apply Ascii.eqb_eq in E. subst. split; [apply plain_nil|]. split; [exact P'|]. right. reflexivity.
    + destruct (split_colon t) as [a' b'] eqn:S. injection H as <- <-. destruct (IH P' _ _ eq_refl) as (A & B & K).
      split; [|split; [exact B|]].
      * intros d [<-|D]; [|exact (A d D)]. destruct (P c (or_introl eq_refl)) as (X & Y & _). apply Ascii.eqb_neq in E. auto.
      * destruct K as [[-> ->]| ->]; [left; auto|right; reflexivity].
Qed.

Lemma hole_ok t s ps : Plain true t -> Pieces s ps -> Pieces ("{" ++ t ++ "}" ++ s) (hole t :: ps).
Proof.
  intros P H. unfold hole. destruct (split_colon t) as [a b] eqn:S. destruct (split_colon_ok t P a b S) as (A & B & K).
  destruct a as [|c a].
  - destruct K as [[-> ->]| ->].
    + exact (F_next s ps H).
    + exact (F_next_spec b s ps B H).
  - destruct K as [[-> ->]| ->].
    + apply F_var; [discriminate|exact A|exact H].
    + rewrite !sapp_assoc. apply F_var_spec; [discriminate|exact A|exact B|exact H].
Qed.

Lemma pieces_ok s : forall acc ps, Plain true acc ->
  (pieces false acc s = Some ps -> Pieces (acc ++ s) ps) /\ (pieces true acc s = Some ps -> Pieces ("{" ++ acc ++ s) ps).
Proof.
  induction s as [|c s IH]; intros acc ps P; cbn [pieces].
  - split; [|discriminate]. intros H. injection H as <-. rewrite sapp_nil.
    destruct acc as [|d acc]; [exact F_end|]. apply F_last; [discriminate|exact P].
  - assert (STEP : acc ++ String c s = (acc ++ String c "") ++ s) by (rewrite sapp_assoc; reflexivity).
    split.
    + destruct (Ascii.eqb c "{") eqn:E1.
      * apply Ascii.eqb_eq in E1. subst. destruct (pieces true "" s) as [qs|] eqn:Q; [|discriminate].
        intros H. injection H as <-. pose proof (proj2 (IH "" qs (plain_nil _)) Q) as K. cbn [append] in K.
        destruct acc as [|d acc]; [exact K|]. apply F_text; [discriminate|exact P|exact K].
      * destruct (Ascii.eqb c "}") eqn:E2; [discriminate|]. intros H. rewrite STEP.
        apply IH; [apply plain_app; [exact P|exact (plain_char _ E1 E2)]|exact H].
    + destruct (Ascii.eqb c "}") eqn:E2.
      * apply Ascii.eqb_eq in E2. subst. destruct (pieces false "" s) as [qs|] eqn:Q; [|discriminate].
        intros H. injection H as <-. apply (hole_ok acc s qs P). exact (proj1 (IH "" qs (plain_nil _)) Q).
      * destruct (Ascii.eqb c "{") eqn:E1; [discriminate|]. intros H. rewrite STEP.
        apply IH; [apply plain_app; [exact P|exact (plain_char _ E1 E2)]|exact H].
Qed.

Lemma pieces_skip b t : Plain true t -> forall acc s, pieces b acc (t ++ s) = pieces b (acc ++ t) s.
Proof.
  induction t as [|c t IH]; intros P acc s; [rewrite sapp_nil; reflexivity|].
  destruct (P c (or_introl eq_refl)) as (A & B & _). apply Ascii.eqb_neq in A, B.
  assert (P' : Plain true t) by (intros d D; apply P; right; exact D).
  cbn [append pieces]. rewrite A, B. replace (acc ++ String c t) with ((acc ++ String c "") ++ t) by (rewrite sapp_assoc; reflexivity).
  destruct b; apply IH; exact P'.
Qed.
Lemma plain_weak t : Plain false t -> Plain true t.
Proof. intros P c I. destruct (P c I) as (A & B & _). auto. Qed.
Lemma split_plain t : Plain false t -> forall s, split_colon (t ++ ":" ++ s) = (t, s) /\ split_colon t = (t, "").
Proof.
  induction t as [|c t IH]; intros P s; [split; reflexivity|].
  destruct (P c (or_introl eq_refl)) as (_ & _ & [D|D]); [discriminate D|]. apply Ascii.eqb_neq in D.
  destruct (IH (fun d I => P d (or_intror I)) s) as [E F]. cbn [append split_colon] in *. rewrite D, E, F. split; reflexivity.
Qed.
Lemma colon_plain : Plain true ":".
Proof. intros c [<-|[]]. split; [discriminate|]. split; [discriminate|left; reflexivity]. Qed.

Lemma pieces_hole t s ps : Plain true t -> pieces false "" s = Some ps ->
  pieces false "" ("{" ++ t ++ "}" ++ s) = Some (hole t :: ps).
Proof.
  intros P H. cbn [append pieces Ascii.eqb Bool.eqb]. rewrite (pieces_skip true t P). cbn [append pieces].
  rewrite Ascii.eqb_refl, H. reflexivity.
Qed.

Lemma pieces_all s ps : Pieces s ps -> pieces false "" s = Some ps.
Proof.
  induction 1.
  - reflexivity.
  - rewrite <- (sapp_nil t) at 1. rewrite (pieces_skip false t H0). cbn [append pieces]. destruct t; [congruence|reflexivity].
  - rewrite (pieces_skip false t H0). cbn [append pieces] in *. rewrite Ascii.eqb_refl in *.
    destruct (pieces true "" s) as [qs|]; [|discriminate IHPieces]. injection IHPieces as <-. destruct t; [congruence|reflexivity].
  - exact (pieces_hole "" s ps (plain_nil _) IHPieces).
  - pose proof (pieces_hole (":" ++ f) s ps (plain_app _ _ _ colon_plain H) IHPieces) as K. rewrite sapp_assoc in K. exact K.
  - rewrite (pieces_hole x s ps (plain_weak _ H0) IHPieces). unfold hole. rewrite (proj2 (split_plain x H0 "")).
    destruct x; [congruence|reflexivity].
  - pose proof (pieces_hole (x ++ ":" ++ f) s ps (plain_app _ _ _ (plain_weak _ H0) (plain_app _ _ _ colon_plain H1)) IHPieces) as K.
    rewrite !sapp_assoc in K. rewrite K. unfold hole. rewrite (proj1 (split_plain x H0 f)). destruct x; [congruence|reflexivity].
Qed.

Lemma link_pieces_ok s t ps : link_pieces s t = Some ps -> Pieces_in s t ps.
Proof.
  unfold link_pieces. destruct (pieces false "" t) as [qs|] eqn:E; [|discriminate].
  destruct (forallb _ qs) eqn:F; [|discriminate]. intros H. injection H as ->. split.
  - exact (proj1 (pieces_ok t "" ps (plain_nil _)) E).
  - intros x f I. rewrite forallb_forall in F. specialize (F _ I). cbv beta iota in F. apply mem_true. exact F.
Qed.
Lemma link_pieces_unique s t ps ps' : link_pieces s t = Some ps -> Pieces_in s t ps' -> ps' = ps.
Proof.
  unfold link_pieces. intros H [K _]. rewrite (pieces_all _ _ K) in H. destruct (forallb _ ps'); congruence.
Qed.

(** ** Patterns *)

Section PatInd.
  Context (Q : pat -> Prop)
    (H1 : Q PWild) (H2 : forall x, Q (PBind x)) (H3 : forall z, Q (PLit z)) (H4 : forall a b, Q (PRange a b)) (H5 : forall q, Q (PPath q))
    (H6 : forall q ps, Forall Q ps -> Q (PApp q ps)) (H7 : forall ps, Forall Q ps -> Q (PTuple ps))
    (H8 : forall ps, Forall Q ps -> Q (POr ps)) (H9 : forall t v ps, Forall Q ps -> Q (PCtor t v ps)).
  Fixpoint pat_ind' (p : pat) : Q p :=
    let go := fix go l : Forall Q l := match l with [] => Forall_nil _ | a :: l => Forall_cons _ (pat_ind' a) (go l) end in
    match p with
    | PWild => H1 | PBind x => H2 x | PLit z => H3 z | PRange a b => H4 a b | PPath q => H5 q
    | PApp q ps => H6 q ps (go ps) | PTuple ps => H7 ps (go ps) | POr ps => H8 ps (go ps) | PCtor t v ps => H9 t v ps (go ps)
    end.
End PatInd.

Lemma link_pat_ok s p : Good s -> forall q, link_pat s p = Some q -> Ties_pat s p q.
Proof.
  intros [C N]. induction p using pat_ind'; intros r E; cbn [link_pat] in E.
  - injection E as <-. constructor.
  - destruct (look s [x]) as [[]|] eqn:L; try (destruct (unknown s x) eqn:U; [|discriminate E]; injection E as <-; apply TP_bind; intros t' v'; exact (unknown_ok s x _ C U)).
    injection E as <-. apply TP_name. exact (look_ok _ _ _ L).
  - injection E as <-. constructor.
  - injection E as <-. constructor.
  - destruct (look s q) as [[]|] eqn:L; try discriminate E. injection E as <-. apply TP_path. exact (look_ok _ _ _ L).
  - destruct (look s q) as [[]|] eqn:L; try discriminate E. destruct (mapo (link_pat s) ps) as [qs|] eqn:M; [|discriminate E].
    injection E as <-. apply TP_app; [exact (look_ok _ _ _ L)|exact (mapo_sound_in _ _ _ H _ M)].
  - destruct (mapo (link_pat s) ps) as [qs|] eqn:M; [|discriminate E]. injection E as <-. apply TP_tuple. exact (mapo_sound_in _ _ _ H _ M).
  - destruct (mapo (link_pat s) ps) as [qs|] eqn:M; [|discriminate E]. injection E as <-. apply TP_or. exact (mapo_sound_in _ _ _ H _ M).
  - discriminate E.
Qed.
Lemma link_pat_unique s p : Good s -> forall q q', link_pat s p = Some q -> Ties_pat s p q' -> q' = q.
Proof.
  intros [C N]. induction p using pat_ind'; intros r r' E T; cbn [link_pat] in E; inversion T; subst; try congruence.
  - destruct (look s [x]) as [[]|] eqn:L; try (destruct (unknown s x) eqn:U; [|discriminate E]; congruence).
    exfalso. match goal with K : forall t v, ~ _ |- _ => exact (K _ _ (look_ok _ _ _ L)) end.
  - destruct (look s [x]) as [[]|] eqn:L; try (destruct (unknown s x) eqn:U; [|discriminate E]; exfalso; eapply unknown_ok; eassumption).
    match goal with K : Means _ _ _ |- _ => pose proof (look_unique _ _ _ _ C L K) end. congruence.
  - destruct (look s q) as [[]|] eqn:L; try discriminate E.
    match goal with K : Means _ _ _ |- _ => pose proof (look_unique _ _ _ _ C L K) end. congruence.
  - destruct (look s q) as [[]|] eqn:L; try discriminate E. destruct (mapo (link_pat s) ps) as [rs|] eqn:M; [|discriminate E].
    match goal with K : Means _ _ _ |- _ => pose proof (look_unique _ _ _ _ C L K) as Q; injection Q as -> -> end.
    injection E as <-. f_equal. eapply mapo_unique_in; [exact H|exact M|eassumption].
  - destruct (mapo (link_pat s) ps) as [rs|] eqn:M; [|discriminate E]. injection E as <-. f_equal. eapply mapo_unique_in; [exact H|exact M|eassumption].
  - destruct (mapo (link_pat s) ps) as [rs|] eqn:M; [|discriminate E]. injection E as <-. f_equal. eapply mapo_unique_in; [exact H|exact M|eassumption].
Qed.

(** ** Names *)

Lemma link_path_ok s p e : link_path s p = Some e -> Ties_name s p e.
Proof.
  unfold link_path. intros H.
  assert (G : (match look s p with
    | Some (NFn k) => Some (EFn k)
    | Some (NVariant t v) => Some (ECtor t v)
    | Some (NPrimFn t m) => Some (EPrim t m)
    | Some (NExt (x :: q)) => Some (EPrim (String.concat "::" (List.removelast (x :: q))) (List.last (x :: q) ""))
    | _ => None
    end) = Some e -> Ties_name s p e).
  { destruct (look s p) as [f|] eqn:L; [|discriminate]. apply look_ok in L. destruct f; try discriminate.
    - intros E. injection E as <-. apply TN_fn. exact L.
    - intros E. injection E as <-. apply TN_variant. exact L.
    - intros E. injection E as <-. apply TN_prim. exact L.
    - destruct p0 as [|x q]; [discriminate|]. intros E. assert (E' : EPrim (String.concat "::" (removelast (x :: q))) (last (x :: q) "") = e) by congruence.
      rewrite <- E'. apply TN_ext. rewrite <- app_removelast_last by discriminate. exact L. }
  destruct p as [|x [|y p]]; [exact (G H)| |exact (G H)]. destruct (mem x (s_vars s)) eqn:M; [|exact (G H)].
  destruct (unknown s x); [|discriminate H]. injection H as <-. apply TN_var. apply mem_true. exact M.
Qed.

Lemma link_path_unique s p e e' : Good s -> link_path s p = Some e -> Ties_name s p e' -> e' = e.
Proof.
  intros [C N] H T. unfold link_path in H.
  assert (V : forall x, p = [x] -> In x (s_vars s) -> unknown s x = true /\ e = EVar x).
  { intros x -> I. rewrite (proj2 (mem_true _ _) I) in H. destruct (unknown s x); [|discriminate H]. split; [reflexivity|congruence]. }
  inversion T; subst; try (exact (eq_sym (proj2 (V x eq_refl ltac:(assumption)))));
  (assert (G : match look s p with
    | Some (NFn k) => Some (EFn k)
    | Some (NVariant t v) => Some (ECtor t v)
    | Some (NPrimFn t m) => Some (EPrim t m)
    | Some (NExt (x :: q)) => Some (EPrim (String.concat "::" (List.removelast (x :: q))) (List.last (x :: q) ""))
    | _ => None
    end = Some e);
  [ destruct p as [|x [|y p]]; [exact H| |exact H]; destruct (mem x (s_vars s)) eqn:M; [|exact H];
    exfalso; apply mem_true in M; destruct (V x eq_refl M) as [U _]; eapply unknown_ok; eassumption |];
  destruct (look s p) as [f|] eqn:L; [|discriminate G];
  match goal with K : Means _ _ _ |- _ => pose proof (look_unique _ _ _ _ C L K) as Q end; subst f).
  - congruence.
  - congruence.
  - congruence.
  - assert (K : (p0 ++ [m])%list <> []) by (destruct p0; discriminate).
    assert (G' : Some (EPrim (String.concat "::" (removelast (p0 ++ [m]))) (last (p0 ++ [m]) "")) = Some e).
    { destruct (p0 ++ [m])%list; [congruence|exact G]. }
    rewrite removelast_last, last_last in G'. congruence.
Qed.
