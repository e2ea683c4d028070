(** The public functions and types; see PropsVisible.v. *)
From Coq Require Import ZArith List Bool String.
From Verif Require Import Rust SrcLine SrcLex SrcAst SrcParse SrcNames SrcLink SrcSem SrcText SrcProg SpecNames SpecReach SpecPublic
  SpecVisible.
From Verif Require SrcLinked.
Import ListNotations.
Local Open Scope string_scope.

Definition has (l : list string) (x : string) : bool := existsb (String.eqb x) l.
Lemma has_in l x : has l x = true <-> In x l.
Proof.
  unfold has. rewrite existsb_exists. split.
  - intros (y & I & E). apply String.eqb_eq in E. subst y. exact I.
  - intros I. exists x. split; [exact I|apply String.eqb_refl].
Qed.

Definition seen : list string := Eval vm_compute in match visible source with Some l => l | None => [] end.
Lemma seen_ok : visible source = Some seen.
Proof. vm_compute. reflexivity. Qed.
Definition keys : list string := Eval vm_compute in map fst (p_fns crate).
Lemma keys_ok : map fst (p_fns crate) = keys.
Proof. vm_compute. reflexivity. Qed.
Lemma public_seen : forallb (has seen) public && forallb (has public) seen = true.
Proof. vm_compute. reflexivity. Qed.

Lemma public_is key : In key public <-> exists l, visible source = Some l /\ In key l.
Proof.
  rewrite seen_ok. pose proof public_seen as A. apply andb_true_iff in A. destruct A as [A B].
  rewrite forallb_forall in A, B. split.
  - intros I. exists seen. split; [reflexivity|]. apply has_in, A, I.
  - intros (l & E & J). injection E as <-. apply has_in, B, J.
Qed.

Lemma no_more : given source = Some [] /\ forall x, says_pub is_mod x (tokens_of source "lib.rs") = false.
Proof.
  split; [vm_compute; reflexivity|]. intros x.
  assert (H : forall ts, says_pub is_mod (fun _ => true) ts = false -> says_pub is_mod x ts = false).
  { induction ts as [|t ts IH]; intros A; [reflexivity|]. cbn [says_pub] in A |- *.
    destruct t as [s|k|z s|s|s|q]; try exact (IH A). destruct k; try exact (IH A).
    apply orb_false_iff in A. destruct A as [A B]. rewrite (IH B), orb_false_r.
    destruct ts as [|t ts]; [reflexivity|]. destruct t as [s|k|z s|s|s|q]; try reflexivity.
    destruct ts as [|t ts]; [reflexivity|]. destruct t as [s|k'|z s|s|s|q]; try reflexivity.
    rewrite andb_true_r in A. rewrite A. reflexivity. }
  apply H. vm_compute. reflexivity.
Qed.

Definition names : list string := Eval vm_compute in exports source.
Lemma names_ok : exports source = names.
Proof. vm_compute. reflexivity. Qed.
Definition inst_toks : list tok := Eval vm_compute in tokens_of source "instruction.rs".
Lemma inst_ok : tokens_of source "instruction.rs" = inst_toks.
Proof. vm_compute. reflexivity. Qed.

Definition signature (f : fn) : list ty := (map snd (f_params f) ++ match f_ret f with Some t => [t] | None => [] end)%list.
Lemma signatures_seen : forallb (fun kf => negb (has public (fst kf)) || forallb (nameable names) (signature (snd kf)))
  (p_fns crate) = true.
Proof. vm_compute. reflexivity. Qed.
Lemma enums_seen : forallb (fun e => negb (sees names [] [fst e]) ||
  forallb (fun v => forallb (nameable names) (snd v)) (snd e)) (p_enums crate) = true.
Proof. vm_compute. reflexivity. Qed.
Lemma structs_seen : forallb (fun e => negb (sees names [] [fst e]) ||
  forallb (fun f => nameable names (snd f) && pub_field (fst f) inst_toks) (snd e))
  (p_structs crate) = true.
Proof. vm_compute. reflexivity. Qed.

Lemma all_of {A} (f : A -> bool) (g : A -> bool) l a : forallb (fun a => negb (f a) || g a) l = true -> In a l ->
  f a = true -> g a = true.
Proof. intros H I F. rewrite forallb_forall in H. specialize (H a I). rewrite F in H. exact H. Qed.

Lemma types_seen P : stands_for false false source P ->
  (forall key f t, In key public -> In (key, f) (p_fns P) -> In t (map snd (f_params f)) \/ f_ret f = Some t ->
     nameable (exports source) t = true) /\
  (forall e vs v ts t, In (e, vs) (p_enums P) -> sees (exports source) [] [e] = true -> In (v, ts) vs -> In t ts ->
     nameable (exports source) t = true) /\
  (forall s fs x t, In (s, fs) (p_structs P) -> sees (exports source) [] [s] = true -> In (x, t) fs ->
     nameable (exports source) t = true /\ pub_field x (tokens_of source "instruction.rs") = true).
Proof.
  intros S. apply (proj1 SrcLinked.crate_stands) in S. subst P. rewrite names_ok, inst_ok. split; [|split].
  - intros key f t I J T. apply has_in in I.
    pose proof (all_of (fun kf => has public (fst kf)) (fun kf => forallb (nameable names) (signature (snd kf))) _ _
      signatures_seen J I) as A. cbv beta in A. rewrite forallb_forall in A. apply A. unfold signature. apply in_or_app.
    cbn [snd]. destruct T as [T|T]; [left; exact T|right; rewrite T; left; reflexivity].
  - intros e vs v ts t I Se J T.
    pose proof (all_of (fun e => sees names [] [fst e]) (fun e => forallb (fun v => forallb (nameable names) (snd v)) (snd e)) _ _
      enums_seen I Se) as A. cbv beta in A. rewrite forallb_forall in A. specialize (A _ J). cbn [snd] in A.
    rewrite forallb_forall in A. exact (A t T).
  - intros s fs x t I Se J.
    pose proof (all_of (fun e => sees names [] [fst e]) (fun e => forallb (fun f => nameable names (snd f) &&
      pub_field (fst f) inst_toks) (snd e)) _ _ structs_seen I Se) as A. cbv beta in A.
    rewrite forallb_forall in A. specialize (A _ J). cbn [fst snd] in A. apply andb_true_iff in A. exact A.
Qed.

Lemma visible_case : In "OpcodeKind.get_format" public /\
  (exists P, stands_for false false source P /\ In "AOpcode.get_format" (map fst (p_fns P)) /\
     In "u32.slice" (map fst (p_fns P)) /\ ~ In "AOpcode.get_format" public /\ ~ In "u32.slice" public) /\
  sees (exports source) [] ["Opcode"] = false /\ sees (exports source) [] ["DecodeUtil"] = false /\ sees (exports source) [] ["Decode"] = true /\
  nameable (exports source) (TyPath ["Extensions"] []) = false.
Proof.
  split; [apply has_in; vm_compute; reflexivity|]. split.
  - exists crate. split; [apply (proj1 SrcLinked.crate_stands); reflexivity|]. rewrite keys_ok.
    split; [apply has_in; vm_compute; reflexivity|]. split; [apply has_in; vm_compute; reflexivity|].
    split; intros I; apply has_in in I; vm_compute in I; discriminate I.
  - repeat split; vm_compute; reflexivity.
Qed.
