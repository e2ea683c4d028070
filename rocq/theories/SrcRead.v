(** The text is read as the grammar says, and there is no other way to read it. *)
From Coq Require Import ZArith List Bool String Lia.
From Verif Require Import SrcLine SrcText SrcLex SrcAst SrcParse SrcLink SpecGrammar SrcLexOk SrcLexAll SrcGram3 SrcFull5 SrcSem SrcProg.
Import ListNotations.

Lemma lines_ok ls : forall ts, lex_lines ls = Some ts -> exists tss, Forall2 (fun x ts => tokens (bytes_of x) ts) ls tss /\ ts = List.concat tss.
Proof.
  induction ls as [|l ls IH]; intros ts H; cbn [lex_lines] in H.
  - injection H as <-. exists []. split; [constructor|reflexivity].
  - destruct (lex_line l) as [a|] eqn:A; [|discriminate H]. destruct (lex_lines ls) as [b|]; [|discriminate H]. injection H as <-.
    destruct (IH b eq_refl) as (tss & F & ->). exists (a :: tss). split; [constructor; [exact (lex_line_ok _ _ A)|exact F]|reflexivity].
Qed.
Lemma lines_unique ls : forall tss tss', Forall2 (fun x ts => tokens (bytes_of x) ts) ls tss ->
  Forall2 (fun x ts => tokens (bytes_of x) ts) ls tss' -> tss' = tss.
Proof.
  induction ls as [|l ls IH]; intros tss tss' F F'; inversion F; subst; inversion F'; subst; [reflexivity|].
  f_equal; [eapply tokens_unique; eassumption|eapply IH; eassumption].
Qed.

Theorem file_ok ls ts l : lex_lines ls = Some ts -> parse_file ts = Some l -> reads_file ls l.
Proof.
  intros L P. destruct (lines_ok _ _ L) as (tss & F & ->). destruct (parse_ok _ _ P) as (us & S & I). exists tss, us. auto.
Qed.
Theorem file_unique ls l l' : reads_file ls l -> reads_file ls l' -> l' = l.
Proof.
  intros (tss & us & F & S & I) (tss' & us' & F' & S' & I'). rewrite (lines_unique _ _ _ F F') in S'.
  exact (reading_unique _ _ _ _ _ S I S' I').
Qed.

Theorem source_ok src : forall files, parse_source src = Some files -> reads src files.
Proof.
  unfold parse_source. induction src as [|f src IH]; intros files H; cbn [mapo] in H.
  - injection H as <-. constructor.
  - destruct (lex_lines (snd f)) as [ts|] eqn:L; [|discriminate H]. destruct (parse_file ts) as [its|] eqn:P; [|discriminate H].
    destruct (mapo _ src) as [fs|]; [|discriminate H]. injection H as <-.
    constructor; [split; [reflexivity|exact (file_ok _ _ _ L P)]|exact (IH fs eq_refl)].
Qed.
Theorem source_unique src : forall files files', reads src files -> reads src files' -> files' = files.
Proof.
  induction src as [|f src IH]; intros files files' R R'.
  - inversion R. inversion R'. reflexivity.
  - inversion R as [|f1 g src1 gs [E H] T]. inversion R' as [|f2 g' src2 gs' [E' H'] T']. subst.
    rewrite (IH _ _ T T'). f_equal. rewrite (surjective_pairing g), (surjective_pairing g'), E, E', (file_unique _ _ _ H H'). reflexivity.
Qed.

Theorem load_ok test src P : load test src = Some P -> exists files, reads src files /\ link test files = Some P.
Proof.
  unfold load. destruct (parse_source src) as [files|] eqn:E; [|discriminate]. intros L. exists files. split; [exact (source_ok _ _ E)|exact L].
Qed.

Theorem crate_read : exists files, reads source files /\ (forall files', reads source files' -> files' = files) /\
  link false files = Some crate /\ link true files = Some test_crate.
Proof.
  destruct (load_ok _ _ _ crate_loads) as (files & R & L). destruct (load_ok _ _ _ test_crate_loads) as (files' & R' & L').
  rewrite (source_unique _ _ _ R R') in L'. exists files. repeat split; [exact R| |exact L|exact L'].
  intros f F. exact (source_unique _ _ _ R F).
Qed.

Theorem parser_ok :
  (forall l ts, lex_line l = Some ts <-> tokens (bytes_of l) ts) /\
  (forall ts l, parse_file ts = Some l -> exists us, splits ts us /\ Items l us) /\
  (forall ts us l, splits ts us -> Items l us -> exists n0, forall n, (n0 <= n)%nat -> SrcParse.items n ts = Got l []).
Proof.
  split; [|split].
  - intros l ts. split; [apply lex_line_ok|apply lex_line_all].
  - exact parse_ok.
  - intros ts us l. apply parse_all.
Qed.
