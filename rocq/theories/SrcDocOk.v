(** The examples of the documentation, run. *)
From Coq Require Import ZArith List Bool String Lia.
From Verif Require Import Rust SrcLine SrcText SrcLink SrcSem SrcProg SrcDoc SpecDoc.
Import ListNotations.
Local Open Scope string_scope.

Definition doc_crate : program :=
  Eval vm_compute in
    match load false (with_examples rust_examples source) with Some p => p | None => no_program end.

Lemma doc_crate_loads : load false (with_examples rust_examples source) = Some doc_crate.
Proof. vm_cast_no_check (eq_refl (Some doc_crate)). Qed.

(** The functions of the examples, and what they come to. *)
Definition example_keys : list string :=
  Eval vm_compute in
    map (fun n => hd "" (filter (String.prefix (example_name n ++ "::")) (map fst (p_fns doc_crate))))
      (List.seq 0 (List.length rust_examples)).

Lemma example_keys_ok :
  map (fun n => filter (String.prefix (example_name n ++ "::")) (map fst (p_fns doc_crate)))
    (List.seq 0 (List.length rust_examples)) = map (fun k => [k]) example_keys.
Proof. vm_compute. reflexivity. Qed.

Definition come_to : list ans :=
  Eval vm_compute in
    map (fun k => run doc_crate {| overflow_checks := true; usize_bits := 64 |} 12 k [] "") example_keys.

Definition all_run (fuel : nat) (p : platform) : Prop :=
  map (fun k => run doc_crate p (12 + fuel) k [] "") example_keys = come_to.

Lemma run_16 n c : all_run n {| overflow_checks := c; usize_bits := 16 |}.
Proof. unfold all_run. destruct c; vm_compute; reflexivity. Qed.
Lemma run_32 n c : all_run n {| overflow_checks := c; usize_bits := 32 |}.
Proof. unfold all_run. destruct c; vm_compute; reflexivity. Qed.
Lemma run_64 n c : all_run n {| overflow_checks := c; usize_bits := 64 |}.
Proof. unfold all_run. destruct c; vm_compute; reflexivity. Qed.

Local Opaque run doc_crate.

Lemma run_all n p : platform_ok p -> all_run n p.
Proof.
  intros H. destruct p as [c b]. unfold platform_ok in H. cbn [usize_bits] in H.
  destruct H as [->|[->| ->]]; [apply run_16|apply run_32|apply run_64].
Qed.

Lemma comes_to_ok p n a : platform_ok p -> nth_error come_to n = Some a -> example_comes_to p n a.
Proof.
  intros Hp E.
  assert (L : (n < List.length rust_examples)%nat).
  { change (List.length rust_examples) with (List.length come_to).
    apply nth_error_Some. rewrite E. discriminate. }
  assert (K : exists k, nth_error example_keys n = Some k).
  { destruct (nth_error example_keys n) eqn:F; [eexists; reflexivity|].
    apply nth_error_None in F. change (List.length example_keys) with (List.length rust_examples) in F. lia. }
  destruct K as [k K]. exists doc_crate, k. split; [exact doc_crate_loads|]. split.
  - pose proof (f_equal (fun l => nth_error l n) example_keys_ok) as H. cbv beta in H.
    rewrite (map_nth_error (fun k => [k]) n example_keys K) in H.
    erewrite map_nth_error in H; [injection H as H; exact H|].
    rewrite (nth_error_nth' _ 0%nat) by (rewrite seq_length; exact L). rewrite seq_nth by exact L. reflexivity.
  - intros fuel F. replace fuel with (12 + (fuel - 12))%nat by lia.
    pose proof (f_equal (fun l => nth_error l n) (run_all (fuel - 12) p Hp)) as H. cbv beta in H.
    rewrite E in H. rewrite (map_nth_error _ n example_keys K) in H. injection H as H. exact H.
Qed.

(** What an example not marked [ignore] comes to, as far as it says. *)
Definition as_said (e : example) (a : ans) : bool :=
  if runnable e then
    match a with
    | Done VUnit s => match says_output (ex_text e) with Some t => s =? t | None => true end
    | _ => false
    end
  else true.

Lemma all_as_said : forallb (fun ea => as_said (fst ea) (snd ea)) (combine rust_examples come_to) = true.
Proof. vm_compute. reflexivity. Qed.

Lemma nth_combine {A B} (l : list A) (m : list B) n a : List.length l = List.length m ->
  nth_error l n = Some a -> exists b, nth_error m n = Some b /\ In (a, b) (combine l m).
Proof.
  revert m n. induction l as [|x l IH]; intros [|y m] [|n] L E; try discriminate.
  - injection E as ->. exists y. split; [reflexivity|left; reflexivity].
  - destruct (IH m n) as (b & F & I); [injection L as L; exact L|exact E|].
    exists b. split; [exact F|right; exact I].
Qed.

Lemma examples_run p n e : platform_ok p -> nth_error rust_examples n = Some e -> runnable e = true ->
  exists s, example_comes_to p n (Done VUnit s) /\ forall t, says_output (ex_text e) = Some t -> s = t.
Proof.
  intros Hp E R. destruct (nth_combine rust_examples come_to n e eq_refl E) as (a & A & I).
  pose proof (proj1 (forallb_forall _ _) all_as_said _ I) as H. cbn [fst snd] in H.
  unfold as_said in H. rewrite R in H. pose proof (comes_to_ok p n a Hp A) as C.
  destruct a as [v s| |]; try discriminate H. destruct v; try discriminate H.
  exists s. split; [exact C|]. intros t T. rewrite T in H. apply String.eqb_eq in H. exact H.
Qed.

(** The examples of the doc comments that rustdoc tests use the crate. *)
Lemma tested_examples e : In e (doc_examples source) -> runnable e = true -> In e rust_examples.
Proof.
  assert (H : forallb (fun e => negb (runnable e) ||
    existsb (fun l => starts "use raki::" (bytes_of l)) (ex_text e)) (doc_examples source) = true)
    by (vm_compute; reflexivity).
  intros I R. pose proof (proj1 (forallb_forall _ _) H e I) as U. cbv beta in U. rewrite R in U.
  apply filter_In. split; [apply in_or_app; left; exact I|exact U].
Qed.

Lemma ignored_set p : platform_ok p -> example_comes_to p 3 (Halt (Why PAssert)).
Proof. intros Hp. apply (comes_to_ok p 3 _ Hp). reflexivity. Qed.

(** The example of [set], as it stands. *)
Lemma text_set : option_map ex_text (nth_error rust_examples 3) = Some (map as_line [
  "use raki::decode::DecodeUtil;";
  "let bit: u32 = 0b1010_1101;";
  "let sliced = bit.set(&[7, 5, 3, 2, 0, 6, 4, 1]);";
  "assert_eq!(sliced, 0b1111_1000);"]).
Proof. vm_compute. reflexivity. Qed.

Lemma debug_example p : platform_ok p ->
  example_comes_to p 1 (Done VUnit
    ("Ok(Instruction { opc: BaseI(ADDI), rd: Some(5), rs1: Some(5), rs2: None, imm: Some(-276), " ++
     "inst_format: IFormat, is_compressed: false })" ++ newline)).
Proof. intros Hp. apply (comes_to_ok p 1 _ Hp). reflexivity. Qed.

(** ** The assertions are reached *)

Definition assert_lines : list (nat * nat) :=
  Eval vm_compute in
    flat_map (fun ie => let '(n, e) := ie in
      if runnable e then
        flat_map (fun kl => let '(k, l) := kl in
                    if starts "assert" (unindent (bytes_of l)) then [(n, k)] else [])
          (combine (List.seq 0 (List.length (ex_text e))) (ex_text e))
      else []) (combine (List.seq 0 (List.length rust_examples)) rust_examples).

Lemma in_combine_seq {A} (l : list A) : forall i n a, nth_error l n = Some a ->
  In ((i + n)%nat, a) (combine (List.seq i (List.length l)) l).
Proof.
  induction l as [|x l IH]; intros i [|n] a E; try discriminate E.
  - injection E as ->. left. f_equal. lia.
  - right. specialize (IH (S i) n a E). replace (i + S n)%nat with (S i + n)%nat by lia. exact IH.
Qed.

Lemma assert_lines_all n e k : nth_error rust_examples n = Some e -> runnable e = true -> asserts e k ->
  In (n, k) assert_lines.
Proof.
  intros E R (l & L & A).
  assert (X : assert_lines = flat_map (fun ie => let '(n, e) := ie in
      if runnable e then
        flat_map (fun kl => let '(k, l) := kl in
                    if starts "assert" (unindent (bytes_of l)) then [(n, k)] else [])
          (combine (List.seq 0 (List.length (ex_text e))) (ex_text e))
      else []) (combine (List.seq 0 (List.length rust_examples)) rust_examples)) by (vm_compute; reflexivity).
  rewrite X. apply in_flat_map. exists (n, e). split; [exact (in_combine_seq _ 0 n e E)|]. cbv beta iota.
  rewrite R. apply in_flat_map. exists (k, l). split; [exact (in_combine_seq _ 0 k l L)|]. cbv beta iota.
  rewrite A. left. reflexivity.
Qed.

Transparent run.

Definition all_stop (fuel : nat) (p : platform) : Prop :=
  map (fun nk => match load false (with_examples (stopped (fst nk) (snd nk)) source) with
                 | Some P => match filter (String.prefix (example_name (fst nk) ++ "::")) (map fst (p_fns P)) with
                             | [key] => Some (run P p (12 + fuel) key [] "")
                             | _ => None
                             end
                 | None => None
                 end) assert_lines =
  map (fun _ => Some (Halt (Says "here"))) assert_lines.

Lemma stop_16 n c : all_stop n {| overflow_checks := c; usize_bits := 16 |}.
Proof. unfold all_stop. destruct c; vm_compute; reflexivity. Qed.
Lemma stop_32 n c : all_stop n {| overflow_checks := c; usize_bits := 32 |}.
Proof. unfold all_stop. destruct c; vm_compute; reflexivity. Qed.
Lemma stop_64 n c : all_stop n {| overflow_checks := c; usize_bits := 64 |}.
Proof. unfold all_stop. destruct c; vm_compute; reflexivity. Qed.

Local Opaque run.

Lemma stop_all n p : platform_ok p -> all_stop n p.
Proof.
  intros H. destruct p as [c b]. unfold platform_ok in H. cbn [usize_bits] in H.
  destruct H as [->|[->| ->]]; [apply stop_16|apply stop_32|apply stop_64].
Qed.

Lemma map_same {A B} (f g : A -> B) l a : map f l = map g l -> In a l -> f a = g a.
Proof.
  induction l as [|x l IH]; intros E H; [destruct H|]. injection E as E1 E2.
  destruct H as [->|H]; [exact E1|exact (IH E2 H)].
Qed.

Lemma assertions_reached p n e k : platform_ok p -> nth_error rust_examples n = Some e -> runnable e = true ->
  asserts e k -> comes_to (stopped n k) p n (Halt (Says "here")).
Proof.
  intros Hp E R A. pose proof (assert_lines_all n e k E R A) as I.
  pose proof (fun m => map_same _ _ _ _ (stop_all m p Hp) I) as S. cbv beta in S. cbn [fst snd] in S.
  unfold comes_to.
  destruct (load false (with_examples (stopped n k) source)) as [P|]; [|discriminate (S 0%nat)].
  destruct (filter (String.prefix (example_name n ++ "::")) (map fst (p_fns P))) as [|key [|]] eqn:K;
    try discriminate (S 0%nat).
  exists P, key. split; [reflexivity|]. split; [exact K|]. intros fuel F.
  specialize (S (fuel - 12)%nat). injection S as S. replace fuel with (12 + (fuel - 12))%nat by lia. exact S.
Qed.
