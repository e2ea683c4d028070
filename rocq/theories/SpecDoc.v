(** What it means that an example of the documentation runs. *)
From Coq Require Import List Bool String.
From Verif Require Import Rust SrcLine SrcText SrcLink SrcSem SrcDoc.
Import ListNotations.
Local Open Scope string_scope.

(** The examples, in the doc comments and in README.md, that use the crate. *)
Definition rust_examples : list example :=
  filter (fun e => existsb (fun l => starts "use raki::" (bytes_of l)) (ex_text e))
    (List.app (doc_examples source) (text_examples readme)).

(** The one function of the [n]th of the examples [es], called after nothing has been written, comes to [a]. *)
Definition comes_to (es : list example) (p : platform) (n : nat) (a : ans) : Prop :=
  exists P key, load false (with_examples es source) = Some P /\
    filter (String.prefix (example_name n ++ "::")) (map fst (p_fns P)) = [key] /\
    forall fuel, (12 <= fuel)%nat -> run P p fuel key [] "" = a.
Definition example_comes_to : platform -> nat -> ans -> Prop := comes_to rust_examples.

(** The examples, with a panic before the line [k] of the [n]th. *)
Fixpoint insert {A} (k : nat) (x : A) (l : list A) : list A :=
  match k, l with
  | O, _ => x :: l
  | S k', y :: l' => y :: insert k' x l'
  | S _, [] => [x]
  end.
Definition stopped (n k : nat) : list example :=
  map (fun ie => let '(i, e) := ie in
         if Nat.eqb i n
         then {| ex_tag := ex_tag e; ex_text := insert k (as_line "panic!(""here"");") (ex_text e) |}
         else e)
    (combine (List.seq 0 (List.length rust_examples)) rust_examples).

(** The line [k] of the example [e] asserts something. *)
Definition asserts (e : example) (k : nat) : Prop :=
  exists l, nth_error (ex_text e) k = Some l /\ starts "assert" (unindent (bytes_of l)) = true.
