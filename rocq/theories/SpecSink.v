(** Specification of writing to a sink. *)
From Coq Require Import ZArith List Bool String.
From Verif Require Import Rust FmtSink.
Import ListNotations.
Local Open Scope string_scope.

Definition joined (l : list string) : string := fold_right append "" l.

(** The pieces are given to the sink one after the other; the first one refused ends it. *)
Fixpoint feed {T} (k : sink T) (pieces : list string) (t : T) : T * outcome bool :=
  match pieces with
  | [] => (t, Ret true)
  | s :: rest => let (t', ok) := k t s in if ok then feed k rest t' else (t', Ret false)
  end.

(** A sink that stores what it accepts: it appends the text it is given, all of it if it reports
    success, otherwise possibly only the beginning. *)
Definition stores {T} (k : sink T) (content : T -> string) : Prop :=
  forall t s, exists u v, s = u ++ v /\ content (fst (k t s)) = content t ++ u /\
    (snd (k t s) = true -> v = "").

(** A [String], and a buffer of [n] bytes that is filled up before an error is reported. *)
Definition unlimited : sink string := fun t s => (t ++ s, true).
Definition buffer (n : nat) : sink string :=
  fun t s => (t ++ substring 0 (n - length t) s, length t + length s <=? n)%nat.
