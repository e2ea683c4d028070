(** What it means to run the text of /repo/src. *)
From Coq Require Import ZArith List Bool String.
From Verif Require Import Rust Debug SrcText SrcAst SrcLink SrcSem SrcDerive.
Import ListNotations.
Local Open Scope string_scope.

(** The text is a program, and calling its function [key] with the arguments [vs], after the text [o]
    has been written, comes to [a].  ([fuel] bounds the depth of calls; six levels are enough.) *)
Definition evaluates (p : platform) (key : string) (vs : list value) (o : string) (a : ans) : Prop :=
  exists P, load false source = Some P /\ forall fuel, (6 <= fuel)%nat -> run P p fuel key vs o = a.

(** [vs] are arguments for the function [key] of the text. *)
Definition well_typed (p : platform) (key : string) (vs : list value) : Prop :=
  exists P f, load false source = Some P /\ In (key, f) (p_fns P) /\
    forall fuel, (5 <= fuel)%nat -> all2 (admits p P fuel) (map snd (f_params f)) vs = true.

(** [v] is of the type [t] in which a function returns it; [args] are the arguments with their types.
    Beside [typed]: the type variable of [Result<T, e>] stands for the type of an argument,
    [fmt::Result] for [Result<(), fmt::Error>] (writing to a text does not fail), [&str] for any text. *)
Inductive result_of (p : platform) (P : program) (fuel : nat) (args : list (ty * value)) : ty -> value -> Prop :=
| r_typed t v : typed p P fuel t v = true -> result_of p P fuel args t v
| r_ok e v : In (TyPath ["T"] [], v) args ->
    result_of p P fuel args (TyPath ["Result"] [TyPath ["T"] []; e]) (VEnum "Result" "Ok" [v])
| r_err e v : typed p P fuel e v = true ->
    result_of p P fuel args (TyPath ["Result"] [TyPath ["T"] []; e]) (VEnum "Result" "Err" [v])
| r_fmt : result_of p P fuel args (TyPath ["fmt"; "Result"] []) (VEnum "Result" "Ok" [VUnit])
| r_str s : result_of p P fuel args (TyRef (TyPath ["str"] [])) (VStr s).

(** The function [key] of the text, called with [vs], may return [v] by its declaration. *)
Definition declared (p : platform) (key : string) (vs : list value) (v : value) : Prop :=
  exists P f t, load false source = Some P /\ In (key, f) (p_fns P) /\ f_ret f = Some t /\
    forall fuel, (5 <= fuel)%nat -> result_of p P fuel (combine (map snd (f_params f)) vs) t v.

(** [v] is a value of the type [t] of the text. *)
Definition has_type (p : platform) (t : string) (v : value) : Prop :=
  exists P, load false source = Some P /\
    forall fuel, (5 <= fuel)%nat -> typed p P fuel (TyPath [t] []) v = true.

(** What [{:?}] shows of [v] by the derived implementations. *)
Definition shows (v : value) (d : node) : Prop :=
  exists P, load false source = Some P /\
    forall fuel, (5 <= fuel)%nat -> derived_debug P fuel v = Some d.

(** What [v == w] is by the derived implementations. *)
Definition compares (v w : value) (b : bool) : Prop :=
  exists P, load false source = Some P /\ derived_eq P v w = Some b.

(** [key] is a [#[test]] function of the text, built for tests, and it passes. *)
Definition is_test (key : string) : Prop :=
  exists P, load true source = Some P /\ In key (p_tests P).
Definition passes (p : platform) (key : string) : Prop :=
  exists P, load true source = Some P /\
    forall fuel, (12 <= fuel)%nat -> run P p fuel key [] "" = Done VUnit "".
