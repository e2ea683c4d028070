(** [Debug] with an arbitrary formatter: any options ([{:x?}], [{:5?}], [{:#?}], ..) and any sink,
    which may refuse what it is given.  Debug.v gives the text for [{:?}] and [{:#?}] only.

    All of this is core::fmt and what [#[derive(Debug)]] calls of it; the derived implementations
    themselves are the functions [.._debug] of Debug.v. *)
From Coq Require Import ZArith List Bool String Ascii.
From Verif Require Import Rust Types Fmt FmtSink Debug.
Import ListNotations.
Local Open Scope string_scope.

(** ** Integers and [bool] *)

Fixpoint upper_digits (s : string) : string :=
  match s with
  | EmptyString => ""
  | String c s' =>
      let n := nat_of_ascii c in
      String (if (97 <=? n)%nat && (n <=? 102)%nat then ascii_of_nat (n - 32) else c) (upper_digits s')
  end.

Definition hex_digits (ty : int_type) (v : Z) : string :=
  match ty with Usize => hex_usize v | I32 => hex_i32 v end.

(** [Debug for i32] and [usize]: [LowerHex], [UpperHex] or [Display]. *)
Definition int_debug_fmt {T} (k : sink T) (ty : int_type) (v : Z) (o : options) : writing T :=
  match debug_hex o with
  | Some Lower => pad_integral k true "0x" (hex_digits ty v) o
  | Some Upper => pad_integral k true "0x" (upper_digits (hex_digits ty v)) o
  | None => int_fmt k v o
  end.
(** [Debug for bool], which is [Display for str]. *)
Definition bool_debug_fmt {T} (k : sink T) (b : bool) (o : options) : writing T :=
  pad k (if b then "true" else "false") o.

(** ** [PadAdapter], which indents what is written through it *)

(** [str::split_inclusive('\n')] *)
Fixpoint split_lines (s : string) : list string :=
  match s with
  | EmptyString => []
  | String c s' =>
      if (c =? ascii_of_nat 10)%char then String c "" :: split_lines s'
      else match split_lines s' with
           | [] => [String c ""]
           | l :: ls => String c l :: ls
           end
  end.
(** [str::ends_with('\n')] *)
Fixpoint ends_line (s : string) : bool :=
  match s with
  | EmptyString => false
  | String c EmptyString => (c =? ascii_of_nat 10)%char
  | String _ s' => ends_line s'
  end.

(** The state is that of the sink underneath and [on_newline]. *)
Fixpoint adapter_lines {T} (k : sink T) (t : T) (on_newline : bool) (l : list string) : (T * bool) * bool :=
  match l with
  | [] => ((t, on_newline), true)
  | s :: l' =>
      let (t1, ok) := if on_newline then k t "    " else (t, true) in
      if ok then
        let (t2, ok2) := k t1 s in
        if ok2 then adapter_lines k t2 (ends_line s) l' else ((t2, ends_line s), false)
      else ((t1, on_newline), false)
  end.
Definition pad_adapter {T} (k : sink T) : sink (T * bool) :=
  fun st s => adapter_lines k (fst st) (snd st) (split_lines s).
(** Writing through a new [PadAdapter]. *)
Definition indented {T} (k : sink T) (f : forall U, sink U -> writing U) : writing T :=
  fun t => let (st, r) := f (T * bool)%type (pad_adapter k) (t, true) in (fst st, r).

(** ** [DebugTuple], [DebugStruct] *)

Definition nl : string := String (ascii_of_nat 10) "".

(** [DebugTuple::field] and [DebugStruct::field]: [open] before the first field. *)
Definition field_fmt {T} (k : sink T) (o : options) (first : bool) (open open_line : string)
    (label : forall U, sink U -> writing U) (value : forall U, sink U -> writing U) : writing T :=
  if alternate o then
    then_ (if first then write_str k open_line else nothing_more)
      (indented k (fun U k' => then_ (label U k') (then_ (value U k') (write_str k' ("," ++ nl)))))
  else
    then_ (write_str k (if first then open else ", ")) (then_ (label T k) (value T k)).

(** [label] of a tuple's field. *)
Definition no_label : forall U, sink U -> writing U := fun U k => nothing_more.
(** Name and colon are written separately. *)
Definition name_label (f : string) : forall U, sink U -> writing U :=
  fun U k => then_ (write_str k f) (write_str k ": ").

(** [<Self as Debug>::fmt] for what is derived.  A variant without fields is [f.write_str(name)]; the
    others are [debug_tuple] and [debug_struct], then [field] for each, then [finish]. *)
Fixpoint node_fmt (t : node) (o : options) : forall T, sink T -> writing T :=
  match t with
  | Leaf s => fun T k => write_str k s
  | Int ty v => fun T k => int_debug_fmt k ty v o
  | Flag b => fun T k => bool_debug_fmt k b o
  | Tuple c l => fun T k =>
      then_ (write_str k c) (then_
        ((fix go (first : bool) (l : list node) : writing T :=
            match l with
            | [] => nothing_more
            | x :: l' => then_ (field_fmt k o first "(" ("(" ++ nl) no_label (node_fmt x o)) (go false l')
            end) true l)
        (match l with [] => nothing_more | _ => write_str k ")" end))
  | Struct c l => fun T k =>
      then_ (write_str k c) (then_
        ((fix go (first : bool) (l : list (string * node)) : writing T :=
            match l with
            | [] => nothing_more
            | (f, x) :: l' =>
                then_ (field_fmt k o first " { " (" {" ++ nl) (name_label f) (node_fmt x o)) (go false l')
            end) true l)
        (match l with [] => nothing_more
         | _ => write_str k (if alternate o then "}" else " }") end))
  end.

(** src/instruction.rs:28 and src/decode.rs:80: [{:?}] of an [Instruction], of what [decode] returns. *)
Definition Instruction_debug_fmt {T} (k : sink T) (i : Instruction) (o : options) : writing T :=
  node_fmt (Instruction_debug i) o T k.
Definition decode_debug_fmt {T} (k : sink T) (r : result Instruction DecodingError) (o : options) : writing T :=
  node_fmt (decode_debug r) o T k.
