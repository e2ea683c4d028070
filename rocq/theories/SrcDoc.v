(** The examples in the documentation: the fenced blocks of the doc comments and of README.md. *)
From Coq Require Import ZArith List Bool String Strings.Byte.
From Verif Require Import SrcLine SrcLex SrcAst SrcLink.
Import ListNotations.
Local Open Scope string_scope.

Definition bytes (s : string) : list byte := list_byte_of_string s.
Definition as_line (s : string) : line := Line (bytes s).

(** What follows [p] in [l]. *)
Fixpoint after (p l : list byte) : option (list byte) :=
  match p, l with
  | [], _ => Some l
  | b :: p', c :: l' => if Byte.eqb b c then after p' l' else None
  | _, [] => None
  end.
Definition starts (p : string) (l : list byte) : bool := is_some (after (bytes p) l).

Fixpoint unindent (l : list byte) : list byte :=
  match l with
  | b :: l' => if Byte.eqb b " "%byte then unindent l' else l
  | [] => []
  end.

(** The text of a line of documentation: after [///] or [//!] and a space. *)
Definition doc_text (l : line) : option (list byte) :=
  let b := unindent (bytes_of l) in
  match (match after (bytes "///") b with Some r => Some r | None => after (bytes "//!") b end) with
  | Some r => Some (match after (bytes " ") r with Some r' => r' | None => r end)
  | None => None
  end.

(** A fenced block: what is written after its opening fence, and its lines. *)
Record example := { ex_tag : list byte; ex_text : list line }.

Fixpoint fences (open : option (list byte * list line)) (ls : list (list byte)) : list example :=
  match ls with
  | [] => []
  | l :: ls' =>
      match after (bytes "```") l, open with
      | Some t, None => fences (Some (t, [])) ls'
      | Some _, Some (t, acc) => {| ex_tag := t; ex_text := rev acc |} :: fences None ls'
      | None, Some (t, acc) => fences (Some (t, Line l :: acc)) ls'
      | None, None => fences None ls'
      end
  end.

Definition doc_examples (src : list (line * list line)) : list example :=
  flat_map (fun f => fences None (flat_map (fun l => match doc_text l with Some b => [b] | None => [] end) (snd f)))
    src.
Definition text_examples (ls : list line) : list example := fences None (map bytes_of ls).

(** Rust code that is not marked [ignore]. *)
Definition runnable (e : example) : bool :=
  match ex_tag e with [] => true | t => match after (bytes "rust") t with Some [] => true | _ => false end end.

(** The example as a module [x] of the crate.  An example uses the crate under its name, [raki]; one
    that is not a function is the body of one, as for rustdoc. *)
Definition example_module (x : string) (e : example) : list line :=
  let code := map (fun l => match after (bytes "use raki::") (bytes_of l) with
                            | Some r => Line (bytes "use crate::" ++ r)
                            | None => l
                            end) (ex_text e) in
  List.app [as_line ("mod " ++ x ++ " {")]
    (List.app
       (if existsb (fun l => starts "fn " (bytes_of l)) code then code
        else List.app [as_line "fn main() {"] (List.app code [as_line "}"]))
       [as_line "}"]).

Definition example_name (n : nat) : string := "example" ++ string_of_list_byte (repeat "_"%byte n).

(** The crate with a module for each of these examples. *)
Fixpoint modules_from (n : nat) (es : list example) : list line :=
  match es with
  | [] => []
  | e :: es' =>
      List.app (example_module (example_name n) e) (modules_from (S n) es')
  end.
Definition with_examples (es : list example) (src : list (line * list line)) : list (line * list line) :=
  map (fun f => if name_of (fst f) =? "lib.rs" then (fst f, List.app (snd f) (modules_from 0 es)) else f) src.

(** What the example says it prints: the comment after [// --output--]. *)
Fixpoint comment_lines (ls : list line) : string :=
  match ls with
  | [] => ""
  | l :: ls' =>
      match after (bytes "// ") (bytes_of l) with
      | Some r => string_of_list_byte r ++ newline ++ comment_lines ls'
      | None => ""
      end
  end.
Fixpoint says_output (ls : list line) : option string :=
  match ls with
  | [] => None
  | l :: ls' => if starts "// --output--" (bytes_of l) then Some (comment_lines ls') else says_output ls'
  end.
