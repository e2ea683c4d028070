(** One line of source text: its bytes, written as a Coq string. *)
From Coq Require Import List Strings.Byte.

Inductive line := Line (bytes : list byte).
Definition line_of (l : list byte) : line := Line l.
Definition bytes_of (l : line) : list byte := match l with Line b => b end.
Declare Scope line_scope.
String Notation line line_of bytes_of : line_scope.
