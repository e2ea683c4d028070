(** Tokens of the Rust text.  Only what the files under /repo/src use: identifiers, integer
    literals, string literals without escapes, lifetimes, punctuation, [//] comments.
    Anything else makes [lex_line] fail. *)
From Coq Require Import ZArith List Bool String Strings.Byte.
From Verif Require Import SrcLine.
Import ListNotations.
Local Open Scope string_scope.

Inductive keyword :=
| Kas | Kelse | Kenum | Kfalse | Kfn | Kfor | Kif | Kimpl | Kin | Klet | Kmatch | Kmod | Kmut
| Kpub | Kreturn | Kstruct | Ktrait | Ktrue | Ktype | Kuse.

Inductive sign :=
| LParen | RParen | LBrack | RBrack | LBrace | RBrace        (* ( ) [ ] { } *)
| Lt | Gt | Le | Ge | EqEq | Ne                              (* < > <= >= == != *)
| Amp | Bar | AmpAmp | BarBar | BarEq                        (* & | && || |= *)
| Shl | Shr | Plus | Minus | Star                            (* << >> + - * *)
| Eq | Arrow | FatArrow | Bang | Quest | Hash                (* = -> => ! ? # *)
| Dot | DotDotEq | Comma | Colon | ColonColon | Semi.        (* . ..= , : :: ; *)

Inductive tok :=
| TId (s : string)                     (* identifier *)
| TK (k : keyword)                     (* keyword; self, Self, super, crate are identifiers *)
| TNum (z : Z) (suffix : string)       (* integer literal and its type suffix, "" for none *)
| TStr (s : string)                    (* string literal *)
| TLife (s : string)                   (* lifetime *)
| TP (p : sign).

Definition keywords : list (string * keyword) := [
  ("as", Kas); ("else", Kelse); ("enum", Kenum); ("false", Kfalse); ("fn", Kfn);
  ("for", Kfor); ("if", Kif); ("impl", Kimpl); ("in", Kin); ("let", Klet);
  ("match", Kmatch); ("mod", Kmod); ("mut", Kmut); ("pub", Kpub); ("return", Kreturn);
  ("struct", Kstruct); ("trait", Ktrait); ("true", Ktrue); ("type", Ktype); ("use", Kuse)].

(** Keywords these files do not use. *)
Definition unused : list string := [
  "abstract"; "async"; "await"; "become"; "box"; "break"; "const"; "continue"; "do"; "dyn"; "extern"; "final";
  "loop"; "macro"; "move"; "override"; "priv"; "ref"; "static"; "try"; "typeof"; "unsafe"; "unsized";
  "virtual"; "where"; "while"; "yield"].

(** Identifier or keyword. *)
Definition word_tok (s : string) : option tok :=
  match find (fun e => fst e =? s) keywords with
  | Some (_, k) => Some (TK k)
  | None => if existsb (String.eqb s) unused then None else Some (TId s)
  end.

Inductive class := Blank | Alpha | Digit | Quote | Tick | Slash | Punct | Other.

Definition class_of (b : byte) : class :=
  match b with
  | " " => Blank
  | "a" | "b" | "c" | "d" | "e" | "f" | "g" | "h" | "i" | "j" | "k" | "l" | "m" | "n"
  | "o" | "p" | "q" | "r" | "s" | "t" | "u" | "v" | "w" | "x" | "y" | "z"
  | "A" | "B" | "C" | "D" | "E" | "F" | "G" | "H" | "I" | "J" | "K" | "L" | "M" | "N"
  | "O" | "P" | "Q" | "R" | "S" | "T" | "U" | "V" | "W" | "X" | "Y" | "Z" | "_" => Alpha
  | "0" | "1" | "2" | "3" | "4" | "5" | "6" | "7" | "8" | "9" => Digit
  | """" => Quote
  | "'" => Tick
  | "/" => Slash
  | "(" | ")" | "[" | "]" | "{" | "}" | "<" | ">" | "=" | "!" | "&" | "|" | "+" | "-"
  | "*" | "." | "," | ":" | ";" | "?" | "#" => Punct
  | _ => Other
  end%byte.

(** The longest prefix of letters, digits and underscores, and the rest. *)
Fixpoint word (l : list byte) : list byte * list byte :=
  match l with
  | [] => ([], [])
  | b :: l' =>
      match class_of b with
      | Alpha | Digit => let '(w, r) := word l' in (b :: w, r)
      | _ => ([], l)
      end
  end.

(** Up to the next double quote; no escapes. *)
Fixpoint quoted (l : list byte) : option (list byte * list byte) :=
  match l with
  | [] => None
  | """"%byte :: l' => Some ([], l')
  | "\"%byte :: _ => None
  | b :: l' => match quoted l' with Some (w, r) => Some (b :: w, r) | None => None end
  end.

Definition digit_of (b : byte) : option Z :=
  match b with
  | "0" => Some 0 | "1" => Some 1 | "2" => Some 2 | "3" => Some 3 | "4" => Some 4
  | "5" => Some 5 | "6" => Some 6 | "7" => Some 7 | "8" => Some 8 | "9" => Some 9
  | "a" | "A" => Some 10 | "b" | "B" => Some 11 | "c" | "C" => Some 12
  | "d" | "D" => Some 13 | "e" | "E" => Some 14 | "f" | "F" => Some 15
  | _ => None
  end%byte%Z.

(** Digits below [base], underscores skipped; what is left is the suffix.  [seen]: there was a digit;
    without one there is no number. *)
Fixpoint numeral (base acc : Z) (seen : bool) (l : list byte) : option (Z * list byte) :=
  match l with
  | "_"%byte :: l' => numeral base acc seen l'
  | b :: l' =>
      match digit_of b with
      | Some d =>
          if (d <? base)%Z then numeral base (acc * base + d)%Z true l'
          else if seen then Some (acc, l) else None
      | None => if seen then Some (acc, l) else None
      end
  | [] => if seen then Some (acc, []) else None
  end.

(** The suffixes of integers. *)
Definition suffixes : list string :=
  [""; "u8"; "u16"; "u32"; "u64"; "u128"; "usize"; "i8"; "i16"; "i32"; "i64"; "i128"; "isize"].

(** [w] starts with a digit. *)
Definition number (w : list byte) : option tok :=
  match
    match w with
    | "0"%byte :: "x"%byte :: w' => numeral 16 0 false w'
    | "0"%byte :: "b"%byte :: w' => numeral 2 0 false w'
    | _ => numeral 10 0 false w
    end with
  | Some (z, suffix) =>
      let s := string_of_list_byte suffix in
      if existsb (String.eqb s) suffixes then Some (TNum z s) else None
  | None => None
  end.

(** What may not follow a word: it would be a prefix of a literal. *)
Definition word_ends (l : list byte) : bool :=
  match l with """" :: _ | "'" :: _ | "#" :: _ => false | _ => true end%byte.

(** After a number, a dot belongs to it unless a name or another dot is next. *)
Definition number_ends (l : list byte) : bool :=
  word_ends l &&
  match l with
  | "." :: "." :: _ => true
  | "." :: b :: _ => match class_of b with Alpha => true | _ => false end
  | "." :: [] => false
  | _ => true
  end%byte.

(** The longest operator at the front; the ones the files do not use make it fail. *)
Definition punct (l : list byte) : option (sign * list byte) :=
  match l with
  | "." :: "." :: "=" :: r => Some (DotDotEq, r)
  | "." :: "." :: _ | "<" :: "<" :: "=" :: _ | ">" :: ">" :: "=" :: _ | "+" :: "=" :: _ | "-" :: "=" :: _
  | "*" :: "=" :: _ | "&" :: "=" :: _ | "<" :: "-" :: _ => None
  | ":" :: ":" :: r => Some (ColonColon, r)
  | "-" :: ">" :: r => Some (Arrow, r)
  | "=" :: ">" :: r => Some (FatArrow, r)
  | "=" :: "=" :: r => Some (EqEq, r)
  | "!" :: "=" :: r => Some (Ne, r)
  | ">" :: "=" :: r => Some (Ge, r)
  | "<" :: "=" :: r => Some (Le, r)
  | ">" :: ">" :: r => Some (Shr, r)
  | "<" :: "<" :: r => Some (Shl, r)
  | "|" :: "=" :: r => Some (BarEq, r)
  | "|" :: "|" :: r => Some (BarBar, r)
  | "&" :: "&" :: r => Some (AmpAmp, r)
  | "(" :: r => Some (LParen, r)
  | ")" :: r => Some (RParen, r)
  | "[" :: r => Some (LBrack, r)
  | "]" :: r => Some (RBrack, r)
  | "{" :: r => Some (LBrace, r)
  | "}" :: r => Some (RBrace, r)
  | "<" :: r => Some (Lt, r)
  | ">" :: r => Some (Gt, r)
  | "&" :: r => Some (Amp, r)
  | "|" :: r => Some (Bar, r)
  | "+" :: r => Some (Plus, r)
  | "-" :: r => Some (Minus, r)
  | "*" :: r => Some (Star, r)
  | "=" :: r => Some (Eq, r)
  | "!" :: r => Some (Bang, r)
  | "?" :: r => Some (Quest, r)
  | "#" :: r => Some (Hash, r)
  | "." :: r => Some (Dot, r)
  | "," :: r => Some (Comma, r)
  | ":" :: r => Some (Colon, r)
  | ";" :: r => Some (Semi, r)
  | _ => None
  end%byte.

Fixpoint lex (fuel : nat) (l : list byte) : option (list tok) :=
  match fuel with
  | O => None
  | S n =>
      let more t r := match lex n r with Some ts => Some (t :: ts) | None => None end in
      match l with
      | [] => Some []
      | b :: l' =>
          match class_of b with
          | Blank => lex n l'
          | Alpha =>
              let '(w, r) := word l in
              match word_tok (string_of_list_byte w) with
              | Some t => if word_ends r then more t r else None
              | None => None
              end
          | Digit =>
              let '(w, r) := word l in
              match number w with
              | Some t => if number_ends r then more t r else None
              | None => None
              end
          | Quote =>
              match quoted l' with
              | Some (w, r) => more (TStr (string_of_list_byte w)) r
              | None => None
              end
          | Tick =>
              let '(w, r) := word l' in
              match w with
              | b :: _ =>
                  match class_of b with
                  | Alpha => if word_ends r then more (TLife (string_of_list_byte w)) r else None
                  | _ => None
                  end
              | [] => None
              end
          | Slash => match l' with "/"%byte :: _ => Some [] | _ => None end
          | Punct => match punct l with Some (t, r) => more (TP t) r | None => None end
          | Other => None
          end
      end
  end.

Definition lex_line (l : line) : option (list tok) :=
  lex (S (List.length (bytes_of l))) (bytes_of l).

(** No token of these files runs over the end of a line. *)
Fixpoint lex_lines (ls : list line) : option (list tok) :=
  match ls with
  | [] => Some []
  | l :: ls' =>
      match lex_line l, lex_lines ls' with
      | Some a, Some b => Some (a ++ b)%list
      | _, _ => None
      end
  end.

Definition name_of (l : line) : string := string_of_list_byte (bytes_of l).
