(** Specification of the [Debug] text with any options. *)
From Coq Require Import ZArith String List Bool Ascii.
From Verif Require Import Types FmtSink SpecText SpecDebug.
Import ListNotations.
Local Open Scope string_scope.
Local Open Scope Z_scope.

(** [n] times the character [c]. *)
Definition all_of (c : ascii) (s : string) : Prop := forall n d, String.get n s = Some d -> d = c.
Definition len (s : string) : Z := Z.of_nat (String.length s).

(** [t] is [s] between fill characters, as many as are lacking to the width, on the sides that the
    alignment says. *)
Definition placed (o : options) (dflt : alignment) (s t : string) : Prop :=
  exists a b, t = a ++ s ++ b /\ all_of (fill o) a /\ all_of (fill o) b /\
    len t = Z.max (len s) (match width o with Some w => w | None => 0 end) /\
    match (match align o with Some x => x | None => dflt end) with
    | ALeft => a = ""
    | ARight => b = ""
    | ACenter => len a = len b \/ len a + 1 = len b
    end.

(** [t] is [sign] and [digits] with zeros between them up to the width. *)
Definition zeros_between (o : options) (sign digits t : string) : Prop :=
  exists z, t = sign ++ z ++ digits /\ all_of "0" z /\
    len t = Z.max (len sign + len digits) (match width o with Some w => w | None => 0 end).

(** The digits of a number with what stands before them: decimal, or hexadecimal in two's
    complement if it is signed. *)
Definition hex_letters (c : hex_case) (s : string) : string :=
  match c with Lower => s | Upper => capitals s end.
Definition number_parts (o : options) (signed : bool) (v : Z) (sign digits : string) : Prop :=
  match debug_hex o with
  | None => numeral 10 digits (Z.abs v) /\
      sign = if v <? 0 then "-" else if sign_plus o then "+" else ""
  | Some c => (exists t, numeral 16 t (if signed then v mod 2 ^ 32 else v) /\ digits = hex_letters c t) /\
      sign = (if sign_plus o then "+" else "") ++ (if alternate o then "0x" else "")
  end.
Definition number_text (o : options) (signed : bool) (v : Z) (t : string) : Prop :=
  exists sign digits, number_parts o signed v sign digits /\
    if zero_pad o then zeros_between o sign digits t else placed o ARight (sign ++ digits) t.

(** A [bool]: at most as many characters as the precision says. *)
Definition bool_text (o : options) (b : bool) (t : string) : Prop :=
  exists s, placed o ALeft s t /\
    exists rest, (if b then "true" else "false") = s ++ rest /\
      match precision o with
      | Some m => len s = Z.min m (if b then 4 else 5)
      | None => rest = ""
      end.

(** A precision is not negative. *)
Definition usable (o : options) : Prop := forall m, precision o = Some m -> 0 <= m.

Definition number_value (o : options) (signed : bool) (x : value) (n : option Z) : Prop :=
  match n with
  | None => x = Plain "None"
  | Some v => exists t, x = Wrapped "Some" t /\ number_text o signed v t
  end.

(** The fields with their values. *)
Definition fields_with (o : options) (i : Instruction) (l : list (string * value)) : Prop :=
  exists d a b m z,
    l = [("opc", Wrapped (family (opc i)) (spelling (opc i))); ("rd", d); ("rs1", a); ("rs2", b); ("imm", m);
         ("inst_format", Plain (format_name (inst_format i))); ("is_compressed", Plain z)] /\
    number_value o false d (rd i) /\ number_value o false a (rs1 i) /\ number_value o false b (rs2 i) /\
    number_value o true m (imm i) /\ bool_text o (is_compressed i) z.

(** The text: on one line or, with #, on several. *)
Definition debug_text (o : options) (l : list (string * value)) : string :=
  if alternate o then text_of_lines (on_lines l) else on_one_line l.
Definition ok_text (o : options) (l : list (string * value)) : string :=
  if alternate o then text_of_lines ("Ok(" :: app (further (comma (on_lines l))) [")"])
  else "Ok(" ++ on_one_line l ++ ")".
Definition err_text (o : options) (e : DecodingError) : string :=
  if alternate o then text_of_lines ["Err("; "    " ++ error_name e ++ ","; ")"]
  else "Err(" ++ error_name e ++ ")".

(** Numbers that fit their types ([usize] of any size, [i32]). *)
Definition sized (i : Instruction) : Prop :=
  (forall v, rd i = Some v -> 0 <= v) /\ (forall v, rs1 i = Some v -> 0 <= v) /\
  (forall v, rs2 i = Some v -> 0 <= v) /\ (forall v, imm i = Some v -> - 2 ^ 31 <= v < 2 ^ 31).

(** A fill character that cannot be taken for part of a value: no digit or letter of a number or
    [bool], no sign, and none of the characters that end a value. *)
Definition neutral (c : ascii) : Prop :=
  ~ In c (list_ascii_of_string "0123456789abcdefABCDEFx+-t,)") /\ c <> ascii_of_nat 10.
