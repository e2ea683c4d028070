(** Which functions of the text another crate can name, by [pub] and [pub use].

    The modules of lib.rs are private (no [pub mod] there; part of C78), so another crate sees what lib.rs itself
    makes public, and it can call a method if it sees the type and the trait, or the type and the method is [pub].
    The programs of SrcLink.v do not keep [pub]; it is looked for in the tokens here (they are the only ones: C71). *)
From Coq Require Import ZArith List Bool String.
From Verif Require Import SrcLine SrcLex SrcAst SrcParse SrcLink.
Import ListNotations.
Local Open Scope string_scope.

(** The names that [use path::{a, path::b};] brings in: those after which no [::] comes. *)
Definition ends_path (ts : list tok) : bool :=
  match ts with TP Comma :: _ | TP RBrace :: _ | TP Semi :: _ => true | _ => false end.
Fixpoint used_names (ts : list tok) : list string :=
  match ts with
  | [] | TP Semi :: _ => []
  | TId x :: rest => if ends_path rest then x :: used_names rest else used_names rest
  | _ :: rest => used_names rest
  end.

(** What a file makes public: [pub use ..;] and [pub enum x], [pub struct x], [pub trait x], [pub fn x], [pub mod x],
    [pub type x].  (Fields are [pub x: t].) *)
Fixpoint exported (ts : list tok) : list string :=
  match ts with
  | [] => []
  | TK Kpub :: rest =>
      (match rest with
       | TK Kuse :: us => used_names us
       | TK _ :: TId x :: _ => [x]
       | _ => []
       end ++ exported rest)%list
  | _ :: rest => exported rest
  end.

(** Is [pub k x] written in a file? *)
Fixpoint says_pub (k : keyword -> bool) (x : string -> bool) (ts : list tok) : bool :=
  match ts with
  | [] => false
  | TK Kpub :: rest =>
      match rest with TK k' :: TId y :: _ => k k' && x y | _ => false end || says_pub k x rest
  | _ :: rest => says_pub k x rest
  end.
Definition is_fn (k : keyword) : bool := match k with Kfn => true | _ => false end.
Definition is_mod (k : keyword) : bool := match k with Kmod => true | _ => false end.

Definition tokens_of (src : list (line * list line)) (file : string) : list tok :=
  flat_map (fun f => if name_of (fst f) =? file then match lex_lines (snd f) with Some ts => ts | None => [] end else []) src.

(** Names every crate has. *)
Definition known_types : list string := ["u8"; "u16"; "u32"; "u64"; "usize"; "i8"; "i16"; "i32"; "i64"; "bool"; "str"].
Definition known_traits : list string := ["Display"; "TryFrom"; "Debug"; "PartialEq"; "Clone"; "Copy"].

(** What the crate makes public. *)
Definition exports (src : list (line * list line)) : list string := exported (tokens_of src "lib.rs").

Section visible.
Variable src : list (line * list line).
Variable names : list string.   (* those *)

Definition sees (others : list string) (path : list string) : bool :=
  existsb (String.eqb (List.last path "")) (names ++ others)%list.

(** The items of a file, and those of the modules written in it, with the paths of their modules. *)
Definition with_inner (path : string) (its : items) : list (string * item) :=
  List.app (map (fun i => (path, snd i)) its)
    (flat_map (fun i => match snd i with
                        | IMod x (Some js) => map (fun j => (path ++ x ++ "::", snd j)) js
                        | _ => []
                        end) its).

Definition methods (its : items) : list fn := flat_map (fun i => match snd i with IFn f => [f] | _ => [] end) its.

Definition visible_in (file path : string) (its : items) : list string :=
  flat_map (fun i =>
    match snd i with
    | IImpl tr (TyPath t _) ms =>
        if sees known_types t
        then map (fun f => List.last t "" ++ "." ++ f_name f)
               (filter (fun f => match tr with
                                 | Some q => sees known_traits q
                                 | None => says_pub is_fn (String.eqb (f_name f)) (tokens_of src file)
                                 end) (methods ms))
        else []
    | IFn f => if sees [] [f_name f] then [fst i ++ f_name f] else []
    | _ => []
    end) (with_inner path its).

(** The methods that a trait another crate sees defines itself, for all its types. *)
Definition given_in (path : string) (its : items) : list string :=
  flat_map (fun i =>
    match snd i with
    | ITrait x ms => if sees known_traits [x]
                     then map f_name (filter (fun f => match f_body f with Some _ => true | None => false end) (methods ms))
                     else []
    | _ => []
    end) (with_inner path its).
End visible.

(** The files that are modules of the crate: lib.rs, those it names by [mod x;], and those that these name. *)
Definition mods (its : items) : list string := flat_map (fun i => match snd i with IMod x None => [x] | _ => [] end) its.
Definition mods_of (files : list (string * items)) (file : string) : list string :=
  match assoc file files with Some its => mods its | None => [] end.
Definition crate_files (files : list (string * items)) : list (string * string) :=
  ("lib.rs", "") ::
  flat_map (fun x =>
    (x ++ ".rs", x ++ "::") ::
    map (fun y => (x ++ "/" ++ y ++ ".rs", x ++ "::" ++ y ++ "::")) (mods_of files (x ++ ".rs")))
    (mods_of files "lib.rs").
Definition in_files (src : list (line * list line)) (g : string -> string -> items -> list string) : option (list string) :=
  option_map (fun files =>
    flat_map (fun fp => match assoc (fst fp) files with Some its => g (fst fp) (snd fp) its | None => [] end)
      (crate_files files)) (parse_source src).

Definition given (src : list (line * list line)) : option (list string) :=
  in_files src (fun _ path its => given_in (exports src) path its).
Definition visible (src : list (line * list line)) : option (list string) :=
  in_files src (fun file path its => visible_in src (exports src) file path its).

(** ** Types another crate can name *)

Definition prelude : list string := ["Option"; "Result"; "Formatter"].
(** The public names and the known ones cover a type.  [Self] and [Self::Error] are the type of the impl and an
    associated type of a known trait, and [fmt::Result] is known. *)
Fixpoint nameable (names : list string) (t : ty) : bool :=
  match t with
  | TyPath path args =>
      (sees names (known_types ++ prelude)%list path || existsb (fun q => if list_eq_dec string_dec q path then true else false)
         [["Self"]; ["Self"; "Error"]; ["fmt"; "Result"]]) && forallb (nameable names) args
  | TyRef t | TySlice t => nameable names t
  end.

(** The field [x] is public: [pub x:] is written in the file. *)
Fixpoint pub_field (x : string) (ts : list tok) : bool :=
  match ts with
  | [] => false
  | TK Kpub :: rest => match rest with TId y :: TP Colon :: _ => y =? x | _ => false end || pub_field x rest
  | _ :: rest => pub_field x rest
  end.
