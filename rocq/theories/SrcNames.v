(** Modules, scopes and programs: the data of name resolution (its rules are in SpecNames.v, the
    linker in SrcLink.v). *)
From Coq Require Import ZArith List Bool String Ascii.
From Verif Require Import SrcAst.
Import ListNotations.
Local Open Scope string_scope.

Definition items := list (list attr * item).
(** The modules of a crate, each with its path and its items. *)
Definition modules := list (list string * items).

(** What a path can stand for.  Types are known by their name alone. *)
Inductive entity :=
| NMod (m : list string)
| NFn (key : string)
| NEnum (t : string)
| NStruct (t : string)
| NTrait (m : list string) (x : string)
| NVariant (t v : string)
| NPrim (t : string)
| NPrimFn (t m : string)
| NExt (p : list string).                  (* something of core or std *)

(** The key of the function [x] of module [m], and of the method [x] of the type [t]. *)
Definition key (m : list string) (x : string) : string := String.concat "::" (m ++ [x])%list.
Definition method_key (t x : string) : string := t ++ "." ++ x.

Definition prims : list string := ["u8"; "u16"; "u32"; "i32"; "usize"; "bool"; "str"].
Definition prelude : list (string * entity) := [
  ("Some", NVariant "Option" "Some"); ("None", NVariant "Option" "None");
  ("Ok", NVariant "Result" "Ok"); ("Err", NVariant "Result" "Err");
  ("Option", NExt ["core"; "option"; "Option"]); ("Result", NExt ["core"; "result"; "Result"]);
  ("TryFrom", NExt ["core"; "convert"; "TryFrom"])].
(** The first segments with a meaning of their own. *)
Definition roots : list string := ["crate"; "super"; "self"; "Self"].
(** The crates there are besides this one: under [no_std], not std. *)
Definition externs (std : bool) : list string := if std then ["core"; "std"] else ["core"].
(** The macros that are kept; [write], [println] and [matches] have their own meaning. *)
Definition macros : list string := ["assert"; "assert_eq"; "assert_ne"; "panic"; "unreachable"].

(** Where a path is: the crate, the module, the type of the impl ("" outside), its associated types,
    the type parameters, the [use] declarations of the enclosing blocks, the local variables. *)
Record scope := {
  s_std : bool;
  s_mods : modules;
  s_here : list string;
  s_self : string;
  s_types : list (string * ty);
  s_params : list string;
  s_uses : list (string * list string);
  s_vars : list string
}.

Definition with_vars (s : scope) (xs : list string) : scope :=
  {| s_std := s_std s; s_mods := s_mods s; s_here := s_here s; s_self := s_self s; s_types := s_types s;
     s_params := s_params s; s_uses := s_uses s; s_vars := (xs ++ s_vars s)%list |}.
Definition with_uses (s : scope) (us : list (string * list string)) : scope :=
  {| s_std := s_std s; s_mods := s_mods s; s_here := s_here s; s_self := s_self s; s_types := s_types s;
     s_params := s_params s; s_uses := (us ++ s_uses s)%list; s_vars := s_vars s |}.
Definition module_scope (std : bool) (ms : modules) (here : list string) : scope :=
  {| s_std := std; s_mods := ms; s_here := here; s_self := ""; s_types := []; s_params := [];
     s_uses := []; s_vars := [] |}.
Definition impl_scope (std : bool) (ms : modules) (here : list string) (self : string)
  (types : list (string * ty)) : scope :=
  {| s_std := std; s_mods := ms; s_here := here; s_self := self; s_types := types; s_params := [];
     s_uses := []; s_vars := [] |}.
(** In the function [f]. *)
Definition fn_scope (s : scope) (f : fn) : scope :=
  {| s_std := s_std s; s_mods := s_mods s; s_here := s_here s; s_self := s_self s; s_types := s_types s;
     s_params := f_generics f; s_uses := s_uses s; s_vars := map fst (f_params f) |}.

(** The variables of a (resolved) pattern. *)
Fixpoint pat_vars (p : pat) : list string :=
  match p with
  | PBind x => [x]
  | PApp _ ps | PTuple ps | POr ps | PCtor _ _ ps => flat_map pat_vars ps
  | _ => []
  end.

Definition block_uses (ss : list stmt) : list (string * list string) :=
  flat_map (fun st => match st with SUse us => us | _ => [] end) ss.

Definition newline : string := String "010" "".

(** ** Programs *)

Record program := {
  p_fns : list (string * fn);              (* every function, with its key *)
  p_tests : list string;                   (* the keys of the #[test] functions *)
  p_derives : list (string * list string); (* the derived traits of every type *)
  p_enums : list (string * list (string * list ty));  (* the variants, with the types of their fields *)
  p_structs : list (string * list (string * ty))  (* the fields *)
}.

Definition fns_of (its : items) : list fn :=
  flat_map (fun i => match snd i with IFn f => [f] | _ => [] end) its.

Definition types_of (its : items) : list (string * ty) :=
  flat_map (fun i => match snd i with IType x t => [(x, t)] | _ => [] end) its.

Definition module_enums (m : list string * items) : list (string * list (string * list ty)) :=
  flat_map (fun i => match snd i with IEnum x vs => [(x, vs)] | _ => [] end) (snd m).

Definition module_structs (m : list string * items) : list (string * list (string * ty)) :=
  flat_map (fun i => match snd i with IStruct x fs => [(x, fs)] | _ => [] end) (snd m).

(** [#[derive(A, B)]] *)
Definition derives (a : list attr) : list string :=
  flat_map (fun ws => match ws with w :: ws' => if w =? "derive" then ws' else [] | [] => [] end) a.

Definition module_derives (m : list string * items) : list (string * list string) :=
  flat_map (fun i =>
    match snd i with
    | IEnum x _ | IStruct x _ => [(x, derives (fst i))]
    | _ => []
    end) (snd m).

(** [#[test]] *)
Definition is_test (a : list attr) : bool :=
  existsb (fun ws => match ws with [w] => w =? "test" | _ => false end) a.

Definition module_tests (m : list string * items) : list string :=
  flat_map (fun i =>
    match snd i with
    | IFn f => if is_test (fst i) then [key (fst m) (f_name f)] else []
    | _ => []
    end) (snd m).
