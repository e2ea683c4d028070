(** Syntax of the part of Rust the crate is written in.  The parser produces the
    constructors without "resolved" in their comment; name resolution (SrcLink) replaces
    [EPath], [EStruct], [EMac], [PPath], [PTuple] paths by the resolved ones. *)
From Coq Require Import ZArith List String.
From Verif Require Import SrcLex.

Inductive ty :=
| TyPath (segs : list string) (args : list ty)   (* a::b<c, d> *)
| TyRef (t : ty)                                 (* &t *)
| TySlice (t : ty).                              (* [t] *)

Inductive pat :=
| PWild
| PBind (x : string)
| PLit (z : Z)
| PRange (lo hi : Z)                             (* lo..=hi *)
| PPath (segs : list string)                     (* A::B *)
| PApp (segs : list string) (ps : list pat)      (* A::B(p, ..) *)
| PTuple (ps : list pat)                         (* (p, ..) *)
| POr (ps : list pat)                            (* p | .. *)
| PCtor (t v : string) (ps : list pat).          (* resolved: variant v of type t *)

(** A piece of a format string: text, or a placeholder with what follows its colon. *)
Inductive piece :=
| FText (s : string)
| FNext (spec : string)                          (* {} and {:spec}: the next argument *)
| FVar (x : string) (spec : string).             (* {x} and {x:spec} *)

Inductive expr :=
| ELit (z : Z) (suffix : string)
| EBool (b : bool)
| EStr (s : string)
| EPath (segs : list string)
| ECall (f : expr) (args : list expr)
| EMeth (e : expr) (m : string) (args : list expr)
| EField (e : expr) (f : string)
| ETry (e : expr)                                (* e? *)
| EDeref (e : expr)
| ERef (e : expr)
| ENeg (e : expr)
| EBin (op : sign) (a b : expr)
| EAs (e : expr) (t : ty)
| EClos (params : list (string * option ty)) (body : expr)
| EIf (c t : expr) (e : option expr)
| EMatch (e : expr) (arms : list (pat * expr))
| EBlock (ss : list stmt) (tail : option expr)
| EArr (es : list expr)
| EStruct (segs : list string) (fs : list (string * expr))
| EMac (name : string) (args : list expr)
| EMatches (e : expr) (p : pat)                  (* matches!(e, p) *)
| EReturn (e : option expr)
| EAssign (op : sign) (x : string) (e : expr)  (* x |= e *)
| EFor (p : pat) (e body : expr)
| EVar (x : string)                              (* resolved: local variable *)
| EFn (key : string)                             (* resolved: function *)
| EPrim (t m : string)                           (* resolved: associated function of a primitive type *)
| ECtor (t v : string)                           (* resolved: enum variant *)
| ERecord (t : string) (fs : list (string * expr))  (* resolved: struct literal *)
| EWrite (f : expr) (ps : list piece) (args : list expr)  (* resolved: write!(f, "..", args) *)
| EPrint (ps : list piece) (args : list expr)    (* resolved: println!("..", args), with its newline *)
with stmt :=
| SLet (x : string) (t : option ty) (e : expr)
| SExpr (e : expr)
| SUse (us : list (string * list string)).

Record fn := {
  f_name : string;
  f_generics : list string;
  f_params : list (string * ty);
  f_ret : option ty;
  f_body : option expr
}.

(** An attribute is the list of the identifiers in it: [#[cfg(test)]] is [cfg; test]. *)
Definition attr := list string.

Inductive item :=
| IFn (f : fn)
| IMod (name : string) (items : option (list (list attr * item)))
| IUse (us : list (string * list string))
| IImpl (trait : option (list string)) (t : ty) (items : list (list attr * item))
| ITrait (name : string) (items : list (list attr * item))
| IEnum (name : string) (variants : list (string * list ty))
| IStruct (name : string) (fields : list (string * ty))
| IType (name : string) (t : ty).
