(** From the files to a program: the modules reached from lib.rs by [mod] declarations,
    what each path in them stands for ([use] declarations, [crate], [super], [Self],
    re-exports), the function table with the methods of every impl and the default methods
    of the traits.  The rules are in SpecNames.v; the linker refuses a crate with a name that has
    no meaning, or that could have two.  What is not checked: visibility and types. *)
From Coq Require Import ZArith List Bool String Ascii.
From Verif Require Import SrcLine SrcLex SrcAst SrcParse.
From Verif Require Export SrcNames.
Import ListNotations.
Local Open Scope string_scope.

Fixpoint words_eqb (a b : list string) : bool :=
  match a, b with
  | [], [] => true
  | x :: a', y :: b' => (x =? y) && words_eqb a' b'
  | _, _ => false
  end.

Fixpoint assoc {A} (x : string) (l : list (string * A)) : option A :=
  match l with
  | [] => None
  | (y, a) :: l' => if x =? y then Some a else assoc x l'
  end.

Definition is_some {A} (o : option A) : bool := match o with Some _ => true | None => false end.
Definition mem (x : string) (l : list string) : bool := existsb (String.eqb x) l.

Section Mapo.
  Context {A B : Type} (f : A -> option B).
  Fixpoint mapo (l : list A) : option (list B) :=
    match l with
    | [] => Some []
    | a :: l' => match f a, mapo l' with Some b, Some bs => Some (b :: bs) | _, _ => None end
    end.
End Mapo.

Definition opto {A B} (f : A -> option B) (o : option A) : option (option B) :=
  match o with
  | None => Some None
  | Some a => match f a with Some b => Some (Some b) | None => None end
  end.

Fixpoint first_some {A B} (f : A -> option B) (l : list A) : option B :=
  match l with
  | [] => None
  | a :: l' => match f a with Some b => Some b | None => first_some f l' end
  end.

Fixpoint distinct (l : list string) : bool :=
  match l with
  | [] => true
  | x :: l' => negb (mem x l') && distinct l'
  end.

Local Notation "'let?' x := a 'in' b" := (match a with Some x => b | None => None end)
  (at level 200, x pattern, a at level 100, b at level 200).
Local Notation "'when' c 'in' b" := (if c then b else None) (at level 200, c at level 100, b at level 200).

(** ** Modules *)

Definition is_cfg (ws : attr) : bool := List.hd "" ws =? "cfg".
Definition unconditional (a : list attr) : bool := negb (existsb is_cfg a).
(** [#[cfg(test)]], and no other condition *)
Definition only_tests (a : list attr) : bool :=
  existsb is_cfg a && forallb (fun ws => negb (is_cfg ws) || words_eqb ["cfg"; "test"] ws) a.

(** Without [test], the items under [#[cfg(test)]] do not exist. *)
Fixpoint enabled (test : bool) (its : items) : option items :=
  match its with
  | [] => Some []
  | i :: its' =>
      let? r := enabled test its' in
      if unconditional (fst i) then Some (i :: r)
      else when only_tests (fst i) in Some (if test then i :: r else r)
  end.

(** The modules below the module [here] whose items are [its].  [mod x;] in module
    [a::b] is the file a/b/x.rs. *)
Fixpoint collect (fuel : nat) (test : bool) (files : list (string * items))
  (here : list string) (its : items) : option modules :=
  match fuel with
  | O => None
  | S n =>
      let? its := enabled test its in
      let? l := mapo (fun i =>
        match snd i with
        | IMod x (Some sub) => collect n test files (here ++ [x])%list sub
        | IMod x None =>
            let? sub := assoc (String.concat "/" (here ++ [x])%list ++ ".rs") files in
            collect n test files (here ++ [x])%list sub
        | _ => Some []
        end) its in
      Some ((here, its) :: List.concat l)
  end.

(** ** Names *)

Definition find_module (ms : modules) (m : list string) : option items :=
  option_map snd (find (fun e => words_eqb (fst e) m) ms).

Definition own_item (m : list string) (x : string) (i : list attr * item) : option entity :=
  match snd i with
  | IFn f => if f_name f =? x then Some (NFn (key m x)) else None
  | IEnum y _ => if y =? x then Some (NEnum x) else None
  | IStruct y _ => if y =? x then Some (NStruct x) else None
  | ITrait y _ => if y =? x then Some (NTrait m x) else None
  | IMod y _ => if y =? x then Some (NMod (m ++ [x])%list) else None
  | _ => None
  end.

Definition imports (its : items) : list (string * list string) :=
  flat_map (fun i => match snd i with IUse us => us | _ => [] end) its.

(** The variants of the enum [t]. *)
Definition find_enum (ms : modules) (t : string) : option (list (string * list ty)) :=
  first_some (fun m => first_some (fun i =>
    match snd i with IEnum y vs => if y =? t then Some vs else None | _ => None end) (snd m)) ms.
Definition is_struct (ms : modules) (t : string) : bool :=
  existsb (fun m => existsb (fun i => match snd i with IStruct y _ => y =? t | _ => false end) (snd m)) ms.

(** The last segment of the type an impl is for. *)
Definition self_name (t : ty) : string :=
  match t with TyPath p _ => List.last p "" | _ => "" end.
Definition has_method (ms : modules) (t x : string) : bool :=
  existsb (fun m => existsb (fun i =>
    match snd i with
    | IImpl _ u its =>
        (self_name u =? t) && existsb (fun j => match snd j with IFn f => f_name f =? x | _ => false end) its
    | _ => false
    end) (snd m)) ms.

(** The type named [t]. *)
Definition type_named (ms : modules) (t : string) : option entity :=
  if mem t prims then Some (NPrim t)
  else if is_some (find_enum ms t) then Some (NEnum t)
  else if is_struct ms t then Some (NStruct t)
  else None.

(** What the name [x] is in the module [m]; [rec] resolves the path of a [use]. *)
Definition in_module (rec : list string -> list string -> option entity) (ms : modules) (m : list string)
  (x : string) : option entity :=
  let? its := find_module ms m in
  match first_some (own_item m x) its with
  | Some e => Some e
  | None => let? q := assoc x (imports its) in rec m q
  end.

Fixpoint walk (rec : list string -> list string -> option entity) (ms : modules) (e : entity) (rest : list string)
  : option entity :=
  match rest with
  | [] => Some e
  | x :: rest' =>
      match e with
      | NMod m =>
          if x =? "super" then
            match m with [] => None | _ => walk rec ms (NMod (List.removelast m)) rest' end
          else let? e' := in_module rec ms m x in walk rec ms e' rest'
      | NEnum t =>
          match rest' with
          | [] =>
              match find_enum ms t with
              | Some vs =>
                  if is_some (assoc x vs) then Some (NVariant t x)
                  else when has_method ms t x in Some (NFn (t ++ "." ++ x))
              | None => None
              end
          | _ => None
          end
      | NStruct t => match rest' with [] => when has_method ms t x in Some (NFn (t ++ "." ++ x)) | _ => None end
      | NPrim t => match rest' with [] => Some (NPrimFn t x) | _ => None end
      | NExt p => walk rec ms (NExt (p ++ [x])%list) rest'
      | _ => None
      end
  end.

(** What [p] stands for, seen from module [here], inside an impl for [self], with the
    imports [uses] of the enclosing blocks. *)
Fixpoint resolve (fuel : nat) (std : bool) (ms : modules) (uses : list (string * list string))
  (self : string) (here : list string) (p : list string) : option entity :=
  match fuel with
  | O => None
  | S n =>
      let rec := resolve n std ms [] "" in
      match p with
      | [] => None
      | x :: rest =>
          if x =? "crate" then walk rec ms (NMod []) rest
          else if x =? "super" then walk rec ms (NMod here) p
          else if x =? "self" then match rest with [] => None | _ => walk rec ms (NMod here) rest end
          else if x =? "Self" then let? e := type_named ms self in walk rec ms e rest
          else if mem x prims then walk rec ms (NPrim x) rest
          else if mem x (externs std) then walk rec ms (NExt [x]) rest
          else
            match assoc x uses with
            | Some q => let? e := rec here q in walk rec ms e rest
            | None =>
                match in_module rec ms here x with
                | Some e => walk rec ms e rest
                | None => let? e := assoc x prelude in walk rec ms e rest
                end
            end
      end
  end.

(** ** No name has two meanings *)

Definition declared (i : list attr * item) : list string :=
  match snd i with
  | IFn f => [f_name f]
  | IMod x _ | ITrait x _ | IEnum x _ | IStruct x _ => [x]
  | IUse us => map fst us
  | IImpl _ _ _ | IType _ _ => []
  end.
Definition names (its : items) : list string := flat_map declared its.
Definition names_in (ms : modules) (m : list string) : list string :=
  match find_module ms m with Some its => names its | None => [] end.

(** The names that are in scope everywhere. *)
Definition reserved : list string := (roots ++ prims ++ externs true ++ map fst prelude)%list.

Fixpoint distinct_paths (l : list (list string)) : bool :=
  match l with
  | [] => true
  | x :: l' => negb (existsb (words_eqb x) l') && distinct_paths l'
  end.

Definition clean (ms : modules) : bool :=
  distinct_paths (map fst ms)
  && forallb (fun m => distinct (names (snd m)) && forallb (fun x => negb (mem x reserved)) (names (snd m))) ms
  && distinct (flat_map (fun m => map fst (module_derives m)) ms)
  && forallb (fun x => negb (mem x (prims ++ ["Option"; "Result"])%list)) (flat_map (fun m => map fst (module_derives m)) ms)
  && forallb (fun e => forallb (fun v => negb (has_method ms (fst e) (fst v))) (snd e)) (flat_map module_enums ms).

(** The declarations [us] of a block in the scope [s] bring nothing that is in scope already. *)
Definition clear_uses (s : scope) (us : list (string * list string)) : bool :=
  distinct (map fst (us ++ s_uses s)%list)
  && forallb (fun x => negb (mem x (names_in (s_mods s) (s_here s))) && negb (mem x reserved)) (map fst us).

(** [x] has no meaning in [s], unless as a local variable. *)
Definition unknown (s : scope) (x : string) : bool :=
  (x =? "self")
  || negb (mem x (names_in (s_mods s) (s_here s)) || mem x (map fst (s_uses s)) || mem x reserved).

Definition look (s : scope) (p : list string) : option entity :=
  resolve 20 (s_std s) (s_mods s) (s_uses s) (s_self s) (s_here s) p.

(** ** Types *)

Definition is_type (q : list string) (e : entity) : bool :=
  match e with
  | NPrim t | NEnum t | NStruct t => List.last q "" =? t
  | NExt _ => true
  | _ => false
  end.

(** [Self] and [Self::T] are replaced. *)
Fixpoint link_ty (s : scope) (t : ty) : option ty :=
  match t with
  | TyPath q args =>
      if List.hd "" q =? "Self" then
        match q, args with
        | [_], [] => Some (TyPath [s_self s] [])
        | [_; x], [] => assoc x (s_types s)
        | _, _ => None
        end
      else
        match q, args with
        | [x], [] =>
            if mem x (s_params s) then when unknown s x in Some t
            else let? e := look s q in when is_type q e in Some t
        | _, _ =>
            let? e := look s q in
            when is_type q e in
            let? args' := mapo (link_ty s) args in Some (TyPath q args')
        end
  | TyRef u => option_map TyRef (link_ty s u)
  | TySlice u => option_map TySlice (link_ty s u)
  end.

Fixpoint ty_eqb (t u : ty) : bool :=
  match t, u with
  | TyPath p ts, TyPath q us =>
      words_eqb p q &&
      (fix all (ts us : list ty) : bool :=
         match ts, us with [], [] => true | t :: ts, u :: us => ty_eqb t u && all ts us | _, _ => false end) ts us
  | TyRef t, TyRef u => ty_eqb t u
  | TySlice t, TySlice u => ty_eqb t u
  | _, _ => false
  end.
Definition tied (s : scope) (t : ty) : bool := match link_ty s t with Some u => ty_eqb u t | None => false end.

Definition same_type (o : option entity) (e : entity) : bool :=
  match o, e with
  | Some (NPrim t), NPrim u | Some (NEnum t), NEnum u | Some (NStruct t), NStruct u => t =? u
  | _, _ => false
  end.

(** ** Format strings *)

Fixpoint split_colon (s : string) : string * string :=
  match s with
  | EmptyString => ("", "")
  | String c s' =>
      if Ascii.eqb c ":" then ("", s')
      else let '(a, b) := split_colon s' in (String c a, b)
  end.

Definition text_piece (t : string) (ps : list piece) : list piece :=
  match t with EmptyString => ps | _ => FText t :: ps end.

(** [x] or [x:spec] or [:spec], between the braces. *)
Definition hole (t : string) : piece :=
  let '(x, spec) := split_colon t in
  match x with EmptyString => FNext spec | _ => FVar x spec end.

(** [acc]: the text before [s], since the last brace; [inside] a placeholder or not.  No [{{] or [}}] in
    these files. *)
Fixpoint pieces (inside : bool) (acc s : string) : option (list piece) :=
  match s with
  | EmptyString => if inside then None else Some (text_piece acc [])
  | String c s' =>
      if inside then
        if Ascii.eqb c "}" then option_map (cons (hole acc)) (pieces false "" s')
        else if Ascii.eqb c "{" then None
        else pieces true (acc ++ String c "") s'
      else
        if Ascii.eqb c "{" then option_map (text_piece acc) (pieces true "" s')
        else if Ascii.eqb c "}" then None
        else pieces false (acc ++ String c "") s'
  end.

Definition link_pieces (s : scope) (t : string) : option (list piece) :=
  let? ps := pieces false "" t in
  when forallb (fun p => match p with FVar x _ => mem x (s_vars s) | _ => true end) ps in Some ps.

(** ** Bodies *)

Definition link_path (s : scope) (p : list string) : option expr :=
  let global :=
    match look s p with
    | Some (NFn k) => Some (EFn k)
    | Some (NVariant t v) => Some (ECtor t v)
    | Some (NPrimFn t m) => Some (EPrim t m)
    | Some (NExt (x :: q)) => Some (EPrim (String.concat "::" (List.removelast (x :: q))) (List.last (x :: q) ""))
    | _ => None
    end in
  match p with
  | [x] => if mem x (s_vars s) then when unknown s x in Some (EVar x) else global
  | _ => global
  end.

Fixpoint link_pat (s : scope) (p : pat) : option pat :=
  match p with
  | PWild | PLit _ | PRange _ _ => Some p
  | PBind x =>
      match look s [x] with
      | Some (NVariant t v) => Some (PCtor t v [])
      | _ => when unknown s x in Some p
      end
  | PPath q => match look s q with Some (NVariant t v) => Some (PCtor t v []) | _ => None end
  | PApp q ps =>
      match look s q with
      | Some (NVariant t v) => let? qs := mapo (link_pat s) ps in Some (PCtor t v qs)
      | _ => None
      end
  | PTuple ps => let? qs := mapo (link_pat s) ps in Some (PTuple qs)
  | POr ps => let? qs := mapo (link_pat s) ps in Some (POr qs)
  | PCtor _ _ _ => None
  end.

Definition link_param (s : scope) (xt : string * option ty) : option (string * option ty) :=
  let? t := opto (link_ty s) (snd xt) in Some (fst xt, t).

Definition link_arm (go : scope -> expr -> option expr) (s : scope) (pe : pat * expr) : option (pat * expr) :=
  let? p := link_pat s (fst pe) in
  let? e := go (with_vars s (pat_vars p)) (snd pe) in Some (p, e).

Definition link_field (go : expr -> option expr) (fe : string * expr) : option (string * expr) :=
  let? e := go (snd fe) in Some (fst fe, e).

(** The statements of a block, and the scope after them. *)
Fixpoint link_stmts (go : scope -> expr -> option expr) (s : scope) (ss : list stmt) : option (list stmt * scope) :=
  match ss with
  | [] => Some ([], s)
  | SLet x t a :: ss' =>
      let? u := opto (link_ty s) t in
      let? b := go s a in
      let? (r, s') := link_stmts go (with_vars s [x]) ss' in
      Some (SLet x u b :: r, s')
  | SExpr a :: ss' =>
      let? b := go s a in
      let? (r, s') := link_stmts go s ss' in
      Some (SExpr b :: r, s')
  | SUse _ :: ss' => link_stmts go s ss'
  end.

Definition link_macro (go : expr -> option expr) (s : scope) (m : string) (es : list expr) : option expr :=
  if mem m macros then let? fs := mapo go es in Some (EMac m fs)
  else if m =? "write" then
    match es with
    | f :: EStr t :: args =>
        let? g := go f in
        let? ps := link_pieces s t in
        let? fs := mapo go args in Some (EWrite g ps fs)
    | _ => None
    end
  else if m =? "println" then
    when s_std s in
    match es with
    | EStr t :: args =>
        let? ps := link_pieces s t in
        let? fs := mapo go args in Some (EPrint (ps ++ [FText newline])%list fs)
    | _ => None
    end
  else None.

Fixpoint link_expr (fuel : nat) (s : scope) (e : expr) : option expr :=
  match fuel with
  | O => None
  | S n =>
      let go := link_expr n s in
      match e with
      | ELit _ _ | EBool _ | EStr _ => Some e
      | EPath p => link_path s p
      | ECall f es => let? g := go f in let? fs := mapo go es in Some (ECall g fs)
      | EMeth a m es => let? b := go a in let? fs := mapo go es in Some (EMeth b m fs)
      | EField a f => let? b := go a in Some (EField b f)
      | ETry a => let? b := go a in Some (ETry b)
      | EDeref a => let? b := go a in Some (EDeref b)
      | ERef a => let? b := go a in Some (ERef b)
      | ENeg a => let? b := go a in Some (ENeg b)
      | EBin op a c => let? b := go a in let? d := go c in Some (EBin op b d)
      | EAs a t => let? b := go a in let? u := link_ty s t in Some (EAs b u)
      | EClos ps a =>
          let? qs := mapo (link_param s) ps in
          let? b := link_expr n (with_vars s (map fst ps)) a in Some (EClos qs b)
      | EIf a c f =>
          let? b := go a in let? d := go c in let? g := opto go f in Some (EIf b d g)
      | EMatch a arms =>
          let? b := go a in let? brms := mapo (link_arm (link_expr n) s) arms in Some (EMatch b brms)
      | EBlock ss tail =>
          when clear_uses s (block_uses ss) in
          let? (ss', s') := link_stmts (link_expr n) (with_uses s (block_uses ss)) ss in
          let? t := opto (link_expr n s') tail in Some (EBlock ss' t)
      | EArr es => let? fs := mapo go es in Some (EArr fs)
      | EStruct q es =>
          match look s q with
          | Some (NStruct t) => let? fs := mapo (link_field go) es in Some (ERecord t fs)
          | _ => None
          end
      | EMac m es => link_macro go s m es
      | EMatches a p => let? b := go a in let? q := link_pat s p in Some (EMatches b q)
      | EReturn a => let? b := opto go a in Some (EReturn b)
      | EAssign op x a => when mem x (s_vars s) in let? b := go a in Some (EAssign op x b)
      | EFor p a c =>
          let? q := link_pat s p in
          let? b := go a in
          let? d := link_expr n (with_vars s (pat_vars q)) c in Some (EFor q b d)
      | EVar _ | EFn _ | EPrim _ _ | ECtor _ _ | ERecord _ _ | EWrite _ _ _ | EPrint _ _ => None
      end
  end.

Definition link_typed (s : scope) (xt : string * ty) : option (string * ty) :=
  let? t := link_ty s (snd xt) in Some (fst xt, t).

Definition link_fn (s : scope) (f : fn) : option fn :=
  let s := fn_scope s f in
  let? ps := mapo (link_typed s) (f_params f) in
  let? t := opto (link_ty s) (f_ret f) in
  let? b := opto (link_expr 200 s) (f_body f) in
  Some {| f_name := f_name f; f_generics := f_generics f; f_params := ps; f_ret := t; f_body := b |}.

(** ** Programs *)

Definition link_methods (s : scope) (t : string) (fs : list fn) : option (list (string * fn)) :=
  mapo (fun f => let? g := link_fn s f in Some (method_key t (f_name f), g)) fs.

(** The functions of a trait that an impl with the functions [own] takes over. *)
Definition taken_over (own fs : list fn) : list fn :=
  filter (fun f => is_some (f_body f) && negb (existsb (fun g => f_name g =? f_name f) own)) fs.

Definition trait_fns (ms : modules) (m : list string) (x : string) : option (list fn) :=
  let? its := find_module ms m in
  first_some (fun i => match snd i with ITrait y body => if y =? x then Some (fns_of body) else None | _ => None end) its.

Definition methods (std : bool) (ms : modules) (here : list string) (trait : option (list string)) (t : ty)
  (its : items) : option (list (string * fn)) :=
  let s := module_scope std ms here in
  let self := self_name t in
  match t with
  | TyPath q _ =>
      when tied s t in
      let? e := look s q in
      when same_type (type_named ms self) e in
      let? types := mapo (link_typed (impl_scope std ms here self [])) (types_of its) in
      when distinct (map fst types) in
      let? own := link_methods (impl_scope std ms here self types) self (fns_of its) in
      match trait with
      | None => Some own
      | Some q =>
          match look s q with
          | Some (NExt _) => Some own
          | Some (NTrait d x) =>
              let? fs := trait_fns ms d x in
              let? over := link_methods (impl_scope std ms d self types) self (taken_over (fns_of its) fs) in
              Some (own ++ over)%list
          | _ => None
          end
      end
  | _ => None
  end.

Definition item_fns (std : bool) (ms : modules) (m : list string) (i : list attr * item) : option (list (string * fn)) :=
  match snd i with
  | IFn f => let? g := link_fn (module_scope std ms m) f in Some [(key m (f_name f), g)]
  | IImpl tr t its => methods std ms m tr t its
  | _ => Some []
  end.

Definition module_fns (std : bool) (ms : modules) (m : list string * items) : option (list (string * fn)) :=
  option_map (@List.concat _) (mapo (item_fns std ms (fst m)) (snd m)).

Definition inner_unconditional (i : list attr * item) : bool :=
  match snd i with
  | ITrait _ its | IImpl _ _ its => forallb (fun j => unconditional (fst j)) its
  | _ => true
  end.

Definition fields_tied (s : scope) (i : list attr * item) : bool :=
  match snd i with
  | IEnum _ vs => forallb (fun v => forallb (tied s) (snd v)) vs
  | IStruct _ fs => forallb (fun f => tied s (snd f)) fs
  | _ => true
  end.

(** The keys are unique. *)
Definition well_named (p : program) : bool := distinct (map fst (p_fns p)).

Definition parse_source (src : list (line * list line)) : option (list (string * items)) :=
  mapo (fun f =>
    match lex_lines (snd f) with
    | Some ts => match parse_file ts with Some its => Some (name_of (fst f), its) | None => None end
    | None => None
    end) src.

(** The crate in these files, built for tests or not, with std or not. *)
Definition link_with (std test : bool) (files : list (string * items)) : option program :=
  when distinct (map fst files) in
  let? root := assoc "lib.rs" files in
  let? ms := collect 20 test files [] root in
  when clean ms in
  when forallb (fun m => forallb inner_unconditional (snd m) && forallb (fields_tied (module_scope std ms (fst m))) (snd m)) ms in
  let? fss := mapo (module_fns std ms) ms in
  let p := {| p_fns := List.concat fss;
              p_tests := flat_map module_tests ms;
              p_derives := flat_map module_derives ms;
              p_enums := flat_map module_enums ms;
              p_structs := flat_map module_structs ms |} in
  when well_named p in Some p.
Definition link : bool -> list (string * items) -> option program := link_with true.

Definition load (test : bool) (src : list (line * list line)) : option program :=
  match parse_source src with
  | None => None
  | Some files => link test files
  end.
