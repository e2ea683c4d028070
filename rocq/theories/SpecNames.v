(** What the names in the files stand for, as relations.  No rule says that one meaning goes before
    another: a name may stand for anything that is in scope under it.  A crate in which some name
    has two meanings is related to more than one program. *)
From Coq Require Import ZArith List Bool String Ascii.
From Verif Require Import SrcLine SrcLex SrcAst SrcNames SpecGrammar.
Import ListNotations.
Local Open Scope string_scope.

(** ** Paths *)

(** The item [i], with attributes [a], of module [m]. *)
Definition item_of (ms : modules) (m : list string) (a : list attr) (i : item) : Prop :=
  exists its, In (m, its) ms /\ In (a, i) its.

(** The name an item declares in its module [m]. *)
Inductive Declares (m : list string) : item -> string -> entity -> Prop :=
| D_fn f : Declares m (IFn f) (f_name f) (NFn (key m (f_name f)))
| D_mod x its : Declares m (IMod x its) x (NMod (m ++ [x])%list)
| D_trait x its : Declares m (ITrait x its) x (NTrait m x)
| D_enum x vs : Declares m (IEnum x vs) x (NEnum x)
| D_struct x fs : Declares m (IStruct x fs) x (NStruct x).

Definition Variant (ms : modules) (t v : string) : Prop :=
  exists m a vs fs, item_of ms m a (IEnum t vs) /\ In (v, fs) vs.

(** The last segment of the type an impl is for. *)
Definition impl_self (t : ty) : string :=
  match t with TyPath p _ => List.last p "" | _ => "" end.

(** An impl for the type [t] has the function [x]. *)
Definition Method (ms : modules) (t x : string) : Prop :=
  exists m a tr T its b f, item_of ms m a (IImpl tr T its) /\ impl_self T = t /\ In (b, IFn f) its /\ f_name f = x.

(** The type with this name. *)
Inductive Type_named (ms : modules) (t : string) : entity -> Prop :=
| T_prim : In t prims -> Type_named ms t (NPrim t)
| T_enum m a vs : item_of ms m a (IEnum t vs) -> Type_named ms t (NEnum t)
| T_struct m a fs : item_of ms m a (IStruct t fs) -> Type_named ms t (NStruct t).

(** [In_module m x e]: [x] is [e] in the module [m], by an item or a [use].  [Leads e p f]: from [e], the
    segments [p] lead to [f].  [Stands us self m p e]: the path [p] stands for [e] in the module [m],
    in blocks with the declarations [us], in an impl for [self]. *)
Inductive In_module (std : bool) (ms : modules) : list string -> string -> entity -> Prop :=
| M_item m a i x e : item_of ms m a i -> Declares m i x e -> In_module std ms m x e
| M_use m a us x q e : item_of ms m a (IUse us) -> In (x, q) us -> Stands std ms [] "" m q e -> In_module std ms m x e
with Leads (std : bool) (ms : modules) : entity -> list string -> entity -> Prop :=
| L_end e : Leads std ms e [] e
| L_super m x p e : Leads std ms (NMod m) p e -> Leads std ms (NMod (m ++ [x])%list) ("super" :: p) e
| L_module m x p e f : In_module std ms m x e -> Leads std ms e p f -> Leads std ms (NMod m) (x :: p) f
| L_variant t x : Variant ms t x -> Leads std ms (NEnum t) [x] (NVariant t x)
| L_enum_fn t x : Method ms t x -> Leads std ms (NEnum t) [x] (NFn (method_key t x))
| L_struct_fn t x : Method ms t x -> Leads std ms (NStruct t) [x] (NFn (method_key t x))
| L_prim_fn t x : Leads std ms (NPrim t) [x] (NPrimFn t x)
| L_ext q x p e : Leads std ms (NExt (q ++ [x])%list) p e -> Leads std ms (NExt q) (x :: p) e
with Stands (std : bool) (ms : modules) :
  list (string * list string) -> string -> list string -> list string -> entity -> Prop :=
| S_crate us self m p e : Leads std ms (NMod []) p e -> Stands std ms us self m ("crate" :: p) e
| S_super us self m p e : Leads std ms (NMod m) ("super" :: p) e -> Stands std ms us self m ("super" :: p) e
| S_self us self m x p e : Leads std ms (NMod m) (x :: p) e -> Stands std ms us self m ("self" :: x :: p) e
| S_Self us self m p e f : Type_named ms self e -> Leads std ms e p f -> Stands std ms us self m ("Self" :: p) f
| S_prim us self m x p e : In x prims -> Leads std ms (NPrim x) p e -> Stands std ms us self m (x :: p) e
| S_extern us self m x p e : In x (externs std) -> Leads std ms (NExt [x]) p e -> Stands std ms us self m (x :: p) e
| S_use us self m x q p e f : In (x, q) us -> Stands std ms [] "" m q e -> Leads std ms e p f ->
    Stands std ms us self m (x :: p) f
| S_module us self m x p e f : In_module std ms m x e -> Leads std ms e p f -> Stands std ms us self m (x :: p) f
| S_prelude us self m x p e f : In (x, e) prelude -> Leads std ms e p f -> Stands std ms us self m (x :: p) f.

Definition Means (s : scope) (p : list string) (e : entity) : Prop :=
  Stands (s_std s) (s_mods s) (s_uses s) (s_self s) (s_here s) p e.

(** ** Types *)

Definition Is_type (q : list string) (e : entity) : Prop :=
  match e with
  | NPrim t | NEnum t | NStruct t => List.last q "" = t
  | NExt _ => True
  | _ => False
  end.

Inductive Ties_ty (s : scope) : ty -> ty -> Prop :=
| TT_self : Ties_ty s (TyPath ["Self"] []) (TyPath [s_self s] [])
| TT_assoc x t : In (x, t) (s_types s) -> Ties_ty s (TyPath ["Self"; x] []) t
| TT_param x : x <> "Self" -> In x (s_params s) -> Ties_ty s (TyPath [x] []) (TyPath [x] [])
| TT_path q e ts us : List.hd "" q <> "Self" -> Means s q e -> Is_type q e -> Forall2 (Ties_ty s) ts us ->
    Ties_ty s (TyPath q ts) (TyPath q us)
| TT_ref t u : Ties_ty s t u -> Ties_ty s (TyRef t) (TyRef u)
| TT_slice t u : Ties_ty s t u -> Ties_ty s (TySlice t) (TySlice u).

Inductive Ties_opt {A B} (R : A -> B -> Prop) : option A -> option B -> Prop :=
| TO_none : Ties_opt R None None
| TO_some a b : R a b -> Ties_opt R (Some a) (Some b).

(** ** Format strings *)

(** No brace and no colon. *)
Definition Plain (colon : bool) (t : string) : Prop :=
  forall c, In c (list_ascii_of_string t) -> c <> "{"%char /\ c <> "}"%char /\ (colon = true \/ c <> ":"%char).

(** The text [s] of a format string consists of the pieces [ps]. *)
Inductive Pieces : string -> list piece -> Prop :=
| F_end : Pieces "" []
| F_last t : t <> "" -> Plain true t -> Pieces t [FText t]
| F_text t s ps : t <> "" -> Plain true t -> Pieces (String "{" s) ps -> Pieces (t ++ String "{" s) (FText t :: ps)
| F_next s ps : Pieces s ps -> Pieces ("{}" ++ s) (FNext "" :: ps)
| F_next_spec f s ps : Plain true f -> Pieces s ps -> Pieces ("{:" ++ f ++ "}" ++ s) (FNext f :: ps)
| F_var x s ps : x <> "" -> Plain false x -> Pieces s ps -> Pieces ("{" ++ x ++ "}" ++ s) (FVar x "" :: ps)
| F_var_spec x f s ps : x <> "" -> Plain false x -> Plain true f -> Pieces s ps ->
    Pieces ("{" ++ x ++ ":" ++ f ++ "}" ++ s) (FVar x f :: ps).

(** The variables named in it are local variables. *)
Definition Pieces_in (s : scope) (t : string) (ps : list piece) : Prop :=
  Pieces t ps /\ forall x f, In (FVar x f) ps -> In x (s_vars s).

(** ** Patterns *)

(** A name alone is a variant if it stands for one, and otherwise a new variable. *)
Inductive Ties_pat (s : scope) : pat -> pat -> Prop :=
| TP_wild : Ties_pat s PWild PWild
| TP_lit z : Ties_pat s (PLit z) (PLit z)
| TP_range a b : Ties_pat s (PRange a b) (PRange a b)
| TP_bind x : (forall t v, ~ Means s [x] (NVariant t v)) -> Ties_pat s (PBind x) (PBind x)
| TP_name x t v : Means s [x] (NVariant t v) -> Ties_pat s (PBind x) (PCtor t v [])
| TP_path q t v : Means s q (NVariant t v) -> Ties_pat s (PPath q) (PCtor t v [])
| TP_app q t v ps qs : Means s q (NVariant t v) -> Forall2 (Ties_pat s) ps qs -> Ties_pat s (PApp q ps) (PCtor t v qs)
| TP_tuple ps qs : Forall2 (Ties_pat s) ps qs -> Ties_pat s (PTuple ps) (PTuple qs)
| TP_or ps qs : Forall2 (Ties_pat s) ps qs -> Ties_pat s (POr ps) (POr qs).

(** ** Expressions *)

Inductive Ties_name (s : scope) : list string -> expr -> Prop :=
| TN_var x : In x (s_vars s) -> Ties_name s [x] (EVar x)
| TN_fn q k : Means s q (NFn k) -> Ties_name s q (EFn k)
| TN_variant q t v : Means s q (NVariant t v) -> Ties_name s q (ECtor t v)
| TN_prim q t m : Means s q (NPrimFn t m) -> Ties_name s q (EPrim t m)
| TN_ext q p m : Means s q (NExt (p ++ [m])%list) -> Ties_name s q (EPrim (String.concat "::" p) m).

Definition Ties_param (s : scope) (a b : string * option ty) : Prop :=
  fst a = fst b /\ Ties_opt (Ties_ty s) (snd a) (snd b).

Inductive Ties : scope -> expr -> expr -> Prop :=
| X_lit s z t : Ties s (ELit z t) (ELit z t)
| X_bool s b : Ties s (EBool b) (EBool b)
| X_str s t : Ties s (EStr t) (EStr t)
| X_path s q e : Ties_name s q e -> Ties s (EPath q) e
| X_call s f g es fs : Ties s f g -> Forall2 (Ties s) es fs -> Ties s (ECall f es) (ECall g fs)
| X_meth s a b m es fs : Ties s a b -> Forall2 (Ties s) es fs -> Ties s (EMeth a m es) (EMeth b m fs)
| X_field s a b x : Ties s a b -> Ties s (EField a x) (EField b x)
| X_try s a b : Ties s a b -> Ties s (ETry a) (ETry b)
| X_deref s a b : Ties s a b -> Ties s (EDeref a) (EDeref b)
| X_ref s a b : Ties s a b -> Ties s (ERef a) (ERef b)
| X_neg s a b : Ties s a b -> Ties s (ENeg a) (ENeg b)
| X_bin s op a b c d : Ties s a b -> Ties s c d -> Ties s (EBin op a c) (EBin op b d)
| X_as s a b t u : Ties s a b -> Ties_ty s t u -> Ties s (EAs a t) (EAs b u)
| X_clos s ps qs a b : Forall2 (Ties_param s) ps qs -> Ties (with_vars s (map fst ps)) a b ->
    Ties s (EClos ps a) (EClos qs b)
| X_if s a b c d : Ties s a b -> Ties s c d -> Ties s (EIf a c None) (EIf b d None)
| X_if_else s a b c d e f : Ties s a b -> Ties s c d -> Ties s e f -> Ties s (EIf a c (Some e)) (EIf b d (Some f))
| X_match s a b arms brms : Ties s a b ->
    Forall2 (fun x y => Ties_pat s (fst x) (fst y) /\ Ties (with_vars s (pat_vars (fst y))) (snd x) (snd y)) arms brms ->
    Ties s (EMatch a arms) (EMatch b brms)
| X_block s ss ss' s' : Ties_stmts (with_uses s (block_uses ss)) ss ss' s' ->
    Ties s (EBlock ss None) (EBlock ss' None)
| X_block_value s ss ss' s' a b : Ties_stmts (with_uses s (block_uses ss)) ss ss' s' -> Ties s' a b ->
    Ties s (EBlock ss (Some a)) (EBlock ss' (Some b))
| X_arr s es fs : Forall2 (Ties s) es fs -> Ties s (EArr es) (EArr fs)
| X_struct s q t es fs : Means s q (NStruct t) ->
    Forall2 (fun x y => fst x = fst y /\ Ties s (snd x) (snd y)) es fs -> Ties s (EStruct q es) (ERecord t fs)
| X_write s f g t ps es fs : Ties s f g -> Pieces_in s t ps -> Forall2 (Ties s) es fs ->
    Ties s (EMac "write" (f :: EStr t :: es)) (EWrite g ps fs)
| X_println s t ps es fs : s_std s = true -> Pieces_in s t ps -> Forall2 (Ties s) es fs ->
    Ties s (EMac "println" (EStr t :: es)) (EPrint (ps ++ [FText newline])%list fs)
| X_macro s m es fs : In m macros -> Forall2 (Ties s) es fs -> Ties s (EMac m es) (EMac m fs)
| X_matches s a b p q : Ties s a b -> Ties_pat s p q -> Ties s (EMatches a p) (EMatches b q)
| X_return s : Ties s (EReturn None) (EReturn None)
| X_return_value s a b : Ties s a b -> Ties s (EReturn (Some a)) (EReturn (Some b))
| X_assign s op x a b : In x (s_vars s) -> Ties s a b -> Ties s (EAssign op x a) (EAssign op x b)
| X_for s p q a b c d : Ties_pat s p q -> Ties s a b -> Ties (with_vars s (pat_vars q)) c d ->
    Ties s (EFor p a c) (EFor q b d)
(** The statements of a block, and the scope after them; the [use] declarations are in scope already. *)
with Ties_stmts : scope -> list stmt -> list stmt -> scope -> Prop :=
| XS_end s : Ties_stmts s [] [] s
| XS_let s x t u a b ss ss' s' : Ties_opt (Ties_ty s) t u -> Ties s a b -> Ties_stmts (with_vars s [x]) ss ss' s' ->
    Ties_stmts s (SLet x t a :: ss) (SLet x u b :: ss') s'
| XS_expr s a b ss ss' s' : Ties s a b -> Ties_stmts s ss ss' s' ->
    Ties_stmts s (SExpr a :: ss) (SExpr b :: ss') s'
| XS_use s us ss ss' s' : Ties_stmts s ss ss' s' -> Ties_stmts s (SUse us :: ss) ss' s'.

(** ** Functions *)

Inductive Ties_fn (s : scope) (f : fn) : fn -> Prop :=
| TF ps t b :
    Forall2 (fun x y => fst x = fst y /\ Ties_ty (fn_scope s f) (snd x) (snd y)) (f_params f) ps ->
    Ties_opt (Ties_ty (fn_scope s f)) (f_ret f) t ->
    Ties_opt (Ties (fn_scope s f)) (f_body f) b ->
    Ties_fn s f {| f_name := f_name f; f_generics := f_generics f; f_params := ps; f_ret := t; f_body := b |}.

(** The functions of an impl, or of a trait, as methods of the type [t]. *)
Definition Ties_methods (s : scope) (t : string) : list fn -> list (string * fn) -> Prop :=
  Forall2 (fun f kg => fst kg = method_key t (f_name f) /\ Ties_fn s f (snd kg)).

(** The functions of a trait that an impl with the functions [own] takes over. *)
Inductive Taken_over (own : list fn) : list fn -> list fn -> Prop :=
| TD_end : Taken_over own [] []
| TD_yes f fs gs : f_body f <> None -> (forall g, In g own -> f_name g <> f_name f) -> Taken_over own fs gs ->
    Taken_over own (f :: fs) (f :: gs)
| TD_no f fs gs : f_body f = None \/ (exists g, In g own /\ f_name g = f_name f) -> Taken_over own fs gs ->
    Taken_over own (f :: fs) gs.

(** The functions an item of the module [m] brings: a function; the methods of an impl, and of its trait
    if that is one of the crate. *)
Inductive Brings (std : bool) (ms : modules) (m : list string) : item -> list (string * fn) -> Prop :=
| B_fn f g : Ties_fn (module_scope std ms m) f g -> Brings std ms m (IFn f) [(key m (f_name f), g)]
| B_impl tr T e t its types own over :
    Ties_ty (module_scope std ms m) T T ->
    Type_named ms t e -> (exists q ts, T = TyPath q ts /\ Means (module_scope std ms m) q e) ->
    Forall2 (fun x y => fst x = fst y /\ Ties_ty (impl_scope std ms m t []) (snd x) (snd y)) (types_of its) types ->
    Ties_methods (impl_scope std ms m t types) t (fns_of its) own ->
    (match tr with
     | None => over = []
     | Some q =>
         (exists p, Means (module_scope std ms m) q (NExt p) /\ over = []) \/
         (exists d x a body fs, Means (module_scope std ms m) q (NTrait d x) /\ item_of ms d a (ITrait x body) /\
            Taken_over (fns_of its) (fns_of body) fs /\ Ties_methods (impl_scope std ms d t types) t fs over)
     end) ->
    Brings std ms m (IImpl tr T its) (own ++ over)%list
| B_none i : match i with IFn _ | IImpl _ _ _ => False | _ => True end -> Brings std ms m i [].

Inductive Brings_all (std : bool) (ms : modules) (m : list string) : items -> list (string * fn) -> Prop :=
| BA_end : Brings_all std ms m [] []
| BA_item a i its fs gs : Brings std ms m i fs -> Brings_all std ms m its gs ->
    Brings_all std ms m ((a, i) :: its) (fs ++ gs)%list.

Inductive Brings_modules (std : bool) (ms : modules) : modules -> list (string * fn) -> Prop :=
| BM_end : Brings_modules std ms [] []
| BM_module m its rest fs gs : Brings_all std ms m its fs -> Brings_modules std ms rest gs ->
    Brings_modules std ms ((m, its) :: rest) (fs ++ gs)%list.

(** ** Modules *)

(** Without [test], the items under [#[cfg(test)]] do not exist; there are no other conditions. *)
Definition Unconditional (a : list attr) : Prop := forall ws, In ws a -> List.hd "" ws <> "cfg".
Definition Only_tests (a : list attr) : Prop :=
  In ["cfg"; "test"] a /\ forall ws, In ws a -> List.hd "" ws = "cfg" -> ws = ["cfg"; "test"].
Inductive Enabled (test : bool) : items -> items -> Prop :=
| E_end : Enabled test [] []
| E_item a i its rest : Unconditional a -> Enabled test its rest -> Enabled test ((a, i) :: its) ((a, i) :: rest)
| E_test a i its rest : test = true -> Only_tests a ->
    Enabled test its rest -> Enabled test ((a, i) :: its) ((a, i) :: rest)
| E_not a i its rest : test = false -> Only_tests a ->
    Enabled test its rest -> Enabled test ((a, i) :: its) rest.

(** The file of the module [m]: a::b is a/b.rs. *)
Definition file_of (m : list string) : string := String.concat "/" m ++ ".rs".

(** The module [m] with the items [its] and the modules below it. *)
Inductive Modules (test : bool) (files : list (string * items)) : list string -> items -> modules -> Prop :=
| MS m its its' ms : Enabled test its its' -> Submodules test files m its' ms ->
    Modules test files m its ((m, its') :: ms)
with Submodules (test : bool) (files : list (string * items)) : list string -> items -> modules -> Prop :=
| SM_end m : Submodules test files m [] []
| SM_block m a x sub its ms ms' : Modules test files (m ++ [x])%list sub ms -> Submodules test files m its ms' ->
    Submodules test files m ((a, IMod x (Some sub)) :: its) (ms ++ ms')%list
| SM_file m a x sub its ms ms' : In (file_of (m ++ [x])%list, sub) files ->
    Modules test files (m ++ [x])%list sub ms -> Submodules test files m its ms' ->
    Submodules test files m ((a, IMod x None) :: its) (ms ++ ms')%list
| SM_other m a i its ms : (forall x sub, i <> IMod x sub) -> Submodules test files m its ms ->
    Submodules test files m ((a, i) :: its) ms.

(** The items inside traits and impls are unconditional. *)
Definition Inner_unconditional (ms : modules) : Prop :=
  forall m a i its b j, item_of ms m a i ->
    (exists x, i = ITrait x its) \/ (exists tr T, i = IImpl tr T its) -> In (b, j) its -> Unconditional b.

(** The types of the fields have a meaning. *)
Definition Fields_tied (std : bool) (ms : modules) : Prop :=
  forall m a i t, item_of ms m a i ->
    (exists x vs v ts, i = IEnum x vs /\ In (v, ts) vs /\ In t ts) \/
    (exists x fs y, i = IStruct x fs /\ In (y, t) fs) -> Ties_ty (module_scope std ms m) t t.

(** ** The crate *)

(** The files are those of the program [P], for a build with or without tests and std. *)
Definition Linked (std test : bool) (files : list (string * items)) (P : program) : Prop :=
  exists root ms, In ("lib.rs", root) files /\ Modules test files [] root ms /\
    Inner_unconditional ms /\ Fields_tied std ms /\
    Brings_modules std ms ms (p_fns P) /\
    p_tests P = flat_map module_tests ms /\
    p_derives P = flat_map module_derives ms /\
    p_enums P = flat_map module_enums ms /\
    p_structs P = flat_map module_structs ms.

(** The text [src] stands for the program [P]. *)
Definition stands_for (std test : bool) (src : list (line * list line)) (P : program) : Prop :=
  exists files, reads src files /\ Linked std test files P.
