(** What a program does when it runs, as relations without fuel and without continuations: the part of
    Rust the crate is written in.  Of SrcSem only the data types and [stop_of] are used, of Rust.v [platform], [panic]
    and [outcome].

    - References are not distinguished from what they point to: no value that is shared is assigned to.
    - A literal without a suffix is of the type [Lit], [x.into()] of the type [Into], until a declared
      type or the other operand says more.
    - A [Formatter] writes to a text that takes everything; what is written comes after the text so far.
    - The rules do not check types; a program that is not well typed may have no meaning. *)
From Coq Require Import ZArith List Bool String.
From Verif Require Import Rust SrcLine SrcLex SrcAst SrcNames SrcSem SpecNames.
From Verif Require SpecText.
Import ListNotations.
Local Open Scope Z_scope.
Local Open Scope string_scope.

(** The first binding of a name. *)
Inductive Finds {A} (x : string) (v : A) : list (string * A) -> Prop :=
| F_here l : Finds x v ((x, v) :: l)
| F_later y w l : x <> y -> Finds x v l -> Finds x v ((y, w) :: l).

(** ** Integers *)

Inductive Int_named : string -> ity -> Prop :=
| N_u8 : Int_named "u8" U8
| N_u16 : Int_named "u16" U16
| N_u32 : Int_named "u32" U32
| N_i32 : Int_named "i32" I32
| N_usize : Int_named "usize" Usize.

Definition has_size (t : ity) : Prop := match t with Lit | Into => False | _ => True end.
Definition is_unsigned (t : ity) : Prop := match t with U8 | U16 | U32 | Usize => True | _ => False end.

(** The common type of two operands. *)
Inductive Common : ity -> ity -> ity -> Prop :=
| C_same t : t <> Into -> Common t t t
| C_left t : t <> Into -> Common t Lit t
| C_right t : t <> Into -> Common Lit t t.

Section Integers.
Variable p : platform.

Definition bits (t : ity) : Z :=
  match t with U8 => 8 | U16 => 16 | U32 => 32 | I32 => 32 | Usize => usize_bits p | Lit | Into => 0 end.

(** The numbers of a type; a literal has no type yet. *)
Definition in_range (t : ity) (z : Z) : Prop :=
  match t with
  | I32 => - 2 ^ 31 <= z < 2 ^ 31
  | Lit | Into => True
  | _ => 0 <= z < 2 ^ bits t
  end.

(** [y] is the number of type [t] with the same low bits as [z]. *)
Definition Wraps (t : ity) (z y : Z) : Prop := in_range t y /\ exists k, z = y + k * 2 ^ bits t.

(** What becomes of a result [z] of type [t]. *)
Inductive Settles (t : ity) (z : Z) : outcome Z -> Prop :=
| Z_fits : in_range t z -> Settles t z (Ret z)
| Z_panics : ~ in_range t z -> overflow_checks p = true -> Settles t z (Panic POverflow)
| Z_wraps y : ~ in_range t z -> overflow_checks p = false -> Wraps t z y -> Settles t z (Ret y).

(** The amount by which a number of type [t] is shifted. *)
Inductive Amount (t : ity) (n : Z) : outcome Z -> Prop :=
| A_fits : 0 <= n < bits t -> Amount t n (Ret n)
| A_panics : ~ 0 <= n < bits t -> overflow_checks p = true -> Amount t n (Panic POverflow)
| A_wraps m : ~ 0 <= n < bits t -> overflow_checks p = false -> 0 <= m < bits t ->
    (exists k, n = m + k * bits t) -> Amount t n (Ret m).

Definition map_outcome {A B} (f : A -> B) (r : outcome A) : outcome B :=
  match r with Ret a => Ret (f a) | Panic w => Panic w end.

(** [a op b]; a shifted number may be of another type than the amount. *)
Inductive Operation : sign -> ity -> Z -> ity -> Z -> outcome value -> Prop :=
| O_plus t u c a b r : Common t u c -> Settles c (a + b) r -> Operation Plus t a u b (map_outcome (VInt c) r)
| O_minus t u c a b r : Common t u c -> Settles c (a - b) r -> Operation Minus t a u b (map_outcome (VInt c) r)
| O_and t u c a b z : Common t u c -> (forall i, 0 <= i -> Z.testbit z i = Z.testbit a i && Z.testbit b i) ->
    Operation Amp t a u b (Ret (VInt c z))
| O_or t u c a b z : Common t u c -> (forall i, 0 <= i -> Z.testbit z i = Z.testbit a i || Z.testbit b i) ->
    Operation Bar t a u b (Ret (VInt c z))
| O_eq t u c a b r : Common t u c -> (r = true <-> a = b) -> Operation EqEq t a u b (Ret (VBool r))
| O_ne t u c a b r : Common t u c -> (r = true <-> a <> b) -> Operation Ne t a u b (Ret (VBool r))
| O_ge t u c a b r : Common t u c -> (r = true <-> b <= a) -> Operation Ge t a u b (Ret (VBool r))
| O_shr t u a b r : has_size t -> Amount t b r ->
    Operation Shr t a u b (map_outcome (fun n => VInt t (a / 2 ^ n)) r)
| O_shl t u a b r : is_unsigned t -> Amount t b r ->
    Operation Shl t a u b (map_outcome (fun n => VInt t ((a * 2 ^ n) mod 2 ^ bits t)) r).

(** [T::f(..)] of a primitive type; and [Location::caller()], with which nothing is done. *)
Inductive Primitive : string -> string -> list value -> value -> Prop :=
| P_try_ok x t u z : Int_named x t -> is_unsigned t -> is_unsigned u -> z < 2 ^ bits t ->
    Primitive x "try_from" [VInt u z] (VEnum "Result" "Ok" [VInt t z])
| P_try_err x t u z : Int_named x t -> is_unsigned t -> is_unsigned u -> 2 ^ bits t <= z ->
    Primitive x "try_from" [VInt u z] (VEnum "Result" "Err" [VOpaque])
| P_from z : Primitive "u32" "from" [VInt U16 z] (VInt U32 z)
| P_caller x : (forall t, ~ Int_named x t) -> Primitive x "caller" [] VOpaque.

(** ** Declared types *)

(** [v] becomes [w] where the type is declared: the literals in it get their types.  Of the types that
    are not integers only the first argument, and only of a [Some] or [Ok], is looked at. *)
Definition some_or_ok (t c : string) : Prop := t = "Option" /\ c = "Some" \/ t = "Result" /\ c = "Ok".
Inductive Takes : ty -> value -> value -> Prop :=
| K_ref t v w : Takes t v w -> Takes (TyRef t) v w
| K_slice t vs ws : Takes_all t vs ws -> Takes (TySlice t) (VList vs) (VList ws)
| K_literal x a t z : Int_named x t -> in_range t z -> Takes (TyPath [x] a) (VInt Lit z) (VInt t z)
| K_into x a t z : Int_named x t -> Takes (TyPath [x] a) (VInt Into z) (VInt t z)
| K_int x a t z : Int_named x t -> Takes (TyPath [x] a) (VInt t z) (VInt t z)
| K_inner x a l t c v w : (forall i, ~ Int_named x i) -> some_or_ok t c -> Takes a v w ->
    Takes (TyPath [x] (a :: l)) (VEnum t c [v]) (VEnum t c [w])
| K_other x l v : (forall i, ~ Int_named x i) ->
    (l <> [] -> forall t c vs, v = VEnum t c vs -> ~ some_or_ok t c) -> Takes (TyPath [x] l) v v
| K_path q l v : List.length q <> 1%nat -> Takes (TyPath q l) v v
with Takes_all : ty -> list value -> list value -> Prop :=
| K_nil t : Takes_all t [] []
| K_cons t v w vs ws : Takes t v w -> Takes_all t vs ws -> Takes_all t (v :: vs) (w :: ws).

Inductive Takes_if : option ty -> value -> value -> Prop :=
| K_none v : Takes_if None v v
| K_some t v w : Takes t v w -> Takes_if (Some t) v w.

(** The parameters get the arguments; the last one is in front. *)
Inductive Binds : list (string * option ty) -> list value -> env -> env -> Prop :=
| B_nil s : Binds [] [] s s
| B_cons x t ps v w vs s s' : Takes_if t v w -> Binds ps vs ((x, w) :: s) s' ->
    Binds ((x, t) :: ps) (v :: vs) s s'.

End Integers.

(** ** Patterns *)

(** [Meets q v b r]: matching [v] with [q], after the bindings [b], comes to the bindings [r], or to
    [None] where it does not match. *)
Inductive Meets : pat -> value -> env -> option env -> Prop :=
| M_wild v b : Meets PWild v b (Some b)
| M_bind x v b : Meets (PBind x) v b (Some ((x, v) :: b))
| M_lit z t b : Meets (PLit z) (VInt t z) b (Some b)
| M_not_lit z y t b : y <> z -> Meets (PLit z) (VInt t y) b None
| M_range lo hi t y b : lo <= y <= hi -> Meets (PRange lo hi) (VInt t y) b (Some b)
| M_not_range lo hi t y b : ~ lo <= y <= hi -> Meets (PRange lo hi) (VInt t y) b None
| M_ctor t c ps vs b r : Meets_all ps vs b r -> Meets (PCtor t c ps) (VEnum t c vs) b r
| M_not_ctor t c d ps vs b : d <> c -> Meets (PCtor t c ps) (VEnum t d vs) b None
| M_tuple ps vs b r : Meets_all ps vs b r -> Meets (PTuple ps) (VTuple vs) b r
| M_no_or v b : Meets (POr []) v b None
| M_or_first q qs v b b' : Meets q v b (Some b') -> Meets (POr (q :: qs)) v b (Some b')
| M_or_next q qs v b r : Meets q v b None -> Meets (POr qs) v b r -> Meets (POr (q :: qs)) v b r
with Meets_all : list pat -> list value -> env -> option env -> Prop :=
| M_nil b : Meets_all [] [] b (Some b)
| M_cons q qs v vs b b' r : Meets q v b (Some b') -> Meets_all qs vs b' r -> Meets_all (q :: qs) (v :: vs) b r
| M_misses q qs v vs b : Meets q v b None -> Meets_all (q :: qs) (v :: vs) b None.

(** The first arm that matches. *)
Inductive Picks (v : value) : list (pat * expr) -> env -> expr -> Prop :=
| Q_here q e l b : Meets q v [] (Some b) -> Picks v ((q, e) :: l) b e
| Q_later q e l b e' : Meets q v [] None -> Picks v l b e' -> Picks v ((q, e) :: l) b e'.

(** ** What is derived *)

Section Meaning.
Variable P : program.
Variable p : platform.

Definition comparable (t : string) : Prop :=
  t = "Option" \/ t = "Result" \/ exists ds, In (t, ds) (p_derives P) /\ In "PartialEq" ds.

(** [a == b] is [r]; the fields are compared from left to right. *)
Inductive Equal : value -> value -> bool -> Prop :=
| Q_int t u c x y r : Common t u c -> (r = true <-> x = y) -> Equal (VInt t x) (VInt u y) r
| Q_bool x y r : (r = true <-> x = y) -> Equal (VBool x) (VBool y) r
| Q_unit : Equal VUnit VUnit true
| Q_enum t c xs ys r : comparable t -> Equal_all xs ys r -> Equal (VEnum t c xs) (VEnum t c ys) r
| Q_variant t c d xs ys : comparable t -> c <> d -> Equal (VEnum t c xs) (VEnum t d ys) false
| Q_struct t xs ys r : (exists ds, In (t, ds) (p_derives P) /\ In "PartialEq" ds) -> Equal_fields xs ys r ->
    Equal (VStruct t xs) (VStruct t ys) r
with Equal_all : list value -> list value -> bool -> Prop :=
| Q_nil : Equal_all [] [] true
| Q_cons x y xs ys r : Equal x y true -> Equal_all xs ys r -> Equal_all (x :: xs) (y :: ys) r
| Q_differ x y xs ys : Equal x y false -> Equal_all (x :: xs) (y :: ys) false
with Equal_fields : list (string * value) -> list (string * value) -> bool -> Prop :=
| Q_no_field : Equal_fields [] [] true
| Q_field f x y xs ys r : Equal x y true -> Equal_fields xs ys r -> Equal_fields ((f, x) :: xs) ((f, y) :: ys) r
| Q_field_differs f x y xs ys : Equal x y false -> Equal_fields ((f, x) :: xs) ((f, y) :: ys) false.

Definition debuggable (t : string) : Prop :=
  t = "Option" \/ t = "Result" \/ exists ds, Finds t ds (p_derives P) /\ In "Debug" ds.

(** The text of [{:?}]. *)
Inductive Debugs : value -> string -> Prop :=
| G_int t z s : t = Usize \/ t = I32 -> SpecText.decimal s z -> Debugs (VInt t z) s
| G_bool b : Debugs (VBool b) (if b then "true" else "false")
| G_unit t c : debuggable t -> Debugs (VEnum t c []) c
| G_tuple t c vs ss : debuggable t -> vs <> [] -> Debugs_all vs ss ->
    Debugs (VEnum t c vs) (c ++ "(" ++ String.concat ", " ss ++ ")")
| G_struct t ds fs ss : (exists ds, Finds t ds (p_derives P) /\ In "Debug" ds) ->
    Finds t ds (p_structs P) -> map fst ds = map fst fs -> fs <> [] -> Debugs_all (map snd fs) ss ->
    Debugs (VStruct t fs)
      (t ++ " { " ++ String.concat ", " (map (fun fs => fst fs ++ ": " ++ snd fs) (combine (map fst fs) ss)) ++ " }")
with Debugs_all : list value -> list string -> Prop :=
| G_nil : Debugs_all [] []
| G_cons v s vs ss : Debugs v s -> Debugs_all vs ss -> Debugs_all (v :: vs) (s :: ss).

(** The digits of [{:x}].  (No number of type usize is negative; the last rule is there so that the
    text of one is fixed as well.) *)
Inductive Hex : ity -> Z -> string -> Prop :=
| H_i32 z s : SpecText.hexadecimal32 s z -> Hex I32 z s
| H_usize z s : 0 <= z -> SpecText.numeral 16 s z -> Hex Usize z s
| H_negative z s : z < 0 -> SpecText.numeral 16 s (z mod 16) -> Hex Usize z s.

(** ** Running *)

(** How an expression ends: with a value, the variables and the text written; by [return] or a failing
    [?]; by a panic. *)
Inductive flow :=
| Goes (v : value) (s : env) (o : string)
| Returns (v : value) (o : string)
| Stops (w : stop).
Definition abrupt (f : flow) : Prop := match f with Goes _ _ _ => False | _ => True end.

(** The same for expressions from left to right, for a call, and for a format string. *)
Inductive flows := All_go (vs : list value) (s : env) (o : string) | Breaks (f : flow).
Inductive reply := Gives (v : value) (o : string) | Dies (w : stop).
Inductive written := Wrote (o : string) | Broke (w : stop).

(** Back from a call to the variables [s]. *)
Definition back (s : env) (r : reply) : flow :=
  match r with Gives v o => Goes v s o | Dies w => Stops w end.
(** The end of a body is the end of a call. *)
Inductive Ends : flow -> reply -> Prop :=
| D_goes v s o : Ends (Goes v s o) (Gives v o)
| D_returns v o : Ends (Returns v o) (Gives v o)
| D_stops w : Ends (Stops w) (Dies w).
(** At the end of a block the variables bound since [s] are dropped. *)
Inductive Leaves (s : env) : flow -> flow -> Prop :=
| L_goes v d s' o : List.length s' = List.length s -> Leaves s (Goes v (d ++ s')%list o) (Goes v s' o)
| L_abrupt f : abrupt f -> Leaves s f f.
(** What a call of [fmt] has written. *)
Inductive Says_ok : reply -> written -> Prop :=
| S_ok vs o : Says_ok (Gives (VEnum "Result" "Ok" vs) o) (Wrote o)
| S_dies w : Says_ok (Dies w) (Broke w).
Definition result (s : env) (o : string) (r : outcome value) : flow :=
  match r with Ret v => Goes v s o | Panic w => Stops (Why w) end.

(** The parts of an expression that are evaluated first.  (The argument of [unwrap_or_else] is a closure,
    which is not called where there is a value.) *)
Definition parts (e : expr) : list expr :=
  match e with
  | ERef a | EDeref a | ENeg a | EField a _ | ETry a | EAs a _ | EMatches a _ | EReturn (Some a)
  | EAssign _ _ a | EFor _ a _ | EIf a _ _ | EMatch a _ => [a]
  | EBin _ a b => [a; b]
  | ECall _ es | EArr es | EPrint _ es => es
  | EMeth a m es =>
      match es with
      | [EClos _ _] => if m =? "unwrap_or_else" then [a] else a :: es
      | _ => a :: es
      end
  | ERecord _ fs => map snd fs
  | EWrite f _ es => f :: es
  | EMac m es =>
      if m =? "assert" then firstn 1 es
      else if (m =? "assert_eq") || (m =? "assert_ne") then firstn 2 es
      else []
  | _ => []
  end.

Definition std_variant (t c : string) : Prop :=
  some_or_ok t c \/ t = "Option" /\ c = "None" \/ t = "Result" /\ c = "Err".

(** The type of a value whose methods are those of the crate. *)
Inductive Methods_of : value -> string -> Prop :=
| V_int x t z : Int_named x t -> Methods_of (VInt t z) x
| V_enum t c vs : ~ std_variant t c -> Methods_of (VEnum t c vs) t
| V_struct t fs : Methods_of (VStruct t fs) t.

(** The elements with their places. *)
Inductive Numbers : Z -> list value -> list value -> Prop :=
| U_nil i : Numbers i [] []
| U_cons i v l l' : Numbers (i + 1) l l' -> Numbers i (v :: l) (VTuple [VInt Usize i; v] :: l').

(** The methods that are not those of the crate. *)
Inductive Builtin : value -> string -> list value -> outcome value -> Prop :=
| I_pow t a u b r : Settles p t (a ^ b) r -> Builtin (VInt t a) "pow" [VInt u b] (map_outcome (VInt t) r)
| I_into a : Builtin (VInt U8 a) "into" [] (Ret (VInt Into a))
| I_get t c v m vs : some_or_ok t c -> m = "unwrap" \/ m = "expect" \/ m = "unwrap_or_else" ->
    Builtin (VEnum t c [v]) m vs (Ret v)
| I_unwrap t c ws vs : std_variant t c -> ~ some_or_ok t c -> Builtin (VEnum t c ws) "unwrap" vs (Panic PUnwrap)
| I_expect t c ws vs : std_variant t c -> ~ some_or_ok t c -> Builtin (VEnum t c ws) "expect" vs (Panic PExpect)
| I_iter l vs : Builtin (VList l) "iter" vs (Ret (VList l))
| I_rev l vs : Builtin (VList l) "rev" vs (Ret (VList (rev l)))
| I_enumerate l l' vs : Numbers 0 l l' -> Builtin (VList l) "enumerate" vs (Ret (VList l'))
| I_opaque m vs : Builtin VOpaque m vs (Ret VOpaque).

(** [Eval e s o f]: [e], with the variables [s], after [o] has been written, ends with [f].
    [Then e vs s o f]: the same, when the parts of [e] have the values [vs].
    [Block ss a s o f]: statements and the expression at the end.  [Loop q e l s o f]: the body [e] of
    [for q in l].  [Shows spec v o w]: a placeholder.  [Formats ps s vs o w]: a format string.
    [Method r m vs o a]: a method of the value [r].  [Calls key vs o a]: a call of a function. *)
Inductive Eval : expr -> env -> string -> flow -> Prop :=
| E_break e s o f : Evals (parts e) s o (Breaks f) -> Eval e s o f
| E_then e s o vs s1 o1 f : Evals (parts e) s o (All_go vs s1 o1) -> Then e vs s1 o1 f -> Eval e s o f
with Evals : list expr -> env -> string -> flows -> Prop :=
| Es_nil s o : Evals [] s o (All_go [] s o)
| Es_stop e es s o f : Eval e s o f -> abrupt f -> Evals (e :: es) s o (Breaks f)
| Es_later e es s o v s1 o1 f : Eval e s o (Goes v s1 o1) -> Evals es s1 o1 (Breaks f) ->
    Evals (e :: es) s o (Breaks f)
| Es_go e es s o v s1 o1 vs s2 o2 : Eval e s o (Goes v s1 o1) -> Evals es s1 o1 (All_go vs s2 o2) ->
    Evals (e :: es) s o (All_go (v :: vs) s2 o2)
with Then : expr -> list value -> env -> string -> flow -> Prop :=
| T_literal z s o : Then (ELit z "") [] s o (Goes (VInt Lit z) s o)
| T_suffix z x t s o : Int_named x t -> in_range p t z -> Then (ELit z x) [] s o (Goes (VInt t z) s o)
| T_bool b s o : Then (EBool b) [] s o (Goes (VBool b) s o)
| T_str t s o : Then (EStr t) [] s o (Goes (VStr t) s o)
| T_var x v s o : Finds x v s -> Then (EVar x) [] s o (Goes v s o)
| T_unit_variant t c s o : Then (ECtor t c) [] s o (Goes (VEnum t c []) s o)
| T_ref a v s o : Then (ERef a) [v] s o (Goes v s o)
| T_deref a v s o : Then (EDeref a) [v] s o (Goes v s o)
| T_neg_literal a z s o : Then (ENeg a) [VInt Lit z] s o (Goes (VInt Lit (- z)) s o)
| T_neg a z r s o : Settles p I32 (- z) r ->
    Then (ENeg a) [VInt I32 z] s o (result s o (map_outcome (VInt I32) r))
| T_bin op a b t x u y r s o : Operation p op t x u y r ->
    Then (EBin op a b) [VInt t x; VInt u y] s o (result s o r)
| T_as a x l t u z y s o : has_size u -> Int_named x t -> Wraps p t z y ->
    Then (EAs a (TyPath [x] l)) [VInt u z] s o (Goes (VInt t y) s o)
| T_field a f t fs v s o : Finds f v fs -> Then (EField a f) [VStruct t fs] s o (Goes v s o)
| T_try_ok a v s o : Then (ETry a) [VEnum "Result" "Ok" [v]] s o (Goes v s o)
| T_try_err a c v s o : c <> "Ok" -> Then (ETry a) [VEnum "Result" c [v]] s o (Returns (VEnum "Result" c [v]) o)
| T_array es vs s o : Then (EArr es) vs s o (Goes (VList vs) s o)
| T_struct t fs vs s o : Then (ERecord t fs) vs s o (Goes (VStruct t (combine (map fst fs) vs)) s o)
| T_closure ps b s o : Then (EClos ps b) [] s o (Goes (VClos s ps b) s o)
| T_variant t c es vs s o : Then (ECall (ECtor t c) es) vs s o (Goes (VEnum t c vs) s o)
| T_primitive t m es vs v s o : Primitive p t m vs v -> Then (ECall (EPrim t m) es) vs s o (Goes v s o)
| T_call key es vs s o a : Calls key vs o a -> Then (ECall (EFn key) es) vs s o (back s a)
| T_apply x es vs s o cs ps b cs' f a : Finds x (VClos cs ps b) s -> Binds p ps vs cs cs' -> Eval b cs' o f ->
    Ends f a -> Then (ECall (EVar x) es) vs s o (back s a)
| T_method e m es r vs s o a : Method r m vs o a -> Then (EMeth e m es) (r :: vs) s o (back s a)
| T_if_true c e e' s o f : Eval e s o f -> Then (EIf c e e') [VBool true] s o f
| T_if_false c e e' s o f : Eval e' s o f -> Then (EIf c e (Some e')) [VBool false] s o f
| T_if_none c e s o : Then (EIf c e None) [VBool false] s o (Goes VUnit s o)
| T_match a arms v b e s o f f' : Picks v arms b e -> Eval e (b ++ s)%list o f -> Leaves s f f' ->
    Then (EMatch a arms) [v] s o f'
| T_matches a q v r s o : Meets q v [] r ->
    Then (EMatches a q) [v] s o (Goes (VBool match r with Some _ => true | None => false end) s o)
| T_block ss a s o f f' : Block ss a s o f -> Leaves s f f' -> Then (EBlock ss a) [] s o f'
| T_for q a e l s o f : Loop q e l s o f -> Then (EFor q a e) [VList l] s o f
| T_return a v s o : Then (EReturn (Some a)) [v] s o (Returns v o)
| T_return_unit s o : Then (EReturn None) [] s o (Returns VUnit o)
| T_assign op x a t i u j w s1 s2 o : Operation p op t i u j (Ret w) -> ~ In x (map fst s1) ->
    Then (EAssign op x a) [VInt u j] (s1 ++ (x, VInt t i) :: s2)%list o
      (Goes VUnit (s1 ++ (x, w) :: s2)%list o)
| T_assign_panics op x a t i u j w s o : Finds x (VInt t i) s -> Operation p op t i u j (Panic w) ->
    Then (EAssign op x a) [VInt u j] s o (Stops (Why w))
| T_unreachable es s o : Then (EMac "unreachable" es) [] s o (Stops (Why PUnreachable))
| T_panic t es s o : Then (EMac "panic" (EStr t :: es)) [] s o (Stops (stop_of t))
| T_assert es b s o : Then (EMac "assert" es) [VBool b] s o (if b then Goes VUnit s o else Stops (Why PAssert))
| T_assert_eq es x y r s o : Equal x y r ->
    Then (EMac "assert_eq" es) [x; y] s o (if r then Goes VUnit s o else Stops (Why PAssert))
| T_assert_ne es x y r s o : Equal x y r ->
    Then (EMac "assert_ne" es) [x; y] s o (if r then Stops (Why PAssert) else Goes VUnit s o)
| T_write f ps es vs s o o' : Formats ps s vs o (Wrote o') ->
    Then (EWrite f ps es) (VFmt :: vs) s o (Goes (VEnum "Result" "Ok" [VUnit]) s o')
| T_write_panics f ps es vs s o w : Formats ps s vs o (Broke w) ->
    Then (EWrite f ps es) (VFmt :: vs) s o (Stops w)
| T_print ps es vs s o o' : Formats ps s vs o (Wrote o') -> Then (EPrint ps es) vs s o (Goes VUnit s o')
| T_print_panics ps es vs s o w : Formats ps s vs o (Broke w) -> Then (EPrint ps es) vs s o (Stops w)
with Block : list stmt -> option expr -> env -> string -> flow -> Prop :=
| B_end s o : Block [] None s o (Goes VUnit s o)
| B_value a s o f : Eval a s o f -> Block [] (Some a) s o f
| B_let x t e ss a s o v w s1 o1 f : Eval e s o (Goes v s1 o1) -> Takes_if p t v w ->
    Block ss a ((x, w) :: s1) o1 f -> Block (SLet x t e :: ss) a s o f
| B_let_stop x t e ss a s o f : Eval e s o f -> abrupt f -> Block (SLet x t e :: ss) a s o f
| B_expr e ss a s o v s1 o1 f : Eval e s o (Goes v s1 o1) -> Block ss a s1 o1 f -> Block (SExpr e :: ss) a s o f
| B_expr_stop e ss a s o f : Eval e s o f -> abrupt f -> Block (SExpr e :: ss) a s o f
| B_use us ss a s o f : Block ss a s o f -> Block (SUse us :: ss) a s o f
with Loop : pat -> expr -> list value -> env -> string -> flow -> Prop :=
| L_end q e s o : Loop q e [] s o (Goes VUnit s o)
| L_next q e v l b s o f w s1 o1 g : Meets q v [] (Some b) -> Eval e (b ++ s)%list o f ->
    Leaves s f (Goes w s1 o1) -> Loop q e l s1 o1 g -> Loop q e (v :: l) s o g
| L_stop q e v l b s o f : Meets q v [] (Some b) -> Eval e (b ++ s)%list o f -> abrupt f -> Loop q e (v :: l) s o f
with Shows : string -> value -> string -> written -> Prop :=
| S_int t z o d : SpecText.decimal d z -> Shows "" (VInt t z) o (Wrote (o ++ d))
| S_str t o : Shows "" (VStr t) o (Wrote (o ++ t))
| S_enum t c vs o a w : Calls (t ++ ".fmt") [VEnum t c vs; VFmt] o a -> Says_ok a w -> Shows "" (VEnum t c vs) o w
| S_struct t fs o a w : Calls (t ++ ".fmt") [VStruct t fs; VFmt] o a -> Says_ok a w -> Shows "" (VStruct t fs) o w
| S_hex t z o d : Hex t z d -> Shows "x" (VInt t z) o (Wrote (o ++ d))
| S_hash t z o d : Hex t z d -> Shows "#x" (VInt t z) o (Wrote (o ++ "0x" ++ d))
| S_debug v o a w : Calls "{:?}" [v; VFmt] o a -> Says_ok a w -> Shows "?" v o w
with Formats : list piece -> env -> list value -> string -> written -> Prop :=
| F_end s o : Formats [] s [] o (Wrote o)
| F_text t ps s vs o w : Formats ps s vs (o ++ t) w -> Formats (FText t :: ps) s vs o w
| F_next spec ps s v vs o o' w : Shows spec v o (Wrote o') -> Formats ps s vs o' w ->
    Formats (FNext spec :: ps) s (v :: vs) o w
| F_next_stop spec ps s v vs o w : Shows spec v o (Broke w) -> Formats (FNext spec :: ps) s (v :: vs) o (Broke w)
| F_var x spec ps s v vs o o' w : Finds x v s -> Shows spec v o (Wrote o') -> Formats ps s vs o' w ->
    Formats (FVar x spec :: ps) s vs o w
| F_var_stop x spec ps s v vs o w : Finds x v s -> Shows spec v o (Broke w) ->
    Formats (FVar x spec :: ps) s vs o (Broke w)
with Method : value -> string -> list value -> string -> reply -> Prop :=
| M_builtin r m vs o v : Builtin r m vs (Ret v) -> Method r m vs o (Gives v o)
| M_builtin_panics r m vs o w : Builtin r m vs (Panic w) -> Method r m vs o (Dies (Why w))
| M_crate r m vs o t a : Methods_of r t -> ~ ((exists i z, r = VInt i z) /\ (m = "pow" \/ m = "into")) ->
    Calls (t ++ "." ++ m) (r :: vs) o a -> Method r m vs o a
with Calls : string -> list value -> string -> reply -> Prop :=
| C_fn key fn vs o s body f a b : Finds key fn (p_fns P) ->
    Binds p (map (fun xt => (fst xt, Some (snd xt))) (f_params fn)) vs [] s ->
    f_body fn = Some body -> Eval body s o f -> Ends f a ->
    match a, b with
    | Gives v o1, Gives w o2 => Takes_if p (f_ret fn) v w /\ o1 = o2
    | Dies w, Dies w' => w = w'
    | _, _ => False
    end -> Calls key vs o b
| C_debug v o d : ~ In "{:?}" (map fst (p_fns P)) -> Debugs v d ->
    Calls "{:?}" [v; VFmt] o (Gives (VEnum "Result" "Ok" [VUnit]) (o ++ d)).

End Meaning.

(** [src] stands for a program ([std]: the names of std are there, [test]: built for tests), and its
    function [key], called with [vs] after [o] has been written, ends with [r]. *)
Definition means (std test : bool) (src : list (line * list line))
  (p : platform) (key : string) (vs : list value) (o : string) (r : reply) : Prop :=
  exists P, stands_for std test src P /\ Calls P p key vs o r.

(** The evaluator's word for a reply. *)
Definition answer (r : reply) : ans := match r with Gives v o => Done v o | Dies w => Halt w end.
