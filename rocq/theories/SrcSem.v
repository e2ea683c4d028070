(** What a program of SrcLink does when it runs: an evaluator for the part of Rust the crate
    is written in, in continuation-passing style.  Integer arithmetic is that of Rust.v,
    integer formatting that of Fmt.v.

    - Values carry their integer type.  Type inference of Rust is replaced by this: a literal
      without a suffix has the type [Lit] until it meets a typed value or a declared type.
    - References are not distinguished from what they point to: no value that is shared is
      ever assigned to ([|=] is only used on a local).
    - A [Formatter] writes to a text that takes everything.
    - Anything else ends in [Wrong]: a type error, a missing function, no fuel. *)
From Coq Require Import ZArith List Bool String.
From Verif Require Import Rust Fmt Debug SrcLex SrcAst SrcParse SrcLink.
Import ListNotations.
Local Open Scope Z_scope.
Local Open Scope string_scope.

(** [Into] is the type of [x.into()] for a [u8]: the declared type, which holds every [u8]. *)
Inductive ity := U8 | U16 | U32 | I32 | Usize | Lit | Into.

Inductive value :=
| VInt (t : ity) (z : Z)
| VBool (b : bool)
| VStr (s : string)
| VUnit
| VEnum (t v : string) (args : list value)
| VStruct (t : string) (fs : list (string * value))
| VTuple (vs : list value)
| VList (vs : list value)                 (* array, slice or iterator *)
| VClos (env : list (string * value)) (params : list (string * option ty)) (body : expr)
| VFmt                                    (* the formatter *)
| VOpaque.                                (* a value nothing is done with *)

Inductive stop :=
| Why (w : panic)                         (* the panics Rust.v knows *)
| Says (s : string).                      (* any other panic!("..") *)

Definition stop_of (s : string) : stop :=
  if s =? "unknown register" then Why PUnknownReg else Says s.

Inductive ans :=
| Done (v : value) (out : string)         (* the value, and what was written *)
| Halt (w : stop)                         (* a panic *)
| Wrong (s : string).                     (* not a run of a well-typed program *)

Definition env := list (string * value).

(** ** Integers *)

Definition ity_eqb (a b : ity) : bool :=
  match a, b with
  | U8, U8 | U16, U16 | U32, U32 | I32, I32 | Usize, Usize | Lit, Lit | Into, Into => true
  | _, _ => false
  end.

Definition prim_ity (s : string) : option ity :=
  if s =? "u8" then Some U8 else if s =? "u16" then Some U16 else if s =? "u32" then Some U32
  else if s =? "i32" then Some I32 else if s =? "usize" then Some Usize else None.

Definition ity_name (t : ity) : string :=
  match t with
  | U8 => "u8" | U16 => "u16" | U32 => "u32" | I32 => "i32" | Usize => "usize" | Lit | Into => ""
  end.

Definition width (p : platform) (t : ity) : Z :=
  match t with U8 => 8 | U16 => 16 | U32 => 32 | I32 => 32 | Usize => usize_bits p | Lit | Into => 0 end.

(** An operation on type [t] whose exact result is [v]. *)
Definition checked (p : platform) (t : ity) (v : Z) : outcome Z :=
  match t with
  | I32 => ck_i32 p v
  | Lit | Into => Ret v
  | _ => ck_u (width p t) p v
  end.

(** Sequencing of an outcome. *)
Definition seq (m : outcome Z) (k : Z -> ans) : ans :=
  match m with Ret z => k z | Panic w => Halt (Why w) end.

(** The common type of two operands. *)
Definition join (a b : ity) : option ity :=
  match a, b with
  | Into, _ | _, Into => None
  | Lit, _ => Some b
  | _, Lit => Some a
  | _, _ => if ity_eqb a b then Some a else None
  end.

(** [e as t] *)
Definition cast (p : platform) (t : ity) (z : Z) : Z :=
  match t with
  | I32 => as_i32 z
  | Usize => as_usize p z
  | Lit | Into => z
  | _ => z mod 2 ^ width p t
  end.

Definition arith (p : platform) (op : sign) (ta : ity) (a : Z) (tb : ity) (b : Z)
  (k : value -> ans) : ans :=
  match op with
  | Shr =>
      match ta with
      | Lit | Into => Wrong "shift of an untyped literal"
      | _ => seq (shr (width p ta) p a b) (fun z => k (VInt ta z))
      end
  | Shl =>
      match ta with
      | Lit | Into | I32 => Wrong "shift left"
      | _ => seq (shl_u (width p ta) p a b) (fun z => k (VInt ta z))
      end
  | _ =>
      match join ta tb with
      | None => Wrong "operands of different types"
      | Some t =>
          match op with
          | Plus => seq (checked p t (a + b)) (fun z => k (VInt t z))
          | Minus => seq (checked p t (a - b)) (fun z => k (VInt t z))
          | Amp => k (VInt t (Z.land a b))
          | Bar => k (VInt t (Z.lor a b))
          | EqEq => k (VBool (Z.eqb a b))
          | Ne => k (VBool (negb (Z.eqb a b)))
          | Ge => k (VBool (Z.geb a b))
          | _ => Wrong "operator"
          end
      end
  end.

(** ** Types of declarations *)

Definition is_variant (t v : string) (x : value) : bool :=
  match x with VEnum t' v' _ => (t' =? t) && (v' =? v) | _ => false end.

Definition between (lo z hi : Z) : bool :=
  match (lo ?= z)%Z, (z ?= hi)%Z with
  | Datatypes.Gt, _ | _, Datatypes.Gt => false
  | _, _ => true
  end.

(** Whether the literal [z] may have type [t]; a [usize] literal has to fit the smallest
    [usize]. *)
Definition literal_fits (t : ity) (z : Z) : bool :=
  match t with
  | I32 => between (-0x80000000) z 0x7fffffff
  | U8 => between 0 z 0xff
  | U16 | Usize => between 0 z 0xffff
  | U32 => between 0 z 0xffffffff
  | Lit | Into => true
  end.

(** The same for a literal with a suffix, where the size of [usize] is known. *)
Definition suffix_fits (p : platform) (t : ity) (z : Z) : bool :=
  match t with Usize => (0 <=? z)%Z && (z <? 2 ^ usize_bits p)%Z | _ => literal_fits t z end.

(** [v] where the type [t] is declared: the literals in it get their types. *)
Fixpoint coerce (fuel : nat) (t : ty) (v : value) : option value :=
  match fuel with
  | O => None
  | S n =>
      match t with
      | TyRef t' => coerce n t' v
      | TySlice t' =>
          match v with VList vs => option_map VList (mapo (coerce n t') vs) | _ => None end
      | TyPath [x] args =>
          match prim_ity x with
          | Some i =>
              match v with
              | VInt Lit z => if literal_fits i z then Some (VInt i z) else None
              | VInt Into z => Some (VInt i z)
              | VInt j z => if ity_eqb i j then Some v else None
              | _ => None
              end
          | None =>
              match args with
              | a :: _ =>
                  if is_variant "Option" "Some" v || is_variant "Result" "Ok" v then
                    match v with
                    | VEnum t' v' [w] => option_map (fun w' => VEnum t' v' [w']) (coerce n a w)
                    | _ => None
                    end
                  else Some v
              | [] => Some v
              end
          end
      | _ => Some v
      end
  end.

Definition coerce_opt (t : option ty) (v : value) : option value :=
  match t with Some t' => coerce 10 t' v | None => Some v end.

(** ** Patterns *)

(** [ks] gets the bindings of a match on top of [b]; [kf] is for no match. *)
Fixpoint pmatch (p : pat) (v : value) (b : env) (ks : env -> ans) (kf : unit -> ans) : ans :=
  match p with
  | PWild => ks b
  | PBind x => ks ((x, v) :: b)
  | PLit z => match v with VInt _ y => if (y =? z)%Z then ks b else kf tt | _ => Wrong "pattern" end
  | PRange lo hi =>
      match v with
      | VInt _ y => if ((lo <=? y) && (y <=? hi))%Z then ks b else kf tt
      | _ => Wrong "pattern"
      end
  | PCtor t c ps =>
      match v with
      | VEnum t' c' vs =>
          if t' =? t then
            if c' =? c then
              (fix all (ps : list pat) (vs : list value) (b : env) : ans :=
                 match ps, vs with
                 | [], [] => ks b
                 | p :: ps', v :: vs' => pmatch p v b (fun b' => all ps' vs' b') kf
                 | _, _ => Wrong "pattern"
                 end) ps vs b
            else kf tt
          else Wrong "pattern"
      | _ => Wrong "pattern"
      end
  | PTuple ps =>
      match v with
      | VTuple vs =>
          (fix all (ps : list pat) (vs : list value) (b : env) : ans :=
             match ps, vs with
             | [], [] => ks b
             | p :: ps', v :: vs' => pmatch p v b (fun b' => all ps' vs' b') kf
             | _, _ => Wrong "pattern"
             end) ps vs b
      | _ => Wrong "pattern"
      end
  | POr ps =>
      (fix any (ps : list pat) : ans :=
         match ps with
         | [] => kf tt
         | p :: ps' => pmatch p v b ks (fun _ => any ps')
         end) ps
  | _ => Wrong "pattern"
  end.

(** ** Values *)

(** Derived equality; [derived] are the types with [#[derive(PartialEq)]]. *)
Fixpoint veq (fuel : nat) (derived : list string) (a b : value) : option bool :=
  match fuel with
  | O => None
  | S n =>
      let vs_eq := fix vs_eq (xs ys : list value) : option bool :=
        match xs, ys with
        | [], [] => Some true
        | x :: xs', y :: ys' =>
            match veq n derived x y with
            | Some true => vs_eq xs' ys'
            | r => r
            end
        | _, _ => None
        end in
      match a, b with
      | VInt t x, VInt u y => match join t u with Some _ => Some (x =? y)%Z | None => None end
      | VBool x, VBool y => Some (Bool.eqb x y)
      | VUnit, VUnit => Some true
      | VEnum t c xs, VEnum u d ys =>
          if (t =? u) && existsb (String.eqb t) ("Option" :: "Result" :: derived) then
            if c =? d then vs_eq xs ys else Some false
          else None
      | VStruct t xs, VStruct u ys =>
          if (t =? u) && existsb (String.eqb t) derived then
            (fix fs_eq (xs ys : list (string * value)) : option bool :=
               match xs, ys with
               | [], [] => Some true
               | (f, x) :: xs', (g, y) :: ys' =>
                   if f =? g then
                     match veq n derived x y with Some true => fs_eq xs' ys' | r => r end
                   else None
               | _, _ => None
               end) xs ys
          else None
      | _, _ => None
      end
  end.

(** The type whose methods a value has. *)
Definition type_name (v : value) : option string :=
  match v with
  | VInt Lit _ | VInt Into _ => None
  | VInt t _ => Some (ity_name t)
  | VEnum t _ _ | VStruct t _ => Some t
  | _ => None
  end.

Fixpoint number_from (i : Z) (vs : list value) : list value :=
  match vs with
  | [] => []
  | v :: vs' => VTuple [VInt Usize i; v] :: number_from (i + 1) vs'
  end.

Fixpoint update (x : string) (v : value) (s : env) : env :=
  match s with
  | [] => []
  | (y, w) :: s' => if x =? y then (y, v) :: s' else (y, w) :: update x v s'
  end.

(** Bindings of the parameters, the last one in front. *)
Fixpoint bind_params (ps : list (string * option ty)) (vs : list value) (s : env) : option env :=
  match ps, vs with
  | [], [] => Some s
  | (x, t) :: ps', v :: vs' =>
      match coerce_opt t v with Some v' => bind_params ps' vs' ((x, v') :: s) | None => None end
  | _, _ => None
  end.

(** Drop what was bound since the environment [s]. *)
Definition leave (s s' : env) : env := skipn (List.length s' - List.length s) s'.

Definition ok_unit : value := VEnum "Result" "Ok" [VUnit].

(** [v?] *)
Definition question (v : value) (k : value -> ans) (fails : ans) : ans :=
  match v with
  | VEnum t c [x] => if t =? "Result" then if c =? "Ok" then k x else fails else Wrong "?"
  | _ => Wrong "?"
  end.

(** [for]: one element after the other. *)
Fixpoint each (body : value -> env -> string -> (env -> string -> ans) -> ans) (l : list value)
  (s : env) (o : string) (k : env -> string -> ans) : ans :=
  match l with
  | [] => k s o
  | x :: l' => body x s o (fun s' o' => each body l' s' o' k)
  end.

(** The text [t] is written after [o]. *)
Definition write (o t : string) : string := o ++ t.

(** ** Expressions *)

Section eval.

Variable p : platform.
Variable derived : list string.
(** A call of the function with the given key; the text written so far. *)
Variable call : string -> list value -> string -> (value -> string -> ans) -> ans.

(** [T::m(..)] of the primitive types *)
Definition prim_call (t m : string) (vs : list value) (k : value -> ans) : ans :=
  match prim_ity t, vs with
  | Some i, [VInt j z] =>
      if m =? "try_from" then
        match i, j with
        | I32, _ | _, I32 | _, Lit | _, Into => Wrong "try_from"
        | _, _ =>
            if (z <? 2 ^ width p i)%Z then k (VEnum "Result" "Ok" [VInt i z])
            else k (VEnum "Result" "Err" [VOpaque])
        end
      else if m =? "from" then
        match i, j with
        | U32, U16 => k (VInt U32 z)
        | _, _ => Wrong "from"
        end
      else Wrong "primitive function"
  | None, [] => if m =? "caller" then k VOpaque else Wrong "primitive function"
  | _, _ => Wrong "primitive function"
  end.

(** A placeholder [{}], [{:x}], [{:#x}] or [{:?}]; the key of the derived [Debug] is "{:?}". *)
Definition show (spec : string) (v : value) (o : string) (k : string -> ans) : ans :=
  if spec =? "" then
    match v with
    | VInt _ z => k (write o (dec_str z))
    | VStr s => k (write o s)
    | VEnum t _ _ | VStruct t _ =>
        call (t ++ ".fmt") [v; VFmt] o (fun r o' =>
          if is_variant "Result" "Ok" r then k o' else Wrong "write")
    | _ => Wrong "show"
    end
  else if spec =? "x" then
    match v with
    | VInt I32 z => k (write o (hex_i32 z))
    | VInt Usize z => k (write o (hex_usize z))
    | _ => Wrong "show"
    end
  else if spec =? "#x" then
    match v with
    | VInt I32 z => k (write (write o "0x") (hex_i32 z))
    | VInt Usize z => k (write (write o "0x") (hex_usize z))
    | _ => Wrong "show"
    end
  else if spec =? "?" then
    call "{:?}" [v; VFmt] o (fun r o' => if is_variant "Result" "Ok" r then k o' else Wrong "write")
  else Wrong "show".

Fixpoint emit (ps : list piece) (s : env) (vs : list value) (o : string) (k : string -> ans) : ans :=
  match ps with
  | [] => match vs with [] => k o | _ => Wrong "unused argument" end
  | FText t :: ps' => emit ps' s vs (write o t) k
  | FNext spec :: ps' =>
      match vs with
      | v :: vs' => show spec v o (fun o' => emit ps' s vs' o' k)
      | [] => Wrong "missing argument"
      end
  | FVar x spec :: ps' =>
      match assoc x s with
      | Some v => show spec v o (fun o' => emit ps' s vs o' k)
      | None => Wrong "missing variable"
      end
  end.

(** The methods of integers, of [Option], [Result], slices and iterators; the methods of the
    crate on everything else. *)
Definition method (recv : value) (m : string) (vs : list value) (o : string)
  (k : value -> string -> ans) : ans :=
  let crate :=
    match type_name recv with
    | Some t => call (t ++ "." ++ m) (recv :: vs) o k
    | None => Wrong "method"
    end in
  match recv with
  | VInt t a =>
      if m =? "pow" then
        match vs with
        | [VInt _ b] => seq (checked p t (a ^ b)) (fun z => k (VInt t z) o)
        | _ => Wrong "pow"
        end
      else if m =? "into" then
        match t, vs with U8, [] => k (VInt Into a) o | _, _ => Wrong "into" end
      else crate
  | VEnum _ c args =>
      if is_variant "Option" "Some" recv || is_variant "Result" "Ok" recv then
        if (m =? "unwrap") || (m =? "expect") || (m =? "unwrap_or_else") then
          match args with [a] => k a o | _ => Wrong "unwrap" end
        else Wrong "method"
      else if is_variant "Option" "None" recv || is_variant "Result" "Err" recv then
        if m =? "unwrap" then Halt (Why PUnwrap)
        else if m =? "expect" then Halt (Why PExpect)
        else Wrong "method"
      else crate
  | VList l =>
      if m =? "iter" then k recv o
      else if m =? "rev" then k (VList (rev l)) o
      else if m =? "enumerate" then k (VList (number_from 0 l)) o
      else Wrong "method"
  | VOpaque => k VOpaque o
  | _ => crate
  end.

(** [ev fuel e s o kr k]: the value of [e] in [s], with the text [o] written so far, goes to
    [k] with the new environment and text; [kr] takes the value of [return] and of a failing
    [?]. *)
Fixpoint ev (fuel : nat) (e : expr) (s : env) (o : string) (kr : value -> string -> ans)
  (k : value -> env -> string -> ans) {struct fuel} : ans :=
  match fuel with
  | O => Wrong "fuel"
  | S n =>
      let evs := fix evs (es : list expr) (s : env) (o : string)
                   (k : list value -> env -> string -> ans) : ans :=
        match es with
        | [] => k [] s o
        | a :: es' =>
            ev n a s o kr (fun v s1 o1 => evs es' s1 o1 (fun vs s2 o2 => k (v :: vs) s2 o2))
        end in
      match e with
      | ELit z suffix =>
          if suffix =? "" then k (VInt Lit z) s o
          else match prim_ity suffix with
               | Some t => if suffix_fits p t z then k (VInt t z) s o else Wrong "literal"
               | None => Wrong "suffix"
               end
      | EBool b => k (VBool b) s o
      | EStr t => k (VStr t) s o
      | EVar x => match assoc x s with Some v => k v s o | None => Wrong "variable" end
      | ECtor t c => k (VEnum t c []) s o
      | ERef a | EDeref a => ev n a s o kr k
      | ENeg a =>
          ev n a s o kr (fun v s1 o1 =>
            match v with
            | VInt Lit z => k (VInt Lit (- z)) s1 o1
            | VInt I32 z => seq (ck_i32 p (- z)) (fun y => k (VInt I32 y) s1 o1)
            | _ => Wrong "negation"
            end)
      | ECall f es =>
          evs es s o (fun vs s1 o1 =>
            match f with
            | EFn key => call key vs o1 (fun v o2 => k v s1 o2)
            | ECtor t c => k (VEnum t c vs) s1 o1
            | EPrim t m => prim_call t m vs (fun v => k v s1 o1)
            | EVar x =>
                match assoc x s1 with
                | Some (VClos cs ps body) =>
                    match bind_params ps vs cs with
                    | Some cs' =>
                        ev n body cs' o1 (fun v o2 => k v s1 o2) (fun v _ o2 => k v s1 o2)
                    | None => Wrong "closure arguments"
                    end
                | _ => Wrong "call of a value"
                end
            | _ => Wrong "call"
            end)
      | EMeth a m es =>
          ev n a s o kr (fun r s1 o1 =>
            evs match es with
                | [EClos _ _] => if m =? "unwrap_or_else" then [] else es
                | _ => es
                end s1 o1 (fun vs s2 o2 =>
              method r m vs o2 (fun v o3 => k v s2 o3)))
      | EField a f =>
          ev n a s o kr (fun v s1 o1 =>
            match v with
            | VStruct _ fs => match assoc f fs with Some x => k x s1 o1 | None => Wrong "field" end
            | _ => Wrong "field"
            end)
      | ETry a =>
          ev n a s o kr (fun v s1 o1 => question v (fun x => k x s1 o1) (kr v o1))
      | EBin op a b =>
          ev n a s o kr (fun x s1 o1 =>
            ev n b s1 o1 kr (fun y s2 o2 =>
              match x, y with
              | VInt t i, VInt u j => arith p op t i u j (fun v => k v s2 o2)
              | _, _ => Wrong "operands"
              end))
      | EAs a t =>
          ev n a s o kr (fun v s1 o1 =>
            match v, t with
            | VInt Lit _, _ | VInt Into _, _ => Wrong "cast"
            | VInt _ z, TyPath [x] _ =>
                match prim_ity x with
                | Some i => k (VInt i (cast p i z)) s1 o1
                | None => Wrong "cast"
                end
            | _, _ => Wrong "cast"
            end)
      | EClos ps b => k (VClos s ps b) s o
      | EIf c t f =>
          ev n c s o kr (fun v s1 o1 =>
            match v with
            | VBool b =>
                if b then ev n t s1 o1 kr k
                else match f with Some f' => ev n f' s1 o1 kr k | None => k VUnit s1 o1 end
            | _ => Wrong "condition"
            end)
      | EMatch a arms =>
          ev n a s o kr (fun v s1 o1 =>
            (fix try_arms (arms : list (pat * expr)) : ans :=
               match arms with
               | [] => Wrong "no arm"
               | (q, body) :: arms' =>
                   pmatch q v []
                     (fun b => ev n body (b ++ s1)%list o1 kr (fun w s2 o2 => k w (leave s1 s2) o2))
                     (fun _ => try_arms arms')
               end) arms)
      | EBlock ss tail =>
          (fix stmts (ss : list stmt) (s1 : env) (o1 : string) : ans :=
             match ss with
             | [] =>
                 match tail with
                 | Some a => ev n a s1 o1 kr (fun v s2 o2 => k v (leave s s2) o2)
                 | None => k VUnit (leave s s1) o1
                 end
             | SLet x t a :: ss' =>
                 ev n a s1 o1 kr (fun v s2 o2 =>
                   match coerce_opt t v with
                   | Some v' => stmts ss' ((x, v') :: s2) o2
                   | None => Wrong "let"
                   end)
             | SExpr a :: ss' => ev n a s1 o1 kr (fun _ s2 o2 => stmts ss' s2 o2)
             | SUse _ :: ss' => stmts ss' s1 o1
             end) ss s o
      | EArr es => evs es s o (fun vs s1 o1 => k (VList vs) s1 o1)
      | ERecord t fs =>
          evs (map snd fs) s o (fun vs s1 o1 => k (VStruct t (combine (map fst fs) vs)) s1 o1)
      | EMac m es =>
          if m =? "unreachable" then Halt (Why PUnreachable)
          else if m =? "panic" then
            match es with EStr t :: _ => Halt (stop_of t) | _ => Wrong "panic!" end
          else if m =? "assert" then
            match es with
            | a :: _ =>
                ev n a s o kr (fun v s1 o1 =>
                  match v with
                  | VBool b => if b then k VUnit s1 o1 else Halt (Why PAssert)
                  | _ => Wrong "assert!"
                  end)
            | [] => Wrong "assert!"
            end
          else if (m =? "assert_eq") || (m =? "assert_ne") then
            match es with
            | a :: b :: _ =>
                ev n a s o kr (fun x s1 o1 =>
                  ev n b s1 o1 kr (fun y s2 o2 =>
                    match veq 10 derived x y with
                    | Some r =>
                        if Bool.eqb r (m =? "assert_eq") then k VUnit s2 o2 else Halt (Why PAssert)
                    | None => Wrong "comparison"
                    end))
            | _ => Wrong "assert_eq!"
            end
          else Wrong "macro"
      | EMatches a q =>
          ev n a s o kr (fun v s1 o1 =>
            pmatch q v [] (fun _ => k (VBool true) s1 o1) (fun _ => k (VBool false) s1 o1))
      | EReturn (Some a) => ev n a s o kr (fun v _ o1 => kr v o1)
      | EReturn None => kr VUnit o
      | EAssign op x a =>
          ev n a s o kr (fun v s1 o1 =>
            match assoc x s1, v with
            | Some (VInt t i), VInt u j =>
                arith p op t i u j (fun w => k VUnit (update x w s1) o1)
            | _, _ => Wrong "assignment"
            end)
      | EFor q a body =>
          ev n a s o kr (fun v s1 o1 =>
            match v with
            | VList l =>
                each
                  (fun x s2 o2 next =>
                     pmatch q x []
                       (fun b => ev n body (b ++ s2)%list o2 kr
                                   (fun _ s3 o3 => next (leave s2 s3) o3))
                       (fun _ => Wrong "for"))
                  l s1 o1 (fun s2 o2 => k VUnit s2 o2)
            | _ => Wrong "for"
            end)
      | EWrite f ps es =>
          ev n f s o kr (fun v s1 o1 =>
            evs es s1 o1 (fun vs s2 o2 =>
              match v with
              | VFmt => emit ps s2 vs o2 (fun o3 => k ok_unit s2 o3)
              | _ => Wrong "write!"
              end))
      | EPrint ps es =>
          evs es s o (fun vs s1 o1 => emit ps s1 vs o1 (fun o2 => k VUnit s1 o2))
      | _ => Wrong "expression"
      end
  end.

End eval.

(** ** Functions *)

(** [{:?}] of [v] by the derived implementations; [None] where there is none. *)
Fixpoint derived_debug (P : program) (fuel : nat) (v : value) : option node :=
  match fuel with
  | O => None
  | S n =>
      let has t := existsb (String.eqb "Debug") match assoc t (p_derives P) with Some l => l | None => [] end in
      match v with
      | VInt Usize z => Some (Int Debug.Usize z)
      | VInt I32 z => Some (Int Debug.I32 z)
      | VBool b => Some (Flag b)
      | VEnum t c vs =>
          if has t || (t =? "Option") || (t =? "Result") then
            match vs with
            | [] => Some (Leaf c)
            | _ => option_map (Tuple c) (mapo (derived_debug P n) vs)
            end
          else None
      | VStruct t fs =>
          match assoc t (p_structs P) with
          | Some ds =>
              if has t && words_eqb (map fst ds) (map fst fs) && negb (words_eqb [] (map fst fs)) then
                option_map (fun l => Struct t (combine (map fst fs) l)) (mapo (derived_debug P n) (map snd fs))
              else None
          | None => None
          end
      | _ => None
      end
  end.

Definition depth : nat := 100.

(** The functions that are not in the text: the derived [Debug]. *)
Definition derived_fn (P : program) (key : string) (vs : list value) (o : string) : ans :=
  if key =? "{:?}" then
    match vs with
    | [v; VFmt] =>
        match derived_debug P 10 v with
        | Some d => Done ok_unit (write o (compact d))
        | None => Wrong "Debug"
        end
    | _ => Wrong "Debug"
    end
  else Wrong ("no function " ++ key).

(** [fuel] bounds the depth of calls. *)
Fixpoint run (P : program) (p : platform) (fuel : nat) (key : string) (vs : list value)
  (o : string) : ans :=
  match fuel with
  | O => Wrong "fuel"
  | S n =>
      match assoc key (p_fns P) with
      | Some f =>
          match bind_params (map (fun xt => (fst xt, Some (snd xt))) (f_params f)) vs [], f_body f with
          | Some s, Some body =>
              let ret v o := match coerce_opt (f_ret f) v with Some v' => Done v' o | None => Wrong "result" end in
              ev p (map fst (filter (fun d => existsb (String.eqb "PartialEq") (snd d)) (p_derives P)))
                (fun key vs o k =>
                   match run P p n key vs o with
                   | Done v o' => k v o'
                   | Halt w => Halt w
                   | Wrong w => Wrong w
                   end)
                depth body s o ret (fun v _ o => ret v o)
          | _, _ => Wrong "arguments"
          end
      | None => derived_fn P key vs o
      end
  end.
