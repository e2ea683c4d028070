(** A recursive-descent parser for the part of Rust the crate uses.  It fails on anything
    it does not know.  [fuel] bounds the nesting depth and the length of lists. *)
From Coq Require Import ZArith List Bool String.
From Verif Require Import SrcLex SrcAst.
Import ListNotations.
Local Open Scope string_scope.

Inductive res (A : Type) :=
| Got (a : A) (rest : list tok)
| Bad (at_ : list tok).
Arguments Got {A}. Arguments Bad {A}.

Notation "'do' ( x , r ) <- m ; k" :=
  (match m with Got x r => k | Bad e => Bad e end)
  (at level 200, x name, r name, m at level 100, k at level 200).

Definition parser A := list tok -> res A.

(** ** Tokens *)

Scheme Equality for sign.
Scheme Equality for keyword.
Definition sign_eqb := sign_beq.
Definition keyword_eqb := keyword_beq.

Definition next_is (s : sign) (ts : list tok) : bool :=
  match ts with TP s' :: _ => sign_eqb s' s | _ => false end.
Definition next_word (s : keyword) (ts : list tok) : bool :=
  match ts with TK s' :: _ => keyword_eqb s' s | _ => false end.
Definition eat (s : sign) : parser unit := fun ts =>
  if next_is s ts then Got tt (List.tl ts) else Bad ts.
Definition eat_word (s : keyword) : parser unit := fun ts =>
  if next_word s ts then Got tt (List.tl ts) else Bad ts.
Definition ident : parser string := fun ts =>
  match ts with TId s :: r => Got s r | _ => Bad ts end.

(** [a::b::c] *)
Fixpoint path (fuel : nat) : parser (list string) := fun ts =>
  match fuel with
  | O => Bad ts
  | S n =>
      do (x, r) <- ident ts;
      match r with
      | TP ColonColon :: TId _ :: _ =>
          do (xs, r') <- path n (List.tl r); Got (x :: xs) r'
      | _ => Got [x] r
      end
  end.

(** [p , p , .. close], a trailing comma allowed; eats [close]. *)
Fixpoint sep_until {A} (fuel : nat) (p : parser A) (close : sign) : parser (list A) := fun ts =>
  match fuel with
  | O => Bad ts
  | S n =>
      if next_is close ts then Got [] (List.tl ts)
      else
        do (x, r) <- p ts;
        if next_is Comma r then
          do (xs, r') <- sep_until n p close (List.tl r); Got (x :: xs) r'
        else do (u, r') <- eat close r; Got [x] r'
  end.

(** ** Types *)

(** [>] closing a type argument list; [>>] is two of them. *)
Definition close_angle : parser unit := fun ts =>
  match ts with
  | TP Gt :: r => Got tt r
  | TP Shr :: r => Got tt (TP Gt :: r)
  | _ => Bad ts
  end.

(** What may be between [&] and the type. *)
Definition skip_life (ts : list tok) : list tok := match ts with TLife _ :: r => r | _ => ts end.
Definition skip_mut (ts : list tok) : list tok := if next_word Kmut ts then List.tl ts else ts.

Fixpoint type (fuel : nat) : parser ty := fun ts =>
  match fuel with
  | O => Bad ts
  | S n =>
      match ts with
      | TP Amp :: r => do (t, r') <- type n (skip_mut (skip_life r)); Got (TyRef t) r'
      | TP LBrack :: r => do (t, r') <- type n r; do (u, r2) <- eat RBrack r'; Got (TySlice t) r2
      | _ =>
          do (p, r) <- path n ts;
          if next_is Lt r then
            (fix args (m : nat) (acc : list ty) (ts : list tok) : res ty :=
               match m with
               | O => Bad ts
               | S m =>
                   do (t, r) <- type n ts;
                   if next_is Comma r then
                     match close_angle (List.tl r) with
                     | Got _ r' => Got (TyPath p (acc ++ [t])%list) r'
                     | Bad _ => args m (acc ++ [t])%list (List.tl r)
                     end
                   else do (u, r') <- close_angle r; Got (TyPath p (acc ++ [t])%list) r'
               end) n [] (List.tl r)
          else Got (TyPath p []) r
      end
  end.

(** ** Patterns *)

(** A pattern that is not an alternative; [sub]: the patterns in it. *)
Definition pattern1 (fuel : nat) (sub : parser pat) : parser pat := fun ts =>
  match ts with
  | TNum a _ :: TP DotDotEq :: TNum b _ :: r => Got (PRange a b) r
  | TNum a _ :: r => Got (PLit a) r
  | TP LParen :: r =>
      do (ps, r') <- sep_until fuel sub RParen r;
      match ps with [_] => Bad ts | _ => Got (PTuple ps) r' end
  | _ =>
      do (p, r) <- path fuel ts;
      if next_is LParen r then
        do (ps, r') <- sep_until fuel sub RParen (List.tl r); Got (PApp p ps) r'
      else match p with [x] => Got (if x =? "_" then PWild else PBind x) r | _ => Got (PPath p) r end
  end.

Fixpoint pattern (fuel : nat) : parser pat := fun ts =>
  match fuel with
  | O => Bad ts
  | S n =>
      do (p, r) <- pattern1 n (pattern n) (if next_is Bar ts then List.tl ts else ts);
      if next_is Bar r then
        (fix alts (m : nat) (acc : list pat) (ts : list tok) : res pat :=
           match m with
           | O => Bad ts
           | S m =>
               if next_is Bar ts then
                 do (q, r') <- pattern1 n (pattern n) (List.tl ts); alts m (acc ++ [q])%list r'
               else Got (POr acc) ts
           end) n [p] r
      else Got p r
  end.

(** ** Use declarations: each imported name with the path it stands for *)

Fixpoint use_tree (fuel : nat) (prefix : list string) : parser (list (string * list string)) :=
  fun ts =>
  match fuel with
  | O => Bad ts
  | S n =>
      match ts with
      | TP LBrace :: r =>
          do (l, r') <- sep_until n (use_tree n prefix) RBrace r; Got (List.concat l) r'
      | TId x :: TP ColonColon :: r => use_tree n (prefix ++ [x])%list r
      | TId x :: r =>
          if x =? "self" then Got [(List.last prefix "", prefix)] r
          else Got [(x, prefix ++ [x])%list] r
      | _ => Bad ts
      end
  end.

(** ** Expressions *)

(** Binary operators, from the tightest: the level of each. *)
Definition level (op : sign) : option nat :=
  match op with
  | Star => Some 8
  | Plus | Minus => Some 7
  | Shl | Shr => Some 6
  | Amp => Some 5
  | Bar => Some 3
  | EqEq | Ne | Lt | Gt | Le | Ge => Some 2
  | AmpAmp => Some 1
  | BarBar => Some 0
  | _ => None
  end%nat.

Definition closure_param (fuel : nat) : parser (string * option ty) := fun ts =>
  do (x, r) <- ident ts;
  if next_is Colon r then do (t, r') <- type fuel (List.tl r); Got (x, Some t) r'
  else Got (x, None) r.

(** At the start of a statement or of the body of an arm these make up all of it. *)
Definition block_start (ts : list tok) : bool :=
  match ts with
  | TK Kif :: _ | TK Kmatch :: _ | TK Kfor :: _ | TP LBrace :: _ => true
  | _ => false
  end.

(** No expression starts here. *)
Definition stops (ts : list tok) : bool :=
  match ts with
  | [] | TP Semi :: _ | TP Comma :: _ | TP RParen :: _ | TP RBrack :: _ | TP RBrace :: _ => true
  | _ => false
  end.

(** [ok] says whether a struct literal may start here: not in the head of [if], [match]
    and [for]. *)
Fixpoint expr_ (fuel : nat) (ok : bool) : parser expr := fun ts =>
  match fuel with
  | O => Bad ts
  | S n =>
      match ts with
      | TP BarBar :: r => do (e, r') <- expr_ n ok r; Got (EClos [] e) r'
      | TP Bar :: r =>
          do (ps, r') <- sep_until n (closure_param n) Bar r;
          do (e, r2) <- expr_ n ok r'; Got (EClos ps e) r2
      | TK Kreturn :: r =>
          if ok && stops r then Got (EReturn None) r
          else do (e, r') <- expr_ n ok r; Got (EReturn (Some e)) r'
      | _ => binary n ok 0%nat ts
      end
  end

(** Operators of level [lvl] and tighter; comparison does not chain, the others associate
    to the left. *)
with binary (fuel : nat) (ok : bool) (lvl : nat) : parser expr := fun ts =>
  match fuel with
  | O => Bad ts
  | S n =>
      do (a, r) <- (if Nat.leb 9 lvl then cast n ok ts else binary n ok (S lvl) ts);
      (fix more (m : nat) (a : expr) (ts : list tok) : res expr :=
         match m with
         | O => Bad ts
         | S m =>
             match ts with
             | TP op :: r =>
                 match level op with
                 | Some l =>
                     if Nat.eqb l lvl then
                       do (b, r') <- binary n ok (S lvl) r;
                       if Nat.eqb lvl 2 then Got (EBin op a b) r' else more m (EBin op a b) r'
                     else Got a ts
                 | None => Got a ts
                 end
             | _ => Got a ts
             end
         end) n a r
  end

(** [e as t]; no [<] after it, which would be the start of type arguments *)
with cast (fuel : nat) (ok : bool) : parser expr := fun ts =>
  match fuel with
  | O => Bad ts
  | S n =>
      do (a, r) <- unary n ok ts;
      (fix more (m : nat) (a : expr) (ts : list tok) : res expr :=
         match m with
         | O => Bad ts
         | S m =>
             if next_word Kas ts then
               do (t, r') <- type n (List.tl ts);
               if next_is Lt r' || next_is Shl r' then Bad r' else more m (EAs a t) r'
             else Got a ts
         end) n a r
  end

with unary (fuel : nat) (ok : bool) : parser expr := fun ts =>
  match fuel with
  | O => Bad ts
  | S n =>
      match ts with
      | TP Star :: r => do (e, r') <- unary n ok r; Got (EDeref e) r'
      | TP Amp :: r => do (e, r') <- unary n ok r; Got (ERef e) r'
      | TP Minus :: r => do (e, r') <- unary n ok r; Got (ENeg e) r'
      | _ =>
          do (e, r) <- primary n ok ts;
          postfix n e r
      end
  end

(** [.m(..)], [.f], [(..)], [?] after an expression *)
with postfix (fuel : nat) (e : expr) : parser expr := fun ts =>
  match fuel with
  | O => Bad ts
  | S n =>
      match ts with
      | TP Quest :: r => postfix n (ETry e) r
      | TP LParen :: r =>
          do (es, r') <- sep_until n (expr_ n true) RParen r; postfix n (ECall e es) r'
      | TP Dot :: TId m :: TP LParen :: r =>
          do (es, r') <- sep_until n (expr_ n true) RParen r; postfix n (EMeth e m es) r'
      | TP Dot :: TId f :: r => postfix n (EField e f) r
      | _ => Got e ts
      end
  end

with primary (fuel : nat) (ok : bool) : parser expr := fun ts =>
  match fuel with
  | O => Bad ts
  | S n =>
      match ts with
      | TNum z s :: r => Got (ELit z s) r
      | TStr s :: r => Got (EStr s) r
      | TK Ktrue :: r => Got (EBool true) r
      | TK Kfalse :: r => Got (EBool false) r
      | TP LParen :: r =>
          do (e, r') <- expr_ n true r; do (u, r2) <- eat RParen r'; Got e r2
      | TP LBrack :: r =>
          do (es, r') <- sep_until n (expr_ n true) RBrack r; Got (EArr es) r'
      | TP LBrace :: _ => block n ts
      | TK Kif :: TK Klet :: r =>
          do (p, r1) <- pattern n r;
          do (u, r2) <- eat Eq r1;
          do (e, r3) <- expr_ n false r2;
          do (b, r4) <- block n r3;
          Got (EMatch e [(p, b); (PWild, EBlock [] None)]) r4
      | TK Kif :: r =>
          do (c, r1) <- expr_ n false r;
          do (t, r2) <- block n r1;
          if next_word Kelse r2 then
            do (e, r3) <- (if next_word Kif (List.tl r2) then primary n true (List.tl r2)
                           else block n (List.tl r2));
            Got (EIf c t (Some e)) r3
          else Got (EIf c t None) r2
      | TK Kmatch :: r =>
          do (e, r1) <- expr_ n false r;
          do (u, r2) <- eat LBrace r1;
          (fix arms (m : nat) (acc : list (pat * expr)) (ts : list tok) : res expr :=
             match m with
             | O => Bad ts
             | S m =>
                 if next_is RBrace ts then Got (EMatch e acc) (List.tl ts)
                 else
                   do (p, r) <- pattern n ts;
                   do (u, r1) <- eat FatArrow r;
                   do (b, r2) <- (if block_start r1 then primary n true r1 else expr_ n true r1);
                   if next_is Comma r2 then arms m (acc ++ [(p, b)])%list (List.tl r2)
                   else if block_start r1 then arms m (acc ++ [(p, b)])%list r2
                   else if next_is RBrace r2 then arms m (acc ++ [(p, b)])%list r2
                   else Bad r2
             end) n [] r2
      | TK Kfor :: r =>
          do (p, r1) <- pattern n r;
          do (u, r2) <- eat_word Kin r1;
          do (e, r3) <- expr_ n false r2;
          do (b, r4) <- block n r3;
          Got (EFor p e b) r4
      | TId m :: TP Bang :: TP LParen :: r =>
          if m =? "matches" then
            do (e, r1) <- expr_ n true r;
            do (u, r2) <- eat Comma r1;
            do (p, r3) <- pattern n r2;
            do (u, r4) <- eat RParen r3;
            Got (EMatches e p) r4
          else
            do (es, r') <- sep_until n (expr_ n true) RParen r; Got (EMac m es) r'
      | TId _ :: _ =>
          do (p, r) <- path n ts;
          if ok && next_is LBrace r then
            do (fs, r') <- sep_until n (fun ts =>
                 do (x, r) <- ident ts;
                 do (u, r1) <- eat Colon r;
                 do (e, r2) <- expr_ n true r1;
                 Got (x, e) r2) RBrace (List.tl r);
            Got (EStruct p fs) r'
          else Got (EPath p) r
      | _ => Bad ts
      end
  end

(** [{ s; s; .. e }] *)
with block (fuel : nat) : parser expr := fun ts =>
  match fuel with
  | O => Bad ts
  | S n =>
      do (u, r) <- eat LBrace ts;
      (fix stmts (m : nat) (acc : list stmt) (ts : list tok) : res expr :=
         match m with
         | O => Bad ts
         | S m =>
             match ts with
             | TP RBrace :: r => Got (EBlock acc None) r
             | TK Klet :: r =>
                 do (x, r1) <- ident (skip_mut r);
                 do (t, r2) <- (if next_is Colon r1 then
                                  do (t, r') <- type n (List.tl r1); Got (Some t) r'
                                else Got None r1);
                 do (u, r3) <- eat Eq r2;
                 do (e, r4) <- expr_ n true r3;
                 do (u, r5) <- eat Semi r4;
                 stmts m (acc ++ [SLet x t e])%list r5
             | TK Kuse :: r =>
                 do (us, r1) <- use_tree n [] r;
                 do (u, r2) <- eat Semi r1;
                 stmts m (acc ++ [SUse us])%list r2
             | TId x :: TP BarEq :: r =>
                 do (e, r1) <- expr_ n true r;
                 do (u, r2) <- eat Semi r1;
                 stmts m (acc ++ [SExpr (EAssign Bar x e)])%list r2
             | _ =>
                 if block_start ts then
                   do (e, r) <- primary n true ts;
                   if next_is RBrace r then Got (EBlock acc (Some e)) (List.tl r)
                   else if next_is Semi r then stmts m (acc ++ [SExpr e])%list (List.tl r)
                   else stmts m (acc ++ [SExpr e])%list r
                 else
                   do (e, r) <- expr_ n true ts;
                   if next_is Semi r then stmts m (acc ++ [SExpr e])%list (List.tl r)
                   else do (u, r') <- eat RBrace r; Got (EBlock acc (Some e)) r'
             end
         end) n [] r
  end.

(** ** Items *)

(** The identifiers up to the bracket closing an attribute. *)
Fixpoint attr_words (depth : nat) (ts : list tok) : res attr :=
  match ts with
  | [] => Bad ts
  | TP RBrack :: r =>
      match depth with
      | O => Got [] r
      | S d => do (a, r') <- attr_words d r; Got a r'
      end
  | TP LBrack :: r => do (a, r') <- attr_words (S depth) r; Got a r'
  | TId x :: r => do (a, r') <- attr_words depth r; Got (x :: a) r'
  | _ :: r => attr_words depth r
  end.

Fixpoint attrs (fuel : nat) : parser (list attr) := fun ts =>
  match fuel with
  | O => Bad ts
  | S n =>
      match ts with
      | TP Hash :: TP LBrack :: r =>
          do (a, r1) <- attr_words 0 r;
          do (l, r2) <- attrs n r1;
          Got (a :: l) r2
      | TP Hash :: TP Bang :: TP LBrack :: r => do (a, r1) <- attr_words 0 r; attrs n r1
      | _ => Got [] ts
      end
  end.

(** [pub] *)
Definition skip_pub (ts : list tok) : list tok := if next_word Kpub ts then List.tl ts else ts.

(** [<T: Bound>]: the names *)
Definition generics (fuel : nat) : parser (list string) := fun ts =>
  if next_is Lt ts then
    sep_until fuel (fun ts =>
      do (x, r) <- ident ts;
      do (u, r1) <- eat Colon r;
      do (p, r2) <- path fuel r1;
      Got x r2) Gt (List.tl ts)
  else Got [] ts.

(** [x: t] *)
Definition typed_name (fuel : nat) : parser (string * ty) := fun ts =>
  do (x, r) <- ident ts;
  do (u, r1) <- eat Colon r;
  do (t, r2) <- type fuel r1;
  Got (x, t) r2.

Definition is_self (ts : list tok) : bool :=
  match ts with TId x :: _ => x =? "self" | _ => false end.

(** [self], [&self] or [x: t] *)
Definition param (fuel : nat) : parser (string * ty) := fun ts =>
  if is_self ts then Got ("self", TyPath ["Self"] []) (List.tl ts)
  else if next_is Amp ts && is_self (List.tl ts) then Got ("self", TyPath ["Self"] []) (List.tl (List.tl ts))
  else typed_name fuel ts.

Definition function (fuel : nat) : parser fn := fun ts =>
  do (x, r) <- ident ts;
  do (g, r1) <- generics fuel r;
  do (u, r2) <- eat LParen r1;
  do (ps, r3) <- sep_until fuel (param fuel) RParen r2;
  do (t, r4) <- (if next_is Arrow r3 then
                   do (t, r') <- type fuel (List.tl r3); Got (Some t) r'
                 else Got None r3);
  if next_is Semi r4 then
    Got {| f_name := x; f_generics := g; f_params := ps; f_ret := t; f_body := None |} (List.tl r4)
  else
    do (b, r5) <- block fuel r4;
    Got {| f_name := x; f_generics := g; f_params := ps; f_ret := t; f_body := Some b |} r5.

Definition variant (fuel : nat) : parser (string * list ty) := fun ts =>
  do (a, ts) <- attrs fuel ts;
  do (x, r) <- ident ts;
  if next_is LParen r then
    do (l, r') <- sep_until fuel (type fuel) RParen (List.tl r); Got (x, l) r'
  else Got (x, []) r.

Definition field (fuel : nat) : parser (string * ty) := fun ts =>
  do (a, ts) <- attrs fuel ts;
  typed_name fuel (skip_pub ts).

Fixpoint item_ (fuel : nat) : parser (list attr * item) := fun ts =>
  match fuel with
  | O => Bad ts
  | S n =>
      do (a, ts) <- attrs n ts;
      match skip_pub ts with
      | TK Kfn :: r => do (f, r1) <- function n r; Got (a, IFn f) r1
      | TK Kmod :: r =>
          do (x, r1) <- ident r;
          if next_is Semi r1 then Got (a, IMod x None) (List.tl r1)
          else
            do (u, r2) <- eat LBrace r1;
            do (l, r3) <- items n r2;
            do (u, r4) <- eat RBrace r3;
            Got (a, IMod x (Some l)) r4
      | TK Kuse :: r =>
          do (us, r1) <- use_tree n [] r;
          do (u, r2) <- eat Semi r1;
          Got (a, IUse us) r2
      | TK Kimpl :: r =>
          do (t, r1) <- type n r;
          do (h, r2) <- (if next_word Kfor r1 then
                           do (s, r') <- type n (List.tl r1);
                           match t with
                           | TyPath p _ => Got (Some p, s) r'
                           | _ => Bad r1
                           end
                         else Got (None, t) r1);
          do (u, r3) <- eat LBrace r2;
          do (l, r4) <- items n r3;
          do (u, r5) <- eat RBrace r4;
          Got (a, IImpl (fst h) (snd h) l) r5
      | TK Ktrait :: r =>
          do (x, r1) <- ident r;
          do (u, r2) <- eat LBrace r1;
          do (l, r3) <- items n r2;
          do (u, r4) <- eat RBrace r3;
          Got (a, ITrait x l) r4
      | TK Kenum :: r =>
          do (x, r1) <- ident r;
          do (u, r2) <- eat LBrace r1;
          do (l, r3) <- sep_until n (variant n) RBrace r2;
          Got (a, IEnum x l) r3
      | TK Kstruct :: r =>
          do (x, r1) <- ident r;
          do (u, r2) <- eat LBrace r1;
          do (l, r3) <- sep_until n (field n) RBrace r2;
          Got (a, IStruct x l) r3
      | TK Ktype :: r =>
          do (x, r1) <- ident r;
          do (u, r2) <- eat Eq r1;
          do (t, r3) <- type n r2;
          do (u, r4) <- eat Semi r3;
          Got (a, IType x t) r4
      | _ => Bad ts
      end
  end
(** Items up to the end or a closing brace. *)
with items (fuel : nat) : parser (list (list attr * item)) := fun ts =>
  match fuel with
  | O => Bad ts
  | S n =>
      (fix more (m : nat) (acc : list (list attr * item)) (ts : list tok) :=
         match m with
         | O => Bad ts
         | S m =>
             match ts with
             | [] => Got acc []
             | TP RBrace :: _ => Got acc ts
             | _ => do (i, r) <- item_ n ts; more m (acc ++ [i])%list r
             end
         end) n [] ts
  end.

(** A whole file. *)
Definition depth : nat := 500.
Definition parse_file (ts : list tok) : option (list (list attr * item)) :=
  match items depth ts with
  | Got l [] => Some l
  | _ => None
  end.
