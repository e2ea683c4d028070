(** How Rust text is to be read: tokens and grammar, as relations, for the part of the language in use;
    from "The Rust Reference", Lexical structure, Items, Statements and expressions, Patterns, Types.
    Nothing here refers to the lexer and the parser (SrcLex.v, SrcParse.v); only the tokens and the
    syntax trees are the same.

    Not in the trees: comments, [pub], [mut], lifetimes, the mutability of references, suffixes in
    patterns, the bounds of type parameters, the type arguments of traits, inner attributes, and
    whether [self] is a reference.  A pattern that is one name is a [PBind], whatever the name is of:
    name resolution (SrcLink.v) decides. *)
From Coq Require Import ZArith List Bool String Strings.Byte.
From Verif Require Import SrcLine SrcLex SrcAst.
Import ListNotations.
Local Open Scope string_scope.
Local Open Scope list_scope.

(** ** Tokens *)

Definition letter (b : byte) : Prop :=
  (97 <= Byte.to_N b <= 122)%N \/ (65 <= Byte.to_N b <= 90)%N \/ b = "_"%byte.
Definition decimal (b : byte) : Prop := (48 <= Byte.to_N b <= 57)%N.

(** A name: a letter or underscore, then letters, underscores and digits. *)
Definition name (w : list byte) : Prop :=
  exists b w', w = b :: w' /\ letter b /\ forall c, In c w' -> letter c \/ decimal c.

Definition keyword_text (k : keyword) : string :=
  match k with
  | Kas => "as" | Kelse => "else" | Kenum => "enum" | Kfalse => "false" | Kfn => "fn" | Kfor => "for"
  | Kif => "if" | Kimpl => "impl" | Kin => "in" | Klet => "let" | Kmatch => "match" | Kmod => "mod"
  | Kmut => "mut" | Kpub => "pub" | Kreturn => "return" | Kstruct => "struct" | Ktrait => "trait"
  | Ktrue => "true" | Ktype => "type" | Kuse => "use"
  end.

(** The other keywords of the language, strict and reserved; [self], [Self], [super], [crate] are paths,
    and [static] is also a lifetime. *)
Definition other_keywords : list string := [
  "break"; "const"; "continue"; "extern"; "loop"; "move"; "ref"; "static"; "unsafe"; "where"; "while";
  "async"; "await"; "dyn"; "abstract"; "become"; "box"; "do"; "final"; "macro"; "override"; "priv"; "typeof";
  "unsized"; "virtual"; "yield"; "try"].

Definition sign_text (s : sign) : string :=
  match s with
  | LParen => "(" | RParen => ")" | LBrack => "[" | RBrack => "]" | LBrace => "{" | RBrace => "}"
  | Lt => "<" | Gt => ">" | Le => "<=" | Ge => ">=" | EqEq => "==" | Ne => "!="
  | Amp => "&" | Bar => "|" | AmpAmp => "&&" | BarBar => "||" | BarEq => "|="
  | Shl => "<<" | Shr => ">>" | Plus => "+" | Minus => "-" | Star => "*"
  | Eq => "=" | Arrow => "->" | FatArrow => "=>" | Bang => "!" | Quest => "?" | Hash => "#"
  | Dot => "." | DotDotEq => "..=" | Comma => "," | Colon => ":" | ColonColon => "::" | Semi => ";"
  end.

(** All punctuation of the language. *)
Definition punctuation : list string :=
  ["+"; "-"; "*"; "/"; "%"; "^"; "!"; "&"; "|"; "&&"; "||"; "<<"; ">>"; "+="; "-="; "*="; "/="; "%="; "^=";
   "&="; "|="; "<<="; ">>="; "="; "=="; "!="; ">"; "<"; ">="; "<="; "@"; "."; ".."; "..."; "..="; ",";
   ";"; ":"; "::"; "->"; "=>"; "<-"; "#"; "$"; "?"; "~"; "("; ")"; "["; "]"; "{"; "}"].

(** The value of a digit, and of digits and underscores, in a base. *)
Definition digit (base : Z) (b : byte) (d : Z) : Prop :=
  (0 <= d < base)%Z /\
  (Z.of_N (Byte.to_N b) = 48 + d /\ d < 10 \/ Z.of_N (Byte.to_N b) = 97 + (d - 10) /\ 10 <= d \/
   Z.of_N (Byte.to_N b) = 65 + (d - 10) /\ 10 <= d)%Z.
Inductive numeral_of (base : Z) : list byte -> Z -> Prop :=
| num_digit b d : digit base b d -> numeral_of base [b] d
| num_lead w z : numeral_of base w z -> numeral_of base ("_"%byte :: w) z
| num_more w z b d : numeral_of base w z -> digit base b d -> numeral_of base (w ++ [b]) (z * base + d)
| num_under w z : numeral_of base w z -> numeral_of base (w ++ ["_"%byte]) z.

(** How a literal says its base. *)
Definition based (base : Z) (start : list byte) : Prop :=
  base = 10%Z /\ start = [] \/
  base = 16%Z /\ start = ["0"; "x"]%byte \/
  base = 2%Z /\ start = ["0"; "b"]%byte.

(** A type may follow. *)
Definition integer_suffix (s : string) : Prop :=
  s = "" \/ exists sign size, s = String.append sign size /\ In sign ["u"; "i"] /\ In size ["8"; "16"; "32"; "64"; "128"; "size"].

(** [spelled t w]: the token [t] is written [w]. *)
Inductive spelled : tok -> list byte -> Prop :=
| sp_word k : spelled (TK k) (list_byte_of_string (keyword_text k))
| sp_name w : name w -> (forall k, keyword_text k <> string_of_list_byte w) ->
    ~ In (string_of_list_byte w) other_keywords -> spelled (TId (string_of_list_byte w)) w
| sp_number base start w z suffix :
    based base start -> numeral_of base w z -> integer_suffix suffix ->
    (start = [] -> exists b w', w = b :: w' /\ decimal b) ->
    spelled (TNum z suffix) (start ++ w ++ list_byte_of_string suffix)
| sp_string w : (forall b, In b w -> b <> """"%byte /\ b <> "\"%byte) ->
    spelled (TStr (string_of_list_byte w)) (["""" ]%byte ++ w ++ [""""]%byte)
| sp_lifetime w : name w -> spelled (TLife (string_of_list_byte w)) ("'"%byte :: w)
| sp_sign s : spelled (TP s) (list_byte_of_string (sign_text s)).

(** Where a token may end, by what follows: a token is as long as it can be, and a word is not
    followed by what would make it the prefix of a literal; a number and a dot are a number with a
    fraction unless another dot or a name is next. *)
Definition ends (t : tok) (w rest : list byte) : Prop :=
  match t with
  | TK _ | TId _ | TNum _ _ | TLife _ =>
      (forall b rest', rest = b :: rest' ->
        ~ letter b /\ ~ decimal b /\ b <> """"%byte /\ b <> "'"%byte /\ b <> "#"%byte) /\
      match t with
      | TNum _ _ => forall rest', rest = "."%byte :: rest' ->
          exists b rest2, rest' = b :: rest2 /\ (b = "."%byte \/ letter b)
      | _ => True
      end
  | TStr _ => True
  | TP _ => forall s rest', In s punctuation -> w ++ rest = list_byte_of_string s ++ rest' ->
      (List.length (list_byte_of_string s) <= List.length w)%nat
  end.

(** [tokens l ts]: the line [l] is the tokens [ts], blanks between them, and perhaps a comment. *)
Inductive tokens : list byte -> list tok -> Prop :=
| tokens_end : tokens [] []
| tokens_comment l : tokens ("/"%byte :: "/"%byte :: l) []
| tokens_blank l ts : tokens l ts -> tokens (" "%byte :: l) ts
| tokens_more t w l ts : spelled t w -> ends t w l -> tokens l ts -> tokens (w ++ l) (t :: ts).

(** In a text, [>>] may have to be read as two [>]. *)
Inductive splits : list tok -> list tok -> Prop :=
| split_nil : splits [] []
| split_keep t a b : splits a b -> splits (t :: a) (t :: b)
| split_shr a b : splits a b -> splits (TP Shr :: a) (TP Gt :: TP Gt :: b).

(** ** Grammar: [G x ts], the tokens [ts] are an [x] *)

(** [x, x, .. x], perhaps with a comma at the end. *)
Inductive commas {A} (G : A -> list tok -> Prop) : list A -> list tok -> Prop :=
| commas_none : commas G [] []
| commas_last x t : G x t -> commas G [x] t
| commas_more x t xs ts : G x t -> commas G xs ts -> commas G (x :: xs) (t ++ TP Comma :: ts).

Definition optional (t : tok) (ts : list tok) : Prop := ts = [] \/ ts = [t].

Inductive Path : list string -> list tok -> Prop :=
| path_end x : Path [x] [TId x]
| path_more x p ts : Path p ts -> Path (x :: p) (TId x :: TP ColonColon :: ts).

Inductive Type_ : ty -> list tok -> Prop :=
| type_path p ts : Path p ts -> Type_ (TyPath p []) ts
| type_args p ts l us : Path p ts -> l <> [] -> commas Type_ l us ->
    Type_ (TyPath p l) (ts ++ TP Lt :: us ++ [TP Gt])
| type_ref t ts life m : Type_ t ts -> life = [] \/ (exists a, life = [TLife a]) -> optional (TK Kmut) m ->
    Type_ (TyRef t) (TP Amp :: life ++ m ++ ts)
| type_slice t ts : Type_ t ts -> Type_ (TySlice t) (TP LBrack :: ts ++ [TP RBrack]).

(** [p | p | ..], at least two. *)
Inductive bars {A} (G : A -> list tok -> Prop) : list A -> list tok -> Prop :=
| bars_two x t y u : G x t -> G y u -> bars G [x; y] (t ++ TP Bar :: u)
| bars_more x t xs ts : G x t -> bars G xs ts -> bars G (x :: xs) (t ++ TP Bar :: ts).

Inductive Pattern : pat -> list tok -> Prop :=
| pattern_one p b ts : Pattern1 p ts -> optional (TP Bar) b -> Pattern p (b ++ ts)
| pattern_or l b ts : bars Pattern1 l ts -> optional (TP Bar) b -> Pattern (POr l) (b ++ ts)
with Pattern1 : pat -> list tok -> Prop :=
| pattern_wild : Pattern1 PWild [TId "_"]
| pattern_name x : x <> "_" -> Pattern1 (PBind x) [TId x]
| pattern_lit z s : Pattern1 (PLit z) [TNum z s]
| pattern_range a s b s' : Pattern1 (PRange a b) [TNum a s; TP DotDotEq; TNum b s']
| pattern_path x y p ts : Path (x :: y :: p) ts -> Pattern1 (PPath (x :: y :: p)) ts
| pattern_app p ts l us : Path p ts -> commas Pattern l us ->
    Pattern1 (PApp p l) (ts ++ TP LParen :: us ++ [TP RParen])
| pattern_tuple l us : List.length l <> 1%nat -> commas Pattern l us ->
    Pattern1 (PTuple l) (TP LParen :: us ++ [TP RParen]).

(** [use]: the names it brings, each with the path it stands for; [pre] is the path so far. *)
Inductive Use : list string -> list (string * list string) -> list tok -> Prop :=
| use_name pre x : x <> "self" -> Use pre [(x, pre ++ [x])] [TId x]
| use_self pre : Use pre [(List.last pre "", pre)] [TId "self"]
| use_step pre x us ts : Use (pre ++ [x]) us ts -> Use pre us (TId x :: TP ColonColon :: ts)
| use_many pre l ts : commas (Use pre) l ts -> Use pre (List.concat l) (TP LBrace :: ts ++ [TP RBrace]).

(** Precedence of the binary operators, from the loosest. *)
Definition precedence (op : sign) : option nat :=
  match op with
  | BarBar => Some 0
  | AmpAmp => Some 1
  | EqEq | Ne | Lt | Gt | Le | Ge => Some 2
  | Bar => Some 3
  | Amp => Some 5
  | Shl | Shr => Some 6
  | Plus | Minus => Some 7
  | Star => Some 8
  | _ => None
  end%nat.

Definition after_cast (c : bool) (op : sign) : Prop := c = true -> op <> Lt /\ op <> Shl.

(** A statement, or the body of an arm, that starts so is a block or [if], [match], [for] and nothing
    after it. *)
Definition starts_block (ts : list tok) : Prop :=
  exists t ts', ts = t :: ts' /\ (t = TK Kif \/ t = TK Kmatch \/ t = TK Kfor \/ t = TP LBrace).
Definition starts_if (ts : list tok) : Prop := exists ts', ts = TK Kif :: ts'.
(** The tokens end in  .x  *)
Definition ends_in_field (ts : list tok) : Prop := exists u x, ts = u ++ [TP Dot; TId x].

Definition Closure_param (x : string * option ty) (ts : list tok) : Prop :=
  match snd x with
  | None => ts = [TId (fst x)]
  | Some t => exists us, ts = TId (fst x) :: TP Colon :: us /\ Type_ t us
  end.

Definition Annotation (t : option ty) (ts : list tok) : Prop :=
  match t with None => ts = [] | Some t => exists us, ts = TP Colon :: us /\ Type_ t us end.

(** Expressions.  [ok]: a struct literal is allowed, which it is not in the head of [if], [match] and
    [for].  [Operand ok n]: operators of precedence [n] and above; 9 is [as], 10 the prefix
    operators, 11 what follows an expression, 12 the rest.  Its third index says that it ends in the type
    of an [as]; then [<] and [<<] cannot follow. *)
Inductive Expr : bool -> expr -> list tok -> Prop :=
| expr_operand ok c e ts : Operand ok 0 c e ts -> Expr ok e ts
| expr_closure0 ok e ts : Expr ok e ts -> Expr ok (EClos [] e) (TP BarBar :: ts)
| expr_closure ok ps us e ts : commas Closure_param ps us -> Expr ok e ts ->
    Expr ok (EClos ps e) (TP Bar :: us ++ TP Bar :: ts)
| expr_return0 : Expr true (EReturn None) [TK Kreturn]
| expr_return ok e ts : Expr ok e ts -> Expr ok (EReturn (Some e)) (TK Kreturn :: ts)

with Operand : bool -> nat -> bool -> expr -> list tok -> Prop :=
| operand_up ok n c e ts : Operand ok (S n) c e ts -> Operand ok n c e ts
| operand_left ok n op c a ta d b tb : precedence op = Some n -> n <> 2%nat -> after_cast c op ->
    Operand ok n c a ta -> Operand ok (S n) d b tb -> Operand ok n d (EBin op a b) (ta ++ TP op :: tb)
| operand_compare ok op c a ta d b tb : precedence op = Some 2%nat -> after_cast c op ->
    Operand ok 3 c a ta -> Operand ok 3 d b tb -> Operand ok 2 d (EBin op a b) (ta ++ TP op :: tb)
| operand_as ok c a ta t tt : Operand ok 9 c a ta -> Type_ t tt ->
    Operand ok 9 true (EAs a t) (ta ++ TK Kas :: tt)
| operand_deref ok c e ts : Operand ok 10 c e ts -> Operand ok 10 c (EDeref e) (TP Star :: ts)
| operand_ref ok c e ts : Operand ok 10 c e ts -> Operand ok 10 c (ERef e) (TP Amp :: ts)
| operand_neg ok c e ts : Operand ok 10 c e ts -> Operand ok 10 c (ENeg e) (TP Minus :: ts)
| operand_try ok c e ts : Operand ok 11 c e ts -> Operand ok 11 c (ETry e) (ts ++ [TP Quest])
| operand_call ok c f ts l us : Operand ok 11 c f ts -> ~ ends_in_field ts -> commas (Expr true) l us ->
    Operand ok 11 c (ECall f l) (ts ++ TP LParen :: us ++ [TP RParen])
| operand_method ok c e ts m l us : Operand ok 11 c e ts -> commas (Expr true) l us ->
    Operand ok 11 c (EMeth e m l) (ts ++ TP Dot :: TId m :: TP LParen :: us ++ [TP RParen])
| operand_field ok c e ts f : Operand ok 11 c e ts -> Operand ok 11 c (EField e f) (ts ++ [TP Dot; TId f])
| operand_primary ok e ts : Primary ok e ts -> Operand ok 12 false e ts

with Primary : bool -> expr -> list tok -> Prop :=
| primary_number ok z s : Primary ok (ELit z s) [TNum z s]
| primary_string ok s : Primary ok (EStr s) [TStr s]
| primary_true ok : Primary ok (EBool true) [TK Ktrue]
| primary_false ok : Primary ok (EBool false) [TK Kfalse]
| primary_path ok p ts : Path p ts -> Primary ok (EPath p) ts
| primary_paren ok e ts : Expr true e ts -> Primary ok e (TP LParen :: ts ++ [TP RParen])
| primary_array ok l ts : commas (Expr true) l ts -> Primary ok (EArr l) (TP LBrack :: ts ++ [TP RBrack])
| primary_struct p ts fs us : Path p ts -> commas Field fs us ->
    Primary true (EStruct p fs) (ts ++ TP LBrace :: us ++ [TP RBrace])
| primary_macro ok m l ts : m <> "matches" -> commas (Expr true) l ts ->
    Primary ok (EMac m l) (TId m :: TP Bang :: TP LParen :: ts ++ [TP RParen])
| primary_matches ok e ts p us : Expr true e ts -> Pattern p us ->
    Primary ok (EMatches e p) (TId "matches" :: TP Bang :: TP LParen :: ts ++ TP Comma :: us ++ [TP RParen])
| primary_block ok e ts : Block e ts -> Primary ok e ts
| primary_if ok c ts t us : Expr false c ts -> Block t us -> Primary ok (EIf c t None) (TK Kif :: ts ++ us)
| primary_else ok c ts t us e vs : Expr false c ts -> Block t us -> Block e vs ->
    Primary ok (EIf c t (Some e)) (TK Kif :: ts ++ us ++ TK Kelse :: vs)
| primary_else_if ok c ts t us e vs : Expr false c ts -> Block t us -> Primary true e vs -> starts_if vs ->
    Primary ok (EIf c t (Some e)) (TK Kif :: ts ++ us ++ TK Kelse :: vs)
(* if let p = e b  is  match e { p => b, _ => {} } *)
| primary_if_let ok p ts e us b vs : Pattern p ts -> Expr false e us -> Block b vs ->
    Primary ok (EMatch e [(p, b); (PWild, EBlock [] None)]) (TK Kif :: TK Klet :: ts ++ TP Eq :: us ++ vs)
| primary_match ok e ts l us : Expr false e ts -> Arms l us ->
    Primary ok (EMatch e l) (TK Kmatch :: ts ++ TP LBrace :: us ++ [TP RBrace])
| primary_for ok p ts e us b vs : Pattern p ts -> Expr false e us -> Block b vs ->
    Primary ok (EFor p e b) (TK Kfor :: ts ++ TK Kin :: us ++ vs)

with Field : string * expr -> list tok -> Prop :=
| field_of x e ts : Expr true e ts -> Field (x, e) (TId x :: TP Colon :: ts)

(** A statement without its semicolon, or the body of an arm. *)
with Body : expr -> list tok -> Prop :=
| body_block e ts : starts_block ts -> Primary true e ts -> Body e ts
| body_other e ts : ~ starts_block ts -> Expr true e ts -> Body e ts

with Arms : list (pat * expr) -> list tok -> Prop :=
| arms_none : Arms [] []
| arms_last p ts e us : Pattern p ts -> Body e us -> Arms [(p, e)] (ts ++ TP FatArrow :: us)
| arms_comma p ts e us l vs : Pattern p ts -> Body e us -> Arms l vs ->
    Arms ((p, e) :: l) (ts ++ TP FatArrow :: us ++ TP Comma :: vs)
| arms_block p ts e us l vs : Pattern p ts -> starts_block us -> Body e us -> Arms l vs ->
    Arms ((p, e) :: l) (ts ++ TP FatArrow :: us ++ vs)

with Block : expr -> list tok -> Prop :=
| block_of ss tail ts : Statements ss tail ts -> Block (EBlock ss tail) (TP LBrace :: ts ++ [TP RBrace])

with Statements : list stmt -> option expr -> list tok -> Prop :=
| statements_none : Statements [] None []
| statements_tail e ts : Body e ts -> Statements [] (Some e) ts
| statements_let m x t us e vs ss tail ts : optional (TK Kmut) m -> Annotation t us -> Expr true e vs ->
    Statements ss tail ts ->
    Statements (SLet x t e :: ss) tail (TK Klet :: m ++ TId x :: us ++ TP Eq :: vs ++ TP Semi :: ts)
| statements_use l us ss tail ts : Use [] l us -> Statements ss tail ts ->
    Statements (SUse l :: ss) tail (TK Kuse :: us ++ TP Semi :: ts)
| statements_assign x e us ss tail ts : Expr true e us -> Statements ss tail ts ->
    Statements (SExpr (EAssign Bar x e) :: ss) tail (TId x :: TP BarEq :: us ++ TP Semi :: ts)
| statements_semi e us ss tail ts : Body e us -> Statements ss tail ts ->
    Statements (SExpr e :: ss) tail (us ++ TP Semi :: ts)
| statements_block e us ss tail ts : starts_block us -> Body e us -> Statements ss tail ts -> ts <> [] ->
    Statements (SExpr e :: ss) tail (us ++ ts).

(** Attributes: the names in them. *)
Inductive Bracketed : list string -> list tok -> Prop :=
| bracketed_none : Bracketed [] []
| bracketed_name x l ts : Bracketed l ts -> Bracketed (x :: l) (TId x :: ts)
| bracketed_other t l ts : (forall x, t <> TId x) -> t <> TP LBrack -> t <> TP RBrack ->
    Bracketed l ts -> Bracketed l (t :: ts)
| bracketed_group a ts b us : Bracketed a ts -> Bracketed b us ->
    Bracketed (a ++ b) (TP LBrack :: ts ++ TP RBrack :: us).

Inductive Attributes : list attr -> list tok -> Prop :=
| attributes_none : Attributes [] []
| attributes_outer a ts l us : Bracketed a ts -> Attributes l us ->
    Attributes (a :: l) (TP Hash :: TP LBrack :: ts ++ TP RBrack :: us)
| attributes_inner a ts l us : Bracketed a ts -> Attributes l us ->
    Attributes l (TP Hash :: TP Bang :: TP LBrack :: ts ++ TP RBrack :: us).

Definition Bound (x : string) (ts : list tok) : Prop :=
  exists p us, ts = TId x :: TP Colon :: us /\ Path p us.
Definition Generics (l : list string) (ts : list tok) : Prop :=
  l = [] /\ ts = [] \/ exists us, ts = TP Lt :: us ++ [TP Gt] /\ commas Bound l us.

Definition Typed (x : string * ty) (ts : list tok) : Prop :=
  exists us, ts = TId (fst x) :: TP Colon :: us /\ Type_ (snd x) us.
Definition Param (x : string * ty) (ts : list tok) : Prop :=
  x = ("self", TyPath ["Self"] []) /\ (ts = [TId "self"] \/ ts = [TP Amp; TId "self"]) \/
  fst x <> "self" /\ Typed x ts.
Definition Result_ (t : option ty) (ts : list tok) : Prop :=
  match t with None => ts = [] | Some t => exists us, ts = TP Arrow :: us /\ Type_ t us end.
Definition Fn_body (b : option expr) (ts : list tok) : Prop :=
  match b with None => ts = [TP Semi] | Some e => Block e ts end.

Definition Variant (x : string * list ty) (ts : list tok) : Prop :=
  exists l us vs, ts = us ++ TId (fst x) :: vs /\ Attributes l us /\
    (snd x = [] /\ vs = [] \/ exists ws, vs = TP LParen :: ws ++ [TP RParen] /\ commas Type_ (snd x) ws).
Definition Struct_field (x : string * ty) (ts : list tok) : Prop :=
  exists l us m vs, ts = us ++ m ++ vs /\ Attributes l us /\ optional (TK Kpub) m /\ Typed x vs.

Inductive Item : list attr * item -> list tok -> Prop :=
| item_of a ts m i us : Attributes a ts -> optional (TK Kpub) m -> Item1 i us -> Item (a, i) (ts ++ m ++ us)
with Item1 : item -> list tok -> Prop :=
| item_fn x l us ps vs t ws b xs : Generics l us -> commas Param ps vs -> Result_ t ws -> Fn_body b xs ->
    Item1 (IFn {| f_name := x; f_generics := l; f_params := ps; f_ret := t; f_body := b |})
      (TK Kfn :: TId x :: us ++ TP LParen :: vs ++ TP RParen :: ws ++ xs)
| item_mod_file x : Item1 (IMod x None) [TK Kmod; TId x; TP Semi]
| item_mod x l ts : Items l ts -> Item1 (IMod x (Some l)) (TK Kmod :: TId x :: TP LBrace :: ts ++ [TP RBrace])
| item_use l ts : Use [] l ts -> Item1 (IUse l) (TK Kuse :: ts ++ [TP Semi])
| item_impl t us l ts : Type_ t us -> Items l ts ->
    Item1 (IImpl None t l) (TK Kimpl :: us ++ TP LBrace :: ts ++ [TP RBrace])
| item_impl_for p args us t vs l ts : Type_ (TyPath p args) us -> Type_ t vs -> Items l ts ->
    Item1 (IImpl (Some p) t l) (TK Kimpl :: us ++ TK Kfor :: vs ++ TP LBrace :: ts ++ [TP RBrace])
| item_trait x l ts : Items l ts -> Item1 (ITrait x l) (TK Ktrait :: TId x :: TP LBrace :: ts ++ [TP RBrace])
| item_enum x l ts : commas Variant l ts ->
    Item1 (IEnum x l) (TK Kenum :: TId x :: TP LBrace :: ts ++ [TP RBrace])
| item_struct x l ts : commas Struct_field l ts ->
    Item1 (IStruct x l) (TK Kstruct :: TId x :: TP LBrace :: ts ++ [TP RBrace])
| item_type x t ts : Type_ t ts -> Item1 (IType x t) (TK Ktype :: TId x :: TP Eq :: ts ++ [TP Semi])
with Items : list (list attr * item) -> list tok -> Prop :=
| items_none : Items [] []
| items_more i ts l us : Item i ts -> Items l us -> Items (i :: l) (ts ++ us).

(** ** Files *)

(** The lines [ls] are a file with the items [l]; no token of it runs over the end of a line. *)
Definition reads_file (ls : list line) (l : list (list attr * item)) : Prop :=
  exists tss us, Forall2 (fun x ts => tokens (bytes_of x) ts) ls tss /\ splits (List.concat tss) us /\ Items l us.

(** The same of several, each with its name. *)
Definition reads (src : list (line * list line)) (files : list (string * list (list attr * item))) : Prop :=
  Forall2 (fun f g => fst g = string_of_list_byte (bytes_of (fst f)) /\ reads_file (snd f) (snd g)) src files.
