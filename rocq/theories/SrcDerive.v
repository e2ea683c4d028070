(** What the declarations of a program say about values: their types and what is derived for them.
    ([#[derive(PartialEq)]] is [veq], [#[derive(Debug)]] is [derived_debug] of SrcSem.v.) *)
From Coq Require Import ZArith List Bool String.
From Verif Require Import Rust Types Debug SrcAst SrcLink SrcSem.
Import ListNotations.
Local Open Scope Z_scope.
Local Open Scope string_scope.

(** The numbers of an integer type. *)
Definition in_type (p : platform) (t : ity) (z : Z) : bool :=
  match t with
  | U8 | U16 | U32 | SrcSem.Usize => (0 <=? z)%Z && (z <? 2 ^ width p t)%Z
  | SrcSem.I32 => (- 2 ^ 31 <=? z)%Z && (z <? 2 ^ 31)%Z
  | Lit | Into => false
  end.

Fixpoint all2 {A B} (f : A -> B -> bool) (l : list A) (m : list B) : bool :=
  match l, m with
  | [], [] => true
  | a :: l', b :: m' => f a b && all2 f l' m'
  | _, _ => false
  end.

(** [v] is a value of the type [t]. *)
Fixpoint typed (p : platform) (P : program) (fuel : nat) (t : ty) (v : value) : bool :=
  match fuel, t with
  | S n, TyPath [x] args =>
      match prim_ity x with
      | Some i => match v with VInt j z => ity_eqb i j && in_type p i z | _ => false end
      | None =>
          if x =? "bool" then match v with VBool _ => true | _ => false end
          else if x =? "Formatter" then match v with VFmt => true | _ => false end
          else if x =? "Option" then
            match args, v with
            | [a], VEnum y c vs =>
                (y =? x) && (if c =? "Some" then all2 (typed p P n) [a] vs
                             else if c =? "None" then all2 (typed p P n) [] vs else false)
            | _, _ => false
            end
          else if x =? "Result" then
            match args, v with
            | [a; b], VEnum y c vs =>
                (y =? x) && (if c =? "Ok" then all2 (typed p P n) [a] vs
                             else if c =? "Err" then all2 (typed p P n) [b] vs else false)
            | _, _ => false
            end
          else
            match v with
            | VEnum y c vs =>
                (y =? x) &&
                match assoc x (p_enums P) with
                | Some cs =>
                    match assoc c cs with Some ts => all2 (typed p P n) ts vs | None => false end
                | None => false
                end
            | VStruct y fs =>
                (y =? x) &&
                match assoc x (p_structs P) with
                | Some ds =>
                    all2 (fun d f => (fst d =? fst f) && typed p P n (snd d) (snd f)) ds fs
                | None => false
                end
            | _ => false
            end
      end
  | S n, TyRef u => typed p P n u v
  | S n, TySlice u => match v with VList vs => forallb (typed p P n u) vs | _ => false end
  | _, _ => false
  end.

(** The same for the type of a parameter: a type variable stands for any type. *)
Definition admits (p : platform) (P : program) (fuel : nat) (t : ty) (v : value) : bool :=
  match t with
  | TyPath [x] [] => (x =? "T") || typed p P fuel t v
  | _ => typed p P fuel t v
  end.

(** [a == b] by the derived implementations; [None] where there is none. *)
Definition derived_eq (P : program) (a b : value) : option bool :=
  veq 10 (map fst (filter (fun d => existsb (String.eqb "PartialEq") (snd d)) (p_derives P))) a b.

(** The registers of an instruction are numbers of type [usize], its immediate is one of type [i32]. *)
Definition opt_in (p : platform) (t : ity) (x : option Z) : Prop :=
  match x with Some z => in_type p t z = true | None => True end.
Definition numbers_ok (p : platform) (i : Instruction) : Prop :=
  opt_in p SrcSem.Usize (rd i) /\ opt_in p SrcSem.Usize (rs1 i) /\ opt_in p SrcSem.Usize (rs2 i) /\
  opt_in p SrcSem.I32 (imm i).
