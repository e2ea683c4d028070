(** A stream of instructions: how a program is laid out in 16-bit parcels, and how a client walks
    through it. *)
From Coq Require Import ZArith List Bool.
From Verif Require Import Rust Types Spec SpecAsm.
Import ListNotations.
Local Open Scope list_scope.
Local Open Scope Z_scope.

(** The parcels of one instruction: a 32-bit word is two parcels, low half first. *)
Inductive laid_out (isa : Isa) (i : Instruction) : list Z -> Prop :=
| One h : valid16 isa i -> encodes16 isa i h -> laid_out isa i [h]
| Two w : valid32 isa i -> encodes32 isa i w -> laid_out isa i [w mod 2 ^ 16; w / 2 ^ 16].

(** [l] is the code of the instructions [is], one after the other. *)
Inductive program (isa : Isa) : list Instruction -> list Z -> Prop :=
| Done : program isa [] []
| Next i is c l : laid_out isa i c -> program isa is l -> program isa (i :: is) (c ++ l).

(** The client: a parcel that ends in 11 is the lower half of a 32-bit instruction (given to [d32] with
    the next parcel as upper half); any other is an instruction on its own (given to [d16]). *)
Fixpoint walk {A} (d16 d32 : Z -> A) (l : list Z) : list A :=
  match l with
  | [] => []
  | a :: l' =>
      if a mod 4 =? 3 then
        match l' with
        | [] => []
        | b :: l'' => d32 (a + 2 ^ 16 * b) :: walk d16 d32 l''
        end
      else d16 a :: walk d16 d32 l'
  end.
