(** The example in the documentation of [set] (src/decode.rs:131-140): 0b1010_1101 with the mask
    [7, 5, 3, 2, 0, 6, 4, 1] gives 0b1111_1000, that is, the bits at the listed positions are
    collected. *)
From Coq Require Import ZArith List Permutation.
Import ListNotations.
Local Open Scope Z_scope.

(** The [j]-th entry counted from the end. *)
Definition entry (mask : list Z) (j : nat) : Z := nth (length mask - S j) mask 0.

(** [r] consists of the bits of [w] at the positions in [mask], the last entry giving bit 0. *)
Definition collected (r w : Z) (mask : list Z) : Prop :=
  0 <= r < 2 ^ Z.of_nat (length mask) /\
  forall j, (j < length mask)%nat -> Z.testbit r (Z.of_nat j) = Z.testbit w (entry mask j).

(** Each position below the length, once. *)
Definition reordering (mask : list Z) : Prop :=
  Permutation mask (map Z.of_nat (seq 0 (length mask))).

(** Reordering twice changes nothing. *)
Definition own_inverse (mask : list Z) : Prop :=
  forall j, (j < length mask)%nat -> entry mask (Z.to_nat (entry mask j)) = Z.of_nat j.
