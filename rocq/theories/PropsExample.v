(** C57: the examples in the documentation of [slice] and [set].
    [collected r w mask], [reordering mask], [own_inverse mask]: see SpecExample.v. *)
From Coq Require Import ZArith List Bool Permutation.
From Verif Require Import Rust Types DecodeUtil SpecHelp SpecExample.
From Verif Require Text Example57.
Import ListNotations.
Local Open Scope list_scope.
Local Open Scope Z_scope.

(** For a mask that lists each position once, [set] is the inverse of what the example shows; the two
    are the same on all words exactly if the mask is its own inverse. *)
Theorem C57_set_follows_its_example_partial : forall p mask, reordering mask -> (length mask <= 32)%nat ->
  (forall w, 0 <= w < 2 ^ Z.of_nat (length mask) ->
     exists r, set_u32 p w mask = Ret r /\ set_u16 p w mask = Ret r /\ collected w r mask) /\
  (forall w r, 0 <= w < 2 ^ Z.of_nat (length mask) -> collected r w mask ->
     set_u32 p r mask = Ret w /\ set_u16 p r mask = Ret w) /\
  ((forall w, 0 <= w < 2 ^ Z.of_nat (length mask) ->
      exists r, set_u32 p w mask = Ret r /\ collected r w mask) <-> own_inverse mask).
Proof. exact Example57.inverse_of_example. Qed.
Print Assumptions C57_set_follows_its_example_partial.

(** The mask and the word of the example; what it says is the collected value. *)
Theorem C57_set_follows_its_example_refuted : exists mask w r,
  reordering mask /\ mask = [7; 5; 3; 2; 0; 6; 4; 1] /\ w = 173 (* 0b1010_1101 *) /\
  collected r w mask /\ r = 248 (* 0b1111_1000 *) /\
  forall p, set_u32 p w mask = Ret 203 (* 0b1100_1011 *) /\ set_u32 p r mask = Ret w.
Proof. exact Example57.set_example. Qed.
Print Assumptions C57_set_follows_its_example_refuted.

(** slice(5, 2) of 0b0101_0101_1001 is 0b0110, not 0b1_0110: no result has more than
    end - start + 1 bits. *)
Theorem C57_slice_follows_its_example_refuted : exists w hi lo shown,
  w = 1369 (* 0b0101_0101_1001 *) /\ hi = 5 /\ lo = 2 /\ shown = 22 (* 0b1_0110 *) /\
  bits_of shown w (hi + 1) lo /\
  forall p, slice_u32 p w hi lo = Ret 6 /\ slice_u16 p w hi lo = Ret 6.
Proof. exact Example57.slice_example. Qed.
Print Assumptions C57_slice_follows_its_example_refuted.

(** The two halves of a byte exchanged: its own inverse. *)
Example C57_case : reordering [3; 2; 1; 0; 7; 6; 5; 4] /\ own_inverse [3; 2; 1; 0; 7; 6; 5; 4] /\
  set_u32 Text.plat 0xA5 [3; 2; 1; 0; 7; 6; 5; 4] = Ret 0x5A /\
  collected 0x5A 0xA5 [3; 2; 1; 0; 7; 6; 5; 4].
Proof. exact Example57.swapped. Qed.
