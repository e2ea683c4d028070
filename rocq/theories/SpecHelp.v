(** Vocabulary of the statements about the helpers: bits of a word, extensions. *)
From Coq Require Import ZArith List Bool.
From Verif Require Import Types.
Local Open Scope Z_scope.

(** [v] consists of bits [hi]..[lo] of [w]. *)
Definition bits_of (v w hi lo : Z) : Prop :=
  0 <= v /\ forall k, 0 <= k -> Z.testbit v k = (k <=? hi - lo) && Z.testbit w (lo + k).

(** [r] is the two's complement reading of the low [n] bits of [v]. *)
Definition signed_low_bits (r v n : Z) : Prop :=
  - 2 ^ (n - 1) <= r < 2 ^ (n - 1) /\ (r - v) mod 2 ^ n = 0.

(** [r] has bit [j] of [w] at the position in the [j]-th entry of [mask] counted from the end, and
    zeros elsewhere. *)
Definition scattered (r w : Z) (mask : list Z) : Prop :=
  0 <= r < 2 ^ 32 /\ forall k, 0 <= k -> (Z.testbit r k = true <->
    exists j, (j < length mask)%nat /\ nth_error mask (length mask - S j) = Some k /\
      Z.testbit w (Z.of_nat j) = true).

(** The same with positions and bit numbers taken modulo 32. *)
Definition scattered_mod32 (r w : Z) (mask : list Z) : Prop :=
  0 <= r < 2 ^ 32 /\ forall k, 0 <= k -> (Z.testbit r k = true <->
    exists j m, (j < length mask)%nat /\ nth_error mask (length mask - S j) = Some m /\ m mod 32 = k /\
      Z.testbit w (Z.of_nat j mod 32) = true).

(** The extension an opcode belongs to. *)
Definition extension_of (op : OpcodeKind) : Extensions :=
  match op with
  | OBaseI _ => EBaseI | OM _ => EM | OA _ => EA | OC _ => EC | OZifencei _ => EZifencei
  | OZicboz _ => EZicboz | OZicsr _ => EZicsr | OZicfiss _ => EZicfiss | OZicntr _ => EZicntr
  | OPriv _ => EPriv
  end.
