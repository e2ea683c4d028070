(** Rust primitives used by raki.  Nothing here is specific to the crate: it fixes
    how the model reads Rust integers, panics, [Result] and [?].

    Integers are [Z]; a value of type [uN] is in [0, 2^N), an [i32] in
    [-2^31, 2^31), an [usize] in [0, 2^(usize_bits p)). *)
From Coq Require Import ZArith List Bool.
Import ListNotations.
Local Open Scope Z_scope.

(** The parts of the build and the machine the code can observe.
    [overflow_checks]: rustc's [-C overflow-checks] (on in debug builds, off in
    release builds).  [usize_bits]: width of [usize]. *)
Record platform := { overflow_checks : bool; usize_bits : Z }.

(** Rust supports pointer widths of 16, 32 and 64 bits. *)
Definition platform_ok (p : platform) : Prop :=
  usize_bits p = 16 \/ usize_bits p = 32 \/ usize_bits p = 64.

(** Why a computation panicked. *)
Inductive panic :=
| POverflow       (* arithmetic overflow, or shift amount >= width *)
| PAssert         (* assert!(..) *)
| PUnwrap         (* Option::unwrap on None, Result::unwrap on Err *)
| PExpect         (* Result::expect on Err *)
| PUnreachable    (* unreachable!() *)
| PUnknownReg.    (* panic!("unknown register") *)

(** A Rust computation either returns a value or panics. *)
Inductive outcome (A : Type) :=
| Ret (a : A)
| Panic (why : panic).
Arguments Ret {A} a.
Arguments Panic {A} why.

(** Rust's [Result<T, E>]. *)
Inductive result (T E : Type) :=
| Ok (t : T)
| Err (e : E).
Arguments Ok {T E} t.
Arguments Err {T E} e.

Definition bind {A B} (m : outcome A) (k : A -> outcome B) : outcome B :=
  match m with Ret a => k a | Panic w => Panic w end.

(** [let! x := m in k]: sequencing, a panic propagates. *)
Notation "'let!' x := m 'in' k" := (bind m (fun x => k))
  (at level 200, x name, m at level 100, k at level 200, right associativity).

(** The [?] operator on a computation returning a [Result]. *)
Definition try {A B E} (m : outcome (result A E)) (k : A -> outcome (result B E))
  : outcome (result B E) :=
  match m with
  | Ret (Ok a) => k a
  | Ret (Err e) => Ret (Err e)
  | Panic w => Panic w
  end.

(** [let? x := m in k]: Rust's [let x = m?; k]. *)
Notation "'let?' x := m 'in' k" := (try m (fun x => k))
  (at level 200, x name, m at level 100, k at level 200, right associativity).

(** Result of an arithmetic operation on [u<bits>] whose exact value is [v]:
    out of range, it panics with overflow checks and wraps without. *)
Definition ck_u (bits : Z) (p : platform) (v : Z) : outcome Z :=
  if (0 <=? v) && (v <? 2 ^ bits) then Ret v
  else if overflow_checks p then Panic POverflow else Ret (v mod 2 ^ bits).

(** Two's complement reading of the low 32 bits ([as i32], wrapping i32 arithmetic). *)
Definition wrap_i32 (v : Z) : Z :=
  let m := v mod 2 ^ 32 in if m <? 2 ^ 31 then m else m - 2 ^ 32.

(** Result of an arithmetic operation on [i32] whose exact value is [v]. *)
Definition ck_i32 (p : platform) (v : Z) : outcome Z :=
  if (- 2 ^ 31 <=? v) && (v <? 2 ^ 31) then Ret v
  else if overflow_checks p then Panic POverflow else Ret (wrap_i32 v).

(** Shift amount check of [<<] and [>>] on a [bits]-wide type: an amount >= [bits]
    panics with overflow checks and is masked to the low bits without. *)
Definition ck_shift (bits : Z) (p : platform) (s : Z) : outcome Z :=
  if (0 <=? s) && (s <? bits) then Ret s
  else if overflow_checks p then Panic POverflow else Ret (s mod bits).

(** [x >> s] (logical on unsigned, arithmetic on signed values). *)
Definition shr (bits : Z) (p : platform) (x s : Z) : outcome Z :=
  let! s' := ck_shift bits p s in Ret (Z.shiftr x s').

(** [x << s] on an unsigned [bits]-wide type: bits shifted out are lost. *)
Definition shl_u (bits : Z) (p : platform) (x s : Z) : outcome Z :=
  let! s' := ck_shift bits p s in Ret (Z.shiftl x s' mod 2 ^ bits).

(** [x as i32] from [u32]. *)
Definition as_i32 (v : Z) : Z := wrap_i32 v.

(** [x as usize] from an unsigned value. *)
Definition as_usize (p : platform) (v : Z) : Z := v mod 2 ^ usize_bits p.

(** [u8::try_from(v).unwrap()] and [u16::try_from(v).unwrap()] on an unsigned value. *)
Definition u8_try_from_unwrap (v : Z) : outcome Z :=
  if v <? 2 ^ 8 then Ret v else Panic PUnwrap.
Definition u16_try_from_unwrap (v : Z) : outcome Z :=
  if v <? 2 ^ 16 then Ret v else Panic PUnwrap.

(** [Option::unwrap]. *)
Definition unwrap {A} (o : option A) : outcome A :=
  match o with Some a => Ret a | None => Panic PUnwrap end.
