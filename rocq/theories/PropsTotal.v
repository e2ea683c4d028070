(** C01-C04: totality, platform independence, length discipline.
    [decode_u32 p w isa]: [w.decode(isa)] on a u32; [platform_ok p]: pointer width 16, 32 or 64,
    overflow checks on or off. *)
From Coq Require Import ZArith List Bool String.
From Verif Require Import Rust Types Decode Fmt PartialEq Spec SpecOps SpecText SpecApi.
From Verif Require Util Plat Rows Rows2 Operands Api PartialEqOk Numerals Text Text2 Findings Claims.
Import ListNotations.
Local Open Scope list_scope.
Local Open Scope Z_scope.

Theorem C01_decode_u32_never_panics : forall p isa w, platform_ok p -> is_u32 w ->
  exists r, decode_u32 p w isa = Ret r.
Proof. exact Rows.total32. Qed.
Print Assumptions C01_decode_u32_never_panics.

Example C01_case : platform_ok {| overflow_checks := true; usize_bits := 16 |} /\ is_u32 0xFFFFFFFF /\
  decode_u32 {| overflow_checks := true; usize_bits := 16 |} 0xFFFFFFFF Rv32 = Ret (Err InvalidOpcode).
Proof. unfold platform_ok, is_u32. cbn. repeat split; auto; vm_compute; congruence. Qed.

Theorem C02_decode_u16_never_panics : forall p isa w, platform_ok p -> is_u16 w ->
  exists r, decode_u16 p w isa = Ret r.
Proof. exact Rows.total16. Qed.
Print Assumptions C02_decode_u16_never_panics.

Example C02_case : platform_ok {| overflow_checks := true; usize_bits := 64 |} /\ is_u16 0xFFFC /\
  exists i, decode_u16 {| overflow_checks := true; usize_bits := 64 |} 0xFFFC Rv64 = Ret (Ok i).
Proof.
  unfold platform_ok, is_u16. cbn. repeat split; auto; [vm_compute; congruence..|].
  eexists. vm_compute. reflexivity.
Qed.

Theorem C03_platform_independent :
  (forall p q isa w, platform_ok p -> platform_ok q -> is_u32 w ->
     decode_u32 p w isa = decode_u32 q w isa) /\
  (forall p q isa w, platform_ok p -> platform_ok q -> is_u16 w ->
     decode_u16 p w isa = decode_u16 q w isa).
Proof. exact (conj Rows.plat32 Rows.plat16). Qed.
Print Assumptions C03_platform_independent.

(** The platform does matter for u32 to usize conversions of this kind of word: a jump with the
    largest negative offset. *)
Example C03_case : exists p q i, platform_ok p /\ platform_ok q /\ p <> q /\
  decode_u32 p 0x800000EF Rv64 = Ret (Ok i) /\ decode_u32 q 0x800000EF Rv64 = Ret (Ok i) /\
  imm i = Some (-1048576).
Proof.
  exists {| overflow_checks := true; usize_bits := 64 |}, {| overflow_checks := false; usize_bits := 16 |}.
  eexists. unfold platform_ok. cbn. repeat split; auto; [discriminate|vm_compute; reflexivity..].
Qed.

Theorem C04_length_discipline :
  (forall p isa w i, platform_ok p -> is_u32 w -> decode_u32 p w isa = Ret (Ok i) -> w mod 4 = 3) /\
  (forall p isa w i, platform_ok p -> is_u16 w -> decode_u16 p w isa = Ret (Ok i) -> w mod 4 <> 3) /\
  (forall p q isa isa' w i j, platform_ok p -> platform_ok q -> is_u32 w ->
     decode_u32 p w isa = Ret (Ok i) -> decode_u16 q (w mod 2 ^ 16) isa' = Ret (Ok j) -> False).
Proof. exact (conj Rows.length32 (conj Rows.length16 Rows.one_width)). Qed.
Print Assumptions C04_length_discipline.

Example C04_case : exists p i j, platform_ok p /\ is_u32 0x4501A823 /\
  decode_u32 p 0x4501A823 Rv32 = Ret (Ok i) /\ decode_u16 p 0x4501 Rv32 = Ret (Ok j).
Proof.
  exists {| overflow_checks := true; usize_bits := 64 |}. eexists. eexists. unfold platform_ok, is_u32. cbn.
  repeat split; auto; vm_compute; (congruence || reflexivity).
Qed.
