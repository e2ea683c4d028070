(** C40-C44: the operand methods on any word, the helpers, the choice of the extension.
    [bits_of v w hi lo], [signed_low_bits r v n], [scattered r w mask], [extension_of op]: see
    SpecHelp.v; [assigned x], [unassigned]: SpecExt.v. *)
From Coq Require Import ZArith List Bool.
From Verif Require Import Rust Types DecodeUtil Decode Spec SpecOps SpecHelp SpecExt.
From Verif Require Util Text Helpers Ext Ext2.
Import ListNotations.
Local Open Scope list_scope.
Local Open Scope Z_scope.

(** ** C40 *)

(** The word need not be an encoding of the opcode. *)
Theorem C40_parse_methods :
  (forall p isa w op, platform_ok p -> op_is_16 op = false -> exists r, In r table32 /\ r_op r = op /\
     parse_rd_u32 p w op = Ret (Ok (reg_of (c_rd (r_cls r isa)) w)) /\
     parse_rs1_u32 p w op = Ret (Ok (reg_of (c_rs1 (r_cls r isa)) w)) /\
     parse_rs2_u32 p w op = Ret (Ok (reg_of (c_rs2 (r_cls r isa)) w)) /\
     parse_imm_u32 p w op isa = Ret (Ok (imm_of (c_imm (r_cls r isa)) w)) /\
     get_format op = c_fmt (r_cls r isa)) /\
  (forall p isa w op, platform_ok p -> op_is_16 op = true -> exists r, In r table16 /\ r_op r = op /\
     parse_rd_u16 p w op = Ret (Ok (reg_of (c_rd (r_cls r isa)) w)) /\
     parse_rs1_u16 p w op = Ret (Ok (reg_of (c_rs1 (r_cls r isa)) w)) /\
     parse_rs2_u16 p w op = Ret (Ok (reg_of (c_rs2 (r_cls r isa)) w)) /\
     parse_imm_u16 p w op isa = Ret (Ok (imm_of (c_imm (r_cls r isa)) w)) /\
     get_format op = c_fmt (r_cls r isa)) /\
  (forall r r', In r (table32 ++ table16) -> In r' (table32 ++ table16) -> r_op r = r_op r' -> r = r').
Proof. exact (conj Ext.parse_exact32 (conj Ext.parse_exact16 Ext.one_row)). Qed.
Print Assumptions C40_parse_methods.

(** The all-ones word read as a branch, and as a shift: six bits of shamt on Rv64, five on Rv32. *)
Example C40_case : op_is_16 (OBaseI I_BEQ) = false /\
  parse_imm_u32 Text.plat 0xFFFFFFFF (OBaseI I_BEQ) Rv32 = Ret (Ok (Some (-2))) /\
  parse_imm_u32 Text.plat 0xFFFFFFFF (OBaseI I_SLLI) Rv32 = Ret (Ok (Some 31)) /\
  parse_imm_u32 Text.plat 0xFFFFFFFF (OBaseI I_SLLI) Rv64 = Ret (Ok (Some 63)).
Proof. repeat split; vm_compute; reflexivity. Qed.

(** ** C41 *)

Theorem C41_slice :
  (forall p w hi lo, is_u32 w -> 0 <= lo < 2 ^ 32 -> 0 <= hi < 2 ^ 32 ->
     (hi < lo -> slice_u32 p w hi lo = Panic PAssert) /\
     (lo <= hi -> lo < 32 -> hi - lo < 31 ->
        exists v, slice_u32 p w hi lo = Ret v /\ bits_of v w hi lo) /\
     (lo <= hi -> ~ (lo < 32 /\ hi - lo < 31) -> overflow_checks p = true ->
        slice_u32 p w hi lo = Panic POverflow) /\
     (lo <= hi -> hi - lo < 2 ^ 32 - 1 -> overflow_checks p = false ->
        exists v, slice_u32 p w hi lo = Ret v /\ bits_of v w (lo mod 32 + (hi - lo)) (lo mod 32)) /\
     (lo = 0 -> hi = 2 ^ 32 - 1 -> overflow_checks p = false -> slice_u32 p w hi lo = Ret 0)) /\
  (forall p w hi lo, is_u16 w -> 0 <= lo < 2 ^ 32 -> 0 <= hi < 2 ^ 32 ->
     (hi < lo -> slice_u16 p w hi lo = Panic PAssert) /\
     (lo <= hi -> lo < 16 -> hi - lo < 15 ->
        exists v, slice_u16 p w hi lo = Ret v /\ bits_of v w hi lo) /\
     (lo <= hi -> ~ (lo < 16 /\ hi - lo < 15) -> overflow_checks p = true ->
        slice_u16 p w hi lo = Panic POverflow) /\
     (lo <= hi -> hi - lo < 2 ^ 32 - 1 -> overflow_checks p = false ->
        exists v, slice_u16 p w hi lo = Ret v /\ bits_of v w (lo mod 16 + (hi - lo)) (lo mod 16)) /\
     (lo = 0 -> hi = 2 ^ 32 - 1 -> overflow_checks p = false -> slice_u16 p w hi lo = Ret 0)).
Proof. exact (conj Helpers.slice32_spec Helpers.slice16_spec). Qed.
Print Assumptions C41_slice.

(** The full width is the limit: with overflow checks 2^32 overflows.  Bits 40..33 are bits 8..1. *)
Example C41_case : slice_u32 Text.plat 0xDEADBEEF 27 20 = Ret 0xEA /\
  slice_u32 {| overflow_checks := true; usize_bits := 64 |} 0xDEADBEEF 31 0 = Panic POverflow /\
  slice_u32 {| overflow_checks := false; usize_bits := 64 |} 0xDEADBEEF 31 0 = Ret 0xDEADBEEF /\
  slice_u32 {| overflow_checks := false; usize_bits := 64 |} 0xDEADBEEF 40 33 = Ret 0x77.
Proof. repeat split; vm_compute; reflexivity. Qed.

(** ** C42 *)

Theorem C42_to_signed : forall p v n, - 2 ^ 31 <= v < 2 ^ 31 -> 0 <= n < 2 ^ 32 ->
  (1 <= n <= 30 -> exists r, to_signed_nbit p v n = Ret r /\ signed_low_bits r v n) /\
  (~ 1 <= n <= 30 -> overflow_checks p = true -> to_signed_nbit p v n = Panic POverflow) /\
  (n = 31 \/ n = 32 -> overflow_checks p = false ->
     exists r, to_signed_nbit p v n = Ret r /\ signed_low_bits r v n) /\
  (32 <= n -> overflow_checks p = false -> to_signed_nbit p v n = Ret v) /\
  (n = 0 -> overflow_checks p = false -> to_signed_nbit p v n = Ret 0).
Proof. exact Helpers.signed_spec. Qed.
Print Assumptions C42_to_signed.

Example C42_case : to_signed_nbit Text.plat 0xABC 12 = Ret (-1348) /\
  to_signed_nbit Text.plat (-1) 5 = Ret (-1) /\ to_signed_nbit Text.plat 0x1F5 8 = Ret (-11) /\
  to_signed_nbit {| overflow_checks := false; usize_bits := 64 |} (-7) 40 = Ret (-7).
Proof. repeat split; vm_compute; reflexivity. Qed.

(** ** C43 *)

Theorem C43_set :
  (forall p w mask,
     (Z.of_nat (length mask) <= 32 -> Forall (fun m => 0 <= m < 32) mask ->
        exists r, set_u32 p w mask = Ret r /\ scattered r w mask) /\
     (32 < Z.of_nat (length mask) \/ ~ Forall (fun m => 0 <= m < 32) mask -> overflow_checks p = true ->
        set_u32 p w mask = Panic POverflow) /\
     (Forall (fun m => 0 <= m) mask -> overflow_checks p = false ->
        exists r, set_u32 p w mask = Ret r /\ scattered_mod32 r w mask)) /\
  (forall p w mask,
     (Z.of_nat (length mask) <= 32 -> Forall (fun m => 0 <= m < 32) mask ->
        exists r, set_u16 p w mask = Ret r /\ scattered r w mask) /\
     (32 < Z.of_nat (length mask) \/ ~ Forall (fun m => 0 <= m < 32) mask -> overflow_checks p = true ->
        set_u16 p w mask = Panic POverflow) /\
     (Forall (fun m => 0 <= m) mask -> overflow_checks p = false ->
        exists r, set_u16 p w mask = Ret r /\ scattered_mod32 r w mask)).
Proof. exact (conj Helpers.set_spec Helpers.set_spec). Qed.
Print Assumptions C43_set.

(** The mask of c.sw's offset: bit 0 of the field goes to 6, bit 1 to 2. *)
Example C43_case : set_u16 Text.plat 2 [2; 6] = Ret 4 /\ set_u16 Text.plat 1 [2; 6] = Ret 64 /\
  set_u32 {| overflow_checks := true; usize_bits := 64 |} 1 [32] = Panic POverflow /\
  set_u32 {| overflow_checks := false; usize_bits := 64 |} 1 [35] = Ret 8.
Proof. repeat split; vm_compute; reflexivity. Qed.

(** ** C44 *)

Theorem C44_extension :
  (forall p isa w i, decode_u32 p w isa = Ret (Ok i) ->
     parse_extension_u32 p w = Ret (Ok (extension_of (opc i)))) /\
  (forall p isa w, platform_ok p -> is_u32 w ->
     (decode_u32 p w isa = Ret (Err UnknownExtension) <->
      parse_extension_u32 p w = Ret (Err UnknownExtension))) /\
  (forall p w, exists r, parse_extension_u32 p w = Ret r) /\
  (forall p w e, parse_extension_u32 p w = Ret (Err e) -> e = UnknownExtension) /\
  (forall p w, parse_extension_u32 p w <> Ret (Ok EC)) /\
  (forall p isa w i, decode_u16 p w isa = Ret (Ok i) ->
     parse_extension_u16 w = Ret (Ok (extension_of (opc i)))) /\
  (forall w, parse_extension_u16 w =
     if (w =? 0x6081) || (w =? 0x6281) then Ret (Ok EZicfiss) else Ret (Ok EC)) /\
  (forall p w, is_u32 w ->
     (forall x, parse_extension_u32 p w = Ret (Ok x) <-> among (assigned x) w) /\
     (parse_extension_u32 p w = Ret (Err UnknownExtension) <-> among unassigned w)).
Proof.
  exact (conj Ext.decode_ext32 (conj Ext.decode_unknown32 (conj Ext.ext_total (conj Ext.ext_error
    (conj Ext.ext_not_c (conj Ext.decode_ext16 (conj Ext.ext16_cases Ext2.ext_exact))))))).
Qed.
Print Assumptions C44_extension.

Example C44_case : parse_extension_u32 Text.plat 0x02C5F533 = Ret (Ok EM) /\
  (exists i, decode_u32 Text.plat 0x02C5F533 Rv32 = Ret (Ok i) /\ opc i = OM M_REMU) /\
  decode_u32 Text.plat 0x0000100F Rv32 = Ret (Err UnknownExtension).
Proof. split; [reflexivity|]. split; [eexists|]; repeat split; vm_compute; reflexivity. Qed.
