(** C23-C29: errors, the individual parse methods, TryFrom<usize>. *)
From Coq Require Import ZArith List Bool String.
From Verif Require Import Rust Types Decode Fmt PartialEq Spec SpecOps SpecText SpecApi.
From Verif Require Util Plat Rows Rows2 Operands Api PartialEqOk Numerals Text Text2 Findings Claims Tight.
Import ListNotations.
Local Open Scope list_scope.
Local Open Scope Z_scope.

Theorem C23_errors_u32 : forall p isa w e, platform_ok p -> is_u32 w ->
  (decode_u32 p w isa = Ret (Err e) <->
   exists r, In r errors32 /\ in_enc (e_enc r isa) w = true /\ e = e_err r).
Proof. exact Rows2.reject32. Qed.
Print Assumptions C23_errors_u32.

Example C23_case : is_u32 0x06A50533 /\ decode_u32 Text.plat 0x06A50533 Rv64 = Ret (Err InvalidFunct7).
Proof. split; [Findings.is_word|vm_compute; reflexivity]. Qed.

Theorem C24_errors_u16 :
  (forall p isa w e, platform_ok p -> is_u16 w ->
     (decode_u16 p w isa = Ret (Err e) <->
      exists r, In r errors16 /\ in_enc (e_enc r isa) w = true /\ e = e_err r)) /\
  (forall p isa w e, platform_ok p -> is_u16 w -> decode_u16 p w isa = Ret (Err e) ->
     (e = IllegalInstruction <-> w = 0) /\
     (e = OnlyRv64Inst <->
        isa = Rv32 /\ exists i, decode_u16 p w Rv64 = Ret (Ok i) /\ In (opc i) rv64_c /\
          opc i <> OC C_ADDIW) /\
     (e = IllegalInstruction \/ e = OnlyRv64Inst \/ e = InvalidOpcode)) /\
  (forall p isa, platform_ok p -> decode_u16 p 0 isa = Ret (Err IllegalInstruction)).
Proof. exact (conj Rows2.reject16 (conj Api.exact_errors16 Api.zero_illegal)). Qed.
Print Assumptions C24_errors_u16.

Example C24_case : decode_u16 Text.plat 0x6088 Rv32 = Ret (Err OnlyRv64Inst) /\
  decode_u16 Text.plat 0x8000 Rv32 = Ret (Err InvalidOpcode).
Proof. split; vm_compute; reflexivity. Qed.

(** ** C25 *)

(** Missing: the errors must be Not16BitInst and Not32BitInst.  Proved: such values are rejected,
    always with InvalidOpcode, and decode returns a length error for no input. *)
Theorem C25_length_errors_partial :
  (forall p isa w, platform_ok p -> is_u32 w -> w mod 4 <> 3 ->
     decode_u32 p w isa = Ret (Err InvalidOpcode)) /\
  (forall p isa w, platform_ok p -> is_u16 w -> w mod 4 = 3 ->
     decode_u16 p w isa = Ret (Err InvalidOpcode)) /\
  (forall p isa w e, platform_ok p -> is_u32 w -> decode_u32 p w isa = Ret (Err e) ->
     e <> Not16BitInst /\ e <> Not32BitInst) /\
  (forall p isa w e, platform_ok p -> is_u16 w -> decode_u16 p w isa = Ret (Err e) ->
     e <> Not16BitInst /\ e <> Not32BitInst).
Proof.
  exact (conj Api.wrong_length32 (conj Api.wrong_length16
    (conj Api.no_length_errors32 Api.no_length_errors16))).
Qed.
Print Assumptions C25_length_errors_partial.

Theorem C25_length_errors_refuted :
  (exists p isa w, platform_ok p /\ is_u16 w /\ w mod 4 = 3 /\
     decode_u16 p w isa <> Ret (Err Not16BitInst)) /\
  (exists p isa w, platform_ok p /\ is_u32 w /\ w mod 4 <> 3 /\
     decode_u32 p w isa <> Ret (Err Not32BitInst)).
Proof. exact Findings.length_refuted. Qed.
Print Assumptions C25_length_errors_refuted.

Example C25_case : 0x12344501 mod 4 <> 3 /\ is_u32 0x12344501 /\ 0x0533 mod 4 = 3 /\ is_u16 0x0533.
Proof. split; [vm_compute; discriminate|]. split; [Findings.is_word|]. split; [reflexivity|Findings.is_word]. Qed.

(** ** C26 *)

Theorem C26_decode_agrees_with_parse :
  (forall p isa w, platform_ok p -> is_u32 w ->
     (exists i, decode_u32 p w isa = Ret (Ok i) /\
        parse_opcode_u32 p w isa = Ret (Ok (opc i)) /\
        parse_rd_u32 p w (opc i) = Ret (Ok (rd i)) /\
        parse_rs1_u32 p w (opc i) = Ret (Ok (rs1 i)) /\
        parse_rs2_u32 p w (opc i) = Ret (Ok (rs2 i)) /\
        parse_imm_u32 p w (opc i) isa = Ret (Ok (imm i)) /\
        inst_format i = get_format (opc i) /\ is_compressed i = false) \/
     (exists e, decode_u32 p w isa = Ret (Err e) /\ parse_opcode_u32 p w isa = Ret (Err e))) /\
  (forall p isa w, platform_ok p -> is_u16 w -> w <> 0 ->
     (exists i, decode_u16 p w isa = Ret (Ok i) /\
        parse_opcode_u16 p w isa = Ret (Ok (opc i)) /\
        parse_rd_u16 p w (opc i) = Ret (Ok (rd i)) /\
        parse_rs1_u16 p w (opc i) = Ret (Ok (rs1 i)) /\
        parse_rs2_u16 p w (opc i) = Ret (Ok (rs2 i)) /\
        parse_imm_u16 p w (opc i) isa = Ret (Ok (imm i)) /\
        inst_format i = get_format (opc i) /\ is_compressed i = true) \/
     (exists e, decode_u16 p w isa = Ret (Err e) /\ parse_opcode_u16 p w isa = Ret (Err e))) /\
  (forall p isa, platform_ok p -> decode_u16 p 0 isa = Ret (Err IllegalInstruction) /\
     parse_opcode_u16 p 0 isa = Ret (Err InvalidOpcode)).
Proof. exact (conj Api.parse_agree32 (conj Api.parse_agree16 Claims.zero_errors)). Qed.
Print Assumptions C26_decode_agrees_with_parse.

(** Zero is the exception: the two errors differ. *)
Example C26_case : exists i, decode_u16 Text.plat 0x8D2D Rv64 = Ret (Ok i) /\
  parse_opcode_u16 Text.plat 0x8D2D Rv64 = Ret (Ok (opc i)) /\ opc i = OC C_XOR.
Proof. eexists. split; [vm_compute; reflexivity|]. split; vm_compute; reflexivity. Qed.

(** ** C27 *)

(** Missing: opcodes of Zicfiss of the other width must give the error; they panic (or, for three of
    the 16-bit methods, give Ok(None)).  Proved: exactly those do, and with an opcode of the own width
    no method panics. *)
Theorem C27_foreign_opcode_partial :
  (forall p w op isa, op_is_16 op = true -> is_zicfiss op = false ->
     parse_rd_u32 p w op = Ret (Err Not32BitInst) /\ parse_rs1_u32 p w op = Ret (Err Not32BitInst) /\
     parse_rs2_u32 p w op = Ret (Err Not32BitInst) /\
     parse_imm_u32 p w op isa = Ret (Err Not32BitInst)) /\
  (forall p w op isa, op_is_16 op = false -> is_zicfiss op = false ->
     parse_rd_u16 p w op = Ret (Err Not16BitInst) /\ parse_rs1_u16 p w op = Ret (Err Not16BitInst) /\
     parse_rs2_u16 p w op = Ret (Err Not16BitInst) /\
     parse_imm_u16 p w op isa = Ret (Err Not16BitInst)) /\
  (forall p w op isa, platform_ok p -> op_is_16 op = false ->
     (exists a, parse_rd_u32 p w op = Ret (Ok a)) /\ (exists a, parse_rs1_u32 p w op = Ret (Ok a)) /\
     (exists a, parse_rs2_u32 p w op = Ret (Ok a)) /\
     (exists a, parse_imm_u32 p w op isa = Ret (Ok a))) /\
  (forall p w op isa, platform_ok p -> op_is_16 op = true ->
     (exists a, parse_rd_u16 p w op = Ret (Ok a)) /\ (exists a, parse_rs1_u16 p w op = Ret (Ok a)) /\
     (exists a, parse_rs2_u16 p w op = Ret (Ok a)) /\
     (exists a, parse_imm_u16 p w op isa = Ret (Ok a))) /\
  (forall p w op isa, platform_ok p -> op_is_16 op = true -> is_zicfiss op = true ->
     parse_rd_u32 p w op = Panic PUnreachable /\ parse_rs1_u32 p w op = Panic PUnreachable /\
     parse_rs2_u32 p w op = Panic PUnreachable /\ parse_imm_u32 p w op isa = Panic PUnreachable) /\
  (forall p w op isa, op_is_16 op = false -> is_zicfiss op = true ->
     parse_rd_u16 p w op = Panic PUnreachable /\ parse_rs1_u16 p w op = Ret (Ok None) /\
     parse_rs2_u16 p w op = Ret (Ok None) /\ parse_imm_u16 p w op isa = Ret (Ok None)).
Proof.
  exact (conj Api.foreign32 (conj Api.foreign16 (conj Api.own_width32 (conj Api.own_width16
    (conj Api.foreign_ss32 Api.foreign_ss16))))).
Qed.
Print Assumptions C27_foreign_opcode_partial.

Theorem C27_foreign_opcode_refuted :
  (exists p w op, platform_ok p /\ is_u32 w /\ op_is_16 op = true /\
     exists why, parse_rd_u32 p w op = Panic why) /\
  (exists p w op, platform_ok p /\ is_u16 w /\ op_is_16 op = false /\
     exists why, parse_rd_u16 p w op = Panic why).
Proof. exact Findings.foreign_refuted. Qed.
Print Assumptions C27_foreign_opcode_refuted.

Example C27_case : op_is_16 (OC C_LW) = true /\ is_zicfiss (OC C_LW) = false /\
  op_is_16 (OBaseI I_LW) = false /\ op_is_16 (OZicfiss Ss_C_SSPUSH) = true.
Proof. repeat split. Qed.

(** ** C28, C29 *)

Theorem C28_try_from_agrees :
  (forall p x, 0 <= x < 2 ^ 32 -> x mod 4 = 3 -> try_from_usize p x = decode_u32 p x Rv64) /\
  (forall p x, 0 <= x < 2 ^ 16 -> x mod 4 <> 3 -> try_from_usize p x = decode_u16 p x Rv64).
Proof. exact (conj Api.try_from_32 Api.try_from_16). Qed.
Print Assumptions C28_try_from_agrees.

Example C28_case : exists i j, try_from_usize Text.plat 0xFFF50513 = Ret (Ok i) /\ imm i = Some (-1) /\
  try_from_usize Text.plat 0x157D = Ret (Ok j) /\ opc j = OC C_ADDI.
Proof. eexists. eexists. repeat split; vm_compute; reflexivity. Qed.

(** Missing: the other values must give an error; they panic.  Proved: exactly those do. *)
Theorem C29_try_from_never_panics_partial : forall p x, platform_ok p -> 0 <= x < 2 ^ usize_bits p ->
  (x < 2 ^ 16 \/ x mod 4 = 3 /\ x < 2 ^ 32 -> exists r, try_from_usize p x = Ret r) /\
  (~ (x < 2 ^ 16 \/ x mod 4 = 3 /\ x < 2 ^ 32) -> try_from_usize p x = Panic PExpect).
Proof. exact Tight.try_from_cases. Qed.
Print Assumptions C29_try_from_never_panics_partial.

Theorem C29_try_from_never_panics_refuted : exists p x why, platform_ok p /\
  0 <= x < 2 ^ usize_bits p /\ try_from_usize p x = Panic why.
Proof. exact Findings.try_from_refuted. Qed.
Print Assumptions C29_try_from_never_panics_refuted.

Example C29_case : 0 <= 0xFFFF < 2 ^ usize_bits Text.plat /\
  try_from_usize Text.plat 0xFFFF = Ret (Err InvalidOpcode) /\
  try_from_usize Text.plat 0x100000003 = Panic PExpect.
Proof. split; [cbn; Lia.lia|]. split; vm_compute; reflexivity. Qed.
