(** C17-C22: immediates, registers, presence of operands, the two ISAs.
    [imm_in (Some (lo, hi, step)) v]: [v] is present, between [lo] and [hi] and a multiple of
    [step]; [imm_in None v]: [v] is absent. *)
From Coq Require Import ZArith List Bool String.
From Verif Require Import Rust Types Decode Fmt PartialEq Spec SpecOps SpecText SpecApi.
From Verif Require Util Plat Rows Rows2 Operands Api PartialEqOk Numerals Text Text2 Findings Claims.
Import ListNotations.
Local Open Scope list_scope.
Local Open Scope Z_scope.

Theorem C17_imm_u32 : forall p isa w i, platform_ok p -> is_u32 w -> decode_u32 p w isa = Ret (Ok i) ->
  imm_in (imm_range32 isa (opc i)) (imm i) /\
  (exists r, In r table32 /\ r_op r = opc i /\ imm i = imm_of (c_imm (r_cls r isa)) w) /\
  (forall w' i', is_u32 w' -> decode_u32 p w' isa = Ret (Ok i') -> opc i = opc i' ->
     same_bits (imm_bits32 isa (opc i)) w w' -> imm i = imm i').
Proof.
  exact (fun p isa w i Hp Hw H => conj (Operands.imm32 p isa w i Hp Hw H)
    (conj (Claims.imm_value32 p isa w i Hp Hw H)
      (fun w' i' Hw' H' => Operands.imm_only32 p isa w w' i i' Hp Hw Hw' H H'))).
Qed.
Print Assumptions C17_imm_u32.

(** Two words with the same immediate bits and different registers. *)
Example C17_case : exists i i', decode_u32 Text.plat 0x80A58063 Rv64 = Ret (Ok i) /\
  decode_u32 Text.plat 0x80060063 Rv64 = Ret (Ok i') /\ opc i = opc i' /\ rs1 i <> rs1 i' /\
  same_bits (imm_bits32 Rv64 (opc i)) 0x80A58063 0x80060063 /\ imm i = Some (-4096).
Proof.
  eexists. eexists. split; [vm_compute; reflexivity|]. split; [vm_compute; reflexivity|].
  split; [reflexivity|]. split; [discriminate|]. split; [|reflexivity].
  intros hi lo k [E|[E|[]]] H; injection E as <- <-;
    repeat (match type of H with ?a <= _ <= ?b =>
      let n := eval vm_compute in (a + 1) in
      assert (K : k = a \/ n <= k <= b) by Lia.lia; destruct K as [->|K];
      [reflexivity|clear H; rename K into H] end; try (exfalso; Lia.lia)).
Qed.

Theorem C18_imm_u16 : forall p isa w i, platform_ok p -> is_u16 w -> decode_u16 p w isa = Ret (Ok i) ->
  imm_in (imm_range16 (opc i)) (imm i) /\
  (exists r, In r table16 /\ r_op r = opc i /\ imm i = imm_of (c_imm (r_cls r isa)) w) /\
  (forall w' i', is_u16 w' -> decode_u16 p w' isa = Ret (Ok i') -> opc i = opc i' ->
     same_bits (imm_bits16 (opc i)) w w' -> imm i = imm i').
Proof.
  exact (fun p isa w i Hp Hw H => conj (Operands.imm16 p isa w i Hp Hw H)
    (conj (Claims.imm_value16 p isa w i Hp Hw H)
      (fun w' i' Hw' H' => Operands.imm_only16 p isa w w' i i' Hp Hw Hw' H H'))).
Qed.
Print Assumptions C18_imm_u16.

Example C18_case : is_u16 0x717D /\ exists i, decode_u16 Text.plat 0x717D Rv64 = Ret (Ok i) /\
  imm_range16 (opc i) = Some (-512, 496, 16) /\ imm i = Some (-16).
Proof.
  split; [Findings.is_word|]. eexists. split; [vm_compute; reflexivity|]. split; reflexivity.
Qed.

Theorem C19_register_ranges :
  (forall p isa w i, platform_ok p -> is_u32 w -> decode_u32 p w isa = Ret (Ok i) ->
     below 32 (rd i) /\ below 32 (rs1 i) /\
     below (if is_zicsr (opc i) then 4096 else 32) (rs2 i)) /\
  (forall p isa w i, platform_ok p -> is_u16 w -> decode_u16 p w isa = Ret (Ok i) ->
     below 32 (rd i) /\ below 32 (rs1 i) /\ below 32 (rs2 i) /\
     (In (opc i) prime_rd -> exists r, rd i = Some r /\ 8 <= r <= 15) /\
     (In (opc i) prime_rs1 -> exists r, rs1 i = Some r /\ 8 <= r <= 15) /\
     (In (opc i) prime_rs2 -> exists r, rs2 i = Some r /\ 8 <= r <= 15)).
Proof. exact (conj Operands.reg_range32 Operands.reg_range16). Qed.
Print Assumptions C19_register_ranges.

Example C19_case : exists i j, decode_u32 Text.plat 0xFFF51573 Rv64 = Ret (Ok i) /\
  is_zicsr (opc i) = true /\ rs2 i = Some 4095 /\
  decode_u16 Text.plat 0xE398 Rv64 = Ret (Ok j) /\ In (opc j) prime_rs2 /\ rs2 j = Some 14.
Proof.
  eexists. eexists. split; [vm_compute; reflexivity|]. split; [reflexivity|]. split; [reflexivity|].
  split; [vm_compute; reflexivity|]. split; [cbn; tauto|reflexivity].
Qed.

(** [inst_shape i]: which of rd, rs1, rs2, imm are present. *)
Theorem C20_presence : forall i j, decoded i -> decoded j -> opc i = opc j -> inst_shape i = inst_shape j.
Proof. exact Operands.presence. Qed.
Print Assumptions C20_presence.

Example C20_case : exists i j, decoded i /\ decoded j /\ opc i = opc j /\ i <> j /\
  inst_shape i = (true, true, false, true).
Proof.
  exists {| opc := OBaseI I_SRLI; rd := Some 10; rs1 := Some 11; rs2 := None; imm := Some 3;
            inst_format := RShamtFormat; is_compressed := false |},
         {| opc := OBaseI I_SRLI; rd := Some 10; rs1 := Some 11; rs2 := None; imm := Some 35;
            inst_format := RShamtFormat; is_compressed := false |}.
  split; [apply (Text.dec_decoded (Text.W32 0x0035D513)); vm_compute; reflexivity|].
  split; [apply (Text.dec_decoded (Text.W32 0x0235D513)); vm_compute; reflexivity|].
  split; [reflexivity|]. split; [discriminate|reflexivity].
Qed.

(** ** C21 *)

(** Missing: ssamoswap.d is not gated (on Rv32 it is returned, never OnlyRv64Inst); C.ADDIW shares
    its slot with C.JAL; the upper-half counters are returned on Rv64.  Proved: these are the only
    exceptions. *)
Theorem C21_gating_partial :
  (forall p isa w, platform_ok p -> is_u32 w ->
     (decode_u32 p w isa = Ret (Err OnlyRv64Inst) <->
      isa = Rv32 /\ exists i, decode_u32 p w Rv64 = Ret (Ok i) /\ In (opc i) gated32)) /\
  (forall p isa w, platform_ok p -> is_u16 w ->
     (decode_u16 p w isa = Ret (Err OnlyRv64Inst) <->
      isa = Rv32 /\ exists i, decode_u16 p w Rv64 = Ret (Ok i) /\ In (opc i) rv64_c /\
        opc i <> OC C_ADDIW)) /\
  (forall p w i, platform_ok p -> is_u32 w -> decode_u32 p w Rv32 = Ret (Ok i) ->
     In (opc i) (rv64_base_i ++ rv64_m ++ rv64_a ++ rv64_ss) -> opc i = OZicfiss Ss_SSAMOSWAP_D) /\
  (forall p w i, platform_ok p -> is_u16 w -> decode_u16 p w Rv32 = Ret (Ok i) -> ~ In (opc i) rv64_c) /\
  (forall p w i, platform_ok p -> is_u16 w -> decode_u16 p w Rv64 = Ret (Ok i) -> ~ In (opc i) rv32_c).
Proof.
  exact (conj Rows2.only_rv64_32 (conj Rows2.only_rv64_16 (conj Findings.wrong_isa32
    (conj Rows2.never16 Rows2.never16')))).
Qed.
Print Assumptions C21_gating_partial.

Theorem C21_gating_refuted :
  (exists p w i, platform_ok p /\ is_u32 w /\ decode_u32 p w Rv32 = Ret (Ok i) /\ In (opc i) rv64_ss) /\
  (exists p w i, platform_ok p /\ is_u32 w /\ decode_u32 p w Rv64 = Ret (Ok i) /\
     In (opc i) rv32_counters).
Proof. exact Findings.gating_refuted. Qed.
Print Assumptions C21_gating_refuted.

Example C21_case : decode_u32 Text.plat 0x0035959B Rv32 = Ret (Err OnlyRv64Inst) /\
  exists i, decode_u32 Text.plat 0x0035959B Rv64 = Ret (Ok i) /\ opc i = OBaseI I_SLLIW.
Proof. split; [vm_compute; reflexivity|]. eexists. split; [vm_compute; reflexivity|reflexivity]. Qed.

(** ** C22 *)

Theorem C22_isas_agree :
  (forall p w i, platform_ok p -> is_u32 w ->
     decode_u32 p w Rv32 = Ret (Ok i) -> decode_u32 p w Rv64 = Ret (Ok i)) /\
  (forall p w i e, platform_ok p -> is_u32 w ->
     decode_u32 p w Rv64 = Ret (Ok i) -> decode_u32 p w Rv32 = Ret (Err e) ->
     e = OnlyRv64Inst \/
     In (opc i) shift_ops /\ e = InvalidFunct7 /\ exists s, imm i = Some s /\ 32 <= s < 64) /\
  (forall p w i, platform_ok p -> is_u16 w ->
     decode_u16 p w Rv32 = Ret (Ok i) -> opc i <> OC C_JAL -> decode_u16 p w Rv64 = Ret (Ok i)) /\
  (forall p w, platform_ok p -> is_u16 w ->
     ((exists i, decode_u16 p w Rv32 = Ret (Ok i) /\ opc i = OC C_JAL) <->
      (exists i, decode_u16 p w Rv64 = Ret (Ok i) /\ opc i = OC C_ADDIW))) /\
  (forall p w i e, platform_ok p -> is_u16 w ->
     decode_u16 p w Rv64 = Ret (Ok i) -> decode_u16 p w Rv32 = Ret (Err e) -> e = OnlyRv64Inst).
Proof.
  exact (conj Api.agree32 (conj Api.only64 (conj Api.agree16 (conj Api.jal_addiw Api.only64_16)))).
Qed.
Print Assumptions C22_isas_agree.

Example C22_case : decode_u32 Text.plat 0x02051513 Rv32 = Ret (Err InvalidFunct7) /\
  exists i, decode_u32 Text.plat 0x02051513 Rv64 = Ret (Ok i) /\ imm i = Some 32.
Proof. split; [vm_compute; reflexivity|]. eexists. split; [vm_compute; reflexivity|reflexivity]. Qed.
Example C22_case_jal : exists i j, decode_u16 Text.plat 0x2505 Rv32 = Ret (Ok i) /\ opc i = OC C_JAL /\
  decode_u16 Text.plat 0x2505 Rv64 = Ret (Ok j) /\ opc j = OC C_ADDIW.
Proof. eexists. eexists. repeat split; vm_compute; reflexivity. Qed.
