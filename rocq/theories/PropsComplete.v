(** C05-C11: every encoding the manual assigns is decoded as that instruction.
    [r_man r isa]: the words the manual assigns to row [r]; [reads r isa c w]: the opcode, operands
    and format of row [r] read from [w]. *)
From Coq Require Import ZArith List Bool String.
From Verif Require Import Rust Types Decode Fmt PartialEq Spec SpecOps SpecText SpecApi.
From Verif Require Util Plat Rows Rows2 Operands Api PartialEqOk Numerals Text Text2 Findings Claims Tight.
Import ListNotations.
Local Open Scope list_scope.
Local Open Scope Z_scope.

(** ** C05 *)

Theorem C05_base_i_complete :
  (forall p isa w r, platform_ok p -> is_u32 w -> In r base_i -> in_enc (r_man r isa) w = true ->
     decode_u32 p w isa = Ret (Ok (reads r isa false w))) /\
  (forall p w i, platform_ok p -> is_u32 w -> decode_u32 p w Rv32 = Ret (Ok i) ->
     ~ In (opc i) gated32) /\
  (forall p op w, platform_ok p -> is_u32 w -> In op gated32 -> legal32 Rv64 op w ->
     decode_u32 p w Rv32 = Ret (Err OnlyRv64Inst)).
Proof. exact (conj Rows.base_i_complete (conj Rows2.never32 Claims.gated_rejected32)). Qed.
Print Assumptions C05_base_i_complete.

Example C05_case : is_u32 0xFE629AE3 /\ legal32 Rv32 (OBaseI I_BNE) 0xFE629AE3 /\
  decode_u32 Text.plat 0xFE629AE3 Rv32 = Ret (Ok
    {| opc := OBaseI I_BNE; rd := None; rs1 := Some 5; rs2 := Some 6; imm := Some (-12);
       inst_format := BFormat; is_compressed := false |}).
Proof.
  split; [Findings.is_word|]. split; [apply Findings.legal32_iff|]; vm_compute; reflexivity.
Qed.
Example C05_case_rv64 : In (OBaseI I_SRAIW) gated32 /\ legal32 Rv64 (OBaseI I_SRAIW) 0x41F5559B /\
  decode_u32 Text.plat 0x41F5559B Rv32 = Ret (Err OnlyRv64Inst) /\
  decode_u32 Text.plat 0x41F5559B Rv64 = Ret (Ok
    {| opc := OBaseI I_SRAIW; rd := Some 11; rs1 := Some 10; rs2 := None; imm := Some 31;
       inst_format := RShamtFormat; is_compressed := false |}).
Proof.
  split; [cbn; tauto|]. split; [apply Findings.legal32_iff; vm_compute; reflexivity|].
  split; vm_compute; reflexivity.
Qed.

(** ** C06 *)

Theorem C06_m_complete :
  (forall p isa w r, platform_ok p -> is_u32 w -> In r m_ext -> in_enc (r_man r isa) w = true ->
     decode_u32 p w isa = Ret (Ok (reads r isa false w))) /\
  (forall p op w, platform_ok p -> is_u32 w -> In op rv64_m -> legal32 Rv64 op w ->
     decode_u32 p w Rv32 = Ret (Err OnlyRv64Inst)).
Proof.
  exact (conj Rows.m_complete (fun p op w Hp Hw H => Claims.gated_rejected32 p op w Hp Hw
    (in_or_app _ _ _ (or_intror (in_or_app _ _ _ (or_introl H)))))).
Qed.
Print Assumptions C06_m_complete.

Example C06_case : legal32 Rv64 (OM M_REMUW) 0x02C5F53B /\
  decode_u32 Text.plat 0x02C5F53B Rv64 = Ret (Ok
    {| opc := OM M_REMUW; rd := Some 10; rs1 := Some 11; rs2 := Some 12; imm := None;
       inst_format := MFormat; is_compressed := false |}).
Proof. split; [apply Findings.legal32_iff|]; vm_compute; reflexivity. Qed.

(** ** C07 *)

Theorem C07_a_complete :
  (forall p isa w r, platform_ok p -> is_u32 w -> In r a_ext -> in_enc (r_man r isa) w = true ->
     decode_u32 p w isa = Ret (Ok (reads r isa false w))) /\
  (forall p op w, platform_ok p -> is_u32 w -> In op rv64_a -> legal32 Rv64 op w ->
     decode_u32 p w Rv32 = Ret (Err OnlyRv64Inst)).
Proof.
  exact (conj Rows.a_complete (fun p op w Hp Hw H => Claims.gated_rejected32 p op w Hp Hw
    (in_or_app _ _ _ (or_intror (in_or_app _ _ _ (or_intror H)))))).
Qed.
Print Assumptions C07_a_complete.

Example C07_case : legal32 Rv64 (OA A_AMOMAXU_D) 0xE6C5B52F /\
  decode_u32 Text.plat 0xE6C5B52F Rv64 = Ret (Ok
    {| opc := OA A_AMOMAXU_D; rd := Some 10; rs1 := Some 11; rs2 := Some 12; imm := Some 3;
       inst_format := AFormat; is_compressed := false |}).
Proof. split; [apply Findings.legal32_iff|]; vm_compute; reflexivity. Qed.

(** ** C08 *)

(** Missing from the full claim: csrrs with a counter as CSR and rs1 <> x0 (on Rv64: also any rs1
    with an upper-half counter) must decode as CSRRS; third part: they all decode as counter reads. *)
Theorem C08_zicsr_complete_partial :
  (forall p isa w r, platform_ok p -> is_u32 w -> In r zicsr_ext -> in_enc (r_man r isa) w = true ->
     (r_op r = OZicsr Csr_CSRRS -> ~ In (field w 31 20) counter_csrs) ->
     decode_u32 p w isa = Ret (Ok (reads r isa false w))) /\
  (forall p isa w r, platform_ok p -> is_u32 w -> In r zicntr_ext -> in_enc (r_man r isa) w = true ->
     decode_u32 p w isa = Ret (Ok (reads r isa false w))) /\
  (forall p isa w o, platform_ok p -> is_u32 w -> legal32 isa (OZicsr Csr_CSRRS) w ->
     In (field w 31 20, o) counter_reads ->
     decode_u32 p w isa = Ret (Ok
       {| opc := OZicntr o; rd := Some (field w 11 7); rs1 := None; rs2 := None; imm := None;
          inst_format := OnlyRd; is_compressed := false |})) /\
  map fst counter_reads = counter_csrs.
Proof. exact (conj Rows.zicsr_complete (conj Rows.zicntr_complete
  (conj Tight.csrrs_counter_read Tight.counter_csrs_read))). Qed.
Print Assumptions C08_zicsr_complete_partial.

(** csrrs t0, cycle, t1 is decoded as rdcycle t0. *)
Theorem C08_csrrs_of_counter_refuted : exists p isa w i, platform_ok p /\ is_u32 w /\
  legal32 isa (OZicsr Csr_CSRRS) w /\ field w 19 15 <> 0 /\
  decode_u32 p w isa = Ret (Ok i) /\ opc i <> OZicsr Csr_CSRRS.
Proof. exact Findings.csrrs_refuted. Qed.
Print Assumptions C08_csrrs_of_counter_refuted.

Example C08_case : legal32 Rv64 (OZicsr Csr_CSRRS) 0x3042A573 /\
  ~ In (field 0x3042A573 31 20) counter_csrs /\
  decode_u32 Text.plat 0x3042A573 Rv64 = Ret (Ok
    {| opc := OZicsr Csr_CSRRS; rd := Some 10; rs1 := Some 5; rs2 := Some 0x304; imm := None;
       inst_format := CsrFormat; is_compressed := false |}).
Proof.
  split; [apply Findings.legal32_iff; vm_compute; reflexivity|]. split; [|vm_compute; reflexivity].
  vm_compute. intros H. repeat (destruct H as [H|H]; [discriminate H|]). destruct H.
Qed.

(** ** C09 *)

(** Missing: FENCE.I.  Second part: every FENCE.I word is rejected. *)
Theorem C09_fence_complete_partial :
  (forall p isa w r, platform_ok p -> is_u32 w -> In r zifencei_ext -> in_enc (r_man r isa) w = true ->
     decode_u32 p w isa = Ret (Ok (reads r isa false w))) /\
  (forall p isa w, platform_ok p -> is_u32 w -> in_enc fence_i w = true ->
     decode_u32 p w isa = Ret (Err UnknownExtension)).
Proof. exact (conj Rows.fence_complete Findings.fence_i_rejected). Qed.
Print Assumptions C09_fence_complete_partial.

Theorem C09_fence_i_refuted : exists p isa w, platform_ok p /\ is_u32 w /\ in_enc fence_i w = true /\
  decode_u32 p w isa = Ret (Err UnknownExtension).
Proof. exact Findings.fence_i_refuted. Qed.
Print Assumptions C09_fence_i_refuted.

Example C09_case : legal32 Rv64 (OZifencei Fe_FENCE) 0x8330000F /\
  decode_u32 Text.plat 0x8330000F Rv64 = Ret (Ok
    {| opc := OZifencei Fe_FENCE; rd := Some 0; rs1 := Some 0; rs2 := None; imm := Some 0x833;
       inst_format := NoOperand; is_compressed := false |}).
Proof. split; [apply Findings.legal32_iff|]; vm_compute; reflexivity. Qed.

(** ** C10 *)

(** Missing: ssamoswap.d must be rejected on Rv32.  Second part: it never is. *)
Theorem C10_zicfiss_zicboz_priv_complete_partial :
  (forall p isa w r, platform_ok p -> is_u32 w -> In r (zicfiss_ext ++ zicboz_ext ++ priv_ext) ->
     in_enc (r_man r isa) w = true -> decode_u32 p w isa = Ret (Ok (reads r isa false w))) /\
  (forall p w r, platform_ok p -> is_u32 w -> In r table32 -> r_op r = OZicfiss Ss_SSAMOSWAP_D ->
     in_enc (r_man r Rv64) w = true -> decode_u32 p w Rv32 = Ret (Ok (reads r Rv64 false w))).
Proof. exact (conj Rows.other_complete Tight.ssamoswap_d_rv32). Qed.
Print Assumptions C10_zicfiss_zicboz_priv_complete_partial.

Theorem C10_ssamoswap_d_on_rv32_refuted : exists p w i, platform_ok p /\ is_u32 w /\
  decode_u32 p w Rv32 = Ret (Ok i) /\ opc i = OZicfiss Ss_SSAMOSWAP_D /\ ~ legal32 Rv32 (opc i) w.
Proof. exact Findings.ssamoswap_d_refuted. Qed.
Print Assumptions C10_ssamoswap_d_on_rv32_refuted.

Example C10_case : legal32 Rv32 (OPriv P_SFENCE_VMA) 0x12B50073 /\
  decode_u32 Text.plat 0x12B50073 Rv32 = Ret (Ok
    {| opc := OPriv P_SFENCE_VMA; rd := None; rs1 := Some 10; rs2 := Some 11; imm := None;
       inst_format := RFormat; is_compressed := false |}).
Proof. split; [apply Findings.legal32_iff|]; vm_compute; reflexivity. Qed.

(** ** C11 *)

(** Missing: the HINT c.add x0, rs2.  Second part: it is decoded as c.ebreak.  The other parts:
    instructions of RV64C on Rv32 and C.JAL on Rv64. *)
Theorem C11_c_complete_partial :
  (forall p isa w r, platform_ok p -> is_u16 w -> In r table16 -> in_enc (r_man r isa) w = true ->
     (r_op r = OC C_ADD -> field w 11 7 <> 0) ->
     decode_u16 p w isa = Ret (Ok (reads r isa true w))) /\
  (forall p isa w, platform_ok p -> is_u16 w -> legal16 isa (OC C_ADD) w -> field w 11 7 = 0 ->
     decode_u16 p w isa = Ret (Ok
       {| opc := OC C_EBREAK; rd := None; rs1 := None; rs2 := None; imm := None;
          inst_format := NoOperand; is_compressed := true |})) /\
  (forall p op w, platform_ok p -> is_u16 w -> In op rv64_c -> op <> OC C_ADDIW ->
     legal16 Rv64 op w -> decode_u16 p w Rv32 = Ret (Err OnlyRv64Inst)) /\
  (forall p w, platform_ok p -> is_u16 w -> legal16 Rv64 (OC C_ADDIW) w ->
     exists i, decode_u16 p w Rv32 = Ret (Ok i) /\ opc i = OC C_JAL) /\
  (forall p w, platform_ok p -> is_u16 w -> legal16 Rv32 (OC C_JAL) w ->
     exists i, decode_u16 p w Rv64 = Ret (Ok i) /\ opc i = OC C_ADDIW).
Proof.
  exact (conj Rows2.c_complete (conj Tight.hint_ebreak (conj Claims.gated_rejected16
    (conj Claims.c_addiw_on_rv32 Claims.c_jal_on_rv64)))).
Qed.
Print Assumptions C11_c_complete_partial.

Theorem C11_hint_add_refuted : exists p isa w i, platform_ok p /\ is_u16 w /\
  legal16 isa (OC C_ADD) w /\ decode_u16 p w isa = Ret (Ok i) /\ opc i = OC C_EBREAK.
Proof. exact Findings.hint_refuted. Qed.
Print Assumptions C11_hint_add_refuted.

Example C11_case : legal16 Rv32 (OC C_ADDI16SP) 0x7179 /\
  decode_u16 Text.plat 0x7179 Rv32 = Ret (Ok
    {| opc := OC C_ADDI16SP; rd := Some 2; rs1 := Some 2; rs2 := None; imm := Some (-48);
       inst_format := CiFormat; is_compressed := true |}).
Proof. split; [apply Findings.legal16_iff|]; vm_compute; reflexivity. Qed.
Example C11_case_add : legal16 Rv64 (OC C_ADD) 0x952E /\ field 0x952E 11 7 <> 0.
Proof. split; [apply Findings.legal16_iff; vm_compute; reflexivity|vm_compute; discriminate]. Qed.
