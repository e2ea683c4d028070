(** C12-C16: the exact set of accepted words.
    [r_acc r isa]: the words accepted as row [r]; [legal32 isa op w]: the manual assigns [w] to [op];
    [lenient l isa op w]: [w] is in the entry of [op] in the list [l] of other accepted words. *)
From Coq Require Import ZArith List Bool String.
From Verif Require Import Rust Types Decode Fmt PartialEq Spec SpecOps SpecText SpecApi.
From Verif Require Util Plat Rows Rows2 Operands Api PartialEqOk Numerals Text Text2 Findings Claims.
Import ListNotations.
Local Open Scope list_scope.
Local Open Scope Z_scope.

Theorem C12_accepted_u32 : forall p isa w i, platform_ok p -> is_u32 w ->
  (decode_u32 p w isa = Ret (Ok i) <->
   exists r, In r table32 /\ in_enc (r_acc r isa) w = true /\ i = reads r isa false w).
Proof. exact Rows2.accept32. Qed.
Print Assumptions C12_accepted_u32.

Example C12_case : exists r, In r table32 /\ in_enc (r_acc r Rv32) 0x9D3FF0EF = true /\
  reads r Rv32 false 0x9D3FF0EF =
    {| opc := OBaseI I_JAL; rd := Some 1; rs1 := None; rs2 := None; imm := Some (-1582);
       inst_format := JFormat; is_compressed := false |}.
Proof.
  exists (same (OBaseI I_JAL) cJ (on_both (only ["....... ..... ..... ... ..... 1101111"%string]))).
  split; [right; right; left; reflexivity|]. split; vm_compute; reflexivity.
Qed.

Theorem C13_accepted_u16 : forall p isa w i, platform_ok p -> is_u16 w ->
  (decode_u16 p w isa = Ret (Ok i) <->
   exists r, In r table16 /\ in_enc (r_acc r isa) w = true /\ i = reads r isa true w).
Proof. exact Rows2.accept16. Qed.
Print Assumptions C13_accepted_u16.

Example C13_case : is_u16 0xFF85 /\ decode_u16 Text.plat 0xFF85 Rv32 = Ret (Ok
  {| opc := OC C_BNEZ; rd := None; rs1 := Some 15; rs2 := None; imm := Some (-200);
     inst_format := CbFormat; is_compressed := true |}) /\
  exists r, In r table16 /\ in_enc (r_acc r Rv32) 0xFF85 = true.
Proof.
  split; [Findings.is_word|]. split; [vm_compute; reflexivity|].
  apply existsb_exists with (f := fun r => in_enc (r_acc r Rv32) 0xFF85). vm_compute. reflexivity.
Qed.

(** ** C14 *)

(** Missing: the words of [lenient32] must not be accepted.  Proved: an accepted word is legal or in
    [lenient32], not both, and all words of [lenient32] are accepted; so [lenient32] is the exact
    set of exceptions. *)
Theorem C14_accepts_only_legal_u32_partial : forall p isa w, platform_ok p -> is_u32 w ->
  (forall i, decode_u32 p w isa = Ret (Ok i) ->
     (legal32 isa (opc i) w \/ lenient lenient32 isa (opc i) w) /\
     ~ (legal32 isa (opc i) w /\ lenient lenient32 isa (opc i) w)) /\
  (forall op, lenient lenient32 isa op w ->
     exists i, decode_u32 p w isa = Ret (Ok i) /\ opc i = op).
Proof. exact Rows2.soundness32. Qed.
Print Assumptions C14_accepts_only_legal_u32_partial.

(** jalr with funct3 = 1. *)
Theorem C14_accepts_only_legal_u32_refuted : exists p isa w i, platform_ok p /\ is_u32 w /\
  decode_u32 p w isa = Ret (Ok i) /\ ~ legal32 isa (opc i) w.
Proof. exact Findings.jalr_refuted. Qed.
Print Assumptions C14_accepts_only_legal_u32_refuted.

Example C14_case : legal32 Rv64 (OBaseI I_JALR) 0x000080E7 /\
  exists i, decode_u32 Text.plat 0x000080E7 Rv64 = Ret (Ok i) /\ opc i = OBaseI I_JALR.
Proof.
  split; [apply Findings.legal32_iff; vm_compute; reflexivity|]. eexists.
  split; [vm_compute; reflexivity|reflexivity].
Qed.

(** ** C15 *)

(** Missing and proved: as for C14. *)
Theorem C15_accepts_only_legal_u16_partial : forall p isa w, platform_ok p -> is_u16 w ->
  (forall i, decode_u16 p w isa = Ret (Ok i) ->
     (legal16 isa (opc i) w \/ lenient lenient16 isa (opc i) w) /\
     ~ (legal16 isa (opc i) w /\ lenient lenient16 isa (opc i) w)) /\
  (forall op, lenient lenient16 isa op w ->
     exists i, decode_u16 p w isa = Ret (Ok i) /\ opc i = op).
Proof. exact Rows2.soundness16. Qed.
Print Assumptions C15_accepts_only_legal_u16_partial.

(** c.lwsp with rd = x0 is reserved. *)
Theorem C15_accepts_only_legal_u16_refuted : exists p isa w i, platform_ok p /\ is_u16 w /\
  decode_u16 p w isa = Ret (Ok i) /\ ~ legal16 isa (opc i) w.
Proof. exact Findings.c_lwsp_refuted. Qed.
Print Assumptions C15_accepts_only_legal_u16_refuted.

Example C15_case : legal16 Rv64 (OC C_LWSP) 0x40A2 /\
  exists i, decode_u16 Text.plat 0x40A2 Rv64 = Ret (Ok i) /\ opc i = OC C_LWSP.
Proof.
  split; [apply Findings.legal16_iff; vm_compute; reflexivity|]. eexists.
  split; [vm_compute; reflexivity|reflexivity].
Qed.

(** ** C16 *)

(** [unique P x]: [P x], and no other value satisfies [P]. *)
Theorem C16_one_meaning :
  (forall p isa w, platform_ok p -> is_u32 w ->
     (exists r, unique (fun r => In r table32 /\ in_enc (r_acc r isa) w = true) r /\
        (forall e, In e errors32 -> in_enc (e_enc e isa) w = false) /\
        decode_u32 p w isa = Ret (Ok (reads r isa false w))) \/
     (exists e, unique (fun e => In e errors32 /\ in_enc (e_enc e isa) w = true) e /\
        (forall r, In r table32 -> in_enc (r_acc r isa) w = false) /\
        decode_u32 p w isa = Ret (Err (e_err e)))) /\
  (forall p isa w, platform_ok p -> is_u16 w ->
     (exists r, unique (fun r => In r table16 /\ in_enc (r_acc r isa) w = true) r /\
        (forall e, In e errors16 -> in_enc (e_enc e isa) w = false) /\
        decode_u16 p w isa = Ret (Ok (reads r isa true w))) \/
     (exists e, unique (fun e => In e errors16 /\ in_enc (e_enc e isa) w = true) e /\
        (forall r, In r table16 -> in_enc (r_acc r isa) w = false) /\
        decode_u16 p w isa = Ret (Err (e_err e)))).
Proof. exact (conj Claims.meaning32 Claims.meaning16). Qed.
Print Assumptions C16_one_meaning.

Example C16_case : existsb (fun r => in_enc (r_acc r Rv32) 0x02A50533) table32 = true /\
  existsb (fun e => in_enc (e_enc e Rv32) 0x02A5053B) errors32 = true.
Proof. split; vm_compute; reflexivity. Qed.
