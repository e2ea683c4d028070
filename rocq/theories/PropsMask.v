(** C55: the decoders as tables of mask and match constants. *)
From Coq Require Import ZArith List.
From Verif Require Import Rust Types Decode Spec SpecOps SpecMask.
From Verif Require Masks.
Import ListNotations.
Local Open Scope Z_scope.

(** A word is decoded as [op] exactly if the most specific of the entries that recognise it
    ([w & mask = match]) is one of [op]: the entries of the standard and the crate's own
    wider ones.  A word that no entry recognises is an error.  (The half word 0, which c.addi4spn
    recognises, is the exception: see C24.) *)
Theorem C55_recognised p isa w op : platform_ok p ->
  (is_u32 w ->
   ((exists i, decode_u32 p w isa = Ret (Ok i) /\ opc i = op) <->
    (exists e, most_specific (masks32 ++ wider32) isa w e /\ e_op e = op)) /\
   ((forall e, In e (masks32 ++ wider32) -> ~ hits e isa w) ->
    exists err, decode_u32 p w isa = Ret (Err err))) /\
  (is_u16 w ->
   (w <> 0 ->
    ((exists i, decode_u16 p w isa = Ret (Ok i) /\ opc i = op) <->
     (exists e, most_specific (masks16 ++ wider16) isa w e /\ e_op e = op))) /\
   ((forall e, In e (masks16 ++ wider16) -> ~ hits e isa w) ->
    exists err, decode_u16 p w isa = Ret (Err err))).
Proof. exact (Masks.recognised p isa w op). Qed.
Print Assumptions C55_recognised.

(** Partial: a word that the standard's constants assign to an instruction is decoded as that
    instruction.  Missing, because false: csrrs on a counter with rs1 <> x0 (or the upper half
    of a counter on RV64) and the c.add hints with rd = x0, and only these. *)
Theorem C55_standard_partial p isa w e : platform_ok p ->
  (is_u32 w -> most_specific masks32 isa w e ->
   exists i, decode_u32 p w isa = Ret (Ok i) /\
     (opc i = e_op e <-> ~ (e_op e = OZicsr Csr_CSRRS /\ In (field w 31 20) counter_csrs))) /\
  (is_u16 w -> w <> 0 -> most_specific masks16 isa w e ->
   exists i, decode_u16 p w isa = Ret (Ok i) /\
     (opc i = e_op e <-> ~ (e_op e = OC C_ADD /\ field w 11 7 = 0))).
Proof. exact (Masks.standard p isa w e). Qed.
Print Assumptions C55_standard_partial.

Theorem C55_standard_refuted :
  (exists p isa w e i, platform_ok p /\ is_u32 w /\ most_specific masks32 isa w e /\
     decode_u32 p w isa = Ret (Ok i) /\ opc i <> e_op e) /\
  (exists p isa w e i, platform_ok p /\ is_u16 w /\ w <> 0 /\ most_specific masks16 isa w e /\
     decode_u16 p w isa = Ret (Ok i) /\ opc i <> e_op e).
Proof. exact Masks.standard_refuted. Qed.
Print Assumptions C55_standard_refuted.

(** mul a0, a1, a2 is recognised by mul's entry, and by no coarser one of the standard; 0x9002 is
    recognised by c.add, c.jalr and c.ebreak, of which c.ebreak is the most specific. *)
Example C55_case :
  most_specific masks32 Rv32 0x02c58533 Masks.mul_entry /\
  (exists i, decode_u32 Masks.plat64 0x02c58533 Rv32 = Ret (Ok i) /\ opc i = OM M_MUL) /\
  most_specific masks16 Rv64 0x9002 Masks.ebreak_entry /\
  (exists i, decode_u16 Masks.plat64 0x9002 Rv64 = Ret (Ok i) /\ opc i = OC C_EBREAK).
Proof.
  split; [exact Masks.mul_case|]. split; [eexists; split; [vm_compute; reflexivity|reflexivity]|].
  split; [exact Masks.ebreak_case|]. eexists; split; [vm_compute; reflexivity|reflexivity].
Qed.
