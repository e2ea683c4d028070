(** C78: what the crate offers, by [pub] and [pub use]; see SpecVisible.v. *)
From Coq Require Import ZArith List Bool String.
From Verif Require Import SrcText SrcAst SrcLink SpecNames SpecPublic SpecVisible.
From Verif Require SrcVisible.
Import ListNotations.
Local Open Scope string_scope.

(** The functions listed as [public] (C75, C77) are exactly those of the text that are visible. *)
Theorem C78_public : forall key, In key public <-> exists l, visible source = Some l /\ In key l.
Proof. exact SrcVisible.public_is. Qed.
Print Assumptions C78_public.

(** Nothing else is offered: no method comes from a trait, and no module of lib.rs is public. *)
Theorem C78_no_more : given source = Some [] /\ forall x, says_pub is_mod x (tokens_of source "lib.rs") = false.
Proof. exact SrcVisible.no_more. Qed.
Print Assumptions C78_no_more.

(** Another crate can name every type that these functions take or give, and all parts of the types it can name; the
    fields are public, so it can put instructions together. *)
Theorem C78_types : forall P, stands_for false false source P ->
  (forall key f t, In key public -> In (key, f) (p_fns P) -> In t (map snd (f_params f)) \/ f_ret f = Some t ->
     nameable (exports source) t = true) /\
  (forall e vs v ts t, In (e, vs) (p_enums P) -> sees (exports source) [] [e] = true -> In (v, ts) vs -> In t ts ->
     nameable (exports source) t = true) /\
  (forall s fs x t, In (s, fs) (p_structs P) -> sees (exports source) [] [s] = true -> In (x, t) fs ->
     nameable (exports source) t = true /\ pub_field x (tokens_of source "instruction.rs") = true).
Proof. exact SrcVisible.types_seen. Qed.
Print Assumptions C78_types.

(** [get_format] of an [OpcodeKind] is offered, that of an [AOpcode] is not: the trait [Opcode] is not re-exported. *)
Example C78_case : In "OpcodeKind.get_format" public /\
  (exists P, stands_for false false source P /\ In "AOpcode.get_format" (map fst (p_fns P)) /\
     In "u32.slice" (map fst (p_fns P)) /\ ~ In "AOpcode.get_format" public /\ ~ In "u32.slice" public) /\
  sees (exports source) [] ["Opcode"] = false /\ sees (exports source) [] ["DecodeUtil"] = false /\ sees (exports source) [] ["Decode"] = true /\
  nameable (exports source) (TyPath ["Extensions"] []) = false.
Proof. exact SrcVisible.visible_case. Qed.
