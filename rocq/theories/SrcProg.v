(** The program of /repo/src: SrcText.v read by SrcLex, SrcParse and SrcLink. *)
From Coq Require Import ZArith List Bool String.
From Verif Require Import Rust SrcLine SrcText SrcLex SrcAst SrcParse SrcLink SrcSem.
Import ListNotations.

Definition no_program : program := 
  {| p_fns := []; p_tests := []; p_derives := []; p_enums := []; p_structs := [] |}.

(** The crate as it is built for its users. *)
Definition crate : program :=
  Eval vm_compute in match load false source with Some p => p | None => no_program end.

Lemma crate_loads : load false source = Some crate.
Proof. vm_cast_no_check (eq_refl (Some crate)). Qed.

(** The crate with its [#[cfg(test)]] modules. *)
Definition test_crate : program :=
  Eval vm_compute in match load true source with Some p => p | None => no_program end.

Lemma test_crate_loads : load true source = Some test_crate.
Proof. vm_cast_no_check (eq_refl (Some test_crate)). Qed.
