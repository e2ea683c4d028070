(** C73: what the text of /repo/src means when it runs; see SpecMeaning.v.
    [Calls P p key vs o r]: the function [key] of the program [P], called with [vs] after [o] has been
    written, ends with [r]: [Gives v o'] or, in a panic, [Dies w].  [means std test src p ..]: the same of
    the text [src]. *)
From Coq Require Import ZArith List Bool String.
From Verif Require Import Rust Types Debug Spec SpecOps SrcLine SrcText SrcLink SrcSem SrcEmbed SrcModel
  SpecNames SpecSource SpecMeaning.
From Verif Require SrcOne SrcMeant Text.
Import ListNotations.
Local Open Scope Z_scope.
Local Open Scope string_scope.
Delimit Scope line_scope with line.

(** No call ends in two ways. *)
Theorem C73_one_meaning :
  (forall P p key vs o a b, platform_ok p -> Calls P p key vs o a -> Calls P p key vs o b -> a = b) /\
  (forall p key vs o a b, platform_ok p ->
     means false false source p key vs o a -> means false false source p key vs o b -> a = b).
Proof. exact (conj (fun P p key vs o a b ok => SrcOne.Calls_one P p ok key vs o a b) SrcMeant.source_one). Qed.
Print Assumptions C73_one_meaning.

(** Where the evaluator has an answer, it is the meaning; for every program and every text. *)
Theorem C73_evaluator :
  (forall P p fuel key vs o a, platform_ok p -> run P p fuel key vs o = a -> (forall s, a <> Wrong s) ->
     forall r, Calls P p key vs o r <-> answer r = a) /\
  (forall test src P p fuel key vs o a, load test src = Some P -> platform_ok p ->
     run P p fuel key vs o = a -> (forall s, a <> Wrong s) ->
     forall r, means true test src p key vs o r <-> answer r = a).
Proof. exact (conj SrcMeant.run_means SrcMeant.loaded_means). Qed.
Print Assumptions C73_evaluator.

(** Every call of a function of the crate with arguments of its types has one meaning: what the model and
    the evaluator say.  (So C61 to C67 are about the meaning of the text.) *)
Theorem C73_source_means :
  (forall p key vs o, platform_ok p -> well_typed p key vs ->
     (exists v o', forall r, means false false source p key vs o r <-> r = Gives v o') \/
     (exists w, forall r, means false false source p key vs o r <-> r = Dies (Why w))) /\
  (forall p key vs o a, platform_ok p -> models p key vs o a ->
     forall r, means false false source p key vs o r <-> answer r = a) /\
  (forall p key vs o, platform_ok p -> well_typed p key vs ->
     forall r, means false false source p key vs o r <-> evaluates p key vs o (answer r)) /\
  (forall p key, usize_bits p = 32 \/ usize_bits p = 64 -> is_test key ->
     forall r, means true true source p key [] "" r <-> r = Gives VUnit "").
Proof.
  exact (conj SrcMeant.typed_means (conj SrcMeant.models_mean (conj SrcMeant.typed_evaluates SrcMeant.test_means))).
Qed.
Print Assumptions C73_source_means.

(** Decoding, comparing and showing, from the text to the tables; there is neither model nor evaluator in
    this statement. *)
Theorem C73_decodes :
  (forall p isa w, platform_ok p -> is_u32 w -> forall r,
     means false false source p "u32.decode" [VInt U32 w; of_isa isa] "" r <->
     (exists row, In row table32 /\ in_enc (r_acc row isa) w = true /\
        r = Gives (VEnum "Result" "Ok" [of_inst (reads row isa false w)]) "") \/
     (exists e, In e errors32 /\ in_enc (e_enc e isa) w = true /\
        r = Gives (VEnum "Result" "Err" [of_err (e_err e)]) "")) /\
  (forall p isa w, platform_ok p -> is_u16 w -> forall r,
     means false false source p "u16.decode" [VInt U16 w; of_isa isa] "" r <->
     (exists row, In row table16 /\ in_enc (r_acc row isa) w = true /\
        r = Gives (VEnum "Result" "Ok" [of_inst (reads row isa true w)]) "") \/
     (exists e, In e errors16 /\ in_enc (e_enc e isa) w = true /\
        r = Gives (VEnum "Result" "Err" [of_err (e_err e)]) "")) /\
  (forall p x, platform_ok p -> 0 <= x < 2 ^ usize_bits p -> forall r,
     means false false source p "Instruction.try_from" [VInt Usize x] "" r <->
     (x mod 4 = 3 /\ x < 2 ^ 32 /\ means false false source p "u32.decode" [VInt U32 x; of_isa Rv64] "" r) \/
     (x mod 4 <> 3 /\ x < 2 ^ 16 /\ means false false source p "u16.decode" [VInt U16 x; of_isa Rv64] "" r) \/
     ((x mod 4 = 3 /\ 2 ^ 32 <= x \/ x mod 4 <> 3 /\ 2 ^ 16 <= x) /\ r = Dies (Why PExpect))) /\
  (forall i j b, (exists P, stands_for false false source P /\ Equal P (of_inst i) (of_inst j) b) <->
     (b = true <-> i = j)) /\
  (forall r s, (exists P, stands_for false false source P /\ Debugs P (of_result of_inst r) s) <->
     s = compact (decode_debug r)).
Proof.
  exact (conj SrcMeant.decode32_means (conj SrcMeant.decode16_means (conj SrcMeant.try_from_means
    (conj SrcMeant.equal_means SrcMeant.debug_means)))).
Qed.
Print Assumptions C73_decodes.

(** A loop, [?], [return] and a subtraction that may overflow. *)
Example C73_case :
  let text := [("lib.rs"%line,
    ["enum E { Bad(u8) }";
     "fn low(x: u8) -> Result<u8, E> { if x == 9 { return Err(E::Bad(x)); } Ok(x & 7) }";
     "fn f(n: u8) -> Result<u8, E> {";
     "    let mut all: u8 = 0;";
     "    for x in [1, n].iter() { all |= 3 - low(*x)?; }";
     "    Ok(all)";
     "}"]%line)] in
  let f checks n := means true false text {| overflow_checks := checks; usize_bits := 64 |} "f" [VInt U8 n] "" in
  (forall r, f true 2 r <-> r = Gives (VEnum "Result" "Ok" [VInt U8 3]) "") /\
  (forall r, f true 9 r <-> r = Gives (VEnum "Result" "Err" [VEnum "E" "Bad" [VInt U8 9]]) "") /\
  (forall r, f true 5 r <-> r = Dies (Why POverflow)) /\
  (forall r, f false 5 r <-> r = Gives (VEnum "Result" "Ok" [VInt U8 254]) "").
Proof.
  cbv zeta. split; [|split; [|split]];
    (eapply (SrcMeant.loaded_says _ _ _ _ 5); [vm_compute; reflexivity|right; right; reflexivity|vm_compute; reflexivity]).
Qed.
