(** C67-C69: types and effects of the functions of the text; the examples of the documentation; the
    opcode table that is no longer compiled. *)
From Coq Require Import ZArith List Bool String Lia.
From Verif Require Import Rust Types Fmt SpecHelp SpecText SrcLine SrcText SrcAst SrcLink SrcSem SrcEmbed SrcDoc
  SpecSource SpecDoc OpcodeRs SpecOpcode SpecOld.
From Verif Require SrcProg SrcClaims SrcTyped SrcDocOk SrcOldOk Text.
Import ListNotations.
Local Open Scope list_scope.
Local Open Scope string_scope.

(** ** C67 *)

(** [declared p key vs v]: the declaration of [key] allows the result [v].  A function adds to the text
    only if it is given a formatter, and what it returns and adds does not depend on what is there. *)
Theorem C67_source_types_and_effects :
  (forall p key vs o v o', platform_ok p -> well_typed p key vs -> evaluates p key vs o (Done v o') ->
     declared p key vs v) /\
  (forall p key vs o, well_typed p key vs ->
     (forall v o', evaluates p key vs o (Done v o') ->
        exists s, o' = o ++ s /\ (In VFmt vs \/ s = "") /\
          forall o2, evaluates p key vs o2 (Done v (o2 ++ s))) /\
     (forall w, evaluates p key vs o (Halt w) -> forall o2, evaluates p key vs o2 (Halt w))).
Proof. exact (conj SrcTyped.results_typed SrcTyped.text_does_not_matter). Qed.
Print Assumptions C67_source_types_and_effects.

Example C67_case :
  well_typed Text.plat "ZicbozOpcode.fmt" [of_zicboz Cbo_CBO_ZERO; VFmt] /\
  evaluates Text.plat "ZicbozOpcode.fmt" [of_zicboz Cbo_CBO_ZERO; VFmt] "a" (Done ok_unit "acbo.zero") /\
  well_typed Text.plat "u16.slice" [VInt U16 0xFFFF; VInt U32 8; VInt U32 3] /\
  evaluates Text.plat "u16.slice" [VInt U16 0xFFFF; VInt U32 8; VInt U32 3] "a" (Done (VInt U16 63) "a").
Proof.
  split; [|split; [|split]].
  2, 4: exists SrcProg.crate; (split; [exact SrcProg.crate_loads|]); intros fuel F;
        do 6 (destruct fuel as [|fuel]; [lia|]); vm_compute; reflexivity.
  - apply (SrcClaims.typed_call _ _ [TyPath ["ZicbozOpcode"] [];
      TyRef (TyPath ["Formatter"] [])]); [vm_compute; tauto|reflexivity].
  - apply (SrcClaims.typed_call _ _ [TyPath ["u16"] []; TyPath ["u32"] []; TyPath ["u32"] []]);
      [vm_compute; tauto|reflexivity].
Qed.

(** ** C68 *)

(** [rust_examples]: the fenced blocks, of the doc comments and README.md, with  use raki::.
    The examples that rustdoc tests are among them and run to the end, with the output they announce; every
    assertion in them is reached (a panic put before it, [stopped], is what the example comes to); of the ones marked [ignore], that of [set] fails its assertion. *)
Theorem C68_documentation_runs :
  (forall e, In e (doc_examples source) -> runnable e = true -> In e rust_examples) /\
  (forall p n e, platform_ok p -> nth_error rust_examples n = Some e -> runnable e = true ->
     exists s, example_comes_to p n (Done VUnit s) /\
       forall t, says_output (ex_text e) = Some t -> s = t) /\
  (forall p n e k, platform_ok p -> nth_error rust_examples n = Some e -> runnable e = true -> asserts e k ->
     comes_to (stopped n k) p n (Halt (Says "here"))) /\
  option_map ex_text (nth_error rust_examples 3) = Some (map as_line [
     "use raki::decode::DecodeUtil;";
     "let bit: u32 = 0b1010_1101;";
     "let sliced = bit.set(&[7, 5, 3, 2, 0, 6, 4, 1]);";
     "assert_eq!(sliced, 0b1111_1000);"]) /\
  (forall p, platform_ok p -> example_comes_to p 3 (Halt (Why PAssert))).
Proof.
  exact (conj SrcDocOk.tested_examples (conj SrcDocOk.examples_run
    (conj SrcDocOk.assertions_reached (conj SrcDocOk.text_set SrcDocOk.ignored_set)))).
Qed.
Print Assumptions C68_documentation_runs.

(** README.md announces its output; the example of the trait prints with [{:?}]. *)
Example C68_case :
  (exists e, nth_error rust_examples 5 = Some e /\ runnable e = true /\
     says_output (ex_text e) = Some ("addi t0, t0, -276" ++ newline)) /\
  (exists e, nth_error rust_examples 3 = Some e /\ runnable e = false) /\
  example_comes_to Text.plat 1 (Done VUnit
    ("Ok(Instruction { opc: BaseI(ADDI), rd: Some(5), rs1: Some(5), rs2: None, imm: Some(-276), " ++
     "inst_format: IFormat, is_compressed: false })" ++ newline)).
Proof.
  split; [|split].
  - eexists. split; [vm_compute; reflexivity|]. split; vm_compute; reflexivity.
  - eexists. split; vm_compute; reflexivity.
  - exact (SrcDocOk.debug_example _ Text.plat_ok).
Qed.

(** ** C69 *)

(** src/instruction/opcode.rs evaluated, and compared with the evaluated crate ([compiled f]: the opcode
    with the same name; [today]: the format).  As C59, without the models. *)
Theorem C69_uncompiled_text :
  (exists P, load false old_source = Some P /\
     map fst (p_fns P) = ["OpcodeKind.get_format"; "OpcodeKind.get_extension"; "OpcodeKind.to_string"] /\
     forall p fuel v, (1 <= fuel)%nat ->
       (SrcDerive.typed p P fuel (TyPath ["OpcodeKind"] []) v = true <-> exists f, v = of_flat f)) /\
  (forall p f, exists x,
     old_evaluates p "OpcodeKind.get_format" [of_flat f] (Done (of_flat_format x) "") /\
     evaluates p "OpcodeKind.get_format" [of_op (compiled f)] "" (Done (of_fmt (today x)) "")) /\
  (forall p f,
     old_evaluates p "OpcodeKind.get_extension" [of_flat f] (Done (of_ext (extension_of (compiled f))) "") <->
     f <> F_FENCE) /\
  (forall p f,
     (exists s, old_evaluates p "OpcodeKind.to_string" [of_flat f] (Done (VStr s) "") /\
        evaluates p "OpcodeKind.fmt" [of_op (compiled f); VFmt] "" (Done ok_unit s)) <->
     f <> F_FENCE /\ f <> F_MULHSU) /\
  (forall p f, exists s,
     old_evaluates p "OpcodeKind.to_string" [of_flat f] (Done (VStr s) "") /\ lower s = mnemonic (compiled f)).
Proof.
  exact (conj SrcOldOk.old_program (conj SrcOldOk.same_format_text (conj SrcOldOk.same_extension_text
    (conj SrcOldOk.same_text SrcOldOk.right_text)))).
Qed.
Print Assumptions C69_uncompiled_text.

Example C69_case :
  old_evaluates Text.plat "OpcodeKind.to_string" [of_flat F_MULHSU] (Done (VStr "mulhsu") "") /\
  evaluates Text.plat "OpcodeKind.fmt" [of_op (OM M_MULHSU); VFmt] "" (Done ok_unit "mulhsu,").
Proof.
  split; [exact (proj2 (proj2 (proj2 SrcOldOk.old_text Text.plat F_MULHSU)))|].
  exists SrcProg.crate. split; [exact SrcProg.crate_loads|]. intros fuel F.
  do 6 (destruct fuel as [|fuel]; [lia|]). vm_compute. reflexivity.
Qed.
