(** C71: how the text is read; see SpecGrammar.v. *)
From Coq Require Import ZArith List Bool String.
From Verif Require Import SrcLine SrcText SrcLex SrcAst SrcLink SrcSem SrcProg SpecGrammar.
From Verif Require SrcParse SrcRead.
Import ListNotations.
Local Open Scope string_scope.
Delimit Scope line_scope with line.

(** The files of the crate can be read in one way and no other; the programs of C61 to C70 are that
    reading, with its names resolved. *)
Theorem C71_one_reading : exists files,
  reads source files /\ (forall files', reads source files' -> files' = files) /\
  link false files = Some crate /\ link true files = Some test_crate.
Proof. exact SrcRead.crate_read. Qed.
Print Assumptions C71_one_reading.

(** No text can be read in two ways, and whatever is loaded is loaded as it reads; the same for the
    text of the documentation (C68), of opcode.rs (C69) and for every other. *)
Theorem C71_unambiguous :
  (forall ls l l', reads_file ls l -> reads_file ls l' -> l' = l) /\
  (forall src files files', reads src files -> reads src files' -> files' = files) /\
  (forall test src P, load test src = Some P -> exists files, reads src files /\ link test files = Some P).
Proof. exact (conj SrcRead.file_unique (conj SrcRead.source_unique SrcRead.load_ok)). Qed.
Print Assumptions C71_unambiguous.

(** The lexer finds the tokens, exactly; the parser finds nothing but readings, and every reading given
    enough fuel. *)
Theorem C71_lexer_and_parser :
  (forall l ts, lex_line l = Some ts <-> tokens (bytes_of l) ts) /\
  (forall ts l, SrcParse.parse_file ts = Some l -> exists us, splits ts us /\ Items l us) /\
  (forall ts us l, splits ts us -> Items l us -> exists n0, forall n, (n0 <= n)%nat -> SrcParse.items n ts = SrcParse.Got l []).
Proof. exact SrcRead.parser_ok. Qed.
Print Assumptions C71_lexer_and_parser.

(** [>>] binds tighter than [&], [-] tighter than both and to the left, [as] tighter still. *)
Example C71_case : 
  let x := EPath ["x"] in
  let body := EBin Amp (EBin Shr x (ELit 31 "u8")) (EBin Minus (EBin Minus (ELit 3 "") (ELit 1 "")) (EAs (EAs x (TyPath ["u8"] [])) (TyPath ["u32"] []))) in
  let text := ["fn f(x: u32) -> Option<Vec<u32>> { // >>";
               "    x>>0x1_fu8 & 3 - 1 - x as u8 as u32"; "}"]%line in
  let f := {| f_name := "f"; f_generics := []; f_params := [("x", TyPath ["u32"] [])];
              f_ret := Some (TyPath ["Option"] [TyPath ["Vec"] [TyPath ["u32"] []]]); f_body := Some (EBlock [] (Some body)) |} in
  reads_file text [([], IFn f)] /\ forall l, reads_file text l -> l = [([], IFn f)].
Proof.
  cbv zeta. match goal with |- ?R /\ _ => assert (H : R) end.
  { eapply SrcRead.file_ok; [vm_compute; reflexivity|vm_compute; reflexivity]. }
  split; [exact H|]. intros l L. exact (SrcRead.file_unique _ _ _ H L).
Qed.
