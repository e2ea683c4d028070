(** C72: what the names in the text stand for; see SpecNames.v. *)
From Coq Require Import ZArith List Bool String.
From Verif Require Import SrcLine SrcText SrcLex SrcAst SrcNames SpecNames SrcLink SrcSem SrcProg.
From Verif Require SrcLinked.
Import ListNotations.
Local Open Scope string_scope.
Delimit Scope line_scope with line.

(** The text of the crate stands for one program and no other, although nothing says which of two
    meanings of a name goes first; it stands for that program without the names of [std], and its tests
    for one with them. *)
Theorem C72_one_program :
  (forall P, stands_for false false source P <-> P = crate) /\
  (forall P, stands_for true false source P <-> P = crate) /\
  (forall P, stands_for true true source P <-> P = test_crate).
Proof. exact SrcLinked.crate_stands. Qed.
Print Assumptions C72_one_program.

(** Whatever the linker accepts it links in the only way there is; a text that loads stands for what was
    loaded and for nothing else. *)
Theorem C72_linker :
  (forall std test files P, link_with std test files = Some P ->
     Linked std test files P /\ forall P', Linked std test files P' -> P' = P) /\
  (forall test src P, load test src = Some P -> forall P', stands_for true test src P' <-> P' = P).
Proof. exact (conj SrcLinked.accepted SrcLinked.load_stands). Qed.
Print Assumptions C72_linker.

(** A trait with a default method from another file, an enum, [Self], [super]; and a text in which one
    name is declared twice, which is refused. *)
Example C72_case :
  let text := [("lib.rs"%line,
    ["mod a;"; "use a::T;"; "pub enum E { A(u8), B }"; "use E::B;";
     "impl T for E { fn one(&self) -> u8 { match *self { Self::A(n) => n, B => 7 } } }";
     "fn g(e: E) -> u8 { e.two() }"]%line);
    ("a.rs"%line,
    ["pub trait T { fn one(&self) -> u8; fn two(&self) -> u8 { super::g(super::E::B) } }"]%line)] in
  (exists P, (forall P', stands_for false false text P' <-> P' = P) /\
    map fst (p_fns P) = ["E.one"; "E.two"; "g"] /\
    option_map f_body (assoc "E.one" (p_fns P)) = Some (Some (EBlock [] (Some
      (EMatch (EDeref (EVar "self")) [(PCtor "E" "A" [PBind "n"], EVar "n"); (PCtor "E" "B" [], ELit 7 "")])))) /\
    option_map f_body (assoc "E.two" (p_fns P)) = Some (Some (EBlock [] (Some (ECall (EFn "g") [ECtor "E" "B"]))))) /\
  load false [("lib.rs"%line, ["fn f() -> u8 { 0 }"; "mod a { pub fn f() -> u8 { 1 } }"; "use a::f;"; "fn g() -> u8 { f() }"]%line)] = None.
Proof.
  cbv zeta. split; [|vm_compute; reflexivity]. eexists. split.
  - apply (SrcLinked.load_core_stands). vm_compute. reflexivity.
  - vm_compute. repeat split.
Qed.
