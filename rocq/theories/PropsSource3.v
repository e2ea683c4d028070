(** C70: the documentation of the format tags, read from the text, against the evaluated text.
    [documents f m t]: the comment of the variant [f] of InstFormat gives an example with the mnemonic
    [m] and operands [t]; see SpecTag.v. *)
From Coq Require Import ZArith List Bool String Lia.
From Verif Require Import Rust Types Spec SpecDebug SrcLine SrcLink SrcSem SrcEmbed SrcModel SpecSource SpecText SpecFormat SpecTag.
From Verif Require SrcProg SrcClaims SrcTagOk Text.
Import ListNotations.
Local Open Scope string_scope.

(** Every tag has examples.  The mnemonic of an example is that of one opcode; the opcode has that tag
    unless the example is [misfiled]; and the instructions with that opcode are displayed as the example
    shows exactly if it is among the [followed] ones.  Missing: the others.
    The operands that C52 takes a tag to name are those of one of its examples.  Both lists name
    examples of the text. *)
Theorem C70_documented_tags_partial :
  (forall f, exists ls, filter (fun d => fst d =? format_name f) tag_docs = [(format_name f, ls)] /\
     exists l, In l ls /\ template l <> None) /\
  (forall f m t, documents f m t -> exists op,
     (forall op', shown_as op' m <-> op' = op) /\
     ((forall p, evaluates p "OpcodeKind.get_format" [of_op op] "" (Done (of_fmt f) "")) <-> ~ In (f, m) misfiled) /\
     ((forall i, decodes_to i -> opc i = op -> follows m t i) <-> In m followed)) /\
  (forall f, f <> OnlyRs1 -> f <> OnlyRs2 ->
     exists m t, documents f m t /\ ~ In (f, m) misfiled /\ forall o, In o (named f) <-> shown_in t o) /\
  ((forall m, In m followed -> exists f t, documents f m t) /\
   (forall f m, In (f, m) misfiled -> exists t, documents f m t)).
Proof.
  exact (conj SrcTagOk.tags_once (conj SrcTagOk.row_spec (conj SrcTagOk.named_documented SrcTagOk.listed_documented))).
Qed.
Print Assumptions C70_documented_tags_partial.

(** c.nop is documented as CiFormat; lw is not displayed as documented. *)
Theorem C70_documented_tags_refuted :
  (exists f m t op, documents f m t /\ shown_as op m /\
     ~ (forall p, evaluates p "OpcodeKind.get_format" [of_op op] "" (Done (of_fmt f) ""))) /\
  (exists f m t i, documents f m t /\ decodes_to i /\ shown_as (opc i) m /\ ~ follows m t i).
Proof. exact SrcTagOk.refuted. Qed.
Print Assumptions C70_documented_tags_refuted.

Example C70_case :
  documents JFormat "jal" [Lit " "; Reg ORd; Lit ", "; Num OImm] /\ In "jal" followed /\
  documents SFormat "sw" [Lit " "; Reg ORs2; Lit ", "; Num OImm; Lit "("; Reg ORs1; Lit ")"] /\ ~ In "sw" followed.
Proof.
  split; [eexists; eexists; split; [vm_compute; do 13 right; left; reflexivity|];
          split; [left; reflexivity|vm_compute; reflexivity]|].
  split; [vm_compute; tauto|].
  split; [eexists; eexists; split; [vm_compute; do 10 right; left; reflexivity|];
          split; [left; reflexivity|vm_compute; reflexivity]|].
  vm_compute. intuition discriminate.
Qed.
