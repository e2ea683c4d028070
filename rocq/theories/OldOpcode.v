(** Proofs for C59. *)
From Coq Require Import ZArith List Bool String.
From Verif Require Import Rust Types Decode Fmt Spec SpecHelp SpecText OpcodeRs SpecOpcode.
From Verif Require Import Util CanonBase Rows2.
Import ListNotations.
Local Open Scope list_scope.

Definition all_flat : list FlatOpcode := [
  F_LUI; F_AUIPC; F_JAL; F_JALR; F_BEQ; F_BNE; F_BLT; F_BGE; F_BLTU; F_BGEU; F_LB; F_LH; F_LW;
  F_LBU; F_LHU; F_SB; F_SH; F_SW; F_ADDI; F_SLTI; F_SLTIU; F_XORI; F_ORI; F_ANDI; F_SLLI;
  F_SRLI; F_SRAI; F_ADD; F_SUB; F_SLL; F_SLT; F_SLTU; F_XOR; F_SRL; F_SRA; F_OR; F_AND;
  F_FENCE; F_ECALL; F_EBREAK; F_LWU; F_LD; F_SD; F_ADDIW; F_SLLIW; F_SRLIW; F_SRAIW; F_ADDW;
  F_SUBW; F_SLLW; F_SRLW; F_SRAW; F_CSRRW; F_CSRRS; F_CSRRC; F_CSRRWI; F_CSRRSI; F_CSRRCI;
  F_SRET; F_MRET; F_WFI; F_SFENCE_VMA; F_MUL; F_MULH; F_MULHSU; F_MULHU; F_DIV; F_DIVU; F_REM;
  F_REMU; F_MULW; F_DIVW; F_DIVUW; F_REMW; F_REMUW; F_LR_W; F_SC_W; F_AMOSWAP_W; F_AMOADD_W;
  F_AMOXOR_W; F_AMOAND_W; F_AMOOR_W; F_AMOMIN_W; F_AMOMAX_W; F_AMOMINU_W; F_AMOMAXU_W; F_LR_D;
  F_SC_D; F_AMOSWAP_D; F_AMOADD_D; F_AMOXOR_D; F_AMOAND_D; F_AMOOR_D; F_AMOMIN_D; F_AMOMAX_D;
  F_AMOMINU_D; F_AMOMAXU_D; F_C_ADDI4SPN; F_C_LW; F_C_SW; F_C_NOP; F_C_ADDI; F_C_JAL; F_C_LI;
  F_C_ADDI16SP; F_C_LUI; F_C_SRLI; F_C_SRAI; F_C_ANDI; F_C_SUB; F_C_XOR; F_C_OR; F_C_AND; F_C_J;
  F_C_BEQZ; F_C_BNEZ; F_C_SLLI; F_C_LWSP; F_C_JR; F_C_MV; F_C_EBREAK; F_C_JALR; F_C_ADD;
  F_C_SWSP; F_C_LD; F_C_SD; F_C_ADDIW; F_C_SUBW; F_C_ADDW; F_C_LDSP; F_C_SDSP].
Lemma all_flat_all f : In f all_flat.
Proof. destruct f; cbn [all_flat In]; auto 150. Qed.

Lemma compiled_once f g : compiled f = compiled g -> f = g.
Proof.
  set (find := fun op => List.find (fun x => dec2b (OpcodeKind_dec (compiled x) op)) all_flat).
  assert (H : forall x, find (compiled x) = Some x) by (intros x; destruct x; vm_compute; reflexivity).
  intros E. apply (f_equal find) in E. rewrite !H in E. injection E as ->. reflexivity.
Qed.
Lemma compiled_onto op : ~ newer op <-> exists f, compiled f = op.
Proof.
  split.
  - intros N. destruct (List.find (fun x => dec2b (OpcodeKind_dec (compiled x) op)) all_flat) as [f|] eqn:F.
    + exists f. apply find_some in F. destruct F as [_ F]. apply dec2b_true in F. exact F.
    + exfalso. destruct op as [o|o|o|o|o|o|o|o|o|o]; destruct o; try (apply N; exact I); discriminate F.
  - intros [f <-]. destruct f; intros [].
Qed.

Theorem same_format f : today (flat_get_format f) = get_format (compiled f).
Proof. destruct f; reflexivity. Qed.
Theorem same_extension f : flat_get_extension f = extension_of (compiled f) <-> f <> F_FENCE.
Proof. destruct f; (split; [intros E; try discriminate E; discriminate|intros N; try reflexivity]). destruct N. reflexivity. Qed.
Theorem same_text f : flat_to_string f = OpcodeKind_display (compiled f) <-> f <> F_FENCE /\ f <> F_MULHSU.
Proof.
  destruct f; (split; [intros E; try discriminate E; split; discriminate|intros [N M]; try reflexivity]).
  - destruct N. reflexivity.
  - destruct M. reflexivity.
Qed.
Theorem right_text f : lower (flat_to_string f) = mnemonic (compiled f).
Proof. destruct f; reflexivity. Qed.

Theorem agreement :
  (forall f g, compiled f = compiled g -> f = g) /\
  (forall op, ~ newer op <-> exists f, compiled f = op) /\
  (forall f, today (flat_get_format f) = get_format (compiled f)) /\
  (forall f, flat_get_extension f = extension_of (compiled f) <-> f <> F_FENCE) /\
  (forall f, flat_to_string f = OpcodeKind_display (compiled f) <-> f <> F_FENCE /\ f <> F_MULHSU) /\
  (forall f, lower (flat_to_string f) = mnemonic (compiled f)).
Proof.
  split; [exact compiled_once|]. split; [exact compiled_onto|]. split; [exact same_format|].
  split; [exact same_extension|]. split; [exact same_text|exact right_text].
Qed.

Theorem disagreement : exists f g,
  flat_get_extension f <> extension_of (compiled f) /\
  flat_to_string g <> OpcodeKind_display (compiled g) /\ f = F_FENCE /\ g = F_MULHSU.
Proof.
  exists F_FENCE, F_MULHSU. split; [discriminate|]. split; [discriminate|]. split; reflexivity.
Qed.
