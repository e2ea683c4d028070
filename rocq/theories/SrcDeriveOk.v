(** The declarations of the source are the types of the model. *)
From Coq Require Import ZArith List Bool String Lia.
From Verif Require Import Rust Types Debug PartialEq SrcAst SrcLink SrcSem SrcProg SrcEmbed SrcUtil SrcDerive.
Import ListNotations.
Local Open Scope Z_scope.
Local Open Scope string_scope.

Definition plain (x : string) : ty := TyPath [x] [].

(** ** Enums without fields *)

Definition leaf_name (v : value) : string := match v with VEnum _ c _ => c | _ => "" end.

(** Every value of the enum [t] of the source is one of [l]. *)
Lemma enum_values {A} (f : A -> value) (t : string) (l : list A) p n v :
  prim_ity t = None -> t <> "bool" -> t <> "Formatter" -> t <> "Option" -> t <> "Result" ->
  assoc t (p_enums crate) = Some (map (fun a => (leaf_name (f a), [])) l) ->
  assoc t (p_structs crate) = None ->
  (forall a, f a = VEnum t (leaf_name (f a)) []) ->
  typed p crate (S n) (plain t) v = true -> exists a, In a l /\ v = f a.
Proof.
  intros Hp Hb Hm Ho Hr He Hs Hf H. cbn [typed plain] in H. rewrite Hp in H.
  apply String.eqb_neq in Hb, Hm, Ho, Hr. rewrite Hb, Hm, Ho, Hr, He, Hs in H. clear Hp Hb Hm Ho Hr He Hs.
  destruct v; try discriminate H.
  2: { apply andb_prop in H. destruct H as [_ H]. discriminate H. }
  apply andb_prop in H. destruct H as [Ht H]. apply String.eqb_eq in Ht. subst t0.
  assert (K : exists a, In a l /\ v = leaf_name (f a) /\ args = []).
  { clear Hf. induction l as [|a l IH]; cbn [map assoc] in H; [discriminate H|].
    destruct (v =? leaf_name (f a)) eqn:E.
    - apply String.eqb_eq in E. subst v. exists a. split; [left; reflexivity|]. split; [reflexivity|].
      destruct args; [reflexivity|discriminate H].
    - destruct (IH H) as (b & I & E1 & E2). exists b. split; [right; exact I|]. split; assumption. }
  destruct K as (a & I & -> & ->). exists a. split; [exact I|]. symmetry. apply Hf.
Qed.

Definition all_basei : list BaseIOpcode :=
  [I_LUI; I_AUIPC; I_JAL; I_JALR; I_BEQ; I_BNE; I_BLT; I_BGE; I_BLTU; I_BGEU; I_LB; I_LH;
   I_LW; I_LBU; I_LHU; I_SB; I_SH; I_SW; I_ADDI; I_SLTI; I_SLTIU; I_XORI; I_ORI; I_ANDI;
   I_SLLI; I_SRLI; I_SRAI; I_ADD; I_SUB; I_SLL; I_SLT; I_SLTU; I_XOR; I_SRL; I_SRA; I_OR;
   I_AND; I_ECALL; I_EBREAK; I_LWU; I_LD; I_SD; I_ADDIW; I_SLLIW; I_SRLIW; I_SRAIW; I_ADDW;
   I_SUBW; I_SLLW; I_SRLW; I_SRAW].

Lemma basei_values p n v : typed p crate (S n) (plain "BaseIOpcode") v = true <-> exists a, v = of_basei a.
Proof.
  split; [|intros [a ->]; destruct a; reflexivity].
  intros H. eapply (enum_values of_basei "BaseIOpcode" all_basei) in H;
    [destruct H as (a & _ & E); exists a; exact E | reflexivity | discriminate | discriminate | discriminate | discriminate
    | reflexivity | reflexivity | intros []; reflexivity].
Qed.

Definition all_m : list MOpcode :=
  [M_MUL; M_MULH; M_MULHSU; M_MULHU; M_DIV; M_DIVU; M_REM; M_REMU; M_MULW; M_DIVW; M_DIVUW;
   M_REMW; M_REMUW].

Lemma m_values p n v : typed p crate (S n) (plain "MOpcode") v = true <-> exists a, v = of_m a.
Proof.
  split; [|intros [a ->]; destruct a; reflexivity].
  intros H. eapply (enum_values of_m "MOpcode" all_m) in H;
    [destruct H as (a & _ & E); exists a; exact E | reflexivity | discriminate | discriminate | discriminate | discriminate
    | reflexivity | reflexivity | intros []; reflexivity].
Qed.

Definition all_a : list AOpcode :=
  [A_LR_W; A_SC_W; A_AMOSWAP_W; A_AMOADD_W; A_AMOXOR_W; A_AMOAND_W; A_AMOOR_W; A_AMOMIN_W;
   A_AMOMAX_W; A_AMOMINU_W; A_AMOMAXU_W; A_LR_D; A_SC_D; A_AMOSWAP_D; A_AMOADD_D; A_AMOXOR_D;
   A_AMOAND_D; A_AMOOR_D; A_AMOMIN_D; A_AMOMAX_D; A_AMOMINU_D; A_AMOMAXU_D].

Lemma a_values p n v : typed p crate (S n) (plain "AOpcode") v = true <-> exists a, v = of_a a.
Proof.
  split; [|intros [a ->]; destruct a; reflexivity].
  intros H. eapply (enum_values of_a "AOpcode" all_a) in H;
    [destruct H as (a & _ & E); exists a; exact E | reflexivity | discriminate | discriminate | discriminate | discriminate
    | reflexivity | reflexivity | intros []; reflexivity].
Qed.

Definition all_c : list COpcode :=
  [C_ADDI4SPN; C_LW; C_SW; C_NOP; C_ADDI; C_JAL; C_LI; C_ADDI16SP; C_LUI; C_SRLI; C_SRAI;
   C_ANDI; C_SUB; C_XOR; C_OR; C_AND; C_J; C_BEQZ; C_BNEZ; C_SLLI; C_LWSP; C_JR; C_MV;
   C_EBREAK; C_JALR; C_ADD; C_SWSP; C_LD; C_SD; C_ADDIW; C_SUBW; C_ADDW; C_LDSP; C_SDSP].

Lemma c_values p n v : typed p crate (S n) (plain "COpcode") v = true <-> exists a, v = of_c a.
Proof.
  split; [|intros [a ->]; destruct a; reflexivity].
  intros H. eapply (enum_values of_c "COpcode" all_c) in H;
    [destruct H as (a & _ & E); exists a; exact E | reflexivity | discriminate | discriminate | discriminate | discriminate
    | reflexivity | reflexivity | intros []; reflexivity].
Qed.

Definition all_zifencei : list ZifenceiOpcode :=
  [Fe_FENCE].

Lemma zifencei_values p n v : typed p crate (S n) (plain "ZifenceiOpcode") v = true <-> exists a, v = of_zifencei a.
Proof.
  split; [|intros [a ->]; destruct a; reflexivity].
  intros H. eapply (enum_values of_zifencei "ZifenceiOpcode" all_zifencei) in H;
    [destruct H as (a & _ & E); exists a; exact E | reflexivity | discriminate | discriminate | discriminate | discriminate
    | reflexivity | reflexivity | intros []; reflexivity].
Qed.

Definition all_zicboz : list ZicbozOpcode :=
  [Cbo_CBO_ZERO].

Lemma zicboz_values p n v : typed p crate (S n) (plain "ZicbozOpcode") v = true <-> exists a, v = of_zicboz a.
Proof.
  split; [|intros [a ->]; destruct a; reflexivity].
  intros H. eapply (enum_values of_zicboz "ZicbozOpcode" all_zicboz) in H;
    [destruct H as (a & _ & E); exists a; exact E | reflexivity | discriminate | discriminate | discriminate | discriminate
    | reflexivity | reflexivity | intros []; reflexivity].
Qed.

Definition all_zicsr : list ZicsrOpcode :=
  [Csr_CSRRW; Csr_CSRRS; Csr_CSRRC; Csr_CSRRWI; Csr_CSRRSI; Csr_CSRRCI].

Lemma zicsr_values p n v : typed p crate (S n) (plain "ZicsrOpcode") v = true <-> exists a, v = of_zicsr a.
Proof.
  split; [|intros [a ->]; destruct a; reflexivity].
  intros H. eapply (enum_values of_zicsr "ZicsrOpcode" all_zicsr) in H;
    [destruct H as (a & _ & E); exists a; exact E | reflexivity | discriminate | discriminate | discriminate | discriminate
    | reflexivity | reflexivity | intros []; reflexivity].
Qed.

Definition all_zicfiss : list ZicfissOpcode :=
  [Ss_SSPUSH; Ss_C_SSPUSH; Ss_SSPOPCHK; Ss_C_SSPOPCHK; Ss_SSRDP; Ss_SSAMOSWAP_W;
   Ss_SSAMOSWAP_D].

Lemma zicfiss_values p n v : typed p crate (S n) (plain "ZicfissOpcode") v = true <-> exists a, v = of_zicfiss a.
Proof.
  split; [|intros [a ->]; destruct a; reflexivity].
  intros H. eapply (enum_values of_zicfiss "ZicfissOpcode" all_zicfiss) in H;
    [destruct H as (a & _ & E); exists a; exact E | reflexivity | discriminate | discriminate | discriminate | discriminate
    | reflexivity | reflexivity | intros []; reflexivity].
Qed.

Definition all_zicntr : list ZicntrOpcode :=
  [Cnt_RDCYCLE_H; Cnt_RDTIME_H; Cnt_RDINSTRET_H; Cnt_RDCYCLE; Cnt_RDTIME; Cnt_RDINSTRET].

Lemma zicntr_values p n v : typed p crate (S n) (plain "ZicntrOpcode") v = true <-> exists a, v = of_zicntr a.
Proof.
  split; [|intros [a ->]; destruct a; reflexivity].
  intros H. eapply (enum_values of_zicntr "ZicntrOpcode" all_zicntr) in H;
    [destruct H as (a & _ & E); exists a; exact E | reflexivity | discriminate | discriminate | discriminate | discriminate
    | reflexivity | reflexivity | intros []; reflexivity].
Qed.

Definition all_priv : list PrivOpcode :=
  [P_MRET; P_SRET; P_WFI; P_SFENCE_VMA].

Lemma priv_values p n v : typed p crate (S n) (plain "PrivOpcode") v = true <-> exists a, v = of_priv a.
Proof.
  split; [|intros [a ->]; destruct a; reflexivity].
  intros H. eapply (enum_values of_priv "PrivOpcode" all_priv) in H;
    [destruct H as (a & _ & E); exists a; exact E | reflexivity | discriminate | discriminate | discriminate | discriminate
    | reflexivity | reflexivity | intros []; reflexivity].
Qed.

Definition all_fmt : list InstFormat :=
  [RFormat; RShamtFormat; IFormat; SFormat; BFormat; UFormat; JFormat; CrFormat; CiFormat;
   CssFormat; CiwFormat; ClFormat; CsFormat; CaFormat; CbFormat; CjFormat; CsrFormat;
   CsrUiFormat; MFormat; AFormat; ALrFormat; NoOperand; OnlyRd; OnlyRs1; OnlyRs2].

Lemma fmt_values p n v : typed p crate (S n) (plain "InstFormat") v = true <-> exists a, v = of_fmt a.
Proof.
  split; [|intros [a ->]; destruct a; reflexivity].
  intros H. eapply (enum_values of_fmt "InstFormat" all_fmt) in H;
    [destruct H as (a & _ & E); exists a; exact E | reflexivity | discriminate | discriminate | discriminate | discriminate
    | reflexivity | reflexivity | intros []; reflexivity].
Qed.

Definition all_err : list DecodingError :=
  [Not16BitInst; Not32BitInst; InvalidFunct3; InvalidFunct5; InvalidFunct6; InvalidFunct7;
   InvalidOpcode; UnknownExtension; IllegalInstruction; OnlyRv64Inst].

Lemma err_values p n v : typed p crate (S n) (plain "DecodingError") v = true <-> exists a, v = of_err a.
Proof.
  split; [|intros [a ->]; destruct a; reflexivity].
  intros H. eapply (enum_values of_err "DecodingError" all_err) in H;
    [destruct H as (a & _ & E); exists a; exact E | reflexivity | discriminate | discriminate | discriminate | discriminate
    | reflexivity | reflexivity | intros []; reflexivity].
Qed.

Definition all_isa : list Isa :=
  [Rv32; Rv64].

Lemma isa_values p n v : typed p crate (S n) (plain "Isa") v = true <-> exists a, v = of_isa a.
Proof.
  split; [|intros [a ->]; destruct a; reflexivity].
  intros H. eapply (enum_values of_isa "Isa" all_isa) in H;
    [destruct H as (a & _ & E); exists a; exact E | reflexivity | discriminate | discriminate | discriminate | discriminate
    | reflexivity | reflexivity | intros []; reflexivity].
Qed.

Definition all_ext : list Extensions :=
  [EBaseI; EM; EA; EC; EZifencei; EZicboz; EZicsr; EZicfiss; EZicntr; EPriv].

Lemma ext_values p n v : typed p crate (S n) (plain "Extensions") v = true <-> exists a, v = of_ext a.
Proof.
  split; [|intros [a ->]; destruct a; reflexivity].
  intros H. eapply (enum_values of_ext "Extensions" all_ext) in H;
    [destruct H as (a & _ & E); exists a; exact E | reflexivity | discriminate | discriminate | discriminate | discriminate
    | reflexivity | reflexivity | intros []; reflexivity].
Qed.

(** ** [OpcodeKind] *)

Lemma opcode_values p n v : typed p crate (S (S n)) (plain "OpcodeKind") v = true <-> exists op, v = of_op op.
Proof.
  split.
  - intros H. change (typed p crate (S (S n)) (plain "OpcodeKind") v) with
      (match v with
       | VEnum y c vs =>
           (y =? "OpcodeKind") &&
           match assoc c
             [("BaseI", [plain "BaseIOpcode"]); ("M", [plain "MOpcode"]); ("A", [plain "AOpcode"]);
              ("C", [plain "COpcode"]); ("Zifencei", [plain "ZifenceiOpcode"]);
              ("Zicboz", [plain "ZicbozOpcode"]); ("Zicsr", [plain "ZicsrOpcode"]);
              ("Zicfiss", [plain "ZicfissOpcode"]); ("Zicntr", [plain "ZicntrOpcode"]);
              ("Priv", [plain "PrivOpcode"])] with
           | Some ts => all2 (typed p crate (S n)) ts vs
           | None => false
           end
       | VStruct y _ => (y =? "OpcodeKind") && false
       | _ => false
       end) in H.
    destruct v; try discriminate H; apply andb_prop in H; destruct H as [Ht H]; [|discriminate H].
    apply String.eqb_eq in Ht. subst t. cbn [assoc] in H.
    repeat match type of H with
    | match (if ?c =? ?d then _ else _) with _ => _ end = true =>
        destruct (String.eqb_spec c d) as [->|_]
    end; try discriminate H;
    (destruct args as [|w [|]]; cbn [all2] in H; try discriminate H;
     [|apply andb_prop in H; destruct H as [_ H]; discriminate H];
     rewrite Bool.andb_true_r in H).
    + apply basei_values in H. destruct H as [a ->]. exists (OBaseI a). reflexivity.
    + apply m_values in H. destruct H as [a ->]. exists (OM a). reflexivity.
    + apply a_values in H. destruct H as [a ->]. exists (OA a). reflexivity.
    + apply c_values in H. destruct H as [a ->]. exists (OC a). reflexivity.
    + apply zifencei_values in H. destruct H as [a ->]. exists (OZifencei a). reflexivity.
    + apply zicboz_values in H. destruct H as [a ->]. exists (OZicboz a). reflexivity.
    + apply zicsr_values in H. destruct H as [a ->]. exists (OZicsr a). reflexivity.
    + apply zicfiss_values in H. destruct H as [a ->]. exists (OZicfiss a). reflexivity.
    + apply zicntr_values in H. destruct H as [a ->]. exists (OZicntr a). reflexivity.
    + apply priv_values in H. destruct H as [a ->]. exists (OPriv a). reflexivity.
  - intros [op ->]. destruct op as [b|b|b|b|b|b|b|b|b|b]; destruct b; reflexivity.
Qed.

(** ** [Instruction] *)

Lemma int_values p n x t v : prim_ity x = Some t ->
  typed p crate (S n) (plain x) v = true <-> exists z, in_type p t z = true /\ v = VInt t z.
Proof.
  intros E. cbn [typed plain]. rewrite E. split.
  - intros H. destruct v as [j z| | | | | | | | | |]; try discriminate H. apply andb_prop in H.
    destruct H as [T R]. exists z. split; [exact R|]. destruct t, j; try discriminate T; reflexivity.
  - intros (z & R & ->). destruct t; cbn [ity_eqb]; exact R.
Qed.

Lemma option_values p n x t v : prim_ity x = Some t ->
  typed p crate (S (S n)) (TyPath ["Option"] [plain x]) v = true <->
  exists y, opt_in p t y /\ v = of_option (VInt t) y.
Proof.
  intros E. 
  change (typed p crate (S (S n)) (TyPath ["Option"] [plain x]) v) with
    (match v with
     | VEnum y c vs =>
         (y =? "Option") && (if c =? "Some" then all2 (typed p crate (S n)) [plain x] vs
                             else if c =? "None" then all2 (typed p crate (S n)) [] vs else false)
     | _ => false
     end).
  split.
  - intros H. destruct v; try discriminate H. apply andb_prop in H. destruct H as [Ht H].
    apply String.eqb_eq in Ht. subst t0.
    destruct (String.eqb_spec v "Some") as [->|_].
    + destruct args as [|w [|]]; cbn [all2] in H; try discriminate H;
        [|apply andb_prop in H; destruct H as [_ H]; discriminate H].
      rewrite Bool.andb_true_r in H. apply (int_values p n x t w E) in H. destruct H as (z & R & ->).
      exists (Some z). split; [exact R|reflexivity].
    + destruct (String.eqb_spec v "None") as [->|_]; [|discriminate H].
      destruct args; [|discriminate H]. exists None. split; [exact I|reflexivity].
  - intros (y & R & ->). destruct y as [z|]; [|reflexivity].
    cbn [of_option]. change ((true && (typed p crate (S n) (plain x) (VInt t z) && true))%bool = true).
    rewrite Bool.andb_true_r. apply (int_values p n x t (VInt t z) E). exists z. split; [exact R|reflexivity].
Qed.

Lemma instruction_values p n v :
  typed p crate (S (S (S n))) (plain "Instruction") v = true <->
  exists i, numbers_ok p i /\ v = of_inst i.
Proof.
  change (typed p crate (S (S (S n))) (plain "Instruction") v) with
    (match v with
     | VEnum y _ _ => (y =? "Instruction") && false
     | VStruct y fs =>
         (y =? "Instruction") &&
         all2 (fun d f => (fst d =? fst f) && typed p crate (S (S n)) (snd d) (snd f))
           [("opc", plain "OpcodeKind"); ("rd", TyPath ["Option"] [plain "usize"]);
            ("rs1", TyPath ["Option"] [plain "usize"]); ("rs2", TyPath ["Option"] [plain "usize"]);
            ("imm", TyPath ["Option"] [plain "i32"]); ("inst_format", plain "InstFormat");
            ("is_compressed", plain "bool")] fs
     | _ => false
     end).
  split.
  - intros H. destruct v; try discriminate H; apply andb_prop in H; destruct H as [Ht H];
      [discriminate H|]. apply String.eqb_eq in Ht. subst t.
    do 7 (destruct fs as [|[? ?] fs]; [cbn [all2] in H; rewrite ?Bool.andb_false_r in H; discriminate H|]).
    cbn [all2 fst snd] in H.
    repeat match type of H with (_ && _)%bool = true =>
      apply andb_prop in H; let K := fresh "K" in destruct H as [K H];
      apply andb_prop in K; let K1 := fresh "K" in let K2 := fresh "K" in destruct K as [K1 K2];
      apply String.eqb_eq in K1; subst end.
    destruct fs; [|discriminate H]. clear H.
    match goal with K : typed _ _ _ (plain "OpcodeKind") _ = true |- _ =>
      apply opcode_values in K; destruct K as [op ->] end.
    match goal with K : typed _ _ _ _ ?v0 = true, K' : typed _ _ _ _ ?v1 = true,
      K'' : typed _ _ _ _ ?v2 = true |- context [("rd", ?v0) :: ("rs1", ?v1) :: ("rs2", ?v2) :: _] =>
      apply (option_values p n "usize" SrcSem.Usize v0 eq_refl) in K; destruct K as (x1 & R1 & ->);
      apply (option_values p n "usize" SrcSem.Usize v1 eq_refl) in K'; destruct K' as (x2 & R2 & ->);
      apply (option_values p n "usize" SrcSem.Usize v2 eq_refl) in K''; destruct K'' as (x3 & R3 & ->)
    end.
    match goal with K : typed _ _ _ (TyPath ["Option"] [plain "i32"]) ?v0 = true |- _ =>
      apply (option_values p n "i32" SrcSem.I32 v0 eq_refl) in K; destruct K as (x4 & R4 & ->) end.
    match goal with K : typed _ _ _ (plain "InstFormat") _ = true |- _ =>
      apply fmt_values in K; destruct K as [f ->] end.
    match goal with K : typed _ _ _ (plain "bool") ?w = true |- _ =>
      destruct w; try discriminate K end.
    exists {| opc := op; rd := x1; rs1 := x2; rs2 := x3; imm := x4; inst_format := f; is_compressed := b |}.
    split; [|reflexivity]. repeat split; assumption.
  - intros (i & (R1 & R2 & R3 & R4) & ->). unfold of_inst. cbn [all2 fst snd].
    change ("Instruction" =? "Instruction") with true. cbn [andb].
    change ("opc" =? "opc") with true; change ("rd" =? "rd") with true; change ("rs1" =? "rs1") with true;
    change ("rs2" =? "rs2") with true; change ("imm" =? "imm") with true;
    change ("inst_format" =? "inst_format") with true; change ("is_compressed" =? "is_compressed") with true.
    cbn [andb].
    rewrite (proj2 (opcode_values p n (of_op (opc i)))) by (eexists; reflexivity).
    rewrite (proj2 (option_values p n "usize" SrcSem.Usize (of_option (VInt SrcSem.Usize) (rd i)) eq_refl))
      by (eexists; split; [exact R1|reflexivity]).
    rewrite (proj2 (option_values p n "usize" SrcSem.Usize (of_option (VInt SrcSem.Usize) (rs1 i)) eq_refl))
      by (eexists; split; [exact R2|reflexivity]).
    rewrite (proj2 (option_values p n "usize" SrcSem.Usize (of_option (VInt SrcSem.Usize) (rs2 i)) eq_refl))
      by (eexists; split; [exact R3|reflexivity]).
    rewrite (proj2 (option_values p n "i32" SrcSem.I32 (of_option (VInt SrcSem.I32) (imm i)) eq_refl))
      by (eexists; split; [exact R4|reflexivity]).
    rewrite (proj2 (fmt_values p (S n) (of_fmt (inst_format i)))) by (eexists; reflexivity).
    reflexivity.
Qed.

(** ** [#[derive(Debug)]] *)

Lemma op_derived_debug n op : derived_debug crate (S (S n)) (of_op op) = Some (OpcodeKind_debug op).
Proof. destruct op as [b|b|b|b|b|b|b|b|b|b]; destruct b; reflexivity. Qed.

Lemma fmt_derived_debug n f : derived_debug crate (S n) (of_fmt f) = Some (InstFormat_debug f).
Proof. destruct f; reflexivity. Qed.

Lemma err_derived_debug n e : derived_debug crate (S n) (of_err e) = Some (DecodingError_debug e).
Proof. destruct e; reflexivity. Qed.

Lemma instruction_derived_debug n i :
  derived_debug crate (S (S (S n))) (of_inst i) = Some (Instruction_debug i).
Proof.
  destruct i as [op r s t m f c]. unfold of_inst. cbn [opc rd rs1 rs2 imm inst_format is_compressed].
  change (option_map (fun l => Struct "Instruction"
        (combine ["opc"; "rd"; "rs1"; "rs2"; "imm"; "inst_format"; "is_compressed"] l))
      (mapo (derived_debug crate (S (S n)))
        [of_op op; of_option (VInt SrcSem.Usize) r; of_option (VInt SrcSem.Usize) s;
         of_option (VInt SrcSem.Usize) t; of_option (VInt SrcSem.I32) m; of_fmt f; VBool c])
      = Some (Instruction_debug {| opc := op; rd := r; rs1 := s; rs2 := t; imm := m; inst_format := f;
                                   is_compressed := c |})).
    cbn [mapo]. rewrite op_derived_debug, fmt_derived_debug.
    destruct r, s, t, m; reflexivity.
Qed.

Lemma decode_derived_debug n r :
  derived_debug crate (S (S (S (S n)))) (of_result of_inst r) = Some (decode_debug r).
Proof.
  destruct r as [i|e]; cbn [of_result].
  - change (option_map (Tuple "Ok") (mapo (derived_debug crate (S (S (S n)))) [of_inst i])
      = Some (decode_debug (Ok i))).
    cbn [mapo]. rewrite instruction_derived_debug. reflexivity.
  - destruct e; reflexivity.
Qed.

(** ** [#[derive(PartialEq)]] *)

Definition agrees (x : option bool) (b : bool) : bool :=
  match x with Some c => Bool.eqb c b | None => false end.

(** The comparisons of an enum, one by one. *)
Lemma compare_all {A} (f : A -> value) (eq : A -> A -> bool) (l : list A) k :
  (forall a, In a l) ->
  forallb (fun a => forallb (fun b => agrees (veq k derives_eq (f a) (f b)) (eq a b)) l) l = true ->
  forall a b, veq k derives_eq (f a) (f b) = Some (eq a b).
Proof.
  intros C H a b. rewrite forallb_forall in H. specialize (H a (C a)). rewrite forallb_forall in H.
  specialize (H b (C b)). unfold agrees in H. destruct (veq k derives_eq (f a) (f b)); [|discriminate H].
  apply Bool.eqb_prop in H. rewrite H. reflexivity.
Qed.

(** [derives_eq], computed once. *)
Definition eq_types : list string := Eval vm_compute in derives_eq.
Lemma eq_types_ok : derives_eq = eq_types.
Proof. vm_compute. reflexivity. Qed.

Ltac compare_leaf all := 
  rewrite eq_types_ok; 
  match goal with |- veq _ _ (?f ?a) (?f ?b) = Some (?e ?a ?b) =>
    rewrite <- eq_types_ok; apply (compare_all f e all);
    [intros []; cbn; tauto | rewrite eq_types_ok; vm_compute; reflexivity] end.

Lemma basei_compare a b : veq 8 derives_eq (of_basei a) (of_basei b) = Some (BaseIOpcode_eq a b).
Proof. compare_leaf all_basei. Qed.
Lemma m_compare a b : veq 8 derives_eq (of_m a) (of_m b) = Some (MOpcode_eq a b).
Proof. compare_leaf all_m. Qed.
Lemma a_compare a b : veq 8 derives_eq (of_a a) (of_a b) = Some (AOpcode_eq a b).
Proof. compare_leaf all_a. Qed.
Lemma c_compare a b : veq 8 derives_eq (of_c a) (of_c b) = Some (COpcode_eq a b).
Proof. compare_leaf all_c. Qed.
Lemma zifencei_compare a b : veq 8 derives_eq (of_zifencei a) (of_zifencei b) = Some (ZifenceiOpcode_eq a b).
Proof. compare_leaf all_zifencei. Qed.
Lemma zicboz_compare a b : veq 8 derives_eq (of_zicboz a) (of_zicboz b) = Some (ZicbozOpcode_eq a b).
Proof. compare_leaf all_zicboz. Qed.
Lemma zicsr_compare a b : veq 8 derives_eq (of_zicsr a) (of_zicsr b) = Some (ZicsrOpcode_eq a b).
Proof. compare_leaf all_zicsr. Qed.
Lemma zicfiss_compare a b : veq 8 derives_eq (of_zicfiss a) (of_zicfiss b) = Some (ZicfissOpcode_eq a b).
Proof. compare_leaf all_zicfiss. Qed.
Lemma zicntr_compare a b : veq 8 derives_eq (of_zicntr a) (of_zicntr b) = Some (ZicntrOpcode_eq a b).
Proof. compare_leaf all_zicntr. Qed.
Lemma priv_compare a b : veq 8 derives_eq (of_priv a) (of_priv b) = Some (PrivOpcode_eq a b).
Proof. compare_leaf all_priv. Qed.
Lemma fmt_compare a b : veq 9 derives_eq (of_fmt a) (of_fmt b) = Some (InstFormat_eq a b).
Proof. compare_leaf all_fmt. Qed.
Lemma err_compare a b : veq 9 derives_eq (of_err a) (of_err b) = Some (DecodingError_eq a b).
Proof. compare_leaf all_err. Qed.

Lemma op_compare a b : veq 9 derives_eq (of_op a) (of_op b) = Some (OpcodeKind_eq a b).
Proof.
  rewrite eq_types_ok. 
  destruct a as [x|x|x|x|x|x|x|x|x|x], b as [y|y|y|y|y|y|y|y|y|y]; try reflexivity;
  match goal with |- veq _ _ (of_op (?c x)) (of_op (?c y)) = _ => idtac end;
  match goal with |- ?l = ?rr =>
    let m := fresh in pose (m := l); cbv [of_op] in m;
    match eval cbv delta [m] in m with veq _ _ (VEnum _ _ [?u]) (VEnum _ _ [?v]) =>
      change (match veq 8 eq_types u v with Some true => Some true | q => q end = rr); clear m end end;
  rewrite <- eq_types_ok;
  first [rewrite basei_compare | rewrite m_compare | rewrite a_compare | rewrite c_compare
        | rewrite zifencei_compare | rewrite zicboz_compare | rewrite zicsr_compare
        | rewrite zicfiss_compare | rewrite zicntr_compare | rewrite priv_compare];
  cbn [OpcodeKind_eq]; match goal with |- context [Some ?x] => destruct x; reflexivity end.
Qed.

Lemma option_compare t x y : join t t <> None ->
  veq 9 derives_eq (of_option (VInt t) x) (of_option (VInt t) y) = Some (option_eq x y).
Proof.
  intros J. destruct x as [x|], y as [y|]; try reflexivity. cbn [of_option option_eq].
  change (match (match join t t with Some _ => Some (x =? y)%Z | None => None end) with
          | Some true => Some true | r => r end = Some (x =? y)%Z).
  destruct (join t t); [|contradiction J; reflexivity]. destruct (x =? y)%Z; reflexivity.
Qed.

Lemma instruction_compare a b : veq 10 derives_eq (of_inst a) (of_inst b) = Some (Instruction_eq a b).
Proof.
  destruct a as [op r s t m f c], b as [op' r' s' t' m' f' c'].
  unfold of_inst. cbn [opc rd rs1 rs2 imm inst_format is_compressed].
  transitivity (
    match veq 9 derives_eq (of_op op) (of_op op') with
    | Some true =>
    match veq 9 derives_eq (of_option (VInt SrcSem.Usize) r) (of_option (VInt SrcSem.Usize) r') with
    | Some true =>
    match veq 9 derives_eq (of_option (VInt SrcSem.Usize) s) (of_option (VInt SrcSem.Usize) s') with
    | Some true =>
    match veq 9 derives_eq (of_option (VInt SrcSem.Usize) t) (of_option (VInt SrcSem.Usize) t') with
    | Some true =>
    match veq 9 derives_eq (of_option (VInt SrcSem.I32) m) (of_option (VInt SrcSem.I32) m') with
    | Some true =>
    match veq 9 derives_eq (of_fmt f) (of_fmt f') with
    | Some true =>
    match Some (Bool.eqb c c') with Some true => Some true | r => r end
    | r => r end | r => r end | r => r end | r => r end | r => r end | r => r end).
  { rewrite eq_types_ok. reflexivity. }
  rewrite op_compare, !option_compare, fmt_compare by discriminate.
  unfold Instruction_eq. cbn [opc rd rs1 rs2 imm inst_format is_compressed].
  destruct (OpcodeKind_eq op op'); [|reflexivity].
  destruct (option_eq r r'); [|reflexivity].
  destruct (option_eq s s'); [|reflexivity].
  destruct (option_eq t t'); [|reflexivity].
  destruct (option_eq m m'); [|reflexivity].
  destruct (InstFormat_eq f f'); [|reflexivity].
  destruct (Bool.eqb c c'); reflexivity.
Qed.

Lemma instruction_derived_eq a b : derived_eq crate (of_inst a) (of_inst b) = Some (Instruction_eq a b).
Proof. exact (instruction_compare a b). Qed.
