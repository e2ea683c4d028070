(** The text of any [Instruction] value (C45). *)
From Coq Require Import ZArith List Bool String Lia.
From Verif Require Import Rust Types Fmt Spec Util SpecText SpecDisplay Numerals Operands Text.
Import ListNotations.
Local Open Scope string_scope.
Local Open Scope list_scope.
Local Open Scope Z_scope.

(** [layout] as a function. *)
Definition layout_of (f : InstFormat) (op : OpcodeKind) : option (list item) :=
  match f with
  | RFormat | MFormat => Some rrr
  | AFormat => match op with
               | OA A_LR_W | OA A_LR_D => Some [Lit " "; Reg ORd; Lit ", "; Reg ORs1]
               | _ => Some rrr end
  | RShamtFormat => Some [Lit " "; Reg ORd; Lit ", "; Reg ORs1]
  | IFormat | ClFormat | ALrFormat => Some rri
  | SFormat | BFormat | CsFormat =>
      Some [Lit " "; Reg ORs1; Lit ", "; Dec OImm; Lit "("; Reg ORs2; Lit ")"]
  | CiwFormat => Some [Lit " "; Reg ORd; Lit ", sp, "; Hex OImm]
  | CssFormat => Some [Lit " "; Reg ORs2; Lit ", "; Dec OImm; Lit "(sp)"]
  | UFormat | JFormat => Some [Lit " "; Reg ORd; Lit ", 0x"; Hex OImm]
  | CjFormat => Some [Lit " "; Dec OImm]
  | CiFormat => Some [Lit " "; Reg ORd; Lit ", "; Reg ORd; Lit ", "; Dec OImm]
  | CrFormat => match op with
                | OC C_JR => Some [Lit " zero, 0("; Reg ORs1; Lit ")"]
                | OC C_JALR => Some [Lit " ra, 0("; Reg ORs1; Lit ")"]
                | OC C_MV => Some [Lit " "; Reg ORd; Lit ", "; Reg ORs2]
                | OC C_ADD => Some rdr
                | _ => None end
  | CaFormat => Some rdr
  | CbFormat => Some [Lit " "; Dec ORs1; Lit ", "; Dec OImm]
  | CsrFormat => Some [Lit " "; Reg ORd; Lit ", 0x"; Hex ORs2; Lit ", "; Reg ORs1]
  | CsrUiFormat => Some [Lit " "; Reg ORd; Lit ", "; Dec ORs2; Lit ", "; Dec OImm]
  | OnlyRd => Some [Lit " "; Reg ORd]
  | OnlyRs1 => Some [Lit " "; Reg ORs1]
  | OnlyRs2 => Some [Lit " "; Reg ORs2]
  | NoOperand => match op with
      | OBaseI I_ECALL | OBaseI I_EBREAK | OZifencei Fe_FENCE | OC C_NOP | OC C_EBREAK
      | OPriv P_MRET | OPriv P_SRET | OPriv P_WFI | OPriv P_SFENCE_VMA => Some []
      | _ => None end
  end.

Lemma layout_iff f op t : layout f op t <-> layout_of f op = Some t.
Proof.
  split.
  - intros H. destruct H as [f op F N|f op F|f op F|f op F|op|op|f op F|op|op| | | |f op F|op|op|op|op|op|op|op B];
      try reflexivity.
    + destruct F as [<-|[<-|[<-|[]]]]; try reflexivity. destruct (N eq_refl) as [N1 N2].
      destruct op as [[]|[]|[]|[]|[]|[]|[]|[]|[]|[]]; try reflexivity; congruence.
    + destruct F as [->|[-> [-> | ->]]]; reflexivity.
    + destruct F as [<-|[<-|[<-|[]]]]; reflexivity.
    + destruct F as [<-|[<-|[<-|[]]]]; reflexivity.
    + destruct F as [<-|[<-|[]]]; reflexivity.
    + destruct F as [->|[-> ->]]; reflexivity.
    + cbn in B. repeat (destruct B as [<-|B]; [reflexivity|]). destruct B.
  - intros H. destruct f; cbn [layout_of] in H;
      try (apply Some_inj in H; subst t;
           solve [constructor; cbn; tauto
                 |apply L_rrr; [cbn; tauto|discriminate]]).
    + destruct op as [[]|[]|[]|[]|[]|[]|[]|[]|[]|[]]; cbn in H; try discriminate H;
        apply Some_inj in H; subst t;
        solve [constructor | apply L_ddr; tauto].
    + destruct op as [[]|[]|[]|[]|[]|[]|[]|[]|[]|[]]; cbn in H;
        apply Some_inj in H; subst t;
        solve [apply L_rr; tauto
              |apply L_rrr; [cbn; tauto|intros _; split; discriminate]].
    + destruct op as [[]|[]|[]|[]|[]|[]|[]|[]|[]|[]]; cbn in H; try discriminate H;
        apply Some_inj in H; subst t; apply L_none; cbn; tauto.
Qed.

(** ** Rendering with panics *)

Definition put (it : item) (i : Instruction) : outcome string :=
  match it with
  | Lit l => Ret l
  | Reg o => let! r := unwrap (get o i) in reg2str r
  | Dec o | Num o => let! v := unwrap (get o i) in Ret (dec_str v)
  | Hex o => let! v := unwrap (get o i) in Ret (hex_of o v)
  end.
Fixpoint puts (t : list item) (i : Instruction) : outcome string :=
  match t with
  | [] => Ret ""
  | it :: t' => let! a := put it i in let! b := puts t' i in Ret (a ++ b)%string
  end.

Lemma reg2str_unknown r : 32 <= r -> reg2str r = Panic PUnknownReg.
Proof.
  intros H. unfold reg2str. destruct r as [|q|q]; try lia.
  do 5 (destruct q as [q|q|]; try lia; try reflexivity).
Qed.

Lemma display_puts i : Instruction_display i =
  match layout_of (inst_format i) (opc i) with
  | Some t => let! s := puts t i in Ret (OpcodeKind_display (opc i) ++ s)%string
  | None => Panic PUnreachable
  end.
Proof.
  destruct i as [op d s t m f z]. unfold Instruction_display. cbn [inst_format opc rd rs1 rs2 imm].
  set (text := OpcodeKind_display op).
  destruct f; cbn [layout_of];
    try match goal with |- context [match op with _ => _ end] =>
      clearbody text; destruct op as [[]|[]|[]|[]|[]|[]|[]|[]|[]|[]]; try reflexivity end;
    unfold rrr, rri, rdr, reg_arg; cbn [puts put get rd rs1 rs2 imm bind unwrap];
    repeat (match goal with
      | |- context [unwrap ?x] => destruct x as [?v|]; cbn [bind unwrap]; try reflexivity
      | |- context [reg2str ?x] => destruct (reg2str x); cbn [bind]; try reflexivity
      end);
    rewrite ?append_nil, ?append_assoc; reflexivity.
Qed.

Lemma put_shows it i s : no_num it = true -> unsigned_registers i ->
  (put it i = Ret s <-> shows it i s).
Proof.
  intros N U. destruct it as [l|o|o|o|o]; cbn [put shows]; try discriminate N.
  - split; congruence.
  - destruct (get o i) as [r|] eqn:E; cbn [unwrap bind].
    + split.
      * intros H. exists r. split; [reflexivity|]. apply register_iff. assumption.
      * intros [r' [E' R]]. apply Some_inj in E'. subst r'. apply register_iff. assumption.
    + split; [discriminate|]. intros [r [E' _]]. discriminate E'.
  - destruct (get o i) as [v|] eqn:E; cbn [unwrap bind].
    + split.
      * intros H. exists v. split; [reflexivity|]. apply decimal_iff. congruence.
      * intros [v' [E' D]]. apply Some_inj in E'. subst v'. apply decimal_iff in D. congruence.
    + split; [discriminate|]. intros [r [E' _]]. discriminate E'.
  - destruct (get o i) as [v|] eqn:E; cbn [unwrap bind].
    + split.
      * intros H. exists v. split; [reflexivity|]. apply hexadecimal_iff. split; [|congruence].
        destruct o; try reflexivity; apply Z.leb_le; (refine (U _ _ _ E); discriminate).
      * intros [v' [E' D]]. apply Some_inj in E'. subst v'. apply hexadecimal_iff in D.
        destruct D as [_ ->]. reflexivity.
    + split; [discriminate|]. intros [r [E' _]]. discriminate E'.
Qed.

Lemma puts_reads t i : forallb no_num t = true -> unsigned_registers i ->
  forall s, puts t i = Ret s <-> reads_as t i s.
Proof.
  intros N U. induction t as [|it t IH]; intros s; cbn [puts reads_as].
  - split; congruence.
  - cbn [forallb] in N. apply andb_true_iff in N. destruct N as [N1 N2]. specialize (IH N2). split.
    + destruct (put it i) as [a|] eqn:A; [|discriminate]. destruct (puts t i) as [b|] eqn:B; [|discriminate].
      cbn [bind]. intros H. injection H as <-. exists a, b. split; [reflexivity|].
      split; [apply put_shows; assumption|apply IH; reflexivity].
    + intros [a [b [-> [A B]]]]. apply put_shows in A; [|assumption|assumption]. apply IH in B.
      rewrite A, B. reflexivity.
Qed.

Lemma layout_no_num f op t : layout_of f op = Some t -> forallb no_num t = true.
Proof.
  destruct f; cbn [layout_of];
    try match goal with |- context [match op with _ => _ end] =>
      destruct op as [[]|[]|[]|[]|[]|[]|[]|[]|[]|[]] end;
    intros H; try discriminate H; apply Some_inj in H; subst t; reflexivity.
Qed.

Lemma display_layout i s : unsigned_registers i ->
  (Instruction_display i = Ret s <->
   exists t rest, layout (inst_format i) (opc i) t /\
     s = (OpcodeKind_display (opc i) ++ rest)%string /\ reads_as t i rest).
Proof.
  intros U. rewrite display_puts. destruct (layout_of (inst_format i) (opc i)) as [t|] eqn:L.
  - pose proof (layout_no_num _ _ _ L) as N. split.
    + destruct (puts t i) as [x|] eqn:P; [|discriminate]. cbn [bind]. intros H. injection H as <-.
      exists t, x. split; [apply layout_iff; assumption|]. split; [reflexivity|].
      apply puts_reads; assumption.
    + intros [t' [rest [L' [-> R]]]]. apply layout_iff in L'. rewrite L in L'. apply Some_inj in L'.
      subst t'. apply puts_reads in R; [|assumption|assumption]. rewrite R. reflexivity.
  - split; [discriminate|]. intros [t' [rest [L' _]]]. apply layout_iff in L'. congruence.
Qed.

Definition no_reg_imm (it : item) : bool := match it with Reg OImm => false | _ => true end.
Lemma put_panic it i why : no_reg_imm it = true -> unsigned_registers i -> put it i = Panic why ->
  exists o, item_operand it = Some o /\
    (why = PUnwrap /\ get o i = None \/
     why = PUnknownReg /\ it = Reg o /\ exists r, get o i = Some r /\ 32 <= r).
Proof.
  intros N U. destruct it as [l|o|o|o|o]; cbn [put item_operand]; intros H; [discriminate H| | | |];
    exists o; (split; [reflexivity|]); destruct (get o i) as [r|] eqn:E; cbn [unwrap bind] in H;
    try discriminate H; try (injection H as <-; left; split; reflexivity).
  right. destruct (Z_lt_le_dec r 32) as [R|R].
  - exfalso. destruct (reg2str_ok r) as [x [X _]]; [|congruence]. split; [|assumption].
    refine (U o r _ E). intros ->. discriminate N.
  - rewrite (reg2str_unknown r R) in H. injection H as <-. split; [reflexivity|].
    split; [reflexivity|]. exists r. split; [reflexivity|assumption].
Qed.

Lemma puts_panic t i why : forallb no_reg_imm t = true -> unsigned_registers i ->
  puts t i = Panic why -> why <> PUnreachable /\ lacks t i.
Proof.
  intros N U. induction t as [|it t IH]; cbn [puts]; [discriminate|].
  cbn [forallb] in N. apply andb_true_iff in N. destruct N as [N1 N2]. specialize (IH N2).
  destruct (put it i) as [a|why'] eqn:A; cbn [bind].
  - destruct (puts t i) as [b|why'] eqn:B; cbn [bind]; [discriminate|]. intros H. injection H as ->.
    destruct (IH eq_refl) as [W [o [[x [X1 X2]] G]]]. split; [assumption|]. exists o.
    split; [exists x; split; [right|]; assumption|].
    destruct G as [G|[r [G1 [G2 G3]]]]; [left; assumption|]. right. exists r.
    split; [assumption|]. split; [right; assumption|assumption].
  - intros H. injection H as ->. destruct (put_panic it i why N1 U A) as [o [O G]].
    split; [destruct G as [[-> _]|[-> _]]; discriminate|]. exists o.
    split; [exists it; split; [left; reflexivity|assumption]|].
    destruct G as [[_ G]|[_ [-> [r [G1 G2]]]]]; [left; assumption|]. right. exists r.
    split; [assumption|]. split; [left; reflexivity|assumption].
Qed.

Lemma lacks_panic t i : forallb no_num t = true -> lacks t i -> exists why, puts t i = Panic why.
Proof.
  intros N [o [[x [X1 X2]] G]].
  induction t as [|it t IH]; [destruct X1|]. cbn [puts].
  destruct (put it i) as [a|why] eqn:A; cbn [bind]; [|eexists; reflexivity].
  cbn [forallb] in N. apply andb_true_iff in N. destruct N as [N1 N2].
  assert (B : exists why, puts t i = Panic why); [|destruct B as [why ->]; eexists; reflexivity].
  assert (Q : get o i <> None -> exists r, get o i = Some r /\ In (Reg o) t /\ 32 <= r).
  { intros Z. destruct G as [G|[r [G1 [[->|G2] G3]]]]; [contradiction| |exists r; auto].
    cbn [put] in A. rewrite G1 in A. cbn in A. rewrite reg2str_unknown in A by assumption. discriminate A. }
  destruct X1 as [->|X1].
  - assert (Z : get o i <> None).
    { intros Z. destruct x as [l|q|q|q|q]; cbn [item_operand] in X2; try discriminate X2;
        apply Some_inj in X2; subst q; cbn [put] in A; rewrite Z in A; discriminate A. }
    destruct (Q Z) as [r [R1 [R2 R3]]].
    clear - R1 R2 R3. induction t as [|it t IH]; [destruct R2|]. cbn [puts].
    destruct R2 as [->|R2].
    + cbn [put]. rewrite R1. cbn [unwrap bind]. rewrite reg2str_unknown by assumption. eexists. reflexivity.
    + destruct (put it i); cbn [bind]; [|eexists; reflexivity].
      destruct (IH R2) as [why ->]. eexists. reflexivity.
  - apply (IH N2 X1). destruct G as [G|G]; [left; assumption|]. right. apply Q.
    destruct G as [r [-> _]]. discriminate.
Qed.

Lemma layout_regs f op t : layout_of f op = Some t -> forallb no_reg_imm t = true.
Proof.
  destruct f; cbn [layout_of];
    try match goal with |- context [match op with _ => _ end] =>
      destruct op as [[]|[]|[]|[]|[]|[]|[]|[]|[]|[]] end;
    intros H; try discriminate H; apply Some_inj in H; subst t; reflexivity.
Qed.

Lemma display_panic_iff i : unsigned_registers i ->
  ((exists why, Instruction_display i = Panic why) <->
   (forall t, ~ layout (inst_format i) (opc i) t) \/
   exists t, layout (inst_format i) (opc i) t /\ lacks t i).
Proof.
  intros U. rewrite display_puts. destruct (layout_of (inst_format i) (opc i)) as [t|] eqn:L.
  - split.
    + intros [why H]. destruct (puts t i) as [x|why'] eqn:P; cbn [bind] in H; [discriminate H|].
      right. exists t. split; [apply layout_iff; assumption|].
      exact (proj2 (puts_panic t i why' (layout_regs _ _ _ L) U P)).
    + intros [H|[t' [L' K]]]; [destruct (H t); apply layout_iff; assumption|].
      apply layout_iff in L'. rewrite L in L'. apply Some_inj in L'. subst t'.
      destruct (lacks_panic t i (layout_no_num _ _ _ L) K) as [why ->]. exists why. reflexivity.
  - split; [|intros _; eexists; reflexivity]. intros _. left. intros t H. apply layout_iff in H. congruence.
Qed.
Lemma display_unreachable i : unsigned_registers i ->
  (Instruction_display i = Panic PUnreachable <-> forall t, ~ layout (inst_format i) (opc i) t).
Proof.
  intros U. rewrite display_puts. destruct (layout_of (inst_format i) (opc i)) as [t|] eqn:L.
  - split.
    + intros H. destruct (puts t i) as [x|why'] eqn:P; cbn [bind] in H; [discriminate H|].
      injection H as ->. destruct (proj1 (puts_panic t i _ (layout_regs _ _ _ L) U P) eq_refl).
    + intros H. destruct (H t). apply layout_iff. assumption.
  - split; [|reflexivity]. intros _ t H. apply layout_iff in H. congruence.
Qed.
Lemma layout_printed op t : printed op = Some t -> layout (get_format op) op t.
Proof.
  intros H. apply layout_iff. destruct op as [[]|[]|[]|[]|[]|[]|[]|[]|[]|[]]; cbn in H |- *;
    try discriminate H; exact H.
Qed.
Lemma layout_one f op t t' : layout f op t -> layout f op t' -> t = t'.
Proof. intros A B. apply layout_iff in A, B. congruence. Qed.
