(** Every well-typed call of a function of the source is a call the model speaks of. *)
From Coq Require Import ZArith List Bool String Lia.
From Verif Require Import Rust Types SrcAst SrcLink SrcSem SrcProg SrcEmbed SrcDerive SrcDeriveOk SrcModel.
Import ListNotations.
Local Open Scope Z_scope.
Local Open Scope string_scope.

Lemma all2_cons {A B} (f : A -> B -> bool) a l m : all2 f (a :: l) m = true ->
  exists b m', m = b :: m' /\ f a b = true /\ all2 f l m' = true.
Proof.
  destruct m as [|b m']; cbn [all2]; [discriminate|]. intros H. apply andb_prop in H.
  exists b, m'. split; [reflexivity|exact H].
Qed.

Lemma all2_nil {A B} (f : A -> B -> bool) m : all2 f [] m = true -> m = [].
Proof. destruct m; [reflexivity|discriminate]. Qed.

(** The functions and the types of their parameters. *)
Definition signatures : list (string * list ty) :=
  Eval vm_compute in map (fun f => (fst f, map snd (f_params (snd f)))) (p_fns crate).

Lemma signatures_ok : map (fun f => (fst f, map snd (f_params (snd f)))) (p_fns crate) = signatures.
Proof. vm_compute. reflexivity. Qed.

Section types.
Variables (p : platform) (n : nat).
Notation has t v := (admits p crate (S (S (S (S (S n))))) t v = true).

Lemma any_arg v : has (TyPath ["T"] []) v -> True.
Proof. intros _. exact I. Qed.
Lemma fmt_arg v : has (TyRef (TyPath ["Formatter"] [])) v -> v = VFmt.
Proof. intros H. destruct v; try discriminate H. reflexivity. Qed.
Lemma u16_arg v : has (TyPath ["u16"] []) v -> exists z, v = VInt U16 z.
Proof.
  intros H. destruct (proj1 (int_values p (S (S (S (S n)))) "u16" U16 v eq_refl) H) as (z & _ & ->).
  exists z. reflexivity.
Qed.
Lemma u32_arg v : has (TyPath ["u32"] []) v -> exists z, v = VInt U32 z.
Proof.
  intros H. destruct (proj1 (int_values p (S (S (S (S n)))) "u32" U32 v eq_refl) H) as (z & _ & ->).
  exists z. reflexivity.
Qed.
Lemma u8_arg v : has (TyPath ["u8"] []) v -> exists z, v = VInt U8 z.
Proof.
  intros H. destruct (proj1 (int_values p (S (S (S (S n)))) "u8" U8 v eq_refl) H) as (z & _ & ->).
  exists z. reflexivity.
Qed.
Lemma usize_arg v : has (TyPath ["usize"] []) v -> exists z, v = VInt Usize z.
Proof.
  intros H. destruct (proj1 (int_values p (S (S (S (S n)))) "usize" Usize v eq_refl) H) as (z & _ & ->).
  exists z. reflexivity.
Qed.
Lemma i32_arg v : has (TyPath ["i32"] []) v -> exists z, v = VInt I32 z.
Proof.
  intros H. destruct (proj1 (int_values p (S (S (S (S n)))) "i32" I32 v eq_refl) H) as (z & _ & ->).
  exists z. reflexivity.
Qed.
Lemma list_arg v : has (TyRef (TySlice (TyPath ["u32"] []))) v -> exists l, v = VList (map (VInt U32) l).
Proof.
  change (match v with VList vs => forallb (typed p crate (S (S (S n))) (plain "u32")) vs | _ => false end
          = true -> exists l, v = VList (map (VInt U32) l)).
  intros H. destruct v; try discriminate H. induction vs as [|v vs IH].
  - exists []. reflexivity.
  - cbn [forallb] in H. apply andb_prop in H. destruct H as [Hv H]. destruct (IH H) as [l E].
    apply (int_values p _ "u32" U32 v eq_refl) in Hv. destruct Hv as (z & _ & ->).
    injection E as ->. exists (z :: l). reflexivity.
Qed.
Lemma isa_arg v : has (TyPath ["Isa"] []) v -> exists a, v = of_isa a.
Proof. exact (proj1 (isa_values p (S (S (S (S n)))) v)). Qed.
Lemma op_arg v : has (TyPath ["OpcodeKind"] []) v -> exists a, v = of_op a.
Proof. exact (proj1 (opcode_values p (S (S (S n))) v)). Qed.
Lemma op_ref_arg v : has (TyRef (TyPath ["OpcodeKind"] [])) v -> exists a, v = of_op a.
Proof. exact (proj1 (opcode_values p (S (S n)) v)). Qed.
Lemma inst_arg v : has (TyPath ["Instruction"] []) v -> exists a, v = of_inst a.
Proof.
  change (typed p crate (S (S (S (S (S n))))) (plain "Instruction") v = true -> exists a, v = of_inst a).
  intros H. apply instruction_values in H. destruct H as (i & _ & E). exists i. exact E.
Qed.
Lemma basei_arg v : has (TyPath ["BaseIOpcode"] []) v -> exists a, v = of_basei a.
Proof. exact (proj1 (basei_values p (S (S (S (S n)))) v)). Qed.
Lemma basei_ref_arg v : has (TyRef (TyPath ["BaseIOpcode"] [])) v -> exists a, v = of_basei a.
Proof. exact (proj1 (basei_values p (S (S (S n))) v)). Qed.
Lemma m_arg v : has (TyPath ["MOpcode"] []) v -> exists a, v = of_m a.
Proof. exact (proj1 (m_values p (S (S (S (S n)))) v)). Qed.
Lemma m_ref_arg v : has (TyRef (TyPath ["MOpcode"] [])) v -> exists a, v = of_m a.
Proof. exact (proj1 (m_values p (S (S (S n))) v)). Qed.
Lemma a_arg v : has (TyPath ["AOpcode"] []) v -> exists a, v = of_a a.
Proof. exact (proj1 (a_values p (S (S (S (S n)))) v)). Qed.
Lemma a_ref_arg v : has (TyRef (TyPath ["AOpcode"] [])) v -> exists a, v = of_a a.
Proof. exact (proj1 (a_values p (S (S (S n))) v)). Qed.
Lemma c_arg v : has (TyPath ["COpcode"] []) v -> exists a, v = of_c a.
Proof. exact (proj1 (c_values p (S (S (S (S n)))) v)). Qed.
Lemma c_ref_arg v : has (TyRef (TyPath ["COpcode"] [])) v -> exists a, v = of_c a.
Proof. exact (proj1 (c_values p (S (S (S n))) v)). Qed.
Lemma zifencei_arg v : has (TyPath ["ZifenceiOpcode"] []) v -> exists a, v = of_zifencei a.
Proof. exact (proj1 (zifencei_values p (S (S (S (S n)))) v)). Qed.
Lemma zifencei_ref_arg v : has (TyRef (TyPath ["ZifenceiOpcode"] [])) v -> exists a, v = of_zifencei a.
Proof. exact (proj1 (zifencei_values p (S (S (S n))) v)). Qed.
Lemma zicboz_arg v : has (TyPath ["ZicbozOpcode"] []) v -> exists a, v = of_zicboz a.
Proof. exact (proj1 (zicboz_values p (S (S (S (S n)))) v)). Qed.
Lemma zicboz_ref_arg v : has (TyRef (TyPath ["ZicbozOpcode"] [])) v -> exists a, v = of_zicboz a.
Proof. exact (proj1 (zicboz_values p (S (S (S n))) v)). Qed.
Lemma zicsr_arg v : has (TyPath ["ZicsrOpcode"] []) v -> exists a, v = of_zicsr a.
Proof. exact (proj1 (zicsr_values p (S (S (S (S n)))) v)). Qed.
Lemma zicsr_ref_arg v : has (TyRef (TyPath ["ZicsrOpcode"] [])) v -> exists a, v = of_zicsr a.
Proof. exact (proj1 (zicsr_values p (S (S (S n))) v)). Qed.
Lemma zicfiss_arg v : has (TyPath ["ZicfissOpcode"] []) v -> exists a, v = of_zicfiss a.
Proof. exact (proj1 (zicfiss_values p (S (S (S (S n)))) v)). Qed.
Lemma zicfiss_ref_arg v : has (TyRef (TyPath ["ZicfissOpcode"] [])) v -> exists a, v = of_zicfiss a.
Proof. exact (proj1 (zicfiss_values p (S (S (S n))) v)). Qed.
Lemma zicntr_arg v : has (TyPath ["ZicntrOpcode"] []) v -> exists a, v = of_zicntr a.
Proof. exact (proj1 (zicntr_values p (S (S (S (S n)))) v)). Qed.
Lemma zicntr_ref_arg v : has (TyRef (TyPath ["ZicntrOpcode"] [])) v -> exists a, v = of_zicntr a.
Proof. exact (proj1 (zicntr_values p (S (S (S n))) v)). Qed.
Lemma priv_arg v : has (TyPath ["PrivOpcode"] []) v -> exists a, v = of_priv a.
Proof. exact (proj1 (priv_values p (S (S (S (S n)))) v)). Qed.
Lemma priv_ref_arg v : has (TyRef (TyPath ["PrivOpcode"] [])) v -> exists a, v = of_priv a.
Proof. exact (proj1 (priv_values p (S (S (S n))) v)). Qed.

End types.

Ltac arg H :=
  lazymatch type of H with
  | admits _ _ _ (TyPath ["T"] []) _ = true => clear H
  | admits _ _ _ (TyRef (TyPath ["Formatter"] [])) _ = true => apply fmt_arg in H; subst
  | admits _ _ _ (TyPath ["u16"] []) _ = true => apply u16_arg in H; destruct H as [? ->]
  | admits _ _ _ (TyPath ["u32"] []) _ = true => apply u32_arg in H; destruct H as [? ->]
  | admits _ _ _ (TyPath ["u8"] []) _ = true => apply u8_arg in H; destruct H as [? ->]
  | admits _ _ _ (TyPath ["usize"] []) _ = true => apply usize_arg in H; destruct H as [? ->]
  | admits _ _ _ (TyPath ["i32"] []) _ = true => apply i32_arg in H; destruct H as [? ->]
  | admits _ _ _ (TyRef (TySlice (TyPath ["u32"] []))) _ = true => apply list_arg in H; destruct H as [? ->]
  | admits _ _ _ (TyPath ["Isa"] []) _ = true => apply isa_arg in H; destruct H as [? ->]
  | admits _ _ _ (TyPath ["Instruction"] []) _ = true => apply inst_arg in H; destruct H as [? ->]
  | admits _ _ _ (TyPath ["OpcodeKind"] []) _ = true => apply op_arg in H; destruct H as [? ->]
  | admits _ _ _ (TyRef (TyPath ["OpcodeKind"] [])) _ = true => apply op_ref_arg in H; destruct H as [? ->]
  | admits _ _ _ (TyPath ["BaseIOpcode"] []) _ = true => apply basei_arg in H; destruct H as [? ->]
  | admits _ _ _ (TyRef (TyPath ["BaseIOpcode"] [])) _ = true => apply basei_ref_arg in H; destruct H as [? ->]
  | admits _ _ _ (TyPath ["MOpcode"] []) _ = true => apply m_arg in H; destruct H as [? ->]
  | admits _ _ _ (TyRef (TyPath ["MOpcode"] [])) _ = true => apply m_ref_arg in H; destruct H as [? ->]
  | admits _ _ _ (TyPath ["AOpcode"] []) _ = true => apply a_arg in H; destruct H as [? ->]
  | admits _ _ _ (TyRef (TyPath ["AOpcode"] [])) _ = true => apply a_ref_arg in H; destruct H as [? ->]
  | admits _ _ _ (TyPath ["COpcode"] []) _ = true => apply c_arg in H; destruct H as [? ->]
  | admits _ _ _ (TyRef (TyPath ["COpcode"] [])) _ = true => apply c_ref_arg in H; destruct H as [? ->]
  | admits _ _ _ (TyPath ["ZifenceiOpcode"] []) _ = true => apply zifencei_arg in H; destruct H as [? ->]
  | admits _ _ _ (TyRef (TyPath ["ZifenceiOpcode"] [])) _ = true => apply zifencei_ref_arg in H; destruct H as [? ->]
  | admits _ _ _ (TyPath ["ZicbozOpcode"] []) _ = true => apply zicboz_arg in H; destruct H as [? ->]
  | admits _ _ _ (TyRef (TyPath ["ZicbozOpcode"] [])) _ = true => apply zicboz_ref_arg in H; destruct H as [? ->]
  | admits _ _ _ (TyPath ["ZicsrOpcode"] []) _ = true => apply zicsr_arg in H; destruct H as [? ->]
  | admits _ _ _ (TyRef (TyPath ["ZicsrOpcode"] [])) _ = true => apply zicsr_ref_arg in H; destruct H as [? ->]
  | admits _ _ _ (TyPath ["ZicfissOpcode"] []) _ = true => apply zicfiss_arg in H; destruct H as [? ->]
  | admits _ _ _ (TyRef (TyPath ["ZicfissOpcode"] [])) _ = true => apply zicfiss_ref_arg in H; destruct H as [? ->]
  | admits _ _ _ (TyPath ["ZicntrOpcode"] []) _ = true => apply zicntr_arg in H; destruct H as [? ->]
  | admits _ _ _ (TyRef (TyPath ["ZicntrOpcode"] [])) _ = true => apply zicntr_ref_arg in H; destruct H as [? ->]
  | admits _ _ _ (TyPath ["PrivOpcode"] []) _ = true => apply priv_arg in H; destruct H as [? ->]
  | admits _ _ _ (TyRef (TyPath ["PrivOpcode"] [])) _ = true => apply priv_ref_arg in H; destruct H as [? ->]
  end.

Ltac args H :=
  lazymatch type of H with
  | all2 _ [] _ = true => apply all2_nil in H; subst
  | _ => apply all2_cons in H;
      let H' := fresh in destruct H as (? & ? & -> & H' & H); arg H'; args H
  end.

Lemma covered p n key ts vs o : In (key, ts) signatures ->
  all2 (admits p crate (S (S (S (S (S n)))))) ts vs = true -> exists a, models p key vs o a.
Proof.
  intros I H. unfold signatures in I.
  repeat (destruct I as [E|I];
    [injection E as <- <-; args H; eexists; solve [constructor] | ]).
  destruct I.
Qed.
