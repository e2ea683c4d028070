(** src/instruction/opcode.rs, evaluated. *)
From Coq Require Import ZArith List Bool String Lia.
From Verif Require Import Rust Types Fmt SpecHelp SpecText SrcLine SrcText SrcAst SrcLink SrcSem SrcProg SrcEmbed
  SrcDerive SrcModel SpecSource OpcodeRs SpecOpcode SpecOld.
From Verif Require SrcClaims OldOpcode.
Import ListNotations.
Local Open Scope string_scope.

Definition old_crate : program :=
  Eval vm_compute in match load false old_source with Some p => p | None => no_program end.

Lemma old_crate_loads : load false old_source = Some old_crate.
Proof. vm_cast_no_check (eq_refl (Some old_crate)). Qed.

Lemma old_format p f : old_evaluates p "OpcodeKind.get_format" [of_flat f]
  (Done (of_flat_format (flat_get_format f)) "").
Proof.
  exists old_crate. split; [exact old_crate_loads|]. intros fuel F. destruct fuel as [|fuel]; [lia|].
  destruct f; lazy -[Z.add]; reflexivity.
Qed.

Lemma old_extension p f : old_evaluates p "OpcodeKind.get_extension" [of_flat f]
  (Done (of_ext (flat_get_extension f)) "").
Proof.
  exists old_crate. split; [exact old_crate_loads|]. intros fuel F. destruct fuel as [|fuel]; [lia|].
  destruct f; lazy -[Z.add]; reflexivity.
Qed.

Lemma old_to_string p f : old_evaluates p "OpcodeKind.to_string" [of_flat f]
  (Done (VStr (flat_to_string f)) "").
Proof.
  exists old_crate. split; [exact old_crate_loads|]. intros fuel F. destruct fuel as [|fuel]; [lia|].
  destruct f; lazy -[Z.add]; reflexivity.
Qed.

Lemma old_one p key vs a b : old_evaluates p key vs a -> old_evaluates p key vs b -> a = b.
Proof.
  intros (P & L & E) (Q & M & F). rewrite L in M. injection M as <-.
  rewrite <- (E 1%nat) by lia. apply F. lia.
Qed.

(** The functions of the file, and its opcodes. *)
Lemma old_functions : map fst (p_fns old_crate) =
  ["OpcodeKind.get_format"; "OpcodeKind.get_extension"; "OpcodeKind.to_string"].
Proof. vm_compute. reflexivity. Qed.

Local Opaque run crate old_crate.

Lemma flat_name_find f : List.find (fun g => flat_name g =? flat_name f) OldOpcode.all_flat = Some f.
Proof. destruct f; vm_compute; reflexivity. Qed.

Lemma of_flat_inj f g : of_flat f = of_flat g -> f = g.
Proof.
  intros E. injection E as E. pose proof (flat_name_find f) as F. rewrite E, flat_name_find in F.
  injection F as ->. reflexivity.
Qed.

Lemma same_format_text p f : exists x,
  old_evaluates p "OpcodeKind.get_format" [of_flat f] (Done (of_flat_format x) "") /\
  evaluates p "OpcodeKind.get_format" [of_op (compiled f)] "" (Done (of_fmt (today x)) "").
Proof.
  exists (flat_get_format f). split; [apply old_format|].
  rewrite OldOpcode.same_format. exact (SrcClaims.models_evaluates _ _ _ _ _ (m_format p (compiled f) "")).
Qed.

Lemma same_text p f :
  (exists s, old_evaluates p "OpcodeKind.to_string" [of_flat f] (Done (VStr s) "") /\
     evaluates p "OpcodeKind.fmt" [of_op (compiled f); VFmt] "" (Done ok_unit s)) <->
  f <> F_FENCE /\ f <> F_MULHSU.
Proof.
  pose proof (SrcClaims.models_evaluates _ _ _ _ _ (m_op_fmt p (compiled f) "")) as E.
  pose proof (old_to_string p f) as O.
  destruct OldOpcode.agreement as (_ & _ & _ & _ & T & _). rewrite <- (T f). split.
  - intros (s & A & B). pose proof (old_one _ _ _ _ _ A O) as X. injection X as ->.
    pose proof (SrcClaims.evaluates_one _ _ _ _ _ _ B E) as X. cbn [writes] in X. injection X as X. exact X.
  - intros X. exists (flat_to_string f). split; [exact O|]. rewrite X. exact E.
Qed.

(** The values of the file's enum are the flat opcodes. *)
Lemma old_variants : assoc "OpcodeKind" (p_enums old_crate) =
  Some (map (fun f => (flat_name f, [])) OldOpcode.all_flat).
Proof. vm_compute. reflexivity. Qed.

Lemma assoc_flat c l : assoc c (map (fun f => (flat_name f, @nil ty)) l) =
  if existsb (fun f => c =? flat_name f) l then Some [] else None.
Proof.
  induction l as [|f l IH]; [reflexivity|]. cbn [map assoc existsb]. destruct (c =? flat_name f); [reflexivity|exact IH].
Qed.

Lemma old_values p n v : typed p old_crate (S n) (TyPath ["OpcodeKind"] []) v = true <-> exists f, v = of_flat f.
Proof.
  change (typed p old_crate (S n) (TyPath ["OpcodeKind"] []) v) with
    (match v with
     | VEnum y c vs =>
         (y =? "OpcodeKind") &&
         match assoc "OpcodeKind" (p_enums old_crate) with
         | Some cs => match assoc c cs with Some ts => all2 (typed p old_crate n) ts vs | None => false end
         | None => false
         end
     | VStruct y fs =>
         (y =? "OpcodeKind") &&
         match assoc "OpcodeKind" (p_structs old_crate) with
         | Some ds => all2 (fun d f => (fst d =? fst f) && typed p old_crate n (snd d) (snd f)) ds fs
         | None => false
         end
     | _ => false
     end).
  assert (S : assoc "OpcodeKind" (p_structs old_crate) = None) by (vm_compute; reflexivity).
  rewrite old_variants, S. split.
  - intros H. destruct v; try discriminate H; apply andb_prop in H; destruct H as [Ht H]; [|discriminate H].
    apply String.eqb_eq in Ht. subst t. rewrite assoc_flat in H.
    destruct (existsb _ _) eqn:E; [|discriminate H]. destruct args; [|discriminate H].
    apply existsb_exists in E. destruct E as (f & _ & E). apply String.eqb_eq in E. subst v.
    exists f. reflexivity.
  - intros (f & ->). cbn [of_flat]. rewrite String.eqb_refl, assoc_flat.
    assert (E : existsb (fun g => flat_name f =? flat_name g) OldOpcode.all_flat = true).
    { apply existsb_exists. exists f. split; [apply OldOpcode.all_flat_all|apply String.eqb_refl]. }
    rewrite E. reflexivity.
Qed.

Lemma old_text :
  (exists P, load false old_source = Some P /\
     map fst (p_fns P) = ["OpcodeKind.get_format"; "OpcodeKind.get_extension"; "OpcodeKind.to_string"] /\
     forall p fuel v, (1 <= fuel)%nat ->
       (typed p P fuel (TyPath ["OpcodeKind"] []) v = true <-> exists f, v = of_flat f)) /\
  (forall p f,
     old_evaluates p "OpcodeKind.get_format" [of_flat f] (Done (of_flat_format (flat_get_format f)) "") /\
     old_evaluates p "OpcodeKind.get_extension" [of_flat f] (Done (of_ext (flat_get_extension f)) "") /\
     old_evaluates p "OpcodeKind.to_string" [of_flat f] (Done (VStr (flat_to_string f)) "")).
Proof.
  split.
  - exists old_crate. split; [exact old_crate_loads|]. split; [exact old_functions|].
    intros p fuel v F. destruct fuel as [|fuel]; [lia|]. apply old_values.
  - intros p f. split; [apply old_format|]. split; [apply old_extension|apply old_to_string].
Qed.

Lemma old_program :
  exists P, load false old_source = Some P /\
     map fst (p_fns P) = ["OpcodeKind.get_format"; "OpcodeKind.get_extension"; "OpcodeKind.to_string"] /\
     forall p fuel v, (1 <= fuel)%nat ->
       (typed p P fuel (TyPath ["OpcodeKind"] []) v = true <-> exists f, v = of_flat f).
Proof. exact (proj1 old_text). Qed.

Lemma of_ext_inj a b : of_ext a = of_ext b -> a = b.
Proof. destruct a, b; intros E; try reflexivity; discriminate E. Qed.

Lemma same_extension_text p f :
  old_evaluates p "OpcodeKind.get_extension" [of_flat f] (Done (of_ext (extension_of (compiled f))) "") <->
  f <> F_FENCE.
Proof.
  rewrite <- (OldOpcode.same_extension f). pose proof (old_extension p f) as O. split.
  - intros A. pose proof (old_one _ _ _ _ _ A O) as X. symmetry. apply of_ext_inj.
    exact (f_equal (fun a => match a with Done v _ => v | _ => VUnit end) X).
  - intros X. rewrite <- X. exact O.
Qed.

Lemma right_text p f : exists s,
  old_evaluates p "OpcodeKind.to_string" [of_flat f] (Done (VStr s) "") /\ lower s = mnemonic (compiled f).
Proof. exists (flat_to_string f). split; [apply old_to_string|apply OldOpcode.right_text]. Qed.
