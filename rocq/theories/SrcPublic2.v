(** Another crate's calls come to every other branch. *)
From Coq Require Import ZArith List Bool String Lia.
From Verif Require Import Rust Types Spec SrcLink SrcSem SrcProg SrcEmbed SrcDerive SrcModel SrcClaims SrcCover SpecSource SpecNames
  SpecMeaning SpecReach SpecPublic SrcMeant SrcReach SrcWitness SrcReached SrcPublic.
Import ListNotations.
Local Open Scope Z_scope.
Local Open Scope string_scope.

(** ** The calls of SrcWitness.v *)

Definition call_of (w : witness) : option (string * list value) :=
  let '(key, vs) := decoded_by w in
  match then_of w with
  | Decoding => Some (key, vs)
  | Writing =>
      match given (run crate plat 6 key vs "") with Some i => Some ("Instruction.fmt", [i; VFmt]) | None => None end
  | Naming =>
      match given (run crate plat 6 key vs "") with
      | Some (VStruct _ ((_, op) :: _)) => Some ("OpcodeKind.fmt", [op; VFmt])
      | _ => None
      end
  end.
Lemma check_call b w : check (b, w) = true -> exists key vs, call_of w = Some (key, vs) /\
  Calls (trapped [b] crate) plat key vs "" (Dies (Says "reached")).
Proof.
  unfold check, call_of. intros H. apply andb_true_iff in H. destruct H as [_ H].
  destruct (decoded_by w) as [key vs]. destruct (then_of w).
  - exists key, vs. split; [reflexivity|apply hit_ok, H].
  - destruct (given (run crate plat 6 key vs "")) as [i|]; [|discriminate H].
    exists "Instruction.fmt", [i; VFmt]. split; [reflexivity|apply hit_ok, H].
  - destruct (given (run crate plat 6 key vs "")) as [i|]; [|discriminate H].
    destruct i as [ | | | | |t fs| | | | | ]; try discriminate H. destruct fs as [|[f op] fs]; [discriminate H|].
    apply andb_true_iff in H. destruct H as [_ H].
    exists "OpcodeKind.fmt", [op; VFmt]. split; [reflexivity|apply hit_ok, H].
Qed.

Definition typed (fuel : nat) (kv : string * list value) : bool :=
  existsb (String.eqb (fst kv)) public &&
  match SrcLink.assoc (fst kv) signatures with
  | Some ts => all2 (admits plat crate (S (S (S (S (S fuel)))))) ts (snd kv)
  | None => false
  end.
Lemma typed_ok key vs : (forall fuel, typed fuel (key, vs) = true) -> In key public /\ well_typed plat key vs.
Proof.
  intros H. assert (H0 := H 0%nat). unfold typed in H0. cbn [fst snd] in H0. apply andb_true_iff in H0. destruct H0 as [A B].
  split. { apply existsb_exists in A. destruct A as (k & I & E). apply String.eqb_eq in E. subst k. exact I. }
  destruct (SrcLink.assoc key signatures) as [ts|] eqn:E; [|discriminate B].
  apply typed_call with (ts := ts); [apply SrcApart.assoc_known, E|].
  intros fuel. specialize (H fuel). unfold typed in H. cbn [fst snd] in H. rewrite E in H.
  apply andb_true_iff in H. apply H.
Qed.

Definition called (w : witness) : list (string * list value) := match call_of w with Some kv => [kv] | None => [] end.
Lemma calls_typed : forall fuel, forallb (typed fuel) (flat_map (fun bw => called (snd bw)) witnesses) = true.
Proof. intros fuel. vm_compute. reflexivity. Qed.

(** ** The calls for the branches that decoding does not come to *)

Definition mul : value := of_op (OM M_MUL).
Definition cadd : value := of_op (OC C_ADD).
Definition push : value := of_op (OZicfiss Ss_SSPUSH).
Definition cpush : value := of_op (OZicfiss Ss_C_SSPUSH).
Definition isa : value := of_isa Rv64.
Definition odd (f : InstFormat) : value :=
  of_inst {| opc := OM M_MUL; rd := Some 32; rs1 := Some 0; rs2 := Some 0; imm := None;
             inst_format := f; is_compressed := false |}.
Definition more : list (branch * (string * list value)) :=
  [ (("u16.parse_rd", 3%nat), ("u16.parse_rd", [VInt U16 1; mul]));
    (("u16.parse_rs1", 3%nat), ("u16.parse_rs1", [VInt U16 1; mul]));
    (("u16.parse_rs2", 3%nat), ("u16.parse_rs2", [VInt U16 1; mul]));
    (("u16.parse_imm", 3%nat), ("u16.parse_imm", [VInt U16 1; mul; isa]));
    (("u32.parse_rd", 10%nat), ("u32.parse_rd", [VInt U32 1; cadd]));
    (("u32.parse_rs1", 10%nat), ("u32.parse_rs1", [VInt U32 1; cadd]));
    (("u32.parse_rs2", 10%nat), ("u32.parse_rs2", [VInt U32 1; cadd]));
    (("u32.parse_imm", 10%nat), ("u32.parse_imm", [VInt U32 1; cadd; isa]));
    (("decode::c_extension::bit_16::parse_opcode", 1%nat), ("u16.parse_opcode", [VInt U16 0; isa]));
    (("decode::zicfiss_extension::bit_32::parse_rd", 3%nat), ("u32.parse_rd", [VInt U32 1; cpush]));
    (("decode::zicfiss_extension::bit_32::parse_rs1", 4%nat), ("u32.parse_rs1", [VInt U32 1; cpush]));
    (("decode::zicfiss_extension::bit_32::parse_rs2", 3%nat), ("u32.parse_rs2", [VInt U32 1; cpush]));
    (("decode::zicfiss_extension::bit_32::parse_imm", 2%nat), ("u32.parse_imm", [VInt U32 1; cpush; isa]));
    (("decode::zicfiss_extension::bit_16::parse_rd", 3%nat), ("u16.parse_rd", [VInt U16 1; push]));
    (("Instruction.fmt", 18%nat), ("Instruction.fmt", [odd CrFormat; VFmt]));
    (("instruction::reg2str", 33%nat), ("Instruction.fmt", [odd RFormat; VFmt])) ].
Lemma more_typed : forall fuel, forallb (fun bc => typed fuel (snd bc)) more = true.
Proof. intros fuel. vm_compute. reflexivity. Qed.
Lemma more_reach : forallb (fun bc => hit (run (trapped [fst bc] crate) plat 6 (fst (snd bc)) (snd (snd bc)) "")) more = true.
Proof. vm_compute. reflexivity. Qed.
Lemma more_all : forallb (fun b => existsb (same b) dead || existsb (fun bc => same b (fst bc)) more) unreached = true.
Proof. vm_compute. reflexivity. Qed.

Lemma others_called P b : stands_for false false SrcText.source P -> In b (branches P) -> ~ In b dead ->
  exists p key vs, platform_ok p /\ In key public /\ well_typed p key vs /\
    Calls (trapped [b] P) p key vs "" (Dies (Says "reached")).
Proof.
  intros S I N. apply (proj1 SrcLinked.crate_stands) in S. subst P.
  destruct (covered_ok _ _ all_covered b I) as [U|[w W]].
  - pose proof more_all as A. rewrite forallb_forall in A. specialize (A _ U). apply orb_true_iff in A.
    destruct A as [A|A].
    { exfalso. apply N. apply existsb_exists in A. destruct A as (c & J & E). apply same_ok in E. subst c. exact J. }
    apply existsb_exists in A. destruct A as ([c [key vs]] & J & E). apply same_ok in E. cbn [fst] in E. subst c.
    assert (T : forall fuel, typed fuel (key, vs) = true).
    { intros fuel. pose proof (more_typed fuel) as T. rewrite forallb_forall in T. exact (T _ J). }
    apply typed_ok in T. destruct T as [T1 T2].
    pose proof more_reach as H. rewrite forallb_forall in H. specialize (H _ J). cbn [fst snd] in H.
    exists plat, key, vs. split; [exact plat_ok|]. split; [exact T1|]. split; [exact T2|apply hit_ok, H].
  - pose proof all_checked as A. rewrite forallb_forall in A. specialize (A _ W). apply check_call in A.
    destruct A as (key & vs & C & D).
    assert (T : forall fuel, typed fuel (key, vs) = true).
    { intros fuel. pose proof (calls_typed fuel) as T. rewrite forallb_forall in T. apply T.
      apply in_flat_map. exists (b, w). split; [exact W|]. unfold called. cbn [snd]. rewrite C. left. reflexivity. }
    apply typed_ok in T. destruct T as [T1 T2].
    exists plat, key, vs. split; [exact plat_ok|]. split; [exact T1|]. split; [exact T2|exact D].
Qed.

Lemma exactly_dead P b : stands_for false false SrcText.source P -> In b (branches P) ->
  (In b dead <-> forall p key vs o, platform_ok p -> In key public -> well_typed p key vs ->
    ~ Calls (trapped [b] P) p key vs o (Dies (Says "reached"))).
Proof.
  intros S I. split.
  - intros U p key vs o ok K T. apply (not_dead P p key vs o [b] S ok K T). intros c [<-|[]]. exact U.
  - intros H. destruct (existsb (same b) dead) eqn:E.
    + apply existsb_exists in E. destruct E as (c & J & E). apply same_ok in E. subst c. exact J.
    + exfalso. destruct (others_called P b S I) as (p & key & vs & ok & K & T & C); [|exact (H p key vs "" ok K T C)].
      intros U. rewrite <- not_true_iff_false in E. apply E. apply existsb_exists. exists b. split; [exact U|].
      unfold same. rewrite Nat.eqb_refl, String.eqb_refl. reflexivity.
Qed.

Lemma the_dead P : stands_for false false SrcText.source P ->
  (forall key, In key public -> exists f, In (key, f) (p_fns P)) /\
  List.length public = 26%nat /\ NoDup public /\
  List.length dead = 29%nat /\ NoDup dead /\ List.incl dead unreached.
Proof.
  intros S. apply (proj1 SrcLinked.crate_stands) in S. subst P.
  split.
  { assert (A : forallb (fun k => match SrcLink.assoc k (p_fns crate) with Some _ => true | None => false end) public = true)
      by (vm_compute; reflexivity).
    rewrite forallb_forall in A. intros key I. specialize (A key I).
    destruct (SrcLink.assoc key (p_fns crate)) as [f|] eqn:E; [|discriminate A].
    exists f. apply SrcApart.assoc_known, E. }
  split; [reflexivity|]. split.
  { repeat (constructor; [intros H; repeat (destruct H as [H|H]; [discriminate H|]); destruct H|]). constructor. }
  split; [reflexivity|]. split; [apply distinct_ok; vm_compute; reflexivity|].
  intros [k i] I. apply among_in, fewer, among_in, I.
Qed.

Lemma dead_case : exists P, stands_for false false SrcText.source P /\
  let b := ("decode::zicfiss_extension::bit_32::parse_rd", 3%nat) in
  In b (branches P) /\ In b unreached /\ ~ In b dead /\
  well_typed Text.plat "u32.parse_rd" [VInt U32 0xFFFFFFFF; of_op (OZicfiss Ss_C_SSPUSH)] /\
  Calls (trapped [b] P) Text.plat "u32.parse_rd" [VInt U32 0xFFFFFFFF; of_op (OZicfiss Ss_C_SSPUSH)] ""
    (Dies (Says "reached")).
Proof.
  exists crate. split; [apply (proj1 SrcLinked.crate_stands); reflexivity|]. cbv zeta.
  assert (D : forall b l, existsb (same b) l = true -> In b l).
  { intros b l A. apply existsb_exists in A. destruct A as (c & J & E). apply same_ok in E. subst c. exact J. }
  split; [apply D; vm_compute; reflexivity|]. split; [apply D; vm_compute; reflexivity|].
  split. { intros H. cbn in H. repeat (destruct H as [H|H]; [discriminate H|]). destruct H. }
  split; [refine (proj2 (typed_ok "u32.parse_rd" [VInt U32 0xFFFFFFFF; of_op (OZicfiss Ss_C_SSPUSH)] _));
          intros fuel; vm_compute; reflexivity|].
  apply hit_ok. vm_compute. reflexivity.
Qed.
