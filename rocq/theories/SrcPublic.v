(** What another crate can call does not come to the dead branches; see PropsPublic.v. *)
From Coq Require Import ZArith List Bool String Lia.
From Verif Require Import Rust Types Spec SpecOps SrcLink SrcSem SrcProg SrcEmbed SrcModel SrcAll SrcClaims SrcDecode SpecSource SpecNames
  SpecMeaning SpecReach SpecPublic SrcMeant SrcTrap SrcTrap2 SrcApart SrcLive SrcLive2 SrcLive3 SrcReach SrcReached.
Import ListNotations.
Local Open Scope Z_scope.
Local Open Scope string_scope.

Definition spare : program := Eval vm_compute in trapped dead crate.
Lemma spare_ok : trapped dead crate = spare.
Proof. vm_compute. reflexivity. Qed.

(** ** Functions that never come to one with a trap *)

Definition good (key : string) : bool :=
  negb (ends "decode" key || ends "try_from" key || ends "parse_opcode" key || ends "parse_imm" key ||
        ends "quadrant0" key || ends "quadrant1" key || ends "quadrant2" key).
Lemma dead_apart : apart crate good dead = true.
Proof. vm_compute. reflexivity. Qed.
Lemma no_traps : trapped [] crate = crate.
Proof. vm_compute. reflexivity. Qed.

Local Opaque run crate live spare.

Lemma good_spare p n key vs o : good key = true -> run spare p n key vs o = run crate p n key vs o.
Proof.
  intros G. rewrite <- spare_ok. apply (run_same crate good dead p dead_apart no_traps).
  unfold good_key. rewrite G. apply orb_true_r.
Qed.

(** ** The others do what they do with more traps *)

Lemma fewer : forall key i, among dead key i = true -> among unreached key i = true.
Proof.
  assert (A : forallb (fun b => existsb (same b) unreached) dead = true) by (vm_compute; reflexivity).
  intros key i H. apply among_in in H. apply among_in. rewrite forallb_forall in A. specialize (A _ H).
  apply existsb_exists in A. destruct A as (c & J & E). apply same_ok in E. subst c. exact J.
Qed.
Lemma live_spare p n key vs o a : run live p n key vs o = a -> a <> Halt (Says "reached") -> run spare p n key vs o = a.
Proof.
  intros L N. destruct (run_R crate p dead unreached fewer crate_calm n key vs o) as [E|E].
  - rewrite live_ok in E. rewrite L in E. destruct (N E).
  - rewrite live_ok, spare_ok in E. rewrite <- E. exact L.
Qed.
Lemma gives_not {A} (f : A -> value) o m : gives f o m <> Halt (Says "reached").
Proof. destruct m; discriminate. Qed.

Local Transparent run spare.
Lemma opcode16_zero p isa o : platform_ok p ->
  run spare p 6 "u16.parse_opcode" [VInt U16 0; of_isa isa] o = gives (of_result of_op) o (Decode.parse_opcode_u16 p 0 isa).
Proof.
  intros H. destruct p as [c b]. unfold platform_ok in H. cbn [usize_bits] in H.
  destruct H as [E|[E|E]]; rewrite E; destruct c, isa; vm_compute; reflexivity.
Qed.
Lemma imm32_short p w op isa o : op_is_16 op = true ->
  run spare p 6 "u32.parse_imm" [VInt U32 w; of_op op; of_isa isa] o =
  gives (of_result (of_option (VInt I32))) o (Decode.parse_imm_u32 p w op isa).
Proof.
  intros X. destruct op as [b|b|b|b|b|b|b|b|b|b]; try discriminate X;
    [|destruct b; try discriminate X]; vm_compute; reflexivity.
Qed.
Lemma imm16_long p w op isa o : op_is_16 op = false ->
  run spare p 6 "u16.parse_imm" [VInt U16 w; of_op op; of_isa isa] o =
  gives (of_result (of_option (VInt I32))) o (Decode.parse_imm_u16 p w op isa).
Proof.
  intros X. destruct op as [b|b|b|b|b|b|b|b|b|b]; try discriminate X;
    try (vm_compute; reflexivity).
Qed.
Local Opaque run spare.

Lemma models_spare p key vs o a : platform_ok p -> In key public -> models p key vs o a -> run spare p 6 key vs o = a.
Proof.
  intros ok I M. destruct (good key) eqn:G; [rewrite (good_spare p 6 key vs o G); exact (models_run p key vs o a 0 M)|].
  assert (B : existsb (String.eqb key) public && negb (good key) = true).
  { rewrite G. apply andb_true_iff. split; [|reflexivity]. apply existsb_exists. exists key. split; [exact I|apply String.eqb_refl]. }
  clear G I. destruct M; try discriminate B.
  - apply live_spare; [exact (opcode32_live p 3 w isa o)|apply gives_not].
  - destruct (Z.eq_dec w 0) as [->|W]; [apply opcode16_zero, ok|].
    apply live_spare; [exact (opcode16_live p 2 w isa o W)|apply gives_not].
  - destruct (op_is_16 op) eqn:X; [apply imm32_short, X|].
    apply live_spare; [exact (imm32_live p 3 w op isa o X)|apply gives_not].
  - destruct (op_is_16 op) eqn:X; [|apply imm16_long, X].
    apply live_spare; [exact (imm16_live p 3 w op isa o X)|apply gives_not].
  - apply live_spare; [exact (decode32_live p 2 w isa o)|apply gives_not].
  - apply live_spare; [exact (decode16_live p 1 w isa o)|apply gives_not].
  - apply live_spare; [exact (try_from_live p 0 w o)|apply gives_not].
Qed.

Lemma dead_calm : forallb (calm dead) (p_fns crate) = true.
Proof. vm_compute. reflexivity. Qed.

Lemma some_dead p key vs o l : platform_ok p -> In key public -> well_typed p key vs -> List.incl l dead ->
  exists a, run crate p 6 key vs o = a /\ run (trapped l crate) p 6 key vs o = a /\ (forall s, a <> Wrong s) /\
    a <> Halt (Says "reached").
Proof.
  intros ok I T J. destruct (well_typed_modelled p key vs o T) as [a M]. exists a.
  assert (N : a <> Halt (Says "reached") /\ forall s, a <> Wrong s).
  { destruct (models_ends _ _ _ _ _ M) as [(v & o' & ->)|(w & ->)]; split; discriminate. }
  destruct N as [N W].
  split; [exact (models_run p key vs o a 0 M)|]. split; [|split; assumption].
  destruct (run_R crate p l dead) with (n := 6%nat) (key := key) (vs := vs) (o := o) as [E|E].
  - intros k i. rewrite !among_in. apply J.
  - exact dead_calm.
  - rewrite spare_ok in E. rewrite (models_spare p key vs o a ok I M) in E. destruct (N E).
  - rewrite spare_ok in E. rewrite <- E. exact (models_spare p key vs o a ok I M).
Qed.

Lemma not_dead P p key vs o l : stands_for false false SrcText.source P -> platform_ok p ->
  In key public -> well_typed p key vs -> List.incl l dead ->
  (exists r, Calls P p key vs o r) /\
  (forall r, Calls (trapped l P) p key vs o r <-> Calls P p key vs o r) /\
  ~ Calls (trapped l P) p key vs o (Dies (Says "reached")).
Proof.
  intros S ok I T J. apply (proj1 SrcLinked.crate_stands) in S. subst P.
  destruct (some_dead p key vs o l ok I T J) as (a & C & L & W & N).
  assert (HC := run_means crate p 6 key vs o a ok C W).
  assert (HL := run_means (trapped l crate) p 6 key vs o a ok L W).
  split; [|split].
  - destruct a as [v o'|w|s]; [exists (Gives v o')|exists (Dies w)|destruct (W s eq_refl)]; apply HC; reflexivity.
  - intros r. rewrite HC, HL. reflexivity.
  - intros H. apply HL in H. apply N. symmetry. exact H.
Qed.
