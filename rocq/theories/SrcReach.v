(** The unreached branches are not reached; see PropsReach.v. *)
From Coq Require Import ZArith List Bool String Lia.
From Verif Require Import Rust Types Spec Util DecodeUtil Dec32 Dec16 Decode Fmt Debug SrcLink SrcSem SrcExt SrcProg
  SrcEmbed SrcUtil SrcDecode SrcFmt SpecOps SpecNames SpecMeaning SpecReach SrcOne SrcMeant SrcTrap SrcTrap2 SrcLive SrcLive2 SrcLive3 SrcLive4.
From Verif Require Operands Api.
Import ListNotations.
Local Open Scope Z_scope.
Local Open Scope string_scope.

Local Opaque run crate live.

(** An instruction that decoding gives. *)
Definition fit (i : Instruction) : Prop :=
  low (rd i) /\ low (rs1 i) /\ (csr_shape (get_format (opc i)) = false -> low (rs2 i)) /\
  inst_format i = get_format (opc i).

Lemma fit32 p isa w i : platform_ok p -> is_u32 w -> decode_u32 p w isa = Ret (Ok i) -> fit i.
Proof.
  intros ok W D. destruct (Operands.reg_range32 p isa w i ok W D) as (A & B & C).
  split; [exact A|]. split; [exact B|]. split.
  - intros F. destruct (is_zicsr (opc i)) eqn:Z; [|exact C].
    destruct (opc i) as [b|b|b|b|b|b|b|b|b|b]; try discriminate Z. destruct b; discriminate F.
  - revert D. unfold decode_u32.
    repeat match goal with |- try ?m _ = _ -> _ => destruct m as [[|]|]; cbn [try bind]; try discriminate end.
    intros [= <-]. reflexivity.
Qed.
Lemma fit16 p isa w i : platform_ok p -> is_u16 w -> decode_u16 p w isa = Ret (Ok i) -> fit i.
Proof.
  intros ok W D. destruct (Operands.reg_range16 p isa w i ok W D) as (A & B & C & _).
  split; [exact A|]. split; [exact B|]. split; [intros _; exact C|].
  revert D. unfold decode_u16. destruct (w =? 0)%Z; [discriminate|].
  repeat match goal with |- try ?m _ = _ -> _ => destruct m as [[|]|]; cbn [try bind]; try discriminate end.
  intros [= <-]. reflexivity.
Qed.

(** Both programs decode as the model does. *)
Lemma decodes p key vs : platform_ok p -> decoding p key vs ->
  exists m, (forall o, run crate p 6 key vs o = gives (of_result of_inst) o m) /\
    (forall o, run live p 6 key vs o = gives (of_result of_inst) o m) /\
    forall i, m = Ret (Ok i) -> fit i.
Proof.
  intros ok [w isa W I|w isa W I|x X].
  - assert (exists s, VEnum "Isa" isa [] = of_isa s) as [s ->]
      by (destruct I as [<-|[<-|[]]]; [exists Rv32|exists Rv64]; reflexivity).
    exists (decode_u32 p w s). split; [intros o; exact (decode32_run p 2 w s o)|].
    split; [intros o; exact (decode32_live p 2 w s o)|]. intros i. exact (fit32 p s w i ok W).
  - assert (exists s, VEnum "Isa" isa [] = of_isa s) as [s ->]
      by (destruct I as [<-|[<-|[]]]; [exists Rv32|exists Rv64]; reflexivity).
    exists (decode_u16 p w s). split; [intros o; exact (decode16_run p 1 w s o)|].
    split; [intros o; exact (decode16_live p 1 w s o)|]. intros i. exact (fit16 p s w i ok W).
  - exists (try_from_usize p x). split; [intros o; exact (try_from_run p 0 x o)|].
    split; [intros o; exact (try_from_live p 0 x o)|]. intros i. unfold try_from_usize, try_from_expect.
    destruct (Z.land x 3 =? 3)%Z.
    + destruct (Z.ltb_spec x (2 ^ 32)); [|discriminate]. cbn [bind].
      apply fit32; [exact ok|split; [lia|assumption]].
    + destruct (Z.ltb_spec x (2 ^ 16)); [|discriminate]. cbn [bind].
      apply fit16; [exact ok|split; [lia|assumption]].
Qed.

(** What a decoding gives is the value of an instruction. *)
Lemma gives_inst p key vs v : platform_ok p -> decoding p key vs ->
  Calls crate p key vs "" (Gives (VEnum "Result" "Ok" [v]) "") -> exists i, fit i /\ v = of_inst i.
Proof.
  intros ok D C. destruct (decodes p key vs ok D) as (m & R & _ & F). specialize (R "").
  apply (run_means _ _ _ _ _ _ _ ok R) in C; [|destruct m; discriminate].
  destruct m as [[i|e]|]; try discriminate C. injection C as C. exists i. split; [exact (F i eq_refl)|exact C].
Qed.

(** Both programs end the same calls in the same way, and not in the trap. *)
Lemma uses p key vs o : platform_ok p -> use crate p key vs ->
  exists a, run crate p 6 key vs o = a /\ run live p 6 key vs o = a /\ (forall s, a <> Wrong s) /\
    a <> Halt (Says "reached").
Proof.
  intros ok [key' vs' D|key' vs' v D C|key' vs' t fs op D C I].
  - destruct (decodes p key' vs' ok D) as (m & R & L & _). exists (gives (of_result of_inst) o m).
    split; [apply R|]. split; [apply L|]. split; destruct m; discriminate.
  - destruct (gives_inst p key' vs' v ok D C) as (i & (A & B & S & F) & ->).
    exists (writes o (Instruction_display i)). split; [exact (fmt_run p 3 i o)|].
    split; [exact (fmt_live p 3 i o A B S F)|]. split; destruct (Instruction_display i); discriminate.
  - destruct (gives_inst p key' vs' _ ok D C) as (i & _ & E).
    injection E as -> ->. assert (op = of_op (opc i)) as ->.
    { cbn in I. destruct I as [[= <-]|I]; [reflexivity|].
      repeat (destruct I as [I|I]; [discriminate I|]). destruct I. }
    exists (writes o (Ret (OpcodeKind_display (opc i)))). split; [exact (op_fmt_run p 4 (opc i) o)|].
    split; [exact (op_fmt_live p 4 (opc i) o)|]. split; discriminate.
Qed.

(** With fewer traps the program does the same, as it would do or die in one of the others. *)
Lemma crate_calm : forallb (calm unreached) (p_fns crate) = true.
Proof. vm_compute. reflexivity. Qed.
Lemma among_in l key i : among l key i = true <-> In (key, i) l.
Proof.
  unfold among. rewrite existsb_exists. split.
  - intros ([k j] & I & E). apply andb_true_iff in E. destruct E as [A B].
    apply String.eqb_eq in A. apply Nat.eqb_eq in B. cbn [fst snd] in A, B. subst. exact I.
  - intros I. exists (key, i). split; [exact I|]. cbn [fst snd]. rewrite String.eqb_refl, Nat.eqb_refl. reflexivity.
Qed.
Lemma some_traps l p key vs o : List.incl l unreached -> platform_ok p -> use crate p key vs ->
  exists a, run crate p 6 key vs o = a /\ run (trapped l crate) p 6 key vs o = a /\ (forall s, a <> Wrong s) /\
    a <> Halt (Says "reached").
Proof.
  intros I ok U. destruct (uses p key vs o ok U) as (a & C & L & W & N). exists a.
  split; [exact C|]. split; [|split; assumption].
  destruct (run_R crate p l unreached) with (n := 6%nat) (key := key) (vs := vs) (o := o) as [E|E].
  - intros k i. rewrite !among_in. apply I.
  - exact crate_calm.
  - rewrite live_ok in E. rewrite L in E. destruct (N E).
  - rewrite live_ok in E. rewrite <- E. exact L.
Qed.

Lemma not_reached P p key vs o l : stands_for false false SrcText.source P -> platform_ok p -> use P p key vs ->
  List.incl l unreached ->
  (exists r, Calls P p key vs o r) /\
  (forall r, Calls (trapped l P) p key vs o r <-> Calls P p key vs o r) /\
  ~ Calls (trapped l P) p key vs o (Dies (Says "reached")).
Proof.
  intros S ok U I. apply (proj1 SrcLinked.crate_stands) in S. subst P.
  destruct (some_traps l p key vs o I ok U) as (a & C & L & W & N).
  assert (HC := run_means crate p 6 key vs o a ok C W).
  assert (HL := run_means (trapped l crate) p 6 key vs o a ok L W).
  split; [|split].
  - destruct a as [v o'|w|s]; [exists (Gives v o')|exists (Dies w)|destruct (W s eq_refl)]; apply HC; reflexivity.
  - intros r. rewrite HC, HL. reflexivity.
  - intros H. apply HL in H. apply N. symmetry. exact H.
Qed.
