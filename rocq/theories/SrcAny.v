(** Whatever is in the branches that are of no use; see PropsAny.v. *)
From Coq Require Import ZArith List Bool String Lia.
From Verif Require Import Rust Spec SrcAst SrcNames SrcLink SrcSem SrcProg SpecNames SpecMeaning SpecSource SpecReach SpecPublic
  SpecTested SrcMeant SrcTrap SrcTrap2 SrcReach SrcReached SrcPublic SrcTested2.
Import ListNotations.
Local Open Scope string_scope.

(** A program does what it does with traps, or it died in one of them there. *)
Lemma run_any P Q p l n key vs o a : differ_in l P Q -> without_closures l Q ->
  run (trapped l P) p n key vs o = a -> a <> Halt (Says "reached") -> run Q p n key vs o = a.
Proof.
  intros D W E N. rewrite D in E.
  pose proof (run_R Q p [] l (fun k i (H : among [] k i = true) => ltac:(discriminate H)) (calm_of l Q W) n key vs o) as C.
  rewrite trapped_none in C. destruct C as [C|C]; [rewrite E in C; destruct (N C)|congruence].
Qed.

Lemma unreached_any P Q l p key vs o : stands_for false false SrcText.source P -> platform_ok p -> use P p key vs ->
  List.incl l unreached -> differ_in l P Q -> without_closures l Q ->
  (exists r, Calls Q p key vs o r) /\ (forall r, Calls Q p key vs o r <-> Calls P p key vs o r).
Proof.
  intros S ok U I D W. apply (proj1 SrcLinked.crate_stands) in S. subst P.
  destruct (some_traps l p key vs o I ok U) as (a & C & L & Wr & N).
  pose proof (run_any crate Q p l 6 key vs o a D W L N) as E.
  assert (HC := run_means crate p 6 key vs o a ok C Wr). assert (HQ := run_means Q p 6 key vs o a ok E Wr).
  split; [|intros r; rewrite HC, HQ; reflexivity].
  destruct a as [v o'|w|s]; [exists (Gives v o')|exists (Dies w)|destruct (Wr s eq_refl)]; apply HQ; reflexivity.
Qed.

Lemma dead_any P Q l p key vs o : stands_for false false SrcText.source P -> platform_ok p ->
  In key public -> well_typed p key vs -> List.incl l dead -> differ_in l P Q -> without_closures l Q ->
  (exists r, Calls Q p key vs o r) /\ (forall r, Calls Q p key vs o r <-> Calls P p key vs o r).
Proof.
  intros S ok I T J D Wc. apply (proj1 SrcLinked.crate_stands) in S. subst P.
  destruct (SrcPublic.some_dead p key vs o l ok I T J) as (a & C & L & W & N).
  pose proof (run_any crate Q p l 6 key vs o a D Wc L N) as E.
  assert (HC := run_means crate p 6 key vs o a ok C W). assert (HQ := run_means Q p 6 key vs o a ok E W).
  split; [|intros r; rewrite HC, HQ; reflexivity].
  destruct a as [v o'|w|s]; [exists (Gives v o')|exists (Dies w)|destruct (W s eq_refl)]; apply HQ; reflexivity.
Qed.

Definition the_fence : string := "decode::zifencei_extension::bit_32::parse_opcode".
Definition fences : program := put_body the_fence all_fences crate.
Definition fence_arm : list branch := [(the_fence, 2%nat)].
Lemma fences_free : free_of fence_arm fences = true.
Proof. vm_compute. reflexivity. Qed.
Lemma fences_differ : differ_in fence_arm crate fences.
Proof. vm_compute. reflexivity. Qed.
Lemma any_case : exists P, stands_for false false SrcText.source P /\
  let key := "decode::zifencei_extension::bit_32::parse_opcode" in
  let l := [(key, 2%nat)] in let Q := put_body key all_fences P in
  List.incl l dead /\ differ_in l P Q /\ without_closures l Q /\
  (forall r, Calls P Text.plat key [VInt U32 0x13] "" r <->
    r = Gives (VEnum "Result" "Err" [VEnum "DecodingError" "InvalidOpcode" []]) "") /\
  (forall r, Calls Q Text.plat key [VInt U32 0x13] "" r <->
    r = Gives (VEnum "Result" "Ok" [VEnum "ZifenceiOpcode" "FENCE" []]) "") /\
  (forall p w isa o, platform_ok p -> is_u32 w -> In isa ["Rv32"; "Rv64"] ->
    forall r, Calls Q p "u32.decode" [VInt U32 w; VEnum "Isa" isa []] o r <->
              Calls P p "u32.decode" [VInt U32 w; VEnum "Isa" isa []] o r).
Proof.
  exists crate. assert (S : stands_for false false SrcText.source crate) by (apply (proj1 SrcLinked.crate_stands); reflexivity).
  split; [exact S|]. cbv zeta.
  change [("decode::zifencei_extension::bit_32::parse_opcode", 2%nat)] with fence_arm.
  change (put_body "decode::zifencei_extension::bit_32::parse_opcode" all_fences crate) with fences.
  assert (I : List.incl fence_arm dead) by (apply incl_by; vm_compute; reflexivity).
  pose proof (free_of_ok _ _ fences_free) as W. pose proof fences_differ as D.
  split; [exact I|]. split; [exact D|]. split; [exact W|].
  assert (ok : platform_ok Text.plat) by (right; right; reflexivity).
  split; [|split].
  - intros r. rewrite (run_means crate Text.plat 12 the_fence [VInt U32 0x13] ""
      (Done (VEnum "Result" "Err" [VEnum "DecodingError" "InvalidOpcode" []]) "") ok) by (vm_compute; reflexivity || discriminate).
    split; [exact (answer_inj r (Gives _ ""))|intros ->; reflexivity].
  - intros r. rewrite (run_means fences Text.plat 12 the_fence [VInt U32 0x13] ""
      (Done (VEnum "Result" "Ok" [VEnum "ZifenceiOpcode" "FENCE" []]) "") ok) by (vm_compute; reflexivity || discriminate).
    split; [exact (answer_inj r (Gives _ ""))|intros ->; reflexivity].
  - intros p w isa o okp Hw Hi.
    assert (U : use crate p "u32.decode" [VInt U32 w; VEnum "Isa" isa []]) by (apply Use_decode, Decode_u32; assumption).
    assert (J : List.incl fence_arm unreached) by (apply incl_by; vm_compute; reflexivity).
    exact (proj2 (unreached_any crate fences fence_arm p _ _ o S okp U J D W)).
Qed.
