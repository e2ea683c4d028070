(** Walking through a program (C47). *)
From Coq Require Import ZArith List Bool Lia.
From Verif Require Import Rust Types Decode Spec SpecAsm SpecStream Util Rows Api Asm4.
Import ListNotations.
Local Open Scope list_scope.
Local Open Scope Z_scope.

Lemma ok_length32 p isa w i : platform_ok p -> is_u32 w -> decode_u32 p w isa = Ret (Ok i) -> w mod 4 = 3.
Proof.
  intros Hp Hw D. destruct (Z.eq_dec (w mod 4) 3) as [E|E]; [assumption|].
  rewrite (wrong_length32 p isa w Hp Hw E) in D. discriminate D.
Qed.
Lemma ok_length16 p isa w i : platform_ok p -> is_u16 w -> decode_u16 p w isa = Ret (Ok i) -> w mod 4 <> 3.
Proof.
  intros Hp Hw D E. rewrite (wrong_length16 p isa w Hp Hw E) in D. discriminate D.
Qed.

Lemma low_half w : (w mod 2 ^ 16) mod 4 = w mod 4.
Proof. Z.div_mod_to_equations. lia. Qed.
Lemma halves w : w mod 2 ^ 16 + 2 ^ 16 * (w / 2 ^ 16) = w.
Proof. rewrite (Z.div_mod w (2 ^ 16)) at 3 by discriminate. lia. Qed.

Lemma walk_ext {A} (d16 d32 e16 e32 : Z -> A) :
  (forall h, is_u16 h -> h mod 4 <> 3 -> d16 h = e16 h) ->
  (forall w, is_u32 w -> w mod 4 = 3 -> d32 w = e32 w) ->
  forall n l, (length l <= n)%nat -> Forall is_u16 l -> walk d16 d32 l = walk e16 e32 l.
Proof.
  intros H16 H32. induction n as [|n IH]; intros [|a l] N F; try reflexivity; [cbn in N; lia|].
  cbn [walk]. apply Forall_inv in F as Fa. apply Forall_inv_tail in F.
  destruct (Z.eqb_spec (a mod 4) 3) as [E|E].
  - destruct l as [|b l]; [reflexivity|]. apply Forall_inv in F as Fb. apply Forall_inv_tail in F.
    rewrite (IH l) by (assumption || (cbn in N; lia)). f_equal. unfold is_u16, is_u32 in *.
    apply H32; [lia|]. Z.div_mod_to_equations. lia.
  - rewrite (IH l) by (assumption || (cbn in N; lia)). f_equal. apply H16; assumption.
Qed.

Lemma walk_program p isa is l : platform_ok p -> Forall (fun i => ~ misread i) is -> program isa is l ->
  walk (fun h => decode_u16 p h isa) (fun w => decode_u32 p w isa) l = map (fun i => Ret (Ok i)) is /\
  Forall is_u16 l.
Proof.
  intros Hp F P. revert F. induction P as [|i is c l L P IH]; intros F; [split; [reflexivity|constructor]|].
  apply Forall_inv in F as Fi. apply Forall_inv_tail in F. destruct (IH F) as [W U]. clear IH.
  destruct L as [h V E|w V E]; cbn [app walk map].
  - destruct (assemble16 p isa i h Hp V E Fi) as [Hh [_ D]].
    split; [|constructor; assumption].
    destruct (Z.eqb_spec (h mod 4) 3) as [K|_]; [destruct (ok_length16 p isa h i Hp Hh D K)|].
    rewrite D, W. reflexivity.
  - destruct (assemble32 p isa i w Hp V E Fi) as [Hw [_ D]].
    pose proof (ok_length32 p isa w i Hp Hw D) as K.
    rewrite low_half, K, halves, D, W. split; [reflexivity|].
    unfold is_u32, is_u16 in *. constructor; [|constructor; [|assumption]].
    + pose proof (Z.mod_pos_bound w (2 ^ 16) eq_refl). lia.
    + Z.div_mod_to_equations. lia.
Qed.

Lemma walk_try_from p is l : platform_ok p -> Forall (fun i => ~ misread i) is -> program Rv64 is l ->
  walk (try_from_usize p) (try_from_usize p) l = map (fun i => Ret (Ok i)) is.
Proof.
  intros Hp F P. destruct (walk_program p Rv64 is l Hp F P) as [W U]. rewrite <- W.
  apply (walk_ext _ _ _ _ (fun h Hh K => try_from_16 p h Hh K) (fun w Hw K => try_from_32 p w Hw K)
    (length l) l (le_n _) U).
Qed.

Lemma walk_total p isa l : platform_ok p -> Forall is_u16 l ->
  Forall (fun o => exists r, o = Ret r) (walk (fun h => decode_u16 p h isa) (fun w => decode_u32 p w isa) l).
Proof.
  intros Hp. enough (G : forall n l, (length l <= n)%nat -> Forall is_u16 l ->
    Forall (fun o => exists r, o = Ret r) (walk (fun h => decode_u16 p h isa) (fun w => decode_u32 p w isa) l)).
  { exact (G (length l) l (le_n _)). }
  clear l. induction n as [|n IH]; intros [|a l] N F; try constructor; [cbn in N; lia|].
  cbn [walk]. apply Forall_inv in F as Fa. apply Forall_inv_tail in F.
  destruct (Z.eqb_spec (a mod 4) 3) as [E|E].
  - destruct l as [|b l]; [constructor|]. apply Forall_inv in F as Fb. apply Forall_inv_tail in F.
    constructor; [|apply IH; [cbn in N; lia|assumption]].
    apply total32; [assumption|]. unfold is_u16, is_u32 in *. lia.
  - constructor; [apply total16; assumption|apply IH; [cbn in N; lia|assumption]].
Qed.
Lemma walk_try_from_total p l : platform_ok p -> Forall is_u16 l ->
  Forall (fun o => exists r, o = Ret r) (walk (try_from_usize p) (try_from_usize p) l).
Proof.
  intros Hp F.
  rewrite (walk_ext _ _ _ _ (fun h Hh K => try_from_16 p h Hh K) (fun w Hw K => try_from_32 p w Hw K)
    (length l) l (le_n _) F).
  apply walk_total; assumption.
Qed.

(** The code determines the program. *)
Lemma program_unique isa is is' l : Forall (fun i => ~ misread i) is -> Forall (fun i => ~ misread i) is' ->
  program isa is l -> program isa is' l -> is = is'.
Proof.
  intros F F' P P'.
  set (p := {| overflow_checks := false; usize_bits := 64 |}).
  assert (Hp : platform_ok p) by (unfold platform_ok; cbn; auto).
  destruct (walk_program p isa is l Hp F P) as [W _], (walk_program p isa is' l Hp F' P') as [W' _].
  rewrite W in W'. clear - W'. revert is' W'. induction is as [|i is IH]; intros [|i' is'] E; try discriminate E.
  - reflexivity.
  - cbn in E. injection E as -> E. rewrite (IH is' E). reflexivity.
Qed.
