(** Every other branch is reached: the calls that do it are listed in SrcWitness.v. *)
From Coq Require Import ZArith List Bool String Lia.
From Verif Require Import Rust Spec SrcLink SrcSem SrcProg SpecNames SpecMeaning SpecReach SrcMeant SrcReach SrcWitness.
Import ListNotations.
Local Open Scope Z_scope.
Local Open Scope string_scope.

Definition plat : platform := {| overflow_checks := true; usize_bits := 64 |}.
Lemma plat_ok : platform_ok plat.
Proof. right. right. reflexivity. Qed.

(** ** Checking one *)

Definition decoded_by (w : witness) : string * list value :=
  match w with
  | By32 _ w rv64 => ("u32.decode", [VInt U32 w; VEnum "Isa" (if rv64 then "Rv64" else "Rv32") []])
  | By16 _ w rv64 => ("u16.decode", [VInt U16 w; VEnum "Isa" (if rv64 then "Rv64" else "Rv32") []])
  | BySize x => ("Instruction.try_from", [VInt Usize x])
  end.
Definition inside (w : witness) : bool :=
  match w with
  | By32 _ w _ => (0 <=? w)%Z && (w <? 2 ^ 32)%Z
  | By16 _ w _ => (0 <=? w)%Z && (w <? 2 ^ 16)%Z
  | BySize x => (0 <=? x)%Z && (x <? 2 ^ 64)%Z
  end.
Definition then_of (w : witness) : what := match w with By32 t _ _ | By16 t _ _ => t | BySize _ => Decoding end.

Definition hit (a : ans) : bool := match a with Halt (Says s) => s =? "reached" | _ => false end.
Definition given (a : ans) : option value :=
  match a with
  | Done (VEnum t c [v]) o => if (t =? "Result") && (c =? "Ok") && (o =? "") then Some v else None
  | _ => None
  end.
Definition check (bw : branch * witness) : bool :=
  let '(b, w) := bw in
  inside w &&
  let '(key, vs) := decoded_by w in
  match then_of w with
  | Decoding => hit (run (trapped [b] crate) plat 6 key vs "")
  | Writing =>
      match given (run crate plat 6 key vs "") with
      | Some i => hit (run (trapped [b] crate) plat 6 "Instruction.fmt" [i; VFmt] "")
      | None => false
      end
  | Naming =>
      match given (run crate plat 6 key vs "") with
      | Some (VStruct _ ((f, op) :: _)) =>
          (f =? "opc") && hit (run (trapped [b] crate) plat 6 "OpcodeKind.fmt" [op; VFmt] "")
      | _ => false
      end
  end.

Lemma hit_ok P key vs : hit (run P plat 6 key vs "") = true -> Calls P plat key vs "" (Dies (Says "reached")).
Proof.
  intros H. destruct (run P plat 6 key vs "") as [v o|[w|s]|s] eqn:E; try discriminate H.
  apply String.eqb_eq in H. subst s. apply (run_means P plat 6 key vs "" _ plat_ok E); [discriminate|reflexivity].
Qed.
Lemma given_ok key vs v : given (run crate plat 6 key vs "") = Some v ->
  Calls crate plat key vs "" (Gives (VEnum "Result" "Ok" [v]) "").
Proof.
  intros H. destruct (run crate plat 6 key vs "") as [x o|w|s] eqn:E; try discriminate H.
  cbn [given] in H. destruct x as [ | | | |t c l| | | | | | ]; try discriminate H.
  destruct l as [|y [|]]; try discriminate H.
  destruct (String.eqb_spec t "Result") as [->|]; [|discriminate H].
  destruct (String.eqb_spec c "Ok") as [->|]; [|discriminate H].
  destruct (String.eqb_spec o "") as [->|]; [|discriminate H]. injection H as ->.
  apply (run_means crate plat 6 key vs "" _ plat_ok E); [discriminate|reflexivity].
Qed.
Lemma inside_ok w : inside w = true -> decoding plat (fst (decoded_by w)) (snd (decoded_by w)).
Proof.
  intros H. destruct w as [t w rv64|t w rv64|x]; apply andb_true_iff in H; destruct H as [A B];
    apply Z.leb_le in A; apply Z.ltb_lt in B; constructor; try (split; assumption);
    destruct rv64; cbn; tauto.
Qed.

Lemma check_ok b w : check (b, w) = true -> exists key vs, use crate plat key vs /\
  Calls (trapped [b] crate) plat key vs "" (Dies (Says "reached")).
Proof.
  unfold check. intros H. apply andb_true_iff in H. destruct H as [I H]. apply inside_ok in I.
  destruct (decoded_by w) as [key vs]. cbn [fst snd] in I. destruct (then_of w).
  - exists key, vs. split; [apply Use_decode, I|apply hit_ok, H].
  - destruct (given (run crate plat 6 key vs "")) as [i|] eqn:G; [|discriminate H]. apply given_ok in G.
    exists "Instruction.fmt", [i; VFmt]. split; [exact (Use_text crate plat key vs i I G)|apply hit_ok, H].
  - destruct (given (run crate plat 6 key vs "")) as [i|] eqn:G; [|discriminate H]. apply given_ok in G.
    destruct i as [ | | | | |t fs| | | | | ]; try discriminate H. destruct fs as [|[f op] fs]; [discriminate H|].
    apply andb_true_iff in H. destruct H as [F H]. apply String.eqb_eq in F. subst f.
    exists "OpcodeKind.fmt", [op; VFmt]. split; [|apply hit_ok, H].
    exact (Use_opcode crate plat key vs t _ op I G (or_introl eq_refl)).
Qed.

(** ** All of them *)

Definition same (a b : branch) : bool := Nat.eqb (snd a) (snd b) && String.eqb (fst a) (fst b).
Lemma same_ok a b : same a b = true -> a = b.
Proof.
  unfold same. intros H. apply andb_true_iff in H. destruct H as [A B].
  apply Nat.eqb_eq in A. apply String.eqb_eq in B. destruct a, b. cbn in *. congruence.
Qed.

(** The witnesses are in the order of the branches. *)
Fixpoint covered (bs : list branch) (ws : list (branch * witness)) : bool :=
  match bs with
  | [] => true
  | b :: bs' =>
      match ws with
      | w :: ws' => if same b (fst w) then covered bs' ws' else existsb (same b) unreached && covered bs' ws
      | [] => existsb (same b) unreached && covered bs' ws
      end
  end.
Lemma covered_ok bs : forall ws, covered bs ws = true -> forall b, In b bs ->
  In b unreached \/ exists w, In (b, w) ws.
Proof.
  assert (U : forall b, existsb (same b) unreached = true -> In b unreached).
  { intros b H. apply existsb_exists in H. destruct H as (x & I & E). apply same_ok in E. subst x. exact I. }
  induction bs as [|b bs IH]; intros ws H x I; [destruct I|]. cbn [covered] in H.
  destruct ws as [|[c w] ws].
  - apply andb_true_iff in H. destruct H as [A B]. destruct I as [<-|I]; [left; apply U, A|exact (IH [] B x I)].
  - cbn [fst] in H. destruct (same b c) eqn:E.
    + apply same_ok in E. subst c. destruct I as [<-|I]; [right; exists w; left; reflexivity|].
      destruct (IH ws H x I) as [L|[v L]]; [left; exact L|right; exists v; right; exact L].
    + apply andb_true_iff in H. destruct H as [A B]. destruct I as [<-|I]; [left; apply U, A|exact (IH _ B x I)].
Qed.

Lemma all_covered : covered (branches crate) witnesses = true.
Proof. vm_compute. reflexivity. Qed.
Lemma all_checked : forallb check witnesses = true.
Proof. vm_compute. reflexivity. Qed.

Lemma others_reached P b : stands_for false false SrcText.source P -> In b (branches P) -> ~ In b unreached ->
  exists p key vs, platform_ok p /\ use P p key vs /\ Calls (trapped [b] P) p key vs "" (Dies (Says "reached")).
Proof.
  intros S I N. apply (proj1 SrcLinked.crate_stands) in S. subst P.
  destruct (covered_ok _ _ all_covered b I) as [U|[w W]]; [contradiction|].
  pose proof all_checked as A. rewrite forallb_forall in A. specialize (A _ W). apply check_ok in A.
  destruct A as (key & vs & U & C). exists plat, key, vs. split; [exact plat_ok|]. split; assumption.
Qed.

Lemma exactly P b : stands_for false false SrcText.source P -> In b (branches P) ->
  (In b unreached <-> forall p key vs o, platform_ok p -> use P p key vs ->
    ~ Calls (trapped [b] P) p key vs o (Dies (Says "reached"))).
Proof.
  intros S I. split.
  - intros U p key vs o ok H. apply (not_reached P p key vs o [b] S ok H). intros c [<-|[]]. exact U.
  - intros H. destruct (existsb (same b) unreached) eqn:E.
    + apply existsb_exists in E. destruct E as (c & J & E). apply same_ok in E. subst c. exact J.
    + exfalso. destruct (others_reached P b S I) as (p & key & vs & ok & U & C); [|exact (H p key vs "" ok U C)].
      intros U. rewrite <- not_true_iff_false in E. apply E. apply existsb_exists. exists b. split; [exact U|].
      unfold same. rewrite Nat.eqb_refl, String.eqb_refl. reflexivity.
Qed.

(** ** The list *)

Fixpoint distinct (l : list branch) : bool :=
  match l with [] => true | b :: l' => negb (existsb (same b) l') && distinct l' end.
Lemma distinct_ok l : distinct l = true -> NoDup l.
Proof.
  induction l as [|b l IH]; intros H; [constructor|]. cbn [distinct] in H. apply andb_true_iff in H.
  destruct H as [A B]. constructor; [|exact (IH B)]. intros I. apply negb_true_iff in A.
  assert (existsb (same b) l = true); [|congruence]. apply existsb_exists. exists b. split; [exact I|].
  unfold same. rewrite Nat.eqb_refl, String.eqb_refl. reflexivity.
Qed.

Lemma the_branches P : stands_for false false SrcText.source P ->
  List.length (branches P) = 832%nat /\ List.length unreached = 45%nat /\ NoDup unreached /\
  List.incl unreached (branches P) /\ trapped [] P = P.
Proof.
  intros S. apply (proj1 SrcLinked.crate_stands) in S. subst P.
  split; [vm_compute; reflexivity|]. split; [reflexivity|]. split; [apply distinct_ok; vm_compute; reflexivity|].
  split; [|vm_compute; reflexivity].
  assert (A : forallb (fun b => existsb (same b) (branches crate)) unreached = true) by (vm_compute; reflexivity).
  rewrite forallb_forall in A. intros b I. specialize (A b I). apply existsb_exists in A.
  destruct A as (c & J & E). apply same_ok in E. subst c. exact J.
Qed.

Lemma case : exists P i, stands_for false false SrcText.source P /\
  In ("Instruction.fmt", 28%nat) (branches P) /\ ~ In ("Instruction.fmt", 28%nat) unreached /\
  Types.opc i = Types.OZicfiss Types.Ss_C_SSPUSH /\ use P Text.plat "Instruction.fmt" [SrcEmbed.of_inst i; VFmt] /\
  Calls (trapped [("Instruction.fmt", 28%nat)] P) Text.plat "Instruction.fmt" [SrcEmbed.of_inst i; VFmt] ""
    (Dies (Says "reached")) /\
  (forall r, Calls P Text.plat "Instruction.fmt" [SrcEmbed.of_inst i; VFmt] "" r <-> r = Dies (Why PUnreachable)).
Proof.
  pose (i := {| Types.opc := Types.OZicfiss Types.Ss_C_SSPUSH; Types.rd := Some 1%Z; Types.rs1 := None;
                Types.rs2 := None; Types.imm := None; Types.inst_format := Types.NoOperand;
                Types.is_compressed := true |}).
  exists crate, i.
  split; [apply (proj1 SrcLinked.crate_stands); reflexivity|].
  split.
  { assert (A : existsb (same ("Instruction.fmt", 28%nat)) (branches crate) = true) by (vm_compute; reflexivity).
    apply existsb_exists in A. destruct A as (c & J & E). apply same_ok in E. subst c. exact J. }
  split.
  { intros I. assert (A : existsb (same ("Instruction.fmt", 28%nat)) unreached = true).
    { apply existsb_exists. eexists. split; [exact I|reflexivity]. }
    vm_compute in A. discriminate A. }
  split; [reflexivity|].
  assert (G : given (run crate plat 6 "u16.decode" [VInt U16 0x6081; VEnum "Isa" "Rv64" []] "")
              = Some (SrcEmbed.of_inst i)) by (vm_compute; reflexivity).
  apply given_ok in G.
  split. { refine (Use_text crate plat _ _ _ (inside_ok (By16 Writing 0x6081 true) eq_refl) G). }
  split; [apply hit_ok; vm_compute; reflexivity|].
  intros r.
  rewrite (run_means crate plat 6 _ _ "" (Halt (Why PUnreachable)) plat_ok); [|vm_compute; reflexivity|discriminate].
  destruct r; cbn [answer]; split; intros H; try discriminate H; injection H as ->; reflexivity.
Qed.
