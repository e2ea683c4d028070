(** Proofs of the claims about the source text. *)
From Coq Require Import ZArith List Bool String Lia.
From Verif Require Import Rust Types DecodeUtil Decode Fmt Debug PartialEq Spec SpecOps SpecText SpecDisplay
  SpecApi SpecHelp SrcText SrcAst SrcLink SrcSem SrcProg SrcEmbed SrcDerive SrcDeriveOk SrcModel SrcAll
  SrcCover SpecSource.
From Verif Require Claims Helpers Api Tight Disp Text2 DebugOk PartialEqOk.
Import ListNotations.
Local Open Scope Z_scope.
Local Open Scope string_scope.

Local Opaque run crate.

(** ** The model *)

Lemma models_evaluates p key vs o a : models p key vs o a -> evaluates p key vs o a.
Proof.
  intros M. exists crate. split; [exact crate_loads|]. intros fuel F.
  do 6 (destruct fuel as [|fuel]; [lia|]). exact (models_run p key vs o a fuel M).
Qed.

Lemma loads_one P Q : load false source = Some P -> load false source = Some Q -> P = Q.
Proof. intros H K. rewrite H in K. injection K as ->. reflexivity. Qed.

Lemma evaluates_one p key vs o a b : evaluates p key vs o a -> evaluates p key vs o b -> a = b.
Proof.
  intros (P & L & E) (Q & M & F). rewrite <- (loads_one P Q L M) in F.
  rewrite <- (E 6%nat) by lia. apply F. lia.
Qed.

Lemma well_typed_modelled p key vs o : well_typed p key vs -> exists a, models p key vs o a.
Proof.
  intros (P & f & L & I & T). pose proof (loads_one P crate L crate_loads) as ->.
  apply (covered p 0 key (map snd (f_params f))).
  - rewrite <- signatures_ok. apply (in_map (fun f => (fst f, map snd (f_params (snd f)))) _ _ I).
  - apply T. lia.
Qed.

Lemma typed_call p key ts vs : In (key, ts) signatures ->
  (forall fuel, all2 (admits p crate (S (S (S (S (S fuel)))))) ts vs = true) -> well_typed p key vs.
Proof.
  intros I T. rewrite <- signatures_ok in I. apply in_map_iff in I. destruct I as ([k f] & E & I).
  cbn [fst snd] in E. injection E as -> <-. exists crate, f.
  split; [exact crate_loads|]. split; [exact I|]. intros fuel F.
  do 5 (destruct fuel as [|fuel]; [lia|]). apply T.
Qed.

Lemma gives_ends {A} (f : A -> value) o m :
  (exists v o', gives f o m = Done v o') \/ (exists w, gives f o m = Halt (Why w)).
Proof. destruct m; [left|right]; repeat eexists. Qed.
Lemma writes_ends o m :
  (exists v o', writes o m = Done v o') \/ (exists w, writes o m = Halt (Why w)).
Proof. destruct m; [left|right]; repeat eexists. Qed.

Lemma models_ends p key vs o a : models p key vs o a ->
  (exists v o', a = Done v o') \/ (exists w, a = Halt (Why w)).
Proof. intros M. destruct M; (apply gives_ends || apply writes_ends). Qed.

Lemma well_typed_ends p key vs o : well_typed p key vs ->
  (exists v o', evaluates p key vs o (Done v o')) \/ (exists w, evaluates p key vs o (Halt (Why w))).
Proof.
  intros T. destruct (well_typed_modelled p key vs o T) as [a M].
  pose proof (models_evaluates _ _ _ _ _ M) as E.
  destruct (models_ends _ _ _ _ _ M) as [(v & o' & ->)|(w & ->)]; [left; exists v, o'|right; exists w]; exact E.
Qed.

(** ** [decode] *)

Lemma decode32_source p isa w : platform_ok p -> is_u32 w ->
  (exists r, unique (fun r => In r table32 /\ in_enc (r_acc r isa) w = true) r /\
     (forall e, In e errors32 -> in_enc (e_enc e isa) w = false) /\
     evaluates p "u32.decode" [VInt U32 w; of_isa isa] ""
       (Done (VEnum "Result" "Ok" [of_inst (reads r isa false w)]) "")) \/
  (exists e, unique (fun e => In e errors32 /\ in_enc (e_enc e isa) w = true) e /\
     (forall r, In r table32 -> in_enc (r_acc r isa) w = false) /\
     evaluates p "u32.decode" [VInt U32 w; of_isa isa] ""
       (Done (VEnum "Result" "Err" [of_err (e_err e)]) "")).
Proof.
  intros Hp Hw. pose proof (models_evaluates _ _ _ _ _ (m_decode32 p w isa "")) as E.
  destruct (Claims.meaning32 p isa w Hp Hw) as [(r & U & N & D)|(e & U & N & D)];
    rewrite D in E; [left; exists r|right; exists e]; repeat split; assumption || apply U || idtac.
  all: exact E.
Qed.

Lemma decode16_source p isa w : platform_ok p -> is_u16 w ->
  (exists r, unique (fun r => In r table16 /\ in_enc (r_acc r isa) w = true) r /\
     (forall e, In e errors16 -> in_enc (e_enc e isa) w = false) /\
     evaluates p "u16.decode" [VInt U16 w; of_isa isa] ""
       (Done (VEnum "Result" "Ok" [of_inst (reads r isa true w)]) "")) \/
  (exists e, unique (fun e => In e errors16 /\ in_enc (e_enc e isa) w = true) e /\
     (forall r, In r table16 -> in_enc (r_acc r isa) w = false) /\
     evaluates p "u16.decode" [VInt U16 w; of_isa isa] ""
       (Done (VEnum "Result" "Err" [of_err (e_err e)]) "")).
Proof.
  intros Hp Hw. pose proof (models_evaluates _ _ _ _ _ (m_decode16 p w isa "")) as E.
  destruct (Claims.meaning16 p isa w Hp Hw) as [(r & U & N & D)|(e & U & N & D)];
    rewrite D in E; [left; exists r|right; exists e]; repeat split; assumption || apply U || idtac.
  all: exact E.
Qed.

Lemma try_from_source p x : platform_ok p -> 0 <= x < 2 ^ usize_bits p ->
  (x mod 4 = 3 -> x < 2 ^ 32 -> forall a,
     (evaluates p "Instruction.try_from" [VInt Usize x] "" a <->
      evaluates p "u32.decode" [VInt U32 x; of_isa Rv64] "" a)) /\
  (x mod 4 <> 3 -> x < 2 ^ 16 -> forall a,
     (evaluates p "Instruction.try_from" [VInt Usize x] "" a <->
      evaluates p "u16.decode" [VInt U16 x; of_isa Rv64] "" a)) /\
  (x mod 4 = 3 -> 2 ^ 32 <= x -> evaluates p "Instruction.try_from" [VInt Usize x] "" (Halt (Why PExpect))) /\
  (x mod 4 <> 3 -> 2 ^ 16 <= x -> evaluates p "Instruction.try_from" [VInt Usize x] "" (Halt (Why PExpect))).
Proof.
  intros Hp Hx.
  assert (S : forall key vs b c, models p "Instruction.try_from" [VInt Usize x] "" b ->
    models p key vs "" c -> b = c ->
    forall a, evaluates p "Instruction.try_from" [VInt Usize x] "" a <-> evaluates p key vs "" a).
  { intros key vs b c M N -> a. apply models_evaluates in M, N.
    split; intros E; [rewrite (evaluates_one _ _ _ _ _ _ E M)|rewrite (evaluates_one _ _ _ _ _ _ E N)];
      assumption. }
  pose proof (m_try_from p x "") as T.
  split; [|split; [|split]].
  - intros H3 H32. apply (S _ _ _ _ T (m_decode32 p x Rv64 "")).
    rewrite (Api.try_from_32 p x) by lia. reflexivity.
  - intros H3 H16. apply (S _ _ _ _ T (m_decode16 p x Rv64 "")).
    rewrite (Api.try_from_16 p x) by lia. reflexivity.
  - intros H3 H32. apply models_evaluates in T.
    rewrite (proj2 (Tight.try_from_cases p x Hp Hx)) in T by lia. exact T.
  - intros H3 H16. apply models_evaluates in T.
    rewrite (proj2 (Tight.try_from_cases p x Hp Hx)) in T by lia. exact T.
Qed.

(** ** The helpers *)

Lemma model_is p key vs o a b : models p key vs o a -> a = b -> evaluates p key vs o b.
Proof. intros M <-. apply models_evaluates. exact M. Qed.

Lemma slice32_source p w hi lo : is_u32 w -> 0 <= lo < 2 ^ 32 -> 0 <= hi < 2 ^ 32 ->
  let call := evaluates p "u32.slice" [VInt U32 w; VInt U32 hi; VInt U32 lo] "" in
  (hi < lo -> call (Halt (Why PAssert))) /\
  (lo <= hi -> lo < 32 -> hi - lo < 31 -> exists v, call (Done (VInt U32 v) "") /\ bits_of v w hi lo) /\
  (lo <= hi -> ~ (lo < 32 /\ hi - lo < 31) -> overflow_checks p = true -> call (Halt (Why POverflow))) /\
  (lo <= hi -> hi - lo < 2 ^ 32 - 1 -> overflow_checks p = false ->
     exists v, call (Done (VInt U32 v) "") /\ bits_of v w (lo mod 32 + (hi - lo)) (lo mod 32)) /\
  (lo = 0 -> hi = 2 ^ 32 - 1 -> overflow_checks p = false -> call (Done (VInt U32 0) "")).
Proof.
  intros Hw Hl Hh call. destruct (Helpers.slice32_spec p w hi lo Hw Hl Hh) as (A & B & C & D & E).
  pose proof (m_slice32 p w hi lo "") as M. split; [|split; [|split; [|split]]].
  - intros H. apply (model_is _ _ _ _ _ _ M). rewrite A by assumption. reflexivity.
  - intros H1 H2 H3. destruct (B H1 H2 H3) as (v & R & V). exists v. split; [|exact V].
    apply (model_is _ _ _ _ _ _ M). rewrite R. reflexivity.
  - intros H1 H2 H3. apply (model_is _ _ _ _ _ _ M). rewrite C by assumption. reflexivity.
  - intros H1 H2 H3. destruct (D H1 H2 H3) as (v & R & V). exists v. split; [|exact V].
    apply (model_is _ _ _ _ _ _ M). rewrite R. reflexivity.
  - intros H1 H2 H3. apply (model_is _ _ _ _ _ _ M). rewrite E by assumption. reflexivity.
Qed.

Lemma slice16_source p w hi lo : is_u16 w -> 0 <= lo < 2 ^ 32 -> 0 <= hi < 2 ^ 32 ->
  let call := evaluates p "u16.slice" [VInt U16 w; VInt U32 hi; VInt U32 lo] "" in
  (hi < lo -> call (Halt (Why PAssert))) /\
  (lo <= hi -> lo < 16 -> hi - lo < 15 -> exists v, call (Done (VInt U16 v) "") /\ bits_of v w hi lo) /\
  (lo <= hi -> ~ (lo < 16 /\ hi - lo < 15) -> overflow_checks p = true -> call (Halt (Why POverflow))) /\
  (lo <= hi -> hi - lo < 2 ^ 32 - 1 -> overflow_checks p = false ->
     exists v, call (Done (VInt U16 v) "") /\ bits_of v w (lo mod 16 + (hi - lo)) (lo mod 16)) /\
  (lo = 0 -> hi = 2 ^ 32 - 1 -> overflow_checks p = false -> call (Done (VInt U16 0) "")).
Proof.
  intros Hw Hl Hh call. destruct (Helpers.slice16_spec p w hi lo Hw Hl Hh) as (A & B & C & D & E).
  pose proof (m_slice16 p w hi lo "") as M. split; [|split; [|split; [|split]]].
  - intros H. apply (model_is _ _ _ _ _ _ M). rewrite A by assumption. reflexivity.
  - intros H1 H2 H3. destruct (B H1 H2 H3) as (v & R & V). exists v. split; [|exact V].
    apply (model_is _ _ _ _ _ _ M). rewrite R. reflexivity.
  - intros H1 H2 H3. apply (model_is _ _ _ _ _ _ M). rewrite C by assumption. reflexivity.
  - intros H1 H2 H3. destruct (D H1 H2 H3) as (v & R & V). exists v. split; [|exact V].
    apply (model_is _ _ _ _ _ _ M). rewrite R. reflexivity.
  - intros H1 H2 H3. apply (model_is _ _ _ _ _ _ M). rewrite E by assumption. reflexivity.
Qed.

(** The two implementations of [to_signed_nbit] and [set] differ in the type of [self] only. *)
Definition self_type (key : string) (t : ity) : Prop := key = "u32" /\ t = U32 \/ key = "u16" /\ t = U16.

Lemma signed_source p ty t w v n : self_type ty t -> - 2 ^ 31 <= v < 2 ^ 31 -> 0 <= n < 2 ^ 32 ->
  let call := evaluates p (ty ++ ".to_signed_nbit") [VInt t w; VInt I32 v; VInt U32 n] "" in
  (1 <= n <= 30 -> exists r, call (Done (VInt I32 r) "") /\ signed_low_bits r v n) /\
  (~ 1 <= n <= 30 -> overflow_checks p = true -> call (Halt (Why POverflow))) /\
  (n = 31 \/ n = 32 -> overflow_checks p = false ->
     exists r, call (Done (VInt I32 r) "") /\ signed_low_bits r v n) /\
  (32 <= n -> overflow_checks p = false -> call (Done (VInt I32 v) "")) /\
  (n = 0 -> overflow_checks p = false -> call (Done (VInt I32 0) "")).
Proof.
  intros T Hv Hn call. destruct (Helpers.signed_spec p v n Hv Hn) as (A & B & C & D & E).
  assert (M : models p (ty ++ ".to_signed_nbit") [VInt t w; VInt I32 v; VInt U32 n] ""
                (gives (VInt I32) "" (to_signed_nbit p v n))).
  { destruct T as [[-> ->]|[-> ->]]; [exact (m_signed32 p w v n "")|exact (m_signed16 p w v n "")]. }
  split; [|split; [|split; [|split]]].
  - intros H. destruct (A H) as (r & R & V). exists r. split; [|exact V].
    apply (model_is _ _ _ _ _ _ M). rewrite R. reflexivity.
  - intros H1 H2. apply (model_is _ _ _ _ _ _ M). rewrite B by assumption. reflexivity.
  - intros H1 H2. destruct (C H1 H2) as (r & R & V). exists r. split; [|exact V].
    apply (model_is _ _ _ _ _ _ M). rewrite R. reflexivity.
  - intros H1 H2. apply (model_is _ _ _ _ _ _ M). rewrite D by assumption. reflexivity.
  - intros H1 H2. apply (model_is _ _ _ _ _ _ M). rewrite E by assumption. reflexivity.
Qed.

Lemma set_source p ty t w mask : self_type ty t ->
  let call := evaluates p (ty ++ ".set") [VInt t w; VList (map (VInt U32) mask)] "" in
  (Z.of_nat (List.length mask) <= 32 -> Forall (fun m => 0 <= m < 32) mask ->
     exists r, call (Done (VInt U32 r) "") /\ scattered r w mask) /\
  (32 < Z.of_nat (List.length mask) \/ ~ Forall (fun m => 0 <= m < 32) mask -> overflow_checks p = true ->
     call (Halt (Why POverflow))) /\
  (Forall (fun m => 0 <= m) mask -> overflow_checks p = false ->
     exists r, call (Done (VInt U32 r) "") /\ scattered_mod32 r w mask).
Proof.
  intros T call. destruct (Helpers.set_spec p w mask) as (A & B & C).
  assert (M : models p (ty ++ ".set") [VInt t w; VList (map (VInt U32) mask)] ""
                (gives (VInt U32) "" (set_u32 p w mask))).
  { destruct T as [[-> ->]|[-> ->]]; [exact (m_set32 p w mask "")|exact (m_set16 p w mask "")]. }
  unfold set_u32 in M.
  split; [|split].
  - intros H1 H2. destruct (A H1 H2) as (r & R & V). exists r. split; [|exact V].
    apply (model_is _ _ _ _ _ _ M). rewrite R. reflexivity.
  - intros H1 H2. apply (model_is _ _ _ _ _ _ M). rewrite B by assumption. reflexivity.
  - intros H1 H2. destruct (C H1 H2) as (r & R & V). exists r. split; [|exact V].
    apply (model_is _ _ _ _ _ _ M). rewrite R. reflexivity.
Qed.

(** ** The declared types *)

Lemma load_types (Q : program -> nat -> Prop) (R : Prop) :
  (forall fuel, (5 <= fuel)%nat -> Q crate fuel <-> R) ->
  (exists P, load false source = Some P /\ forall fuel, (5 <= fuel)%nat -> Q P fuel) <-> R.
Proof.
  intros H. split.
  - intros (P & L & K). pose proof (loads_one P crate L crate_loads) as ->.
    apply (H 5%nat); [lia|]. apply K. lia.
  - intros r. exists crate. split; [exact crate_loads|]. intros fuel F. apply H; assumption.
Qed.

Ltac by_values L :=
  apply load_types; intros fuel F; do 5 (destruct fuel as [|fuel]; [lia|]); apply L.

Lemma type_values p v :
  (has_type p "Isa" v <-> exists a, v = of_isa a) /\
  (has_type p "Extensions" v <-> exists a, v = of_ext a) /\
  (has_type p "DecodingError" v <-> exists a, v = of_err a) /\
  (has_type p "InstFormat" v <-> exists a, v = of_fmt a) /\
  (has_type p "BaseIOpcode" v <-> exists a, v = of_basei a) /\
  (has_type p "MOpcode" v <-> exists a, v = of_m a) /\
  (has_type p "AOpcode" v <-> exists a, v = of_a a) /\
  (has_type p "COpcode" v <-> exists a, v = of_c a) /\
  (has_type p "ZifenceiOpcode" v <-> exists a, v = of_zifencei a) /\
  (has_type p "ZicbozOpcode" v <-> exists a, v = of_zicboz a) /\
  (has_type p "ZicsrOpcode" v <-> exists a, v = of_zicsr a) /\
  (has_type p "ZicfissOpcode" v <-> exists a, v = of_zicfiss a) /\
  (has_type p "ZicntrOpcode" v <-> exists a, v = of_zicntr a) /\
  (has_type p "PrivOpcode" v <-> exists a, v = of_priv a) /\
  (has_type p "OpcodeKind" v <-> exists a, v = of_op a) /\
  (has_type p "Instruction" v <-> exists i, numbers_ok p i /\ v = of_inst i).
Proof.
  split; [by_values isa_values|].
  split; [by_values ext_values|].
  split; [by_values err_values|].
  split; [by_values fmt_values|].
  split; [by_values basei_values|].
  split; [by_values m_values|].
  split; [by_values a_values|].
  split; [by_values c_values|].
  split; [by_values zifencei_values|].
  split; [by_values zicboz_values|].
  split; [by_values zicsr_values|].
  split; [by_values zicfiss_values|].
  split; [by_values zicntr_values|].
  split; [by_values priv_values|].
  split; [by_values opcode_values|].
  by_values instruction_values.
Qed.

Lemma debug_source r : shows (of_result of_inst r) (decode_debug r).
Proof.
  exists crate. split; [exact crate_loads|]. intros fuel F. do 5 (destruct fuel as [|fuel]; [lia|]).
  apply decode_derived_debug.
Qed.

Lemma compares_one v w b c : compares v w b -> compares v w c -> b = c.
Proof.
  intros (P & L & E) (Q & M & K). rewrite <- (loads_one P Q L M) in K. rewrite E in K.
  injection K as ->. reflexivity.
Qed.

Lemma shows_one v d e : shows v d -> shows v e -> d = e.
Proof.
  intros (P & L & E) (Q & M & K). rewrite <- (loads_one P Q L M) in K.
  specialize (E 5%nat ltac:(lia)). specialize (K 5%nat ltac:(lia)). rewrite E in K.
  injection K as ->. reflexivity.
Qed.

Lemma of_inst_inj i j : of_inst i = of_inst j -> i = j.
Proof.
  intros E. pose proof (debug_source (Ok i)) as A. pose proof (debug_source (Ok j)) as B.
  cbn [of_result] in A, B. rewrite E in A. pose proof (shows_one _ _ _ A B) as D.
  assert (K : Ok i = Ok j :> result Instruction DecodingError).
  { apply DebugOk.debug_inj. rewrite D. reflexivity. }
  injection K as ->. reflexivity.
Qed.

Lemma equality_source i j :
  (compares (of_inst i) (of_inst j) true <-> i = j) /\ (compares (of_inst i) (of_inst j) false <-> i <> j).
Proof.
  assert (C : compares (of_inst i) (of_inst j) (Instruction_eq i j)).
  { exists crate. split; [exact crate_loads|]. apply instruction_derived_eq. }
  split; split.
  - intros H. pose proof (compares_one _ _ _ _ H C) as E. symmetry in E.
    apply PartialEqOk.Instruction_eq_iff. exact E.
  - intros H. rewrite (proj2 (PartialEqOk.Instruction_eq_iff i j) H) in C. exact C.
  - intros H E. rewrite (proj2 (PartialEqOk.Instruction_eq_iff i j) E) in C.
    discriminate (compares_one _ _ _ _ H C).
  - intros N. destruct (Instruction_eq i j) eqn:E; [|exact C].
    destruct (N (proj1 (PartialEqOk.Instruction_eq_iff i j) E)).
Qed.

(** ** [Display] *)

Lemma numbers_unsigned p i : numbers_ok p i -> unsigned_registers i.
Proof.
  intros (R1 & R2 & R3 & _) o v N E. 
  assert (K : in_type p Usize v = true) by
    (destruct o; cbn [get] in E; [rewrite E in R1; exact R1|rewrite E in R2; exact R2
                                 |rewrite E in R3; exact R3|contradiction N; reflexivity]).
  apply andb_prop in K. destruct K as [K _]. apply Z.leb_le. exact K.
Qed.

Lemma op_display_source p op s :
  evaluates p "OpcodeKind.fmt" [of_op op; VFmt] "" (Done ok_unit s) <-> s = OpcodeKind_display op.
Proof.
  pose proof (models_evaluates _ _ _ _ _ (m_op_fmt p op "")) as E.
  split.
  - intros H. pose proof (evaluates_one _ _ _ _ _ _ H E) as K. injection K as K. exact K.
  - intros ->. exact E.
Qed.

Lemma display_source p v : has_type p "Instruction" v ->
  exists i, v = of_inst i /\
  (forall s, evaluates p "Instruction.fmt" [v; VFmt] "" (Done ok_unit s) <->
     exists t m rest, layout (inst_format i) (opc i) t /\
       evaluates p "OpcodeKind.fmt" [of_op (opc i); VFmt] "" (Done ok_unit m) /\
       s = m ++ rest /\ reads_as t i rest) /\
  ((exists w, evaluates p "Instruction.fmt" [v; VFmt] "" (Halt w)) <->
     (forall t, ~ layout (inst_format i) (opc i) t) \/
     exists t, layout (inst_format i) (opc i) t /\ lacks t i).
Proof.
  intros T. apply (proj2 (proj2 (proj2 (proj2 (proj2 (proj2 (proj2 (proj2 (proj2 (proj2 (proj2 (proj2
    (proj2 (proj2 (proj2 (type_values p v)))))))))))))))) in T.
  destruct T as (i & N & ->). exists i. split; [reflexivity|].
  pose proof (numbers_unsigned p i N) as U.
  pose proof (models_evaluates _ _ _ _ _ (m_fmt p i "")) as E.
  split.
  - intros s. assert (K : evaluates p "Instruction.fmt" [of_inst i; VFmt] "" (Done ok_unit s) <->
      Instruction_display i = Ret s).
    { split.
      - intros H. pose proof (evaluates_one _ _ _ _ _ _ H E) as K.
        destruct (Instruction_display i); [|discriminate K]. injection K as ->. reflexivity.
      - intros H. rewrite H in E. exact E. }
    rewrite K, (Disp.display_layout i s U). split.
    + intros (t & rest & L & -> & R). exists t, (OpcodeKind_display (opc i)), rest.
      repeat split; try assumption. apply op_display_source. reflexivity.
    + intros (t & m & rest & L & M & -> & R). exists t, rest. apply op_display_source in M. subst m.
      repeat split; assumption.
  - rewrite <- (Disp.display_panic_iff i U). split.
    + intros [w H]. pose proof (evaluates_one _ _ _ _ _ _ H E) as K.
      destruct (Instruction_display i) as [|why]; [discriminate K|]. exists why. reflexivity.
    + intros [why H]. rewrite H in E. exists (Why why). exact E.
Qed.

Lemma mnemonic_source p op :
  (odd_mnemonic op = None ->
     evaluates p "OpcodeKind.fmt" [of_op op; VFmt] "" (Done ok_unit (spelled op)) /\
     lower (spelled op) = mnemonic op) /\
  (forall s, odd_mnemonic op = Some s ->
     evaluates p "OpcodeKind.fmt" [of_op op; VFmt] "" (Done ok_unit s) /\ lower s <> mnemonic op).
Proof.
  split.
  - intros H. destruct (Tight.mnemonic_spelled op H) as [A B]. split; [|exact B].
    apply op_display_source. symmetry. exact A.
  - intros s H. destruct (Text2.mnemonic_odd op s H) as [A B]. split; [|exact B].
    apply op_display_source. symmetry. exact A.
Qed.

(** ** The tests *)

Transparent run crate.

Definition quiet (a : ans) : bool := match a with Done VUnit "" => true | _ => false end.

Lemma quiet_ok a : quiet a = true -> a = Done VUnit "".
Proof.
  destruct a as [v o| |]; try discriminate. destruct v; try discriminate. destruct o; [reflexivity|discriminate].
Qed.

Definition pass_all (n : nat) (p : platform) : bool :=
  forallb (fun t => quiet (run test_crate p (S (S (S (S (S (S (S (S (S (S (S (S n)))))))))))) t [] ""))
    (p_tests test_crate).

Lemma pass_32 c n : pass_all n {| overflow_checks := c; usize_bits := 32 |} = true.
Proof. destruct c; vm_compute; reflexivity. Qed.
Lemma pass_64 c n : pass_all n {| overflow_checks := c; usize_bits := 64 |} = true.
Proof. destruct c; vm_compute; reflexivity. Qed.

Local Opaque run test_crate.

Lemma pass_one n p key : pass_all n p = true -> In key (p_tests test_crate) ->
  run test_crate p (S (S (S (S (S (S (S (S (S (S (S (S n)))))))))))) key [] "" = Done VUnit "".
Proof. intros A I. apply quiet_ok. exact (proj1 (forallb_forall _ _) A key I). Qed.

Lemma tests_pass p key : usize_bits p = 32 \/ usize_bits p = 64 -> is_test key -> passes p key.
Proof.
  intros U (P & L & I). rewrite test_crate_loads in L. injection L as <-.
  exists test_crate. split; [exact test_crate_loads|]. intros fuel F.
  do 12 (destruct fuel as [|fuel]; [lia|]). apply pass_one; [|exact I].
  destruct p as [c u]. cbn [usize_bits] in U. destruct U as [-> | ->]; [apply pass_32|apply pass_64].
Qed.
