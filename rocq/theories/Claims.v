(** The lemmas behind the property theorems that combine results of other files. *)
From Coq Require Import ZArith List Bool String Lia.
From Verif Require Import Rust Types DecodeUtil Dec32 Dec16 Decode Fmt Spec Util Plat Exact32 Exact16
  Pat SpecOps SpecText SpecApi Rows Rows2 Operands Api Numerals Text Text2 Findings.
Import ListNotations.
Local Open Scope list_scope.
Local Open Scope Z_scope.

(** ** Instructions of RV64 on Rv32 and the other way round *)

Lemma gated_rows : forallb (fun r => negb (mem_op (r_op r) gated32) ||
  mem_op (r_op r) (map r_op (base_i ++ m_ext ++ a_ext))) table32 = true.
Proof. vm_compute. reflexivity. Qed.
Lemma gated_rejected32 p op w : platform_ok p -> is_u32 w -> In op gated32 -> legal32 Rv64 op w ->
  decode_u32 p w Rv32 = Ret (Err OnlyRv64Inst).
Proof.
  intros Hp Hw G [r [Hr [O L]]]. apply only_rv64_32; [assumption..|]. split; [reflexivity|].
  exists (reads r Rv64 false w). cbn [reads opc]. rewrite O. split; [|assumption].
  pose proof gated_rows as A. rewrite forallb_forall in A. specialize (A r Hr).
  apply orb_true_iff in A. destruct A as [A|A].
  { apply mem_op_ok in G. rewrite O, G in A. discriminate A. }
  apply mem_op_ok in A. apply in_map_iff in A. destruct A as [r' [O' Hr']].
  assert (r' = r) as ->.
  { apply row_unique32; [|assumption|congruence]. unfold table32. rewrite !in_app_iff in *. tauto. }
  apply man32; [assumption..| |assumption]. rewrite !in_app_iff in *. tauto.
Qed.
Lemma gated_rejected16 p op w : platform_ok p -> is_u16 w -> In op rv64_c -> op <> OC C_ADDIW ->
  legal16 Rv64 op w -> decode_u16 p w Rv32 = Ret (Err OnlyRv64Inst).
Proof.
  intros Hp Hw G N [r [Hr [O L]]]. apply only_rv64_16; [assumption..|]. split; [reflexivity|].
  exists (reads r Rv64 true w). cbn [reads opc]. rewrite O. split; [|split; assumption].
  apply c_complete; [assumption..|]. rewrite O. intros ->. cbn in G.
  repeat (destruct G as [G|G]; [discriminate G|]). destruct G.
Qed.
Lemma c_addiw_on_rv32 p w : platform_ok p -> is_u16 w -> legal16 Rv64 (OC C_ADDIW) w ->
  exists i, decode_u16 p w Rv32 = Ret (Ok i) /\ opc i = OC C_JAL.
Proof.
  intros Hp Hw [r [Hr [O L]]]. apply (proj2 (jal_addiw p w Hp Hw)). exists (reads r Rv64 true w).
  cbn [reads opc]. rewrite O. split; [|reflexivity]. apply c_complete; [assumption..|].
  rewrite O. discriminate.
Qed.
Lemma c_jal_on_rv64 p w : platform_ok p -> is_u16 w -> legal16 Rv32 (OC C_JAL) w ->
  exists i, decode_u16 p w Rv64 = Ret (Ok i) /\ opc i = OC C_ADDIW.
Proof.
  intros Hp Hw [r [Hr [O L]]]. apply (proj1 (jal_addiw p w Hp Hw)). exists (reads r Rv32 true w).
  cbn [reads opc]. rewrite O. split; [|reflexivity]. apply c_complete; [assumption..|].
  rewrite O. discriminate.
Qed.

(** ** Immediates *)

Lemma imm_value32 p isa w i : platform_ok p -> is_u32 w -> decode_u32 p w isa = Ret (Ok i) ->
  exists r, In r table32 /\ r_op r = opc i /\ imm i = imm_of (c_imm (r_cls r isa)) w.
Proof.
  intros Hp Hw H. destruct (ok32 _ _ _ _ Hp Hw H) as [r [Hr [_ ->]]]. exists r. auto.
Qed.
Lemma imm_value16 p isa w i : platform_ok p -> is_u16 w -> decode_u16 p w isa = Ret (Ok i) ->
  exists r, In r table16 /\ r_op r = opc i /\ imm i = imm_of (c_imm (r_cls r isa)) w.
Proof.
  intros Hp Hw H. destruct (ok16 _ _ _ _ Hp Hw H) as [r [Hr [_ ->]]]. exists r. auto.
Qed.

(** ** Text *)

Lemma conforms_refuted : exists i, decoded i /\ opc i = OBaseI I_SW /\ ~ conforms i.
Proof.
  assert (D : exists i, dec (W32 0x00a12223) = Ret (Ok i) /\ opc i = OBaseI I_SW /\
     rs1 i = Some 2 /\ rs2 i = Some 10 /\
     Instruction_display i = Ret "sw sp, 4(a0)"%string).
  { eexists. split; [vm_compute; reflexivity|]. repeat split; vm_compute; reflexivity. }
  destruct D as [i [D [O [A [B S]]]]]. exists i.
  split; [exact (dec_decoded (W32 0x00a12223) i eq_refl D)|]. split; [assumption|].
  intros [rest [E R]]. rewrite S in E. rewrite O in E, R. injection E as E. subst rest.
  cbn [documented mem reads_as shows] in R. destruct R as [a [b [E [-> [a' [b' [-> [[r [G N]] R]]]]]]]].
  cbn [get] in G. rewrite B in G. injection G as <-. destruct N as [_ N]. cbn in N.
  injection N as <-. discriminate E.
Qed.
Lemma mnemonic_refuted : exists op, lower (OpcodeKind_display op) <> mnemonic op.
Proof. exists (OM M_MULHSU). vm_compute. discriminate. Qed.
Lemma text_refuted : exists i j s, decoded i /\ decoded j /\ is_compressed i = is_compressed j /\
  i <> j /\ Instruction_display i = Ret s /\ Instruction_display j = Ret s.
Proof.
  assert (D : exists i j, dec (W32 0x00151513) = Ret (Ok i) /\ dec (W32 0x00251513) = Ret (Ok j) /\
    is_compressed i = is_compressed j /\ i <> j /\
    Instruction_display i = Ret "slli a0, a0"%string /\ Instruction_display j = Ret "slli a0, a0"%string).
  { eexists. eexists. split; [vm_compute; reflexivity|]. split; [vm_compute; reflexivity|].
    split; [reflexivity|]. split; [discriminate|]. split; vm_compute; reflexivity. }
  destruct D as [i [j [D [D' [C [N [S S']]]]]]]. exists i, j, "slli a0, a0"%string.
  split; [exact (dec_decoded (W32 0x00151513) i eq_refl D)|].
  split; [exact (dec_decoded (W32 0x00251513) j eq_refl D')|]. auto.
Qed.

(** ** Zero *)

Lemma zero_errors p isa : platform_ok p -> decode_u16 p 0 isa = Ret (Err IllegalInstruction) /\
  parse_opcode_u16 p 0 isa = Ret (Err InvalidOpcode).
Proof.
  intros Hp. split; [apply zero_illegal; assumption|]. destruct p as [c b].
  unfold platform_ok in Hp. cbn [usize_bits] in Hp.
  destruct isa, c, Hp as [H|[H|H]]; subst b; vm_compute; reflexivity.
Qed.

(** ** One meaning per word *)

Lemma meaning32 p isa w : platform_ok p -> is_u32 w ->
  (exists r, unique (fun r => In r table32 /\ in_enc (r_acc r isa) w = true) r /\
     (forall e, In e errors32 -> in_enc (e_enc e isa) w = false) /\
     decode_u32 p w isa = Ret (Ok (reads r isa false w))) \/
  (exists e, unique (fun e => In e errors32 /\ in_enc (e_enc e isa) w = true) e /\
     (forall r, In r table32 -> in_enc (r_acc r isa) w = false) /\
     decode_u32 p w isa = Ret (Err (e_err e))).
Proof.
  intros Hp Hw. destruct (partition32 isa w Hw) as [[[r U] N]|[N [e U]]]; [left|right].
  - exists r. destruct (proj1 U) as [Hr E]. repeat split; [assumption..|exact (proj2 U)|assumption|].
    apply row32; assumption.
  - exists e. destruct (proj1 U) as [He E]. repeat split; [assumption..|exact (proj2 U)|assumption|].
    apply err32; assumption.
Qed.
Lemma meaning16 p isa w : platform_ok p -> is_u16 w ->
  (exists r, unique (fun r => In r table16 /\ in_enc (r_acc r isa) w = true) r /\
     (forall e, In e errors16 -> in_enc (e_enc e isa) w = false) /\
     decode_u16 p w isa = Ret (Ok (reads r isa true w))) \/
  (exists e, unique (fun e => In e errors16 /\ in_enc (e_enc e isa) w = true) e /\
     (forall r, In r table16 -> in_enc (r_acc r isa) w = false) /\
     decode_u16 p w isa = Ret (Err (e_err e))).
Proof.
  intros Hp Hw. destruct (partition16 isa w Hw) as [[[r U] N]|[N [e U]]]; [left|right].
  - exists r. destruct (proj1 U) as [Hr E]. repeat split; [assumption..|exact (proj2 U)|assumption|].
    apply row16; assumption.
  - exists e. destruct (proj1 U) as [He E]. repeat split; [assumption..|exact (proj2 U)|assumption|].
    apply err16; assumption.
Qed.
