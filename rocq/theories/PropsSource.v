(** C61-C66: the text of /repo/src, read and evaluated.
    [evaluates p key vs o a]: the text is a program, and its function [key] called with [vs], after [o]
    has been written, comes to [a]: [Done] with a value and the text written, [Halt] for a panic, or
    [Wrong] where the evaluator knows no answer.  [of_inst i] etc. are the values of the source. *)
From Coq Require Import ZArith List Bool String Lia.
From Verif Require Import Rust Types Decode Fmt Debug Spec SpecOps SpecText SpecDisplay SpecApi SpecHelp
  SrcLink SrcSem SrcEmbed SrcDerive SrcModel SpecSource.
From Verif Require SrcProg SrcClaims Text.
Import ListNotations.
Local Open Scope list_scope.
Local Open Scope Z_scope.

(** ** C61 *)

(** [models p key vs o a]: what the model says (SrcModel.v, one line for each function). *)
Theorem C61_source_is_model :
  (forall p key vs o a, models p key vs o a -> evaluates p key vs o a) /\
  (forall p key vs o, well_typed p key vs -> exists a, models p key vs o a) /\
  (forall p key vs o, well_typed p key vs ->
     (exists v o', evaluates p key vs o (Done v o')) \/ (exists w, evaluates p key vs o (Halt (Why w)))) /\
  (forall p key vs o a b, evaluates p key vs o a -> evaluates p key vs o b -> a = b).
Proof.
  exact (conj SrcClaims.models_evaluates (conj SrcClaims.well_typed_modelled
    (conj SrcClaims.well_typed_ends SrcClaims.evaluates_one))).
Qed.
Print Assumptions C61_source_is_model.

(** c.lw with a word that is no c.lw: the immediate is read all the same. *)
Example C61_case :
  well_typed Text.plat "decode::c_extension::bit_16::parse_imm"%string [VInt U16 0xFFFF; of_c C_LW] /\
  evaluates Text.plat "decode::c_extension::bit_16::parse_imm"%string [VInt U16 0xFFFF; of_c C_LW] ""%string
    (Done (VEnum "Option" "Some" [VInt I32 124]) ""%string).
Proof.
  split.
  - apply (SrcClaims.typed_call _ _ [SrcAst.TyPath ["u16"%string] [];
      SrcAst.TyRef (SrcAst.TyPath ["COpcode"%string] [])]); [vm_compute; tauto|reflexivity].
  - exists SrcProg.crate. split; [exact SrcProg.crate_loads|]. intros fuel F.
    do 6 (destruct fuel as [|fuel]; [lia|]). vm_compute. reflexivity.
Qed.

(** ** C62 *)

(** As C16 and C28, C29, without the model. *)
Theorem C62_source_decodes :
  (forall p isa w, platform_ok p -> is_u32 w ->
     (exists r, unique (fun r => In r table32 /\ in_enc (r_acc r isa) w = true) r /\
        (forall e, In e errors32 -> in_enc (e_enc e isa) w = false) /\
        evaluates p "u32.decode" [VInt U32 w; of_isa isa] ""
          (Done (VEnum "Result" "Ok" [of_inst (reads r isa false w)]) "")) \/
     (exists e, unique (fun e => In e errors32 /\ in_enc (e_enc e isa) w = true) e /\
        (forall r, In r table32 -> in_enc (r_acc r isa) w = false) /\
        evaluates p "u32.decode" [VInt U32 w; of_isa isa] ""
          (Done (VEnum "Result" "Err" [of_err (e_err e)]) ""))) /\
  (forall p isa w, platform_ok p -> is_u16 w ->
     (exists r, unique (fun r => In r table16 /\ in_enc (r_acc r isa) w = true) r /\
        (forall e, In e errors16 -> in_enc (e_enc e isa) w = false) /\
        evaluates p "u16.decode" [VInt U16 w; of_isa isa] ""
          (Done (VEnum "Result" "Ok" [of_inst (reads r isa true w)]) "")) \/
     (exists e, unique (fun e => In e errors16 /\ in_enc (e_enc e isa) w = true) e /\
        (forall r, In r table16 -> in_enc (r_acc r isa) w = false) /\
        evaluates p "u16.decode" [VInt U16 w; of_isa isa] ""
          (Done (VEnum "Result" "Err" [of_err (e_err e)]) ""))) /\
  (forall p x, platform_ok p -> 0 <= x < 2 ^ usize_bits p ->
     (x mod 4 = 3 -> x < 2 ^ 32 -> forall a,
        (evaluates p "Instruction.try_from" [VInt Usize x] "" a <->
         evaluates p "u32.decode" [VInt U32 x; of_isa Rv64] "" a)) /\
     (x mod 4 <> 3 -> x < 2 ^ 16 -> forall a,
        (evaluates p "Instruction.try_from" [VInt Usize x] "" a <->
         evaluates p "u16.decode" [VInt U16 x; of_isa Rv64] "" a)) /\
     (x mod 4 = 3 -> 2 ^ 32 <= x ->
        evaluates p "Instruction.try_from" [VInt Usize x] "" (Halt (Why PExpect))) /\
     (x mod 4 <> 3 -> 2 ^ 16 <= x ->
        evaluates p "Instruction.try_from" [VInt Usize x] "" (Halt (Why PExpect)))).
Proof.
  exact (conj SrcClaims.decode32_source (conj SrcClaims.decode16_source SrcClaims.try_from_source)).
Qed.
Print Assumptions C62_source_decodes.

(** bne t0, t1, -12 *)
Example C62_case :
  evaluates Text.plat "u32.decode" [VInt U32 0xFE629AE3; of_isa Rv32] ""
    (Done (VEnum "Result" "Ok" [of_inst
       {| opc := OBaseI I_BNE; rd := None; rs1 := Some 5; rs2 := Some 6; imm := Some (-12);
          inst_format := BFormat; is_compressed := false |}]) "").
Proof.
  exists SrcProg.crate. split; [exact SrcProg.crate_loads|]. intros fuel F.
  do 6 (destruct fuel as [|fuel]; [lia|]). vm_compute. reflexivity.
Qed.

(** ** C63 *)

(** As C41-C43, without the model. *)
Theorem C63_source_helpers :
  (forall p w hi lo, is_u32 w -> 0 <= lo < 2 ^ 32 -> 0 <= hi < 2 ^ 32 ->
     let call := evaluates p "u32.slice" [VInt U32 w; VInt U32 hi; VInt U32 lo] "" in
     (hi < lo -> call (Halt (Why PAssert))) /\
     (lo <= hi -> lo < 32 -> hi - lo < 31 -> exists v, call (Done (VInt U32 v) "") /\ bits_of v w hi lo) /\
     (lo <= hi -> ~ (lo < 32 /\ hi - lo < 31) -> overflow_checks p = true -> call (Halt (Why POverflow))) /\
     (lo <= hi -> hi - lo < 2 ^ 32 - 1 -> overflow_checks p = false ->
        exists v, call (Done (VInt U32 v) "") /\ bits_of v w (lo mod 32 + (hi - lo)) (lo mod 32)) /\
     (lo = 0 -> hi = 2 ^ 32 - 1 -> overflow_checks p = false -> call (Done (VInt U32 0) ""))) /\
  (forall p w hi lo, is_u16 w -> 0 <= lo < 2 ^ 32 -> 0 <= hi < 2 ^ 32 ->
     let call := evaluates p "u16.slice" [VInt U16 w; VInt U32 hi; VInt U32 lo] "" in
     (hi < lo -> call (Halt (Why PAssert))) /\
     (lo <= hi -> lo < 16 -> hi - lo < 15 -> exists v, call (Done (VInt U16 v) "") /\ bits_of v w hi lo) /\
     (lo <= hi -> ~ (lo < 16 /\ hi - lo < 15) -> overflow_checks p = true -> call (Halt (Why POverflow))) /\
     (lo <= hi -> hi - lo < 2 ^ 32 - 1 -> overflow_checks p = false ->
        exists v, call (Done (VInt U16 v) "") /\ bits_of v w (lo mod 16 + (hi - lo)) (lo mod 16)) /\
     (lo = 0 -> hi = 2 ^ 32 - 1 -> overflow_checks p = false -> call (Done (VInt U16 0) ""))) /\
  (forall p ty t w v n, ty = "u32"%string /\ t = U32 \/ ty = "u16"%string /\ t = U16 ->
     - 2 ^ 31 <= v < 2 ^ 31 -> 0 <= n < 2 ^ 32 ->
     let call := evaluates p (ty ++ ".to_signed_nbit")%string [VInt t w; VInt I32 v; VInt U32 n] "" in
     (1 <= n <= 30 -> exists r, call (Done (VInt I32 r) "") /\ signed_low_bits r v n) /\
     (~ 1 <= n <= 30 -> overflow_checks p = true -> call (Halt (Why POverflow))) /\
     (n = 31 \/ n = 32 -> overflow_checks p = false ->
        exists r, call (Done (VInt I32 r) "") /\ signed_low_bits r v n) /\
     (32 <= n -> overflow_checks p = false -> call (Done (VInt I32 v) "")) /\
     (n = 0 -> overflow_checks p = false -> call (Done (VInt I32 0) ""))) /\
  (forall p ty t w mask, ty = "u32"%string /\ t = U32 \/ ty = "u16"%string /\ t = U16 ->
     let call := evaluates p (ty ++ ".set")%string [VInt t w; VList (map (VInt U32) mask)] "" in
     (Z.of_nat (List.length mask) <= 32 -> Forall (fun m => 0 <= m < 32) mask ->
        exists r, call (Done (VInt U32 r) "") /\ scattered r w mask) /\
     (32 < Z.of_nat (List.length mask) \/ ~ Forall (fun m => 0 <= m < 32) mask -> overflow_checks p = true ->
        call (Halt (Why POverflow))) /\
     (Forall (fun m => 0 <= m) mask -> overflow_checks p = false ->
        exists r, call (Done (VInt U32 r) "") /\ scattered_mod32 r w mask)).
Proof.
  exact (conj SrcClaims.slice32_source (conj SrcClaims.slice16_source
    (conj SrcClaims.signed_source SrcClaims.set_source))).
Qed.
Print Assumptions C63_source_helpers.

Example C63_case :
  evaluates Text.plat "u32.slice" [VInt U32 0xDEADBEEF; VInt U32 27; VInt U32 20] "" (Done (VInt U32 0xEA) "") /\
  evaluates Text.plat "u16.set" [VInt U16 2; VList [VInt U32 2; VInt U32 6]] "" (Done (VInt U32 4) "").
Proof.
  split; (exists SrcProg.crate; split; [exact SrcProg.crate_loads|]; intros fuel F;
          do 6 (destruct fuel as [|fuel]; [lia|]); vm_compute; reflexivity).
Qed.

(** ** C64 *)

(** As C45 and C32, without the model. *)
Theorem C64_source_displays :
  (forall p v, has_type p "Instruction" v ->
     exists i, v = of_inst i /\
     (forall s, evaluates p "Instruction.fmt" [v; VFmt] "" (Done ok_unit s) <->
        exists t m rest, layout (inst_format i) (opc i) t /\
          evaluates p "OpcodeKind.fmt" [of_op (opc i); VFmt] "" (Done ok_unit m) /\
          s = (m ++ rest)%string /\ reads_as t i rest) /\
     ((exists w, evaluates p "Instruction.fmt" [v; VFmt] "" (Halt w)) <->
        (forall t, ~ layout (inst_format i) (opc i) t) \/
        exists t, layout (inst_format i) (opc i) t /\ lacks t i)) /\
  (forall p op,
     (odd_mnemonic op = None ->
        evaluates p "OpcodeKind.fmt" [of_op op; VFmt] "" (Done ok_unit (spelled op)) /\
        lower (spelled op) = mnemonic op) /\
     (forall s, odd_mnemonic op = Some s ->
        evaluates p "OpcodeKind.fmt" [of_op op; VFmt] "" (Done ok_unit s) /\ lower s <> mnemonic op)).
Proof. exact (conj SrcClaims.display_source SrcClaims.mnemonic_source). Qed.
Print Assumptions C64_source_displays.

Example C64_case :
  evaluates Text.plat "Instruction.fmt"
    [of_inst {| opc := OBaseI I_ADDI; rd := Some 5; rs1 := Some 5; rs2 := None; imm := Some (-276);
                inst_format := IFormat; is_compressed := false |}; VFmt] ""
    (Done ok_unit "addi t0, t0, -276").
Proof.
  exists SrcProg.crate. split; [exact SrcProg.crate_loads|]. intros fuel F.
  do 6 (destruct fuel as [|fuel]; [lia|]). vm_compute. reflexivity.
Qed.

(** ** C65 *)

(** On 16-bit targets [usize_try_from_test] does not compile: its literals do not fit [usize]. *)
Theorem C65_tests_pass : forall p key, usize_bits p = 32 \/ usize_bits p = 64 -> is_test key -> passes p key.
Proof. exact SrcClaims.tests_pass. Qed.
Print Assumptions C65_tests_pass.

Example C65_case : is_test "decode::c_extension::test_c::c_decode_test" /\ is_test "tests::inst_eq_test" /\
  exists P, load true SrcText.source = Some P /\ List.length (p_tests P) = 13%nat.
Proof.
  repeat split; (exists SrcProg.test_crate; split; [exact SrcProg.test_crate_loads|]);
    [vm_compute; tauto..|reflexivity].
Qed.

(** ** C66 *)

(** [numbers_ok p i]: the registers of [i] are numbers of type usize, its immediate of type i32. *)
Theorem C66_source_types :
  (forall p v,
     (has_type p "Isa" v <-> exists a, v = of_isa a) /\
     (has_type p "Extensions" v <-> exists a, v = of_ext a) /\
     (has_type p "DecodingError" v <-> exists a, v = of_err a) /\
     (has_type p "InstFormat" v <-> exists a, v = of_fmt a) /\
     (has_type p "BaseIOpcode" v <-> exists a, v = of_basei a) /\
     (has_type p "MOpcode" v <-> exists a, v = of_m a) /\
     (has_type p "AOpcode" v <-> exists a, v = of_a a) /\
     (has_type p "COpcode" v <-> exists a, v = of_c a) /\
     (has_type p "ZifenceiOpcode" v <-> exists a, v = of_zifencei a) /\
     (has_type p "ZicbozOpcode" v <-> exists a, v = of_zicboz a) /\
     (has_type p "ZicsrOpcode" v <-> exists a, v = of_zicsr a) /\
     (has_type p "ZicfissOpcode" v <-> exists a, v = of_zicfiss a) /\
     (has_type p "ZicntrOpcode" v <-> exists a, v = of_zicntr a) /\
     (has_type p "PrivOpcode" v <-> exists a, v = of_priv a) /\
     (has_type p "OpcodeKind" v <-> exists a, v = of_op a) /\
     (has_type p "Instruction" v <-> exists i, numbers_ok p i /\ v = of_inst i)) /\
  (forall i j, of_inst i = of_inst j -> i = j) /\
  (forall r, shows (of_result of_inst r) (decode_debug r)) /\
  (forall i j, (compares (of_inst i) (of_inst j) true <-> i = j) /\
               (compares (of_inst i) (of_inst j) false <-> i <> j)).
Proof.
  exact (conj SrcClaims.type_values (conj SrcClaims.of_inst_inj
    (conj SrcClaims.debug_source SrcClaims.equality_source))).
Qed.
Print Assumptions C66_source_types.

Example C66_case : ~ has_type Text.plat "Instruction" (VEnum "Option" "None" []) /\
  shows (of_err OnlyRv64Inst) (Leaf "OnlyRv64Inst").
Proof.
  split.
  - intros (P & L & H). specialize (H 5%nat ltac:(lia)). discriminate H.
  - exists SrcProg.crate. split; [exact SrcProg.crate_loads|]. intros fuel F.
    do 5 (destruct fuel as [|fuel]; [lia|]). reflexivity.
Qed.
