(** C77: the code in the branches of C74 and C75 may be any other; see SpecTested.v.
    [differ_in l P Q]: the programs [P] and [Q] are the same but for what they have in the branches [l]. *)
From Coq Require Import ZArith List Bool String.
From Verif Require Import Rust Types SrcText SrcLink SrcSem SrcEmbed SpecNames SpecMeaning SpecSource SpecReach SpecPublic SpecTested.
From Verif Require SrcAny Text.
Import ListNotations.
Local Open Scope Z_scope.
Local Open Scope string_scope.

(** Decoding, and writing what is decoded, does not depend on the unreached branches. *)
Theorem C77_unreached : forall P Q l p key vs o, stands_for false false source P -> platform_ok p -> use P p key vs ->
  List.incl l unreached -> differ_in l P Q -> without_closures l Q ->
  (exists r, Calls Q p key vs o r) /\ (forall r, Calls Q p key vs o r <-> Calls P p key vs o r).
Proof. exact SrcAny.unreached_any. Qed.
Print Assumptions C77_unreached.

(** No call from another crate depends on the dead ones. *)
Theorem C77_dead : forall P Q l p key vs o, stands_for false false source P -> platform_ok p ->
  In key public -> well_typed p key vs -> List.incl l dead -> differ_in l P Q -> without_closures l Q ->
  (exists r, Calls Q p key vs o r) /\ (forall r, Calls Q p key vs o r <-> Calls P p key vs o r).
Proof. exact SrcAny.dead_any. Qed.
Print Assumptions C77_dead.

(** Zifencei could take every word for a [fence]: [addi x0, x0, 0] is one for its [parse_opcode] then, and is decoded as
    before. *)
Example C77_case : exists P, stands_for false false source P /\
  let key := "decode::zifencei_extension::bit_32::parse_opcode" in
  let l := [(key, 2%nat)] in let Q := put_body key all_fences P in
  List.incl l dead /\ differ_in l P Q /\ without_closures l Q /\
  (forall r, Calls P Text.plat key [VInt U32 0x13] "" r <->
    r = Gives (VEnum "Result" "Err" [VEnum "DecodingError" "InvalidOpcode" []]) "") /\
  (forall r, Calls Q Text.plat key [VInt U32 0x13] "" r <->
    r = Gives (VEnum "Result" "Ok" [VEnum "ZifenceiOpcode" "FENCE" []]) "") /\
  (forall p w isa o, platform_ok p -> Spec.is_u32 w -> In isa ["Rv32"; "Rv64"] ->
    forall r, Calls Q p "u32.decode" [VInt U32 w; VEnum "Isa" isa []] o r <->
              Calls P p "u32.decode" [VInt U32 w; VEnum "Isa" isa []] o r).
Proof. exact SrcAny.any_case. Qed.
