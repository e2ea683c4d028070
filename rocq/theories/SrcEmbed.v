(** The model's types as values of the evaluator. *)
From Coq Require Import ZArith List Bool String.
From Verif Require Import Rust Types Debug SrcSem.
Import ListNotations.
Local Open Scope string_scope.

(** The constructors of the model carry the variant names of the source, as [Debug] prints
    them. *)
Definition variant (t : string) (n : node) : value :=
  match n with Leaf s => VEnum t s [] | _ => VOpaque end.

Definition of_isa (i : Isa) : value :=
  match i with Rv32 => VEnum "Isa" "Rv32" [] | Rv64 => VEnum "Isa" "Rv64" [] end.
Definition of_ext (e : Extensions) : value :=
  VEnum "Extensions"
    match e with
    | EBaseI => "BaseI" | EM => "M" | EA => "A" | EC => "C" | EZifencei => "Zifencei"
    | EZicboz => "Zicboz" | EZicsr => "Zicsr" | EZicfiss => "Zicfiss" | EZicntr => "Zicntr"
    | EPriv => "Priv"
    end [].
Definition of_basei (o : BaseIOpcode) : value := variant "BaseIOpcode" (BaseIOpcode_debug o).
Definition of_m (o : MOpcode) : value := variant "MOpcode" (MOpcode_debug o).
Definition of_a (o : AOpcode) : value := variant "AOpcode" (AOpcode_debug o).
Definition of_c (o : COpcode) : value := variant "COpcode" (COpcode_debug o).
Definition of_zifencei (o : ZifenceiOpcode) : value :=
  variant "ZifenceiOpcode" (ZifenceiOpcode_debug o).
Definition of_zicboz (o : ZicbozOpcode) : value := variant "ZicbozOpcode" (ZicbozOpcode_debug o).
Definition of_zicsr (o : ZicsrOpcode) : value := variant "ZicsrOpcode" (ZicsrOpcode_debug o).
Definition of_zicfiss (o : ZicfissOpcode) : value :=
  variant "ZicfissOpcode" (ZicfissOpcode_debug o).
Definition of_zicntr (o : ZicntrOpcode) : value := variant "ZicntrOpcode" (ZicntrOpcode_debug o).
Definition of_priv (o : PrivOpcode) : value := variant "PrivOpcode" (PrivOpcode_debug o).
Definition of_fmt (f : InstFormat) : value := variant "InstFormat" (InstFormat_debug f).
Definition of_err (e : DecodingError) : value := variant "DecodingError" (DecodingError_debug e).

Definition of_op (o : OpcodeKind) : value :=
  match o with
  | OBaseI o => VEnum "OpcodeKind" "BaseI" [of_basei o]
  | OM o => VEnum "OpcodeKind" "M" [of_m o]
  | OA o => VEnum "OpcodeKind" "A" [of_a o]
  | OC o => VEnum "OpcodeKind" "C" [of_c o]
  | OZifencei o => VEnum "OpcodeKind" "Zifencei" [of_zifencei o]
  | OZicboz o => VEnum "OpcodeKind" "Zicboz" [of_zicboz o]
  | OZicsr o => VEnum "OpcodeKind" "Zicsr" [of_zicsr o]
  | OZicfiss o => VEnum "OpcodeKind" "Zicfiss" [of_zicfiss o]
  | OZicntr o => VEnum "OpcodeKind" "Zicntr" [of_zicntr o]
  | OPriv o => VEnum "OpcodeKind" "Priv" [of_priv o]
  end.

Definition of_option {A} (f : A -> value) (x : option A) : value :=
  match x with Some a => VEnum "Option" "Some" [f a] | None => VEnum "Option" "None" [] end.
Definition of_result {A} (f : A -> value) (r : result A DecodingError) : value :=
  match r with
  | Ok a => VEnum "Result" "Ok" [f a]
  | Err e => VEnum "Result" "Err" [of_err e]
  end.

Definition of_inst (i : Instruction) : value :=
  VStruct "Instruction"
    [("opc", of_op (opc i));
     ("rd", of_option (VInt Usize) (rd i));
     ("rs1", of_option (VInt Usize) (rs1 i));
     ("rs2", of_option (VInt Usize) (rs2 i));
     ("imm", of_option (VInt I32) (imm i));
     ("inst_format", of_fmt (inst_format i));
     ("is_compressed", VBool (is_compressed i))].

(** The outcome of a computation that writes nothing. *)
Definition gives {A} (f : A -> value) (o : string) (m : outcome A) : ans :=
  match m with Ret a => Done (f a) o | Panic w => Halt (Why w) end.

(** The outcome of a computation that writes a text. *)
Definition writes (o : string) (m : outcome string) : ans :=
  match m with Ret t => Done ok_unit (o ++ t) | Panic w => Halt (Why w) end.
