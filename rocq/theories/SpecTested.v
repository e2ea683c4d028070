(** What the tests of /repo/src come to.  See SpecReach.v for branches and traps. *)
From Coq Require Import ZArith List Bool String.
From Verif Require Import Rust SrcAst SrcNames SrcLink SpecReach.
Import ListNotations.
Local Open Scope string_scope.
Local Open Scope nat_scope.

(** The branches that some [#[test]] function comes to, function by function. *)
Definition tested_in : list (string * list nat) :=
  [
    ("decode::only_rv64", [0; 2]);
    ("u32.parse_opcode", [0; 1; 2; 3; 4; 5; 6; 7; 8; 9]);
    ("u32.parse_rd", [0; 1; 2; 3; 4; 5; 6; 7; 8; 9]);
    ("u32.parse_rs1", [0; 1; 2; 3; 4; 5; 6; 7; 8; 9]);
    ("u32.parse_rs2", [0; 1; 2; 3; 4; 5; 6; 7; 8; 9]);
    ("u32.parse_imm", [0; 1; 2; 3; 4; 5; 6; 7; 8; 9]);
    ("u32.slice", [0]);
    ("u32.parse_extension", [0; 1; 2; 3; 5; 6; 7; 9; 10; 11; 16; 17; 18; 19; 20; 21; 22; 23; 24; 25]);
    ("decode::a_extension::bit_32::parse_opcode", [0; 1; 2; 6; 15; 16; 21]);
    ("decode::a_extension::bit_32::parse_rd", [0; 1]);
    ("decode::a_extension::bit_32::parse_rs1", [0; 1]);
    ("decode::a_extension::bit_32::parse_rs2", [0; 1; 2]);
    ("decode::a_extension::bit_32::parse_imm", [0; 1; 2]);
    ("u32.set", [0; 1]);
    ("u32.to_signed_nbit", [0; 1; 2]);
    ("decode::base_i::bit_32::parse_opcode", [
       0; 1; 2; 3; 5; 6; 8; 10; 13; 17; 22; 23; 28; 29; 39; 52; 53; 55; 59; 68; 69; 70; 71; 95]);
    ("decode::base_i::bit_32::parse_rd", [0; 1; 2]);
    ("decode::base_i::bit_32::parse_rs1", [0; 1; 2]);
    ("decode::base_i::bit_32::parse_rs2", [0; 1; 2]);
    ("decode::base_i::bit_32::parse_imm", [0; 1; 2; 3; 4; 5; 8; 9; 10; 11; 12; 17]);
    ("u16.parse_opcode", [0; 1; 2]);
    ("u16.parse_rd", [0; 1; 2]);
    ("u16.parse_rs1", [0; 1; 2]);
    ("u16.parse_rs2", [0; 1; 2]);
    ("u16.parse_imm", [0; 1; 2]);
    ("u16.slice", [0]);
    ("u16.parse_extension", [0; 1; 2]);
    ("u16.set", [0; 1]);
    ("u16.to_signed_nbit", [0; 1; 2]);
    ("decode::c_extension::bit_16::quadrant0", [0; 4]);
    ("decode::c_extension::bit_16::quadrant1", [0; 1; 2; 7; 8; 9; 10; 11; 12; 13; 28; 30]);
    ("decode::c_extension::bit_16::quadrant2", [0; 4; 5; 6; 7; 8; 9]);
    ("decode::c_extension::bit_16::parse_opcode", [0; 2; 3; 4]);
    ("decode::c_extension::bit_16::parse_rd", [0; 2; 3; 4; 5]);
    ("decode::c_extension::bit_16::parse_rs1", [0; 1; 2; 3; 4; 5]);
    ("decode::c_extension::bit_16::parse_rs2", [0; 1; 3; 4]);
    ("decode::c_extension::bit_16::parse_imm", [0; 1; 4; 5; 6; 7; 8; 9; 10; 17; 19; 20; 21; 22; 23; 24; 25; 31]);
    ("decode::m_extension::bit_32::parse_opcode", [0; 1; 2; 7; 9]);
    ("decode::m_extension::bit_32::parse_rd", [0; 1]);
    ("decode::m_extension::bit_32::parse_rs1", [0; 1]);
    ("decode::m_extension::bit_32::parse_rs2", [0; 1]);
    ("decode::m_extension::bit_32::parse_imm", [0]);
    ("decode::priv_extension::bit_32::parse_opcode", [0; 1; 3]);
    ("decode::priv_extension::bit_32::parse_rd", [0]);
    ("decode::priv_extension::bit_32::parse_rs1", [0; 2]);
    ("decode::priv_extension::bit_32::parse_rs2", [0; 2]);
    ("decode::priv_extension::bit_32::parse_imm", [0]);
    ("decode::zicboz_extension::bit_32::parse_opcode", [0; 1; 2; 3; 4]);
    ("decode::zicboz_extension::bit_32::parse_rd", [0]);
    ("decode::zicboz_extension::bit_32::parse_rs1", [0; 1]);
    ("decode::zicboz_extension::bit_32::parse_rs2", [0]);
    ("decode::zicboz_extension::bit_32::parse_imm", [0]);
    ("decode::zicfiss_extension::bit_32::parse_opcode", [0; 1; 2; 3; 4; 6; 9; 10; 11]);
    ("decode::zicfiss_extension::bit_32::parse_rd", [0; 1; 2]);
    ("decode::zicfiss_extension::bit_32::parse_rs1", [0; 1; 2]);
    ("decode::zicfiss_extension::bit_32::parse_rs2", [0; 1; 2]);
    ("decode::zicfiss_extension::bit_32::parse_imm", [0; 1]);
    ("decode::zicfiss_extension::bit_16::parse_opcode", [0; 1; 2]);
    ("decode::zicfiss_extension::bit_16::parse_rd", [0; 1; 2]);
    ("decode::zicfiss_extension::bit_16::parse_rs1", [0]);
    ("decode::zicfiss_extension::bit_16::parse_rs2", [0]);
    ("decode::zicfiss_extension::bit_16::parse_imm", [0]);
    ("decode::zicntr_extension::bit_32::parse_opcode", [0; 1; 2; 4]);
    ("decode::zicntr_extension::bit_32::parse_rd", [0; 1]);
    ("decode::zicntr_extension::bit_32::parse_rs1", [0; 1]);
    ("decode::zicntr_extension::bit_32::parse_rs2", [0; 1]);
    ("decode::zicntr_extension::bit_32::parse_imm", [0; 1]);
    ("decode::zicsr_extension::bit_32::parse_opcode", [0; 1; 3; 4; 6]);
    ("decode::zicsr_extension::bit_32::parse_rd", [0; 1]);
    ("decode::zicsr_extension::bit_32::parse_rs1", [0; 1; 2]);
    ("decode::zicsr_extension::bit_32::parse_rs2", [0; 1]);
    ("decode::zicsr_extension::bit_32::parse_imm", [0; 1; 2]);
    ("decode::zifencei_extension::bit_32::parse_opcode", [0; 1]);
    ("decode::zifencei_extension::bit_32::parse_rd", [0; 1]);
    ("decode::zifencei_extension::bit_32::parse_rs1", [0; 1]);
    ("decode::zifencei_extension::bit_32::parse_rs2", [0; 1]);
    ("decode::zifencei_extension::bit_32::parse_imm", [0; 1]);
    ("Instruction.try_from", [0; 1; 2]);
    ("u16.decode", [0]);
    ("u32.decode", [0]);
    ("OpcodeKind.get_format", [0; 1; 4]);
    ("BaseIOpcode.get_format", [0; 6]);
    ("COpcode.get_format", [0; 11]) ].
Definition tested : list branch := flat_map (fun kl => map (pair (fst kl)) (snd kl)) tested_in.

(** The other branches of a program. *)
Definition untested (P : program) : list branch :=
  filter (fun b => negb (among tested (fst b) (snd b))) (branches P).

(** ** Other programs

    Two programs that are the same but for what they have in the branches [l]: with those replaced they are one. *)
Definition differ_in (l : list branch) (P Q : program) : Prop := trapped l P = trapped l Q.

(** No closure is written in an expression.  [fuel] bounds its depth, as it does for [with_traps]. *)
Definition maybe {A} (f : A -> bool) (o : option A) : bool := match o with Some a => f a | None => true end.
Fixpoint closure_free (fuel : nat) (e : expr) : bool :=
  match fuel with
  | O => true
  | S n =>
      let go := closure_free n in
      match e with
      | EClos _ _ => false
      | ECall f es => go f && forallb go es
      | EMeth a _ es => go a && forallb go es
      | EField a _ | ETry a | EDeref a | ERef a | ENeg a | EAs a _ | EMatches a _ | EAssign _ _ a => go a
      | EBin _ a b => go a && go b
      | EIf c t f => go c && (go t && maybe go f)
      | EMatch a arms => go a && forallb (fun r => go (snd r)) arms
      | EBlock ss t =>
          forallb (fun st => match st with SLet _ _ a | SExpr a => go a | SUse _ => true end) ss && maybe go t
      | EArr es | EMac _ es | EPrint _ es => forallb go es
      | EStruct _ fs | ERecord _ fs => forallb (fun f => go (snd f)) fs
      | EReturn a => maybe go a
      | EFor _ a b => go a && go b
      | EWrite f _ es => go f && forallb go es
      | ELit _ _ | EBool _ | EStr _ | EPath _ | EVar _ | EFn _ | EPrim _ _ | ECtor _ _ => true
      end
  end.

(** The functions that have branches in [l] are written without closures. *)
Definition without_closures (l : list branch) (P : program) : Prop :=
  forall key f e, In (key, f) (p_fns P) -> In key (map fst l) -> f_body f = Some e -> closure_free 100 e = true.

(** ** A wrong program

    [only_rv64] lets everything pass: its arm for 32-bit machines says [Ok(opcode)] as the other one does. *)
Definition lets_pass : expr :=
  EBlock [] (Some (EMatch (EVar "isa")
    [(PCtor "Isa" "Rv32" [], ECall (ECtor "Result" "Ok") [EVar "opcode"]);
     (PCtor "Isa" "Rv64" [], ECall (ECtor "Result" "Ok") [EVar "opcode"])])).
Definition put_body (key : string) (e : expr) (P : program) : program :=
  {| p_fns := map (fun kf => if String.eqb (fst kf) key
                             then (fst kf, {| f_name := f_name (snd kf); f_generics := f_generics (snd kf);
                                              f_params := f_params (snd kf); f_ret := f_ret (snd kf);
                                              f_body := Some e |})
                             else kf) (p_fns P);
     p_tests := p_tests P; p_derives := p_derives P; p_enums := p_enums P; p_structs := p_structs P |}.

(** The extension Zifencei takes every word that it is given for a [fence]. *)
Definition all_fences : expr :=
  EBlock [SLet "opmap" (Some (TyPath ["u8"] []))
            (EMeth (ECall (EPrim "u8" "try_from") [EMeth (EVar "inst") "slice" [ELit 6 ""; ELit 0 ""]]) "unwrap" [])]
    (Some (EMatch (EVar "opmap")
      [(PLit 15, ECall (ECtor "Result" "Ok") [ECtor "ZifenceiOpcode" "FENCE"]);
       (PWild, ECall (ECtor "Result" "Ok") [ECtor "ZifenceiOpcode" "FENCE"])])).
