(** Branches of the text, and programs in which some of them are traps. *)
From Coq Require Import ZArith List Bool String.
From Verif Require Import Rust SrcAst SrcNames SrcLink SrcSem SpecMeaning.
From Verif Require Spec.
Import ListNotations.
Local Open Scope string_scope.

(** A branch: the body of a function, of a closure or of a loop, a side of an [if], an arm of a [match].
    The branches of a function are numbered in the order in which they stand in the text; its body is
    number 0.  A trap is a branch replaced by [panic!("reached")]. *)
Definition the_trap : expr := EMac "panic" [EStr "reached"].

(** Through a list, counting on. *)
Fixpoint through {A} (f : nat -> A -> nat * A) (i : nat) (l : list A) : nat * list A :=
  match l with
  | [] => (i, [])
  | a :: l' => let '(i1, b) := f i a in let '(i2, m) := through f i1 l' in (i2, b :: m)
  end.
Definition through_opt {A} (f : nat -> A -> nat * A) (i : nat) (o : option A) : nat * option A :=
  match o with None => (i, None) | Some a => let '(i1, b) := f i a in (i1, Some b) end.

Section traps.
(** The numbers of the branches to replace. *)
Variable which : nat -> bool.

(** [e], whose first branch is number [i]: the number of the first branch after [e], and [e] with the
    traps.  [fuel] bounds the depth of [e]. *)
Fixpoint with_traps (fuel : nat) (i : nat) (e : expr) : nat * expr :=
  match fuel with
  | O => (i, e)
  | S n =>
      let go := with_traps n in
      let branch i e := let '(j, e') := go (S i) e in (j, if which i then the_trap else e') in
      match e with
      | ECall f es => let '(i, f') := go i f in let '(i, es') := through go i es in (i, ECall f' es')
      | EMeth a m es => let '(i, a') := go i a in let '(i, es') := through go i es in (i, EMeth a' m es')
      | EField a f => let '(i, a') := go i a in (i, EField a' f)
      | ETry a => let '(i, a') := go i a in (i, ETry a')
      | EDeref a => let '(i, a') := go i a in (i, EDeref a')
      | ERef a => let '(i, a') := go i a in (i, ERef a')
      | ENeg a => let '(i, a') := go i a in (i, ENeg a')
      | EBin op a b => let '(i, a') := go i a in let '(i, b') := go i b in (i, EBin op a' b')
      | EAs a t => let '(i, a') := go i a in (i, EAs a' t)
      | EClos ps b => let '(i, b') := branch i b in (i, EClos ps b')
      | EIf c t f =>
          let '(i, c') := go i c in let '(i, t') := branch i t in
          let '(i, f') := through_opt branch i f in (i, EIf c' t' f')
      | EMatch a arms =>
          let '(i, a') := go i a in
          let '(i, arms') := through (fun i arm => let '(i, b) := branch i (snd arm) in (i, (fst arm, b))) i arms in
          (i, EMatch a' arms')
      | EBlock ss t =>
          let '(i, ss') := through (fun i st =>
            match st with
            | SLet x u a => let '(i, a') := go i a in (i, SLet x u a')
            | SExpr a => let '(i, a') := go i a in (i, SExpr a')
            | SUse us => (i, SUse us)
            end) i ss in
          let '(i, t') := through_opt go i t in (i, EBlock ss' t')
      | EArr es => let '(i, es') := through go i es in (i, EArr es')
      | EStruct x fs =>
          let '(i, fs') := through (fun i f => let '(i, a) := go i (snd f) in (i, (fst f, a))) i fs in
          (i, EStruct x fs')
      | ERecord t fs =>
          let '(i, fs') := through (fun i f => let '(i, a) := go i (snd f) in (i, (fst f, a))) i fs in
          (i, ERecord t fs')
      | EMac m es => let '(i, es') := through go i es in (i, EMac m es')
      | EMatches a q => let '(i, a') := go i a in (i, EMatches a' q)
      | EReturn a => let '(i, a') := through_opt go i a in (i, EReturn a')
      | EAssign op x a => let '(i, a') := go i a in (i, EAssign op x a')
      | EFor q a b => let '(i, a') := go i a in let '(i, b') := branch i b in (i, EFor q a' b')
      | EWrite f ps es => let '(i, f') := go i f in let '(i, es') := through go i es in (i, EWrite f' ps es')
      | EPrint ps es => let '(i, es') := through go i es in (i, EPrint ps es')
      | ELit _ _ | EBool _ | EStr _ | EPath _ | EVar _ | EFn _ | EPrim _ _ | ECtor _ _ => (i, e)
      end
  end.

Definition fn_with_traps (f : fn) : nat * fn :=
  match f_body f with
  | None => (0, f)
  | Some e =>
      let '(n, e') := with_traps 100 1 e in
      (n, {| f_name := f_name f; f_generics := f_generics f; f_params := f_params f; f_ret := f_ret f;
             f_body := Some (if which 0 then the_trap else e') |})
  end.
End traps.

(** The branches of a program. *)
Definition branch : Type := string * nat.
Definition branches (P : program) : list branch :=
  flat_map (fun kf => map (pair (fst kf)) (List.seq 0 (fst (fn_with_traps (fun _ => false) (snd kf))))) (p_fns P).

Definition among (l : list branch) (key : string) (i : nat) : bool :=
  existsb (fun b => String.eqb (fst b) key && Nat.eqb (snd b) i) l.

(** The program with the branches [l] replaced. *)
Definition trapped (l : list branch) (P : program) : program :=
  {| p_fns := map (fun kf => (fst kf, snd (fn_with_traps (among l (fst kf)) (snd kf)))) (p_fns P);
     p_tests := p_tests P; p_derives := p_derives P; p_enums := p_enums P; p_structs := p_structs P |}.

(** ** What the crate is for

    Decoding words, and writing what has been decoded and its opcode. *)
Inductive decoding (p : platform) : string -> list value -> Prop :=
| Decode_u32 w isa : Spec.is_u32 w -> In isa ["Rv32"; "Rv64"] ->
    decoding p "u32.decode" [VInt U32 w; VEnum "Isa" isa []]
| Decode_u16 w isa : Spec.is_u16 w -> In isa ["Rv32"; "Rv64"] ->
    decoding p "u16.decode" [VInt U16 w; VEnum "Isa" isa []]
| Decode_usize x : (0 <= x < 2 ^ usize_bits p)%Z -> decoding p "Instruction.try_from" [VInt Usize x].

(** [P] is the program that decodes. *)
Inductive use (P : program) (p : platform) : string -> list value -> Prop :=
| Use_decode key vs : decoding p key vs -> use P p key vs
| Use_text key vs i : decoding p key vs -> Calls P p key vs "" (Gives (VEnum "Result" "Ok" [i]) "") ->
    use P p "Instruction.fmt" [i; VFmt]
| Use_opcode key vs t fs op : decoding p key vs ->
    Calls P p key vs "" (Gives (VEnum "Result" "Ok" [VStruct t fs]) "") -> In ("opc", op) fs ->
    use P p "OpcodeKind.fmt" [op; VFmt].

(** The branches that neither decoding nor displaying what is decoded comes to.  Most are arms for [_]. *)
Local Open Scope nat_scope.
Definition unreached : list branch :=
  [ (* u16::parse_opcode and the other methods: an extension without 16-bit instructions *)
    ("u16.parse_opcode", 3); ("u16.parse_rd", 3); ("u16.parse_rs1", 3); ("u16.parse_rs2", 3); ("u16.parse_imm", 3);
    (* u32: the extension C *)
    ("u32.parse_opcode", 10); ("u32.parse_rd", 10); ("u32.parse_rs1", 10); ("u32.parse_rs2", 10);
    ("u32.parse_imm", 10);
    (* words that [parse_extension] gives to another extension, or to none *)
    ("decode::a_extension::bit_32::parse_opcode", 14); ("decode::a_extension::bit_32::parse_opcode", 27);
    ("decode::a_extension::bit_32::parse_opcode", 29);
    ("decode::base_i::bit_32::parse_opcode", 74); ("decode::base_i::bit_32::parse_opcode", 75);
    ("decode::base_i::bit_32::parse_opcode", 88); ("decode::base_i::bit_32::parse_opcode", 93);
    ("decode::m_extension::bit_32::parse_opcode", 18);
    ("decode::zicboz_extension::bit_32::parse_opcode", 7); ("decode::zicboz_extension::bit_32::parse_opcode", 8);
    ("decode::zicfiss_extension::bit_32::parse_opcode", 8); ("decode::zicfiss_extension::bit_32::parse_opcode", 13);
    ("decode::zicfiss_extension::bit_16::parse_opcode", 3);
    ("decode::zicntr_extension::bit_32::parse_opcode", 9); ("decode::zicntr_extension::bit_32::parse_opcode", 10);
    ("decode::zicntr_extension::bit_32::parse_opcode", 11);
    ("decode::zicsr_extension::bit_32::parse_opcode", 8); ("decode::zicsr_extension::bit_32::parse_opcode", 9);
    ("decode::zifencei_extension::bit_32::parse_opcode", 2);
    (* a field of 1, 2 or 3 bits with all its values named before *)
    ("decode::base_i::bit_32::parse_opcode", 51); ("decode::base_i::bit_32::parse_opcode", 67);
    ("decode::m_extension::bit_32::parse_opcode", 10);
    ("decode::c_extension::bit_16::quadrant1", 21); ("decode::c_extension::bit_16::quadrant1", 26);
    ("decode::c_extension::bit_16::quadrant1", 27); ("decode::c_extension::bit_16::quadrant1", 31);
    ("decode::c_extension::bit_16::quadrant2", 13);
    (* 0x0000, which [decode] has refused before *)
    ("decode::c_extension::bit_16::parse_opcode", 1);
    (* opcodes of the other length *)
    ("decode::zicfiss_extension::bit_32::parse_rd", 3); ("decode::zicfiss_extension::bit_32::parse_rs1", 4);
    ("decode::zicfiss_extension::bit_32::parse_rs2", 3); ("decode::zicfiss_extension::bit_32::parse_imm", 2);
    ("decode::zicfiss_extension::bit_16::parse_rd", 3);
    (* Display: CrFormat with an opcode other than c.jr, c.jalr, c.mv, c.add; a register above 31 *)
    ("Instruction.fmt", 18); ("instruction::reg2str", 33) ].
