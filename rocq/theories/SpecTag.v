(** The documentation of the format tags: the examples in the comments of the variants of InstFormat
    (src/instruction.rs:266-429), read from the text. *)
From Coq Require Import ZArith List Bool String Ascii Strings.Byte.
From Verif Require Import Rust Types Spec SpecDebug SrcLine SrcText SrcSem SrcEmbed SrcModel SrcDoc SpecSource SpecText.
Import ListNotations.
Local Open Scope string_scope.

(** [l] without its last byte, a comma. *)
Fixpoint before_comma (l : list byte) : option (list byte) :=
  match l with
  | [] => None
  | [b] => if Byte.eqb b ","%byte then Some [] else None
  | b :: l' => option_map (cons b) (before_comma l')
  end.

(** Documented lines  [name,] : the name, and the lines of the fenced blocks of its comment. *)
Fixpoint documented_names (doc : list (list byte)) (ls : list line) : list (string * list (list byte)) :=
  match ls with
  | [] => []
  | l :: ls' =>
      match doc_text l with
      | Some b => documented_names (List.app doc [b]) ls'
      | None =>
          match before_comma (unindent (bytes_of l)), doc with
          | Some x, _ :: _ =>
              (string_of_list_byte x, flat_map (fun e => map bytes_of (ex_text e)) (fences None doc))
              :: documented_names [] ls'
          | _, _ => documented_names [] ls'
          end
      end
  end.

Definition tag_docs : list (string * list (list byte)) := documented_names [] instruction_rs.

(** An example as a template: a word, then text with the names of operands in it. *)
Definition in_name (c : ascii) : bool :=
  let n := N_of_ascii c in
  ((97 <=? n) && (n <=? 122) || (48 <=? n) && (n <=? 57))%N.
Fixpoint span (f : ascii -> bool) (s : string) : string * string :=
  match s with
  | String c s' => if f c then let (a, b) := span f s' in (String c a, b) else ("", s)
  | EmptyString => ("", "")
  end.

Definition named_operand (x : string) : item :=
  if x =? "rd" then Reg ORd
  else if x =? "rs1" then Reg ORs1
  else if x =? "rs2" then Reg ORs2
  else if x =? "csr" then Num ORs2
  else if (x =? "imm") || (x =? "nzimm") || (x =? "nzuimm") || (x =? "shamt") then Num OImm
  else if x =? "x2" then Lit "sp"
  else Lit x.

Fixpoint items (fuel : nat) (s : string) : list item :=
  match fuel, s with
  | O, _ | _, EmptyString => []
  | S n, String c _ =>
      if in_name c then let (a, b) := span in_name s in named_operand a :: items n b
      else let (a, b) := span (fun c => negb (in_name c)) s in Lit a :: items n b
  end.

(** Adjacent texts as one. *)
Fixpoint joined (t : list item) : list item :=
  match t with
  | Lit a :: t' => match joined t' with Lit b :: u => Lit (a ++ b) :: u | u => Lit a :: u end
  | it :: t' => it :: joined t'
  | [] => []
  end.

(** A line  -> ..  says what the line before stands for; it is no example of its own. *)
Definition template (l : list byte) : option (string * list item) :=
  if starts "->" l then None
  else let s := string_of_list_byte l in
    let (m, r) := span (fun c => negb (Ascii.eqb c " ")) s in
    Some (m, joined (items (String.length r) r)).

(** [l] is an example in the documentation of [f]: the mnemonic [m] with operands [t]. *)
Definition documents (f : InstFormat) (m : string) (t : list item) : Prop :=
  exists ls l, In (format_name f, ls) tag_docs /\ In l ls /\ template l = Some (m, t).

(** [i] is the result of decoding some word. *)
Definition decodes_to (i : Instruction) : Prop :=
  exists p isa w, platform_ok p /\
    (is_u32 w /\ evaluates p "u32.decode" [VInt U32 w; of_isa isa] "" (Done (VEnum "Result" "Ok" [of_inst i]) "") \/
     is_u16 w /\ evaluates p "u16.decode" [VInt U16 w; of_isa isa] "" (Done (VEnum "Result" "Ok" [of_inst i]) "")).

(** The opcode [op] is displayed as [m], up to case. *)
Definition shown_as (op : OpcodeKind) (m : string) : Prop :=
  forall p, exists s, evaluates p "OpcodeKind.fmt" [of_op op; VFmt] "" (Done ok_unit s) /\ lower s = m.

(** [i] is displayed as the template says. *)
Definition follows (m : string) (t : list item) (i : Instruction) : Prop :=
  exists s rest, lower s = m /\ reads_as t i rest /\
    forall p, evaluates p "Instruction.fmt" [of_inst i; VFmt] "" (Done ok_unit (s ++ rest)).

(** The examples that instructions are displayed as; and the two that are in the wrong place. *)
Definition followed : list string :=
  ["add"; "srai"; "lui"; "jal"; "c.mv"; "c.add"; "c.nop"; "c.addi"; "c.addi16sp"; "c.and"; "c.j"; "csrrw"; "csrrwi";
   "mul"; "ecall"; "wfi"; "mret"; "c.ebreak"; "rdtime"; "ssrdp"].
Definition misfiled : list (InstFormat * string) := [(CsrFormat, "csrrwi"); (CiFormat, "c.nop")].
