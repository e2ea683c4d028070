(** Specification of the [Debug] text. *)
From Coq Require Import ZArith String List Bool Ascii.
From Verif Require Import Types SpecText.
Import ListNotations.
Local Open Scope string_scope.

(** The value of a field: a word, or a word in parentheses after a constructor. *)
Inductive value := Plain (s : string) | Wrapped (c s : string).
Definition option_value (x : value) (o : option Z) : Prop :=
  match o with
  | None => x = Plain "None"
  | Some v => exists n, x = Wrapped "Some" n /\ decimal n v
  end.

(** The variants of [OpcodeKind] have the names of the extensions. *)
Definition family (op : OpcodeKind) : string :=
  match op with
  | OBaseI _ => "BaseI" | OM _ => "M" | OA _ => "A" | OC _ => "C" | OZifencei _ => "Zifencei"
  | OZicboz _ => "Zicboz" | OZicsr _ => "Zicsr" | OZicfiss _ => "Zicfiss" | OZicntr _ => "Zicntr"
  | OPriv _ => "Priv"
  end.

(** An opcode is spelled as its mnemonic in capitals, with _ for the dot; without the "c." in [COpcode];
    with _H for the h of the upper halves of the counters. *)
Definition capital (c : ascii) : ascii :=
  let n := nat_of_ascii c in
  if (c =? ".")%char then "_"%char
  else if (97 <=? n)%nat && (n <=? 122)%nat then ascii_of_nat (n - 32) else c.
Fixpoint capitals (s : string) : string :=
  match s with EmptyString => "" | String c s' => String (capital c) (capitals s') end.
Definition spelling (op : OpcodeKind) : string :=
  match op with
  | OC _ => capitals (substring 2 20 (mnemonic op))
  | OZicntr Cnt_RDCYCLE_H => "RDCYCLE_H"
  | OZicntr Cnt_RDTIME_H => "RDTIME_H"
  | OZicntr Cnt_RDINSTRET_H => "RDINSTRET_H"
  | _ => capitals (mnemonic op)
  end.
Definition format_name (f : InstFormat) : string :=
  match f with
  | RFormat => "RFormat" | RShamtFormat => "RShamtFormat" | IFormat => "IFormat" | SFormat => "SFormat"
  | BFormat => "BFormat" | UFormat => "UFormat" | JFormat => "JFormat" | CrFormat => "CrFormat"
  | CiFormat => "CiFormat" | CssFormat => "CssFormat" | CiwFormat => "CiwFormat" | ClFormat => "ClFormat"
  | CsFormat => "CsFormat" | CaFormat => "CaFormat" | CbFormat => "CbFormat" | CjFormat => "CjFormat"
  | CsrFormat => "CsrFormat" | CsrUiFormat => "CsrUiFormat" | MFormat => "MFormat" | AFormat => "AFormat"
  | ALrFormat => "ALrFormat" | NoOperand => "NoOperand" | OnlyRd => "OnlyRd" | OnlyRs1 => "OnlyRs1"
  | OnlyRs2 => "OnlyRs2"
  end.
Definition error_name (e : DecodingError) : string :=
  match e with
  | Not16BitInst => "Not16BitInst" | Not32BitInst => "Not32BitInst" | InvalidFunct3 => "InvalidFunct3"
  | InvalidFunct5 => "InvalidFunct5" | InvalidFunct6 => "InvalidFunct6" | InvalidFunct7 => "InvalidFunct7"
  | InvalidOpcode => "InvalidOpcode" | UnknownExtension => "UnknownExtension"
  | IllegalInstruction => "IllegalInstruction" | OnlyRv64Inst => "OnlyRv64Inst"
  end.

(** The fields of an instruction, in order, with their values. *)
Definition fields (i : Instruction) (l : list (string * value)) : Prop :=
  exists d a b m,
    l = [("opc", Wrapped (family (opc i)) (spelling (opc i))); ("rd", d); ("rs1", a); ("rs2", b); ("imm", m);
         ("inst_format", Plain (format_name (inst_format i)));
         ("is_compressed", Plain (if is_compressed i then "true" else "false"))] /\
    option_value d (rd i) /\ option_value a (rs1 i) /\ option_value b (rs2 i) /\
    option_value m (imm i).

(** {:?}: all on one line. *)
Definition on_one_line (l : list (string * value)) : string :=
  "Instruction { " ++
  String.concat ", " (map (fun x => fst x ++ ": " ++
    match snd x with Plain s => s | Wrapped c s => c ++ "(" ++ s ++ ")" end) l) ++ " }".

(** {:#?}: the lines. *)
Definition further (l : list string) : list string := map (fun s => "    " ++ s) l.
Definition on_lines (l : list (string * value)) : list string :=
  "Instruction {" :: app (further (flat_map (fun x =>
    match snd x with
    | Plain s => [fst x ++ ": " ++ s ++ ","]
    | Wrapped c s => [fst x ++ ": " ++ c ++ "("; "    " ++ s ++ ","; "),"]
    end) l)) ["}"].
Definition text_of_lines (l : list string) : string := String.concat (String (ascii_of_nat 10) "") l.
(** A comma after the last line. *)
Fixpoint comma (l : list string) : list string :=
  match l with [] => [] | [s] => [s ++ ","] | s :: l' => s :: comma l' end.
