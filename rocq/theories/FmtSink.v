(** [Display] with an arbitrary formatter: any options ([{:>8}], [{:#}], ..) and any sink, which may
    refuse what it is given.  Fmt.v gives the text only.

    The first part models what is used of core::fmt (not part of /repo). *)
From Coq Require Import ZArith List Bool String Ascii.
From Verif Require Import Rust Types Fmt.
Import ListNotations.
Local Open Scope Z_scope.
Local Open Scope string_scope.

(** ** core::fmt *)

(** The options of a [Formatter].  [fill] is one byte: characters outside ASCII are left out.
    [debug_hex] is set by [{:x?}] and [{:X?}]. *)
Inductive alignment := ALeft | ARight | ACenter.
Inductive hex_case := Lower | Upper.
Record options := {
  fill : ascii; align : option alignment; width : option Z; precision : option Z;
  sign_plus : bool; alternate : bool; zero_pad : bool; debug_hex : option hex_case
}.
(** [{}] *)
Definition plain : options :=
  {| fill := " "; align := None; width := None; precision := None;
     sign_plus := false; alternate := false; zero_pad := false; debug_hex := None |}.
(** [{:#}] *)
Definition hash : options :=
  {| fill := " "; align := None; width := None; precision := None;
     sign_plus := false; alternate := true; zero_pad := false; debug_hex := None |}.

(** [fmt::Write::write_str]: the state of the sink after the call and whether it returned [Ok]. *)
Definition sink (T : Type) : Type := T -> string -> T * bool.
(** Writing through a sink: its state at the end, and [Ok] or [Err], or a panic. *)
Definition writing (T : Type) : Type := T -> T * outcome bool.

Section WithSink.
Context {T : Type} (k : sink T).

Definition write_str (s : string) : writing T := fun t => let (t', ok) := k t s in (t', Ret ok).
Definition nothing_more : writing T := fun t => (t, Ret true).
(** [a?; b] *)
Definition then_ (a b : writing T) : writing T :=
  fun t => match a t with (t', Ret true) => b t' | r => r end.
Definition panicking (why : Rust.panic) : writing T := fun t => (t, Panic why).

Fixpoint repeated (n : nat) (a : writing T) : writing T :=
  match n with O => nothing_more | S n' => then_ a (repeated n' a) end.

(** [Formatter::padding] around [body], which is [n] characters wide. *)
Definition padded (o : options) (dflt : alignment) (n : Z) (body : writing T) : writing T :=
  match width o with
  | Some w =>
      if (n <? w)%Z then
        let missing := w - n in
        let before := match match align o with Some a => a | None => dflt end with
                      | ALeft => 0 | ARight => missing | ACenter => missing / 2 end in
        let c := write_str (String (fill o) "") in
        then_ (repeated (Z.to_nat before) c)
          (then_ body (repeated (Z.to_nat (missing - before)) c))
      else body
  | None => body
  end.

(** [Formatter::pad], which is [Display for str]. *)
Definition pad (s : string) (o : options) : writing T :=
  let s' := match precision o with Some m => substring 0 (Z.to_nat m) s | None => s end in
  padded o ALeft (Z.of_nat (String.length s')) (write_str s').

(** [Formatter::pad_integral] *)
Definition pad_integral (nonneg : bool) (prefix digits : string) (o : options) : writing T :=
  let sign := if negb nonneg then "-" else if sign_plus o then "+" else "" in
  let prefix' := if alternate o then prefix else "" in
  let n := Z.of_nat (String.length sign + String.length prefix' + String.length digits) in
  let lead := then_ (if (sign =? "")%string then nothing_more else write_str sign)
                    (if alternate o then write_str prefix else nothing_more) in
  if zero_pad o
  then then_ lead
         (padded {| fill := "0"; align := Some ARight; width := width o; precision := precision o;
                    sign_plus := sign_plus o; alternate := alternate o; zero_pad := true;
                    debug_hex := debug_hex o |}
                 ARight n (write_str digits))
  else padded o ARight n (then_ lead (write_str digits)).

(** An argument of [write!] with the options given for it, or text between arguments. *)
Inductive piece :=
| Lit (s : string)
| Arg (o : options) (fmt : options -> writing T).

(** [fmt::write], which is what [write!] calls; empty literals are not written. *)
Definition put (p : piece) : writing T :=
  match p with
  | Lit s => if (s =? "")%string then nothing_more else write_str s
  | Arg o fmt => fmt o
  end.
Definition write_fmt (ps : list piece) : writing T :=
  fold_right (fun p rest => then_ (put p) rest) nothing_more ps.

(** [Display for str], [Display for i32] and [usize], [LowerHex for i32] and [usize]. *)
Definition str_fmt (s : string) : options -> writing T := pad s.
Definition int_fmt (v : Z) : options -> writing T :=
  pad_integral (0 <=? v)%Z "" (unsigned_str 10 (Z.abs v)).
Definition hex_i32_fmt (v : Z) : options -> writing T := pad_integral true "0x" (hex_i32 v).
Definition hex_usize_fmt (v : Z) : options -> writing T := pad_integral true "0x" (hex_usize v).

(** ** The crate *)

(** src/instruction/base_i.rs:65-121, m_extension.rs:27-45, a_extension.rs:36-63,
    c_extension.rs:48-87, zifencei_extension.rs:13-19, zicboz_extension.rs:15-21,
    zicsr_extension.rs:18-29, zicfiss_extension.rs:26-38, zicntr_extension.rs:23-34,
    priv_extension.rs:16-25: every arm is [write!(f, "mnemonic")]. *)
Definition mnemonic_fmt (mnemonic : string) : options -> writing T := fun _ => write_fmt [Lit mnemonic].

(** src/instruction.rs:463-478: every arm is [write!(f, "{opc}")]. *)
Definition OpcodeKind_fmt (self : OpcodeKind) : options -> writing T :=
  fun _ =>
  match self with
  | OBaseI opc => write_fmt [Arg plain (mnemonic_fmt (BaseIOpcode_display opc))]
  | OM opc => write_fmt [Arg plain (mnemonic_fmt (MOpcode_display opc))]
  | OA opc => write_fmt [Arg plain (mnemonic_fmt (AOpcode_display opc))]
  | OC opc => write_fmt [Arg plain (mnemonic_fmt (COpcode_display opc))]
  | OZifencei opc => write_fmt [Arg plain (mnemonic_fmt (ZifenceiOpcode_display opc))]
  | OZicboz opc => write_fmt [Arg plain (mnemonic_fmt (ZicbozOpcode_display opc))]
  | OZicsr opc => write_fmt [Arg plain (mnemonic_fmt (ZicsrOpcode_display opc))]
  | OZicfiss opc => write_fmt [Arg plain (mnemonic_fmt (ZicfissOpcode_display opc))]
  | OZicntr opc => write_fmt [Arg plain (mnemonic_fmt (ZicntrOpcode_display opc))]
  | OPriv opc => write_fmt [Arg plain (mnemonic_fmt (PrivOpcode_display opc))]
  end.

(** [write!(f, ..)]: the arguments are evaluated first, then everything is written. *)
Definition write_ (ps : outcome (list piece)) : writing T :=
  match ps with Ret l => write_fmt l | Panic why => panicking why end.

(** src/instruction.rs:46-225 *)
Definition Instruction_fmt (self : Instruction) : options -> writing T :=
  fun _ =>
  let o := Arg plain (OpcodeKind_fmt (opc self)) in
  let str s := Arg plain (str_fmt s) in
  let int v := Arg plain (int_fmt v) in
  match inst_format self with
  | RFormat | MFormat => write_ (
      let! a := reg_arg (rd self) in
      let! b := reg_arg (rs1 self) in
      let! c := reg_arg (rs2 self) in
      Ret [o; Lit " "; str a; Lit ", "; str b; Lit ", "; str c])
  | AFormat =>
      match opc self with
      | OA A_LR_W | OA A_LR_D => write_ (
          let! a := reg_arg (rd self) in
          let! b := reg_arg (rs1 self) in
          Ret [o; Lit " "; str a; Lit ", "; str b])
      | _ => write_ (
          let! a := reg_arg (rd self) in
          let! b := reg_arg (rs1 self) in
          let! c := reg_arg (rs2 self) in
          Ret [o; Lit " "; str a; Lit ", "; str b; Lit ", "; str c])
      end
  | RShamtFormat => write_ (
      let! a := reg_arg (rd self) in
      let! b := reg_arg (rs1 self) in
      Ret [o; Lit " "; str a; Lit ", "; str b])
  | ClFormat | ALrFormat | IFormat => write_ (
      let! a := reg_arg (rd self) in
      let! b := reg_arg (rs1 self) in
      let! i := unwrap (imm self) in
      Ret [o; Lit " "; str a; Lit ", "; str b; Lit ", "; int i])
  | CsFormat | SFormat | BFormat => write_ (
      let! a := reg_arg (rs1 self) in
      let! i := unwrap (imm self) in
      let! b := reg_arg (rs2 self) in
      Ret [o; Lit " "; str a; Lit ", "; int i; Lit "("; str b; Lit ")"])
  | CiwFormat => write_ (
      let! a := reg_arg (rd self) in
      let! i := unwrap (imm self) in
      Ret [o; Lit " "; str a; Lit ", sp, "; Arg plain (hex_i32_fmt i)])
  | CssFormat => write_ (
      let! a := reg_arg (rs2 self) in
      let! i := unwrap (imm self) in
      Ret [o; Lit " "; str a; Lit ", "; int i; Lit "(sp)"])
  | UFormat | JFormat => write_ (
      let! a := reg_arg (rd self) in
      let! i := unwrap (imm self) in
      Ret [o; Lit " "; str a; Lit ", "; Arg hash (hex_i32_fmt i)])
  | CjFormat => write_ (
      let! i := unwrap (imm self) in
      Ret [o; Lit " "; int i])
  | CiFormat => write_ (
      let! a := reg_arg (rd self) in
      let! b := reg_arg (rd self) in
      let! i := unwrap (imm self) in
      Ret [o; Lit " "; str a; Lit ", "; str b; Lit ", "; int i])
  | CrFormat =>
      match opc self with
      | OC C_JR => write_ (
          let! a := reg_arg (rs1 self) in
          Ret [o; Lit " zero, 0("; str a; Lit ")"])
      | OC C_JALR => write_ (
          let! a := reg_arg (rs1 self) in
          Ret [o; Lit " ra, 0("; str a; Lit ")"])
      | OC C_MV => write_ (
          let! a := reg_arg (rd self) in
          let! b := reg_arg (rs2 self) in
          Ret [o; Lit " "; str a; Lit ", "; str b])
      | OC C_ADD => write_ (
          let! a := reg_arg (rd self) in
          let! b := reg_arg (rd self) in
          let! c := reg_arg (rs2 self) in
          Ret [o; Lit " "; str a; Lit ", "; str b; Lit ", "; str c])
      | _ => panicking PUnreachable
      end
  | CaFormat => write_ (
      let! a := reg_arg (rd self) in
      let! b := reg_arg (rd self) in
      let! c := reg_arg (rs2 self) in
      Ret [o; Lit " "; str a; Lit ", "; str b; Lit ", "; str c])
  | CbFormat => write_ (
      let! a := unwrap (rs1 self) in
      let! i := unwrap (imm self) in
      Ret [o; Lit " "; int a; Lit ", "; int i])
  | CsrFormat => write_ (
      let! a := reg_arg (rd self) in
      let! c := unwrap (rs2 self) in
      let! b := reg_arg (rs1 self) in
      Ret [o; Lit " "; str a; Lit ", "; Arg hash (hex_usize_fmt c); Lit ", "; str b])
  | CsrUiFormat => write_ (
      let! a := reg_arg (rd self) in
      let! c := unwrap (rs2 self) in
      let! i := unwrap (imm self) in
      Ret [o; Lit " "; str a; Lit ", "; int c; Lit ", "; int i])
  | OnlyRd => write_ (
      let! a := reg_arg (rd self) in
      Ret [o; Lit " "; str a])
  | OnlyRs1 => write_ (
      let! a := reg_arg (rs1 self) in
      Ret [o; Lit " "; str a])
  | OnlyRs2 => write_ (
      let! a := reg_arg (rs2 self) in
      Ret [o; Lit " "; str a])
  | NoOperand =>
      match opc self with
      | OBaseI I_ECALL | OBaseI I_EBREAK
      | OZifencei Fe_FENCE
      | OC C_NOP | OC C_EBREAK
      | OPriv P_MRET | OPriv P_SRET | OPriv P_WFI | OPriv P_SFENCE_VMA => write_ (Ret [o])
      | _ => panicking PUnreachable
      end
  end.

End WithSink.
