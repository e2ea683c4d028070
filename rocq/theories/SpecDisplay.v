(** Specification of the text of any [Instruction] value, decoded or not: [layout f op] are the
    operands printed for format [f] and opcode [op], [None] where there is no text. *)
From Coq Require Import ZArith List Bool String.
From Verif Require Import Types SpecText.
Import ListNotations.
Local Open Scope string_scope.
Local Open Scope Z_scope.

(** The opcodes that have a text in [NoOperand]. *)
Definition bare : list OpcodeKind :=
  [OBaseI I_ECALL; OBaseI I_EBREAK; OZifencei Fe_FENCE; OC C_NOP; OC C_EBREAK;
   OPriv P_MRET; OPriv P_SRET; OPriv P_WFI; OPriv P_SFENCE_VMA].

Inductive layout : InstFormat -> OpcodeKind -> list item -> Prop :=
| L_rrr f op : In f [RFormat; MFormat; AFormat] -> (f = AFormat -> op <> OA A_LR_W /\ op <> OA A_LR_D) ->
    layout f op [Lit " "; Reg ORd; Lit ", "; Reg ORs1; Lit ", "; Reg ORs2]
| L_rr f op : f = RShamtFormat \/ f = AFormat /\ (op = OA A_LR_W \/ op = OA A_LR_D) ->
    layout f op [Lit " "; Reg ORd; Lit ", "; Reg ORs1]
| L_rri f op : In f [IFormat; ClFormat; ALrFormat] -> layout f op rri
| L_mem f op : In f [SFormat; BFormat; CsFormat] ->
    layout f op [Lit " "; Reg ORs1; Lit ", "; Dec OImm; Lit "("; Reg ORs2; Lit ")"]
| L_sp op : layout CiwFormat op [Lit " "; Reg ORd; Lit ", sp, "; Hex OImm]
| L_mem_sp op : layout CssFormat op [Lit " "; Reg ORs2; Lit ", "; Dec OImm; Lit "(sp)"]
| L_upper f op : In f [UFormat; JFormat] -> layout f op [Lit " "; Reg ORd; Lit ", 0x"; Hex OImm]
| L_imm op : layout CjFormat op [Lit " "; Dec OImm]
| L_ddi op : layout CiFormat op [Lit " "; Reg ORd; Lit ", "; Reg ORd; Lit ", "; Dec OImm]
| L_jr : layout CrFormat (OC C_JR) [Lit " zero, 0("; Reg ORs1; Lit ")"]
| L_jalr : layout CrFormat (OC C_JALR) [Lit " ra, 0("; Reg ORs1; Lit ")"]
| L_mv : layout CrFormat (OC C_MV) [Lit " "; Reg ORd; Lit ", "; Reg ORs2]
| L_ddr f op : f = CaFormat \/ f = CrFormat /\ op = OC C_ADD -> layout f op rdr
| L_bare_ri op : layout CbFormat op [Lit " "; Dec ORs1; Lit ", "; Dec OImm]
| L_csr op : layout CsrFormat op [Lit " "; Reg ORd; Lit ", 0x"; Hex ORs2; Lit ", "; Reg ORs1]
| L_csri op : layout CsrUiFormat op [Lit " "; Reg ORd; Lit ", "; Dec ORs2; Lit ", "; Dec OImm]
| L_rd op : layout OnlyRd op [Lit " "; Reg ORd]
| L_rs1 op : layout OnlyRs1 op [Lit " "; Reg ORs1]
| L_rs2 op : layout OnlyRs2 op [Lit " "; Reg ORs2]
| L_none op : In op bare -> layout NoOperand op [].

(** The registers of a value of the Rust type are not negative. *)
Definition unsigned_registers (i : Instruction) : Prop :=
  forall o v, o <> OImm -> get o i = Some v -> 0 <= v.

(** An operand the text needs is missing, or is no register. *)
Definition lacks (t : list item) (i : Instruction) : Prop :=
  exists o, shown_in t o /\ (get o i = None \/ exists r, get o i = Some r /\ In (Reg o) t /\ 32 <= r).
