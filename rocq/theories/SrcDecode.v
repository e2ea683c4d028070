(** [Decode for u32], [Decode for u16] and [TryFrom<usize>], read from the source, do what
    Decode.v says. *)
From Coq Require Import ZArith List Bool String Lia.
From Verif Require Import Rust Types DecodeUtil Dec32 Dec16 Decode Debug SrcLink SrcSem SrcExt SrcProg
  SrcEmbed SrcUtil SrcDec32 SrcDec16.
Import ListNotations.
Local Open Scope Z_scope.
Local Open Scope string_scope.

Local Opaque callr calls_of.

(** ** Opening a call *)

Definition opened_in (P : program) (key : string) (vs : list value)
  : option (env * SrcAst.expr * option SrcAst.ty) :=
  match assoc key (p_fns P) with
  | Some f =>
      match bind_params (map (fun xt => (fst xt, Some (snd xt))) (SrcAst.f_params f)) vs [],
            SrcAst.f_body f with
      | Some s, Some e => Some (s, e, SrcAst.f_ret f)
      | _, _ => None
      end
  | None => None
  end.
Definition opened : string -> list value -> option (env * SrcAst.expr * option SrcAst.ty) := opened_in crate.

Definition finish (rt : option SrcAst.ty) (v : value) (o : string) : ans :=
  match coerce_opt rt v with Some v' => Done v' o | None => Wrong "result" end.

(** [c] answers as the program does. *)
Definition answers_in (P : program) (p : platform) (n : nat)
  (c : string -> list value -> string -> (value -> string -> ans) -> ans) : Prop :=
  forall key vs o k1 k2, (forall v o', k1 v o' = k2 v o') -> calls_of P p n key vs o k1 = c key vs o k2.
Definition answers : platform -> nat ->
  (string -> list value -> string -> (value -> string -> ans) -> ans) -> Prop := answers_in crate.

Lemma run_open_in P p n key vs o c s e rt : p_derives P = p_derives crate ->
  opened_in P key vs = Some (s, e, rt) -> answers_in P p n c ->
  run P p (S n) key vs o = ev p derives_eq c depth e s o (finish rt) (fun v _ o => finish rt v o).
Proof.
  unfold opened_in, derives_eq. intros D H A. cbn [run]. rewrite D.
  destruct (assoc key (p_fns P)) as [f|]; [|discriminate H].
  destruct (bind_params _ _ _); [|discriminate H]. destruct (SrcAst.f_body f); [|discriminate H].
  injection H as <- <- <-. apply ev_ext; [|reflexivity..]. exact A.
Qed.
Lemma run_open p n key vs o c s e rt : opened key vs = Some (s, e, rt) -> answers p n c ->
  run crate p (S n) key vs o = ev p derives_eq c depth e s o (finish rt) (fun v _ o => finish rt v o).
Proof. intros H A. exact (run_open_in crate p n key vs o c s e rt eq_refl H A). Qed.

Lemma answers_calls P p n : answers_in P p n (calls_of P p n).
Proof. intros key vs o k1 k2. apply calls_ext. Qed.
Lemma answers_callr p n : answers p n (callr p n).
Proof. exact (answers_calls crate p n). Qed.

Lemma question_result {A} (f : A -> value) r k fails :
  question (of_result f r) k fails = match r with Ok a => k (f a) | Err _ => fails end.
Proof. destruct r; reflexivity. Qed.

Lemma finish_err {A} (f : A -> value) t e o : finish (Some (SrcAst.TyPath ["Result"] t)) (of_result f (Err e)) o =
  Done (of_result f (Err e)) o.
Proof. unfold finish. cbn. destruct t; reflexivity. Qed.

(** Statements, one at a time. *)
Definition stmts_ev p d call n (tail : option SrcAst.expr) (s : env) kr (k : value -> env -> string -> ans) :=
  fix stmts (ss : list SrcAst.stmt) (s1 : env) (o1 : string) : ans :=
    match ss with
    | [] =>
        match tail with
        | Some a => ev p d call n a s1 o1 kr (fun v s2 o2 => k v (leave s s2) o2)
        | None => k VUnit (leave s s1) o1
        end
    | SrcAst.SLet x t a :: ss' =>
        ev p d call n a s1 o1 kr (fun v s2 o2 =>
          match coerce_opt t v with
          | Some v' => stmts ss' ((x, v') :: s2) o2
          | None => Wrong "let"
          end)
    | SrcAst.SExpr a :: ss' => ev p d call n a s1 o1 kr (fun _ s2 o2 => stmts ss' s2 o2)
    | SrcAst.SUse _ :: ss' => stmts ss' s1 o1
    end.

Lemma ev_stmts p d call n ss tail s o kr k :
  ev p d call (S n) (SrcAst.EBlock ss tail) s o kr k = stmts_ev p d call n tail s kr k ss s o.
Proof. reflexivity. Qed.

Lemma stmts_let p d call n tail s kr k x t a ss s1 o1 :
  stmts_ev p d call n tail s kr k (SrcAst.SLet x t a :: ss) s1 o1 =
  ev p d call n a s1 o1 kr (fun v s2 o2 =>
    match coerce_opt t v with
    | Some v' => stmts_ev p d call n tail s kr k ss ((x, v') :: s2) o2
    | None => Wrong "let"
    end).
Proof. reflexivity. Qed.

Lemma stmts_expr p d call n tail s kr k a ss s1 o1 :
  stmts_ev p d call n tail s kr k (SrcAst.SExpr a :: ss) s1 o1 =
  ev p d call n a s1 o1 kr (fun _ s2 o2 => stmts_ev p d call n tail s kr k ss s2 o2).
Proof. reflexivity. Qed.

Lemma stmts_end p d call n a s kr k s1 o1 :
  stmts_ev p d call n (Some a) s kr k [] s1 o1 =
  ev p d call n a s1 o1 kr (fun v s2 o2 => k v (leave s s2) o2).
Proof. reflexivity. Qed.

Ltac open_call :=
  erewrite run_open;
  [| lazy -[of_isa of_op of_basei of_m of_a of_c of_zifencei of_zicboz of_zicsr of_zicfiss of_zicntr
       of_priv of_fmt of_err]; reflexivity
   | ].

Ltac norm_call := etransitivity; [lazy -[callr calls_of question finish stmts_ev Z.eqb Z.land Z.ltb Z.pow usize_bits
  of_isa of_op of_basei of_m of_a of_c of_zifencei of_zicboz of_zicsr of_zicfiss of_zicntr
  of_priv of_fmt of_err gives parse_extension_u32 parse_extension_u16
  parse_opcode_u32 parse_rd_u32 parse_rs1_u32 parse_rs2_u32 parse_imm_u32
  parse_opcode_u16 parse_rd_u16 parse_rs1_u16 parse_rs2_u16 parse_imm_u16
  Types.get_format decode_u32 decode_u16]; reflexivity|].

(** ** [parse_extension] *)

Lemma counters (A : Type) (a b : A) z : (
  (if if 3072 <=? z then z <=? 3074 else false then a
   else if if 3200 <=? z then z <=? 3202 else false then a else b) =
  (if z =? 3072 then a else if z =? 3073 then a else if z =? 3074 then a
   else if z =? 3200 then a else if z =? 3201 then a else if z =? 3202 then a else b))%Z.
Proof.
  destruct (Z.leb_spec 3072 z), (Z.leb_spec z 3074), (Z.leb_spec 3200 z), (Z.leb_spec z 3202);
    repeat match goal with |- context [(z =? ?c)%Z] => destruct (Z.eqb_spec z c); try lia end; reflexivity.
Qed.

Lemma extension32_leaf c p w o :
  leaf c p "u32.parse_extension" [VInt U32 w] o =
  gives (of_result of_ext) o (parse_extension_u32 p w).
Proof. norm_body. outcomes. tests. rewrite counters. tests. Qed.
Lemma extension32_run p n w o :
  run crate p (S (S n)) "u32.parse_extension" [VInt U32 w] o =
  gives (of_result of_ext) o (parse_extension_u32 p w).
Proof. apply leaf_run; [reflexivity|]. intros c. apply extension32_leaf. Qed.

Lemma extension16_leaf c p w o :
  leaf c p "u16.parse_extension" [VInt U16 w] o =
  gives (of_result of_ext) o (parse_extension_u16 w).
Proof. norm_body. outcomes. tests. Qed.
Lemma extension16_run p n w o :
  run crate p (S (S n)) "u16.parse_extension" [VInt U16 w] o =
  gives (of_result of_ext) o (parse_extension_u16 w).
Proof. apply leaf_run; [reflexivity|]. intros c. apply extension16_leaf. Qed.

(** ** [parse_opcode] *)

(** The answers of [parse_extension], variant by variant. *)
Definition tell_ext (m : outcome (result Extensions DecodingError)) (o : string)
  (k : value -> string -> ans) : ans :=
  match m with
  | Ret (Ok EBaseI) => k (of_result of_ext (Ok EBaseI)) o
  | Ret (Ok EM) => k (of_result of_ext (Ok EM)) o
  | Ret (Ok EA) => k (of_result of_ext (Ok EA)) o
  | Ret (Ok EC) => k (of_result of_ext (Ok EC)) o
  | Ret (Ok EZifencei) => k (of_result of_ext (Ok EZifencei)) o
  | Ret (Ok EZicboz) => k (of_result of_ext (Ok EZicboz)) o
  | Ret (Ok EZicsr) => k (of_result of_ext (Ok EZicsr)) o
  | Ret (Ok EZicfiss) => k (of_result of_ext (Ok EZicfiss)) o
  | Ret (Ok EZicntr) => k (of_result of_ext (Ok EZicntr)) o
  | Ret (Ok EPriv) => k (of_result of_ext (Ok EPriv)) o
  | Ret (Err e) => k (of_result of_ext (Err e)) o
  | Panic w => Halt (Why w)
  end.

Definition with_ext (p : platform) (n : nat) (key : string) (vs : list value) (o : string)
  (k : value -> string -> ans) : ans :=
  match vs with
  | [VInt U32 w] =>
      if key =? "u32.parse_extension" then tell_ext (parse_extension_u32 p w) o k
      else callr p (S (S n)) key vs o k
  | [VInt U16 w] =>
      if key =? "u16.parse_extension" then tell_ext (parse_extension_u16 w) o k
      else callr p (S (S n)) key vs o k
  | _ => callr p (S (S n)) key vs o k
  end.

Lemma with_ext_ok p n : answers p (S (S n)) (with_ext p n).
Proof.
  intros key vs o k1 k2 H. rewrite (callr_ext p _ key vs o k1 k2 H). unfold with_ext.
  destruct vs as [|v [|]]; try reflexivity; destruct v as [t w| | | | | | | | | |]; try reflexivity;
    destruct t; try reflexivity;
    match goal with |- context [key =? ?c] => destruct (String.eqb_spec key c) as [->|] end;
    try reflexivity.
  - rewrite (callr_gives _ _ _ _ _ _ _ _ (extension16_run p n w o)).
    destruct (parse_extension_u16 w) as [[[]|]|]; reflexivity.
  - rewrite (callr_gives _ _ _ _ _ _ _ _ (extension32_run p n w o)).
    destruct (parse_extension_u32 p w) as [[[]|]|]; reflexivity.
Qed.

Ltac by_opcode H :=
  rewrite (callr_gives _ _ _ _ _ _ _ _ H);
  match goal with |- match ?m with Ret _ => _ | Panic _ => _ end = _ =>
    destruct m as [[]|]; reflexivity end.

Lemma opcode32_run p n w isa o :
  run crate p (S (S (S n))) "u32.parse_opcode" [VInt U32 w; of_isa isa] o =
  gives (of_result of_op) o (parse_opcode_u32 p w isa).
Proof.
  open_call; [|apply with_ext_ok]. norm_call. unfold parse_opcode_u32.
  destruct (parse_extension_u32 p w) as [[[]|]|]; try reflexivity.
  - by_opcode (basei_opcode_run p n w isa o).
  - by_opcode (m_opcode_run p n w isa o).
  - by_opcode (a_opcode_run p n w isa o).
  - by_opcode (zifencei_opcode_run p n w o).
  - by_opcode (zicboz_opcode_run p n w o).
  - by_opcode (zicsr_opcode_run p n w o).
  - by_opcode (zicfiss_opcode_run p n w o).
  - by_opcode (zicntr_opcode_run p n w o).
  - by_opcode (priv_opcode_run p n w o).
Qed.

Lemma opcode16_run p n w isa o :
  run crate p (S (S (S (S n)))) "u16.parse_opcode" [VInt U16 w; of_isa isa] o =
  gives (of_result of_op) o (parse_opcode_u16 p w isa).
Proof.
  open_call; [|apply with_ext_ok]. norm_call. unfold parse_opcode_u16.
  destruct (parse_extension_u16 w) as [[[]|]|]; try reflexivity.
  - by_opcode (c_opcode_run p n w isa o).
  - by_opcode (zicfiss16_opcode_run p (S n) w isa o).
Qed.

(** ** [parse_rd], [parse_rs1], [parse_rs2], [parse_imm] *)

Ltac operands := cbn [of_op]; open_call; [|apply answers_callr]; norm_call.
Ltac by_operand H :=
  rewrite (callr_gives _ _ _ _ _ _ _ _ H); unfold ok_of;
  match goal with |- match ?m with Ret _ => _ | Panic _ => _ end = _ =>
    destruct m as [[]|]; reflexivity end.

Lemma rd32_run p n w op o :
  run crate p (S (S (S n))) "u32.parse_rd" [VInt U32 w; of_op op] o =
  gives (of_result (of_option (VInt Usize))) o (parse_rd_u32 p w op).
Proof.
  destruct op as [b|b|b|b|b|b|b|b|b|b]; operands; unfold parse_rd_u32.
  - by_operand (basei_rd_run p n w b o).
  - by_operand (m_rd_run p n w b o).
  - by_operand (a_rd_run p n w b o).
  - reflexivity.
  - by_operand (zifencei_rd_run p n w b o).
  - by_operand (zicboz_rd_run p n w b o).
  - by_operand (zicsr_rd_run p n w b o).
  - by_operand (zicfiss_rd_run p n w b o).
  - by_operand (zicntr_rd_run p n w b o).
  - by_operand (priv_rd_run p n w b o).
Qed.

Lemma rs132_run p n w op o :
  run crate p (S (S (S n))) "u32.parse_rs1" [VInt U32 w; of_op op] o =
  gives (of_result (of_option (VInt Usize))) o (parse_rs1_u32 p w op).
Proof.
  destruct op as [b|b|b|b|b|b|b|b|b|b]; operands; unfold parse_rs1_u32.
  - by_operand (basei_rs1_run p n w b o).
  - by_operand (m_rs1_run p n w b o).
  - by_operand (a_rs1_run p n w b o).
  - reflexivity.
  - by_operand (zifencei_rs1_run p n w b o).
  - by_operand (zicboz_rs1_run p n w b o).
  - by_operand (zicsr_rs1_run p n w b o).
  - by_operand (zicfiss_rs1_run p n w b o).
  - by_operand (zicntr_rs1_run p n w b o).
  - by_operand (priv_rs1_run p n w b o).
Qed.

Lemma rs232_run p n w op o :
  run crate p (S (S (S n))) "u32.parse_rs2" [VInt U32 w; of_op op] o =
  gives (of_result (of_option (VInt Usize))) o (parse_rs2_u32 p w op).
Proof.
  destruct op as [b|b|b|b|b|b|b|b|b|b]; operands; unfold parse_rs2_u32.
  - by_operand (basei_rs2_run p n w b o).
  - by_operand (m_rs2_run p n w b o).
  - by_operand (a_rs2_run p n w b o).
  - reflexivity.
  - by_operand (zifencei_rs2_run p n w b o).
  - by_operand (zicboz_rs2_run p n w b o).
  - by_operand (zicsr_rs2_run p n w b o).
  - by_operand (zicfiss_rs2_run p n w b o).
  - by_operand (zicntr_rs2_run p n w b o).
  - by_operand (priv_rs2_run p n w b o).
Qed.

Lemma imm32_run p n w op isa o :
  run crate p (S (S (S n))) "u32.parse_imm" [VInt U32 w; of_op op; of_isa isa] o =
  gives (of_result (of_option (VInt I32))) o (parse_imm_u32 p w op isa).
Proof.
  destruct op as [b|b|b|b|b|b|b|b|b|b]; operands; unfold parse_imm_u32.
  - by_operand (basei_imm_run p n w b isa o).
  - by_operand (m_imm_run p n w b o).
  - by_operand (a_imm_run p n w b o).
  - reflexivity.
  - by_operand (zifencei_imm_run p n w b o).
  - by_operand (zicboz_imm_run p n w b o).
  - by_operand (zicsr_imm_run p n w b o).
  - by_operand (zicfiss_imm_run p n w b o).
  - by_operand (zicntr_imm_run p n w b o).
  - by_operand (priv_imm_run p n w b o).
Qed.

Lemma rd16_run p n w op o :
  run crate p (S (S (S n))) "u16.parse_rd" [VInt U16 w; of_op op] o =
  gives (of_result (of_option (VInt Usize))) o (parse_rd_u16 p w op).
Proof.
  destruct op as [b|b|b|b|b|b|b|b|b|b]; operands; unfold parse_rd_u16.
  - reflexivity.
  - reflexivity.
  - reflexivity.
  - by_operand (c_rd_run p n w b o).
  - reflexivity.
  - reflexivity.
  - reflexivity.
  - by_operand (zicfiss16_rd_run p n w b o).
  - reflexivity.
  - reflexivity.
Qed.

Lemma rs116_run p n w op o :
  run crate p (S (S (S n))) "u16.parse_rs1" [VInt U16 w; of_op op] o =
  gives (of_result (of_option (VInt Usize))) o (parse_rs1_u16 p w op).
Proof.
  destruct op as [b|b|b|b|b|b|b|b|b|b]; operands; unfold parse_rs1_u16.
  - reflexivity.
  - reflexivity.
  - reflexivity.
  - by_operand (c_rs1_run p n w b o).
  - reflexivity.
  - reflexivity.
  - reflexivity.
  - by_operand (zicfiss16_rs1_run p n w b o).
  - reflexivity.
  - reflexivity.
Qed.

Lemma rs216_run p n w op o :
  run crate p (S (S (S n))) "u16.parse_rs2" [VInt U16 w; of_op op] o =
  gives (of_result (of_option (VInt Usize))) o (parse_rs2_u16 p w op).
Proof.
  destruct op as [b|b|b|b|b|b|b|b|b|b]; operands; unfold parse_rs2_u16.
  - reflexivity.
  - reflexivity.
  - reflexivity.
  - by_operand (c_rs2_run p n w b o).
  - reflexivity.
  - reflexivity.
  - reflexivity.
  - by_operand (zicfiss16_rs2_run p n w b o).
  - reflexivity.
  - reflexivity.
Qed.

Lemma imm16_run p n w op isa o :
  run crate p (S (S (S n))) "u16.parse_imm" [VInt U16 w; of_op op; of_isa isa] o =
  gives (of_result (of_option (VInt I32))) o (parse_imm_u16 p w op isa).
Proof.
  destruct op as [b|b|b|b|b|b|b|b|b|b]; operands; unfold parse_imm_u16.
  - reflexivity.
  - reflexivity.
  - reflexivity.
  - by_operand (c_imm_run p n w b o).
  - reflexivity.
  - reflexivity.
  - reflexivity.
  - by_operand (zicfiss16_imm_run p n w b o).
  - reflexivity.
  - reflexivity.
Qed.

(** ** [get_format] *)

Lemma format_run p n op o :
  run crate p (S (S n)) "OpcodeKind.get_format" [of_op op] o = gives of_fmt o (Ret (get_format op)).
Proof. destruct op as [b|b|b|b|b|b|b|b|b|b]; destruct b; reflexivity. Qed.

(** ** [decode] *)

Ltac next_stmt := first [rewrite stmts_let | rewrite stmts_expr | rewrite stmts_end];
  etransitivity; [lazy -[callr calls_of question stmts_ev finish coerce_opt of_option Z.eqb
  of_op of_isa of_basei of_m of_a of_c of_zifencei of_zicboz of_zicsr of_zicfiss of_zicntr
  of_priv of_fmt of_err get_format]; reflexivity|].

Lemma let_opc op : coerce_opt (Some (SrcAst.TyPath ["OpcodeKind"] [])) (of_op op) = Some (of_op op).
Proof. reflexivity. Qed.
Lemma let_reg r :
  coerce_opt (Some (SrcAst.TyPath ["Option"] [SrcAst.TyPath ["usize"] []])) (of_option (VInt Usize) r) =
  Some (of_option (VInt Usize) r).
Proof. destruct r; reflexivity. Qed.
Lemma let_imm r :
  coerce_opt (Some (SrcAst.TyPath ["Option"] [SrcAst.TyPath ["i32"] []])) (of_option (VInt I32) r) =
  Some (of_option (VInt I32) r).
Proof. destruct r; reflexivity. Qed.
Lemma let_any v : coerce_opt None v = Some v.
Proof. reflexivity. Qed.
Lemma let_fmt f : coerce_opt (Some (SrcAst.TyPath ["InstFormat"] [])) (of_fmt f) = Some (of_fmt f).
Proof. reflexivity. Qed.

Lemma method_format p c op o k :
  method p c (of_op op) "get_format" [] o k = c "OpcodeKind.get_format" [of_op op] o k.
Proof. destruct op; reflexivity. Qed.

Tactic Notation "answered" constr(H) ident(x) :=
  rewrite (callr_gives _ _ _ _ _ _ _ _ H); cbv beta;
  match goal with |- match ?m with Ret _ => _ | Panic _ => _ end = _ =>
    destruct m as [[x|?]|?]; [|reflexivity..] end;
  rewrite question_result; cbn [bind try];
  first [rewrite let_opc | rewrite let_reg | rewrite let_imm | rewrite let_any]; cbv beta iota.

Ltac the_format :=
  rewrite stmts_let;
  etransitivity; [lazy -[callr calls_of method stmts_ev finish coerce_opt of_option
    of_op of_isa of_fmt get_format]; reflexivity|];
  rewrite method_format, (callr_gives _ _ _ _ _ _ _ _ (format_run _ _ _ _)), let_fmt; cbv beta iota.

Lemma decode32_run p n w isa o :
  run crate p (S (S (S (S n)))) "u32.decode" [VInt U32 w; of_isa isa] o =
  gives (of_result of_inst) o (decode_u32 p w isa).
Proof.
  open_call; [|apply answers_callr]. change depth with (S 99). rewrite ev_stmts.
  next_stmt. unfold decode_u32. answered (opcode32_run p n w isa o) op.
  next_stmt. answered (rd32_run p n w op o) r0.
  next_stmt. answered (rs132_run p n w op o) r1.
  next_stmt. answered (rs232_run p n w op o) r2.
  next_stmt. answered (imm32_run p n w op isa o) i.
  the_format. next_stmt. reflexivity.
Qed.

Lemma decode16_run p n w isa o :
  run crate p (S (S (S (S (S n))))) "u16.decode" [VInt U16 w; of_isa isa] o =
  gives (of_result of_inst) o (decode_u16 p w isa).
Proof.
  open_call; [|apply answers_callr]. change depth with (S 99). rewrite ev_stmts.
  next_stmt. unfold decode_u16. destruct (w =? 0)%Z; [reflexivity|].
  next_stmt. answered (opcode16_run p n w isa o) op.
  next_stmt. answered (rd16_run p (S n) w op o) r0.
  next_stmt. answered (rs116_run p (S n) w op o) r1.
  next_stmt. answered (rs216_run p (S n) w op o) r2.
  next_stmt. answered (imm16_run p (S n) w op isa o) i.
  the_format. next_stmt. reflexivity.
Qed.

(** ** [try_from] *)

Lemma try_from_run p n w o :
  run crate p (S (S (S (S (S (S n)))))) "Instruction.try_from" [VInt Usize w] o =
  gives (of_result of_inst) o (try_from_usize p w).
Proof.
  open_call; [|apply answers_callr]. norm_call. unfold try_from_usize, try_from_expect.
  destruct (Z.land w 3 =? 3)%Z.
  - destruct (w <? 2 ^ 32)%Z; [|reflexivity].
    rewrite (callr_gives _ _ _ _ _ _ _ _ (decode32_run p (S n) w Rv64 o)). cbn [bind].
    destruct (decode_u32 p w Rv64) as [[]|]; reflexivity.
  - destruct (w <? 2 ^ 16)%Z; [|reflexivity].
    rewrite (callr_gives _ _ _ _ _ _ _ _ (decode16_run p n w Rv64 o)). cbn [bind].
    destruct (decode_u16 p w Rv64) as [[]|]; reflexivity.
Qed.
