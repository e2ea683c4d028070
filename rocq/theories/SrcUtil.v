(** The methods of [DecodeUtil] and [only_rv64], read from the source, do what the model says. *)
From Coq Require Import ZArith List Bool String.
From Verif Require Import Rust Types DecodeUtil SrcLink SrcSem SrcExt SrcProg SrcEmbed.
Import ListNotations.
Local Open Scope Z_scope.
Local Open Scope string_scope.

(** A call inside [P], with [n] more levels of calls allowed. *)
Definition calls_of (P : program) (p : platform) (n : nat) (key : string) (vs : list value) (o : string)
  (k : value -> string -> ans) : ans :=
  match run P p n key vs o with
  | Done v o' => k v o'
  | Halt w => Halt w
  | Wrong w => Wrong w
  end.
Definition callr : platform -> nat -> string -> list value -> string -> (value -> string -> ans) -> ans :=
  calls_of crate.

Definition derives_eq : list string :=
  map fst (filter (fun d => existsb (String.eqb "PartialEq") (snd d)) (p_derives crate)).

(** One call: the body, with [call] for the calls in it. *)
Definition frame (call : string -> list value -> string -> (value -> string -> ans) -> ans)
  (p : platform) (key : string) (vs : list value) (o : string) : ans :=
  match assoc key (p_fns crate) with
  | Some f =>
      match bind_params (map (fun xt => (fst xt, Some (snd xt))) (SrcAst.f_params f)) vs [],
            SrcAst.f_body f with
      | Some s, Some body =>
          let ret v o :=
            match coerce_opt (SrcAst.f_ret f) v with Some v' => Done v' o | None => Wrong "result" end in
          ev p derives_eq call depth body s o ret (fun v _ o => ret v o)
      | _, _ => Wrong "arguments"
      end
  | None => derived_fn crate key vs o
  end.
Definition step (p : platform) (n : nat) : string -> list value -> string -> ans := frame (callr p n) p.

Lemma run_step p n key vs o : run crate p (S n) key vs o = step p n key vs o.
Proof. unfold step, frame, derives_eq, callr, calls_of. generalize crate. intros c. reflexivity. Qed.

(** A program with the function [key] of the crate. *)
Definition shares (P : program) (key : string) : Prop :=
  is_some (assoc key (p_fns crate)) = true /\ assoc key (p_fns P) = assoc key (p_fns crate) /\
  p_derives P = p_derives crate.

Lemma shares_crate key : is_some (assoc key (p_fns crate)) = true -> shares crate key.
Proof. intros H. split; [exact H|]. split; reflexivity. Qed.

Lemma run_shared P p n key vs o : shares P key ->
  run P p (S n) key vs o = frame (calls_of P p n) p key vs o.
Proof.
  intros (K & F & D). cbn [run]. unfold frame, derives_eq, calls_of. rewrite F, D.
  destruct (assoc key (p_fns crate)); [reflexivity|discriminate K].
Qed.

Ltac norm := lazy -[callr calls_of shr shl_u ck_u ck_i32 as_i32 as_usize Z.land Z.lor Z.add Z.sub Z.pow
  Z.eqb Z.leb Z.ltb Z.geb Fmt.dec_str Fmt.hex_i32 Fmt.hex_usize write
  of_basei of_m of_a of_c of_zifencei of_zicboz of_zicsr of_zicfiss of_zicntr of_priv of_fmt of_err
  of_op usize_bits gives].


(** Both sides after evaluation branch on the same things. *)
Ltac branches :=
  repeat match goal with
  | |- context [if ?b then _ else _] => destruct b
  | |- context [match ?x with Ret _ => _ | Panic _ => _ end] => destruct x
  end; try reflexivity.

Lemma slice32_frame c p w a b o :
  frame c p "u32.slice" [VInt U32 w; VInt U32 a; VInt U32 b] o =
  gives (VInt U32) o (slice_u32 p w a b).
Proof. norm. branches. Qed.
Lemma slice32_run p n w a b o :
  run crate p (S n) "u32.slice" [VInt U32 w; VInt U32 a; VInt U32 b] o =
  gives (VInt U32) o (slice_u32 p w a b).
Proof. rewrite run_step. apply slice32_frame. Qed.

Lemma slice16_frame c p w a b o :
  frame c p "u16.slice" [VInt U16 w; VInt U32 a; VInt U32 b] o =
  gives (VInt U16) o (slice_u16 p w a b).
Proof. norm. branches. Qed.
Lemma slice16_run p n w a b o :
  run crate p (S n) "u16.slice" [VInt U16 w; VInt U32 a; VInt U32 b] o =
  gives (VInt U16) o (slice_u16 p w a b).
Proof. rewrite run_step. apply slice16_frame. Qed.

Lemma signed32_frame c p w v b o :
  frame c p "u32.to_signed_nbit" [VInt U32 w; VInt I32 v; VInt U32 b] o =
  gives (VInt I32) o (to_signed_nbit p v b).
Proof. norm. branches. Qed.
Lemma signed32_run p n w v b o :
  run crate p (S n) "u32.to_signed_nbit" [VInt U32 w; VInt I32 v; VInt U32 b] o =
  gives (VInt I32) o (to_signed_nbit p v b).
Proof. rewrite run_step. apply signed32_frame. Qed.

Lemma signed16_frame c p w v b o :
  frame c p "u16.to_signed_nbit" [VInt U16 w; VInt I32 v; VInt U32 b] o =
  gives (VInt I32) o (to_signed_nbit p v b).
Proof. norm. branches. Qed.
Lemma signed16_run p n w v b o :
  run crate p (S n) "u16.to_signed_nbit" [VInt U16 w; VInt I32 v; VInt U32 b] o =
  gives (VInt I32) o (to_signed_nbit p v b).
Proof. rewrite run_step. apply signed16_frame. Qed.


(** ** [set] *)

(** The statements in the loops of the two [set]. *)
Definition loop_body (key : string) : SrcAst.expr :=
  match assoc key (p_fns crate) with
  | Some f =>
      match SrcAst.f_body f with
      | Some (SrcAst.EBlock [_; SrcAst.SExpr (SrcAst.EFor _ _ e)] _) => e
      | _ => SrcAst.EBool false
      end
  | None => SrcAst.EBool false
  end.
Definition set_stmt32 : SrcAst.expr := Eval vm_compute in loop_body "u32.set".
Definition set_stmt16 : SrcAst.expr := Eval vm_compute in loop_body "u16.set".

Definition set_fn (t : string) (stmt : SrcAst.expr) : SrcAst.fn :=
  {| SrcAst.f_name := "set";
     SrcAst.f_generics := [];
     SrcAst.f_params :=
       [("self", SrcAst.TyPath [t] []);
        ("mask", SrcAst.TyRef (SrcAst.TySlice (SrcAst.TyPath ["u32"] [])))];
     SrcAst.f_ret := Some (SrcAst.TyPath ["u32"] []);
     SrcAst.f_body :=
       Some (SrcAst.EBlock
         [SrcAst.SLet "inst" (Some (SrcAst.TyPath ["u32"] [])) (SrcAst.ELit 0 "");
          SrcAst.SExpr (SrcAst.EFor (SrcAst.PTuple [SrcAst.PBind "i"; SrcAst.PBind "m"])
            (SrcAst.EMeth (SrcAst.EMeth (SrcAst.EMeth (SrcAst.EVar "mask") "iter" []) "rev" [])
               "enumerate" [])
            stmt)]
         (Some (SrcAst.EVar "inst"))) |}.

Lemma set32_fn : assoc "u32.set" (p_fns crate) = Some (set_fn "u32" set_stmt32).
Proof. reflexivity. Qed.
Lemma set16_fn : assoc "u16.set" (p_fns crate) = Some (set_fn "u16" set_stmt16).
Proof. reflexivity. Qed.

Lemma mask_fits n ms : mapo (coerce (S n) (SrcAst.TyPath ["u32"] [])) (map (VInt U32) ms) =
  Some (map (VInt U32) ms).
Proof. induction ms as [|m ms IH]; [reflexivity|]. cbn [map mapo]. rewrite IH. reflexivity. Qed.

(** A loop whose body does one round of [set_loop]. *)
Lemma each_set p w (en : Z -> env) body :
  (forall i m acc o next, body (VTuple [VInt Usize i; VInt U32 m]) (en acc) o next =
     seq (shr 32 p w i) (fun a => seq (shl_u 32 p (Z.land a 1) m) (fun b =>
       next (en (Z.lor acc b)) o))) ->
  forall ms i acc o k,
    each body (number_from i (map (VInt U32) ms)) (en acc) o k =
    seq (set_loop p w i ms acc) (fun z => k (en z) o).
Proof.
  intros H. induction ms as [|m ms IH]; intros i acc o k; [reflexivity|].
  cbn [map number_from each set_loop]. rewrite H.
  destruct (shr 32 p w i) as [a|why]; [|reflexivity]. cbn [seq bind].
  destruct (shl_u 32 p (Z.land a 1) m) as [b|why]; [|reflexivity]. cbn [seq bind]. apply IH.
Qed.

Lemma ev_block p d call n x t a b c s o kr k :
  ev p d call (S n) (SrcAst.EBlock [SrcAst.SLet x t a; SrcAst.SExpr b] (Some c)) s o kr k =
  ev p d call n a s o kr (fun v s2 o2 =>
    match coerce_opt t v with
    | Some v' =>
        ev p d call n b ((x, v') :: s2) o2 kr (fun _ s3 o3 =>
          ev p d call n c s3 o3 kr (fun v4 s4 o4 => k v4 (leave s s4) o4))
    | None => Wrong "let"
    end).
Proof. reflexivity. Qed.

Lemma ev_for p d call n q a body s o kr k :
  ev p d call (S n) (SrcAst.EFor q a body) s o kr k =
  ev p d call n a s o kr (fun v s1 o1 =>
    match v with
    | VList l =>
        each
          (fun x s2 o2 next =>
             pmatch q x []
               (fun b => ev p d call n body (b ++ s2)%list o2 kr
                           (fun _ s3 o3 => next (leave s2 s3) o3))
               (fun _ => Wrong "for"))
          l s1 o1 (fun s2 o2 => k VUnit s2 o2)
    | _ => Wrong "for"
    end).
Proof. reflexivity. Qed.

Definition set_env (v : value) (l : list value) (acc : Z) : env :=
  [("inst", VInt U32 acc); ("mask", VList l); ("self", v)].

Lemma ev_enumerate p d call n v l acc o kr k :
  ev p d call (4 + n)
    (SrcAst.EMeth (SrcAst.EMeth (SrcAst.EMeth (SrcAst.EVar "mask") "iter" []) "rev" []) "enumerate" [])
    (set_env v l acc) o kr k =
  k (VList (number_from 0 (rev l))) (set_env v l acc) o.
Proof. reflexivity. Qed.

Lemma set_fn_frame c p key t v w stmt ms o :
  assoc key (p_fns crate) = Some (set_fn t stmt) ->
  coerce_opt (Some (SrcAst.TyPath [t] [])) v = Some v ->
  (forall i m acc o kr next,
     ev p derives_eq c 98 stmt
       (("m", VInt U32 m) :: ("i", VInt Usize i) :: set_env v (map (VInt U32) ms) acc) o kr
       (fun _ s2 o2 => next (leave (set_env v (map (VInt U32) ms) acc) s2) o2) =
     seq (shr 32 p w i) (fun a => seq (shl_u 32 p (Z.land a 1) m) (fun b =>
       next (set_env v (map (VInt U32) ms) (Z.lor acc b)) o))) ->
  frame c p key [v; VList (map (VInt U32) ms)] o =
  gives (VInt U32) o (set_loop p w 0 (rev ms) 0).
Proof.
  intros F C H. unfold frame. rewrite F.
  cbn [set_fn SrcAst.f_params SrcAst.f_body SrcAst.f_ret map fst snd bind_params].
  rewrite C. cbn [coerce_opt].
  change (coerce 10 (SrcAst.TyRef (SrcAst.TySlice (SrcAst.TyPath ["u32"] []))) (VList (map (VInt U32) ms)))
    with (option_map VList (mapo (coerce 8 (SrcAst.TyPath ["u32"] [])) (map (VInt U32) ms))).
  rewrite mask_fits. cbn [option_map].
  change depth with (S 99). rewrite ev_block.
  match goal with |- ev ?p ?d ?c 99 (SrcAst.ELit 0 "") ?s ?o ?kr ?k = _ =>
    change (k (VInt Lit 0) s o = gives (VInt U32) o (set_loop p w 0 (rev ms) 0)) end.
  cbv beta. change (coerce_opt (Some (SrcAst.TyPath ["u32"] [])) (VInt Lit 0)) with (Some (VInt U32 0)).
  cbv iota beta. fold (set_env v (map (VInt U32) ms) 0).
  change 99%nat with (S 98). rewrite ev_for. change 98%nat with (4 + 94)%nat at 1.
  rewrite ev_enumerate. cbv iota beta. rewrite <- map_rev.
  rewrite (each_set p w (set_env v (map (VInt U32) ms))).
  - destruct (set_loop p w 0 (rev ms) 0); reflexivity.
  - intros i m acc o' next. apply H.
Qed.

Lemma set32_frame c p w ms o :
  frame c p "u32.set" [VInt U32 w; VList (map (VInt U32) ms)] o =
  gives (VInt U32) o (set_u32 p w ms).
Proof.
  apply (set_fn_frame c p "u32.set" "u32" (VInt U32 w) w set_stmt32 ms o set32_fn eq_refl).
  intros i m acc o' kr next. generalize (map (VInt U32) ms). intros l. norm. branches.
Qed.
Lemma set32_run p n w ms o :
  run crate p (S n) "u32.set" [VInt U32 w; VList (map (VInt U32) ms)] o =
  gives (VInt U32) o (set_u32 p w ms).
Proof. rewrite run_step. apply set32_frame. Qed.

Lemma set16_frame c p w ms o :
  frame c p "u16.set" [VInt U16 w; VList (map (VInt U32) ms)] o =
  gives (VInt U32) o (set_u16 p w ms).
Proof.
  apply (set_fn_frame c p "u16.set" "u16" (VInt U16 w) w set_stmt16 ms o set16_fn eq_refl).
  intros i m acc o' kr next. generalize (map (VInt U32) ms). intros l. norm. branches.
Qed.
Lemma set16_run p n w ms o :
  run crate p (S n) "u16.set" [VInt U16 w; VList (map (VInt U32) ms)] o =
  gives (VInt U32) o (set_u16 p w ms).
Proof. rewrite run_step. apply set16_frame. Qed.

(** ** Calls with literals *)

Lemma lit_u32 a : literal_fits U32 a = true ->
  coerce 10 (SrcAst.TyPath ["u32"] []) (VInt Lit a) = Some (VInt U32 a).
Proof. intros H. cbn -[literal_fits]. rewrite H. reflexivity. Qed.

Lemma calls_gives {A} P (f : A -> value) p n key vs o k m :
  run P p n key vs o = gives f o m ->
  calls_of P p n key vs o k = match m with Ret a => k (f a) o | Panic w => Halt (Why w) end.
Proof. unfold calls_of. intros ->. destruct m; reflexivity. Qed.
Lemma callr_gives {A} (f : A -> value) p n key vs o k m :
  run crate p n key vs o = gives f o m ->
  callr p n key vs o k = match m with Ret a => k (f a) o | Panic w => Halt (Why w) end.
Proof. exact (calls_gives crate f p n key vs o k m). Qed.

(** Arguments that are bound alike. *)
Lemma frame_args c p key vs vs' o :
  is_some (assoc key (p_fns crate)) = true ->
  (forall f, assoc key (p_fns crate) = Some f ->
     bind_params (map (fun xt => (fst xt, Some (snd xt))) (SrcAst.f_params f)) vs [] =
     bind_params (map (fun xt => (fst xt, Some (snd xt))) (SrcAst.f_params f)) vs' []) ->
  frame c p key vs o = frame c p key vs' o.
Proof.
  intros K H. unfold frame.
  destruct (assoc key (p_fns crate)) as [f|]; [|discriminate K]. rewrite (H f eq_refl). reflexivity.
Qed.

Ltac same_args := apply frame_args; [vm_compute; reflexivity|]; let f := fresh "f" in let F := fresh "F" in
  intros f F; vm_compute in F; injection F as <-;
  cbn [SrcAst.f_params map fst snd bind_params coerce_opt]; rewrite ?lit_u32 by assumption; reflexivity.

Lemma only_rv64_frame c p v isa o :
  frame c p "decode::only_rv64" [v; of_isa isa] o = gives (of_result (fun x => x)) o (only_rv64 v isa).
Proof. destruct isa; reflexivity. Qed.
Lemma only_rv64_run p n v isa o :
  run crate p (S n) "decode::only_rv64" [v; of_isa isa] o =
  gives (of_result (fun x => x)) o (only_rv64 v isa).
Proof. rewrite run_step. apply only_rv64_frame. Qed.

(** A program with the functions above. *)
Definition helped (P : program) : Prop :=
  Forall (shares P) ["u32.slice"; "u16.slice"; "u32.to_signed_nbit"; "u16.to_signed_nbit"; "u32.set";
    "u16.set"; "decode::only_rv64"].
Lemma helped_crate : helped crate.
Proof. repeat constructor. Qed.

Section helped.
Variable P : program.
Hypothesis Help : helped P.
Lemma help key : In key ["u32.slice"; "u16.slice"; "u32.to_signed_nbit"; "u16.to_signed_nbit"; "u32.set";
    "u16.set"; "decode::only_rv64"] -> shares P key.
Proof. apply (proj1 (Forall_forall _ _) Help). Qed.
Local Ltac help := apply help; cbn [In]; tauto.

Lemma calls_slice32 p n w a b o k : literal_fits U32 a = true -> literal_fits U32 b = true ->
  calls_of P p (S n) "u32.slice" [VInt U32 w; VInt Lit a; VInt Lit b] o k =
  match slice_u32 p w a b with Ret z => k (VInt U32 z) o | Panic w => Halt (Why w) end.
Proof.
  intros A B. apply (calls_gives P (VInt U32)). rewrite run_shared by help. rewrite <- (slice32_frame (calls_of P p n) p). same_args.
Qed.

Lemma calls_slice16 p n w a b o k : literal_fits U32 a = true -> literal_fits U32 b = true ->
  calls_of P p (S n) "u16.slice" [VInt U16 w; VInt Lit a; VInt Lit b] o k =
  match slice_u16 p w a b with Ret z => k (VInt U16 z) o | Panic w => Halt (Why w) end.
Proof.
  intros A B. apply (calls_gives P (VInt U16)). rewrite run_shared by help. rewrite <- (slice16_frame (calls_of P p n) p). same_args.
Qed.

Lemma calls_signed32 p n w v b o k : literal_fits U32 b = true ->
  calls_of P p (S n) "u32.to_signed_nbit" [VInt U32 w; VInt I32 v; VInt Lit b] o k =
  match to_signed_nbit p v b with Ret z => k (VInt I32 z) o | Panic w => Halt (Why w) end.
Proof.
  intros B. apply (calls_gives P (VInt I32)). rewrite run_shared by help. rewrite <- (signed32_frame (calls_of P p n) p w). same_args.
Qed.

Lemma calls_signed16 p n w v b o k : literal_fits U32 b = true ->
  calls_of P p (S n) "u16.to_signed_nbit" [VInt U16 w; VInt I32 v; VInt Lit b] o k =
  match to_signed_nbit p v b with Ret z => k (VInt I32 z) o | Panic w => Halt (Why w) end.
Proof.
  intros B. apply (calls_gives P (VInt I32)). rewrite run_shared by help. rewrite <- (signed16_frame (calls_of P p n) p w). same_args.
Qed.

(** Masks are arrays of literals. *)
Definition lit_of (v : value) : Z := match v with VInt _ z => z | _ => 0 end.
Definition is_lit (v : value) : bool :=
  match v with VInt Lit z => literal_fits U32 z | _ => false end.

Lemma lit_mask n l : forallb is_lit l = true ->
  mapo (coerce (S n) (SrcAst.TyPath ["u32"] [])) l = Some (map (VInt U32) (map lit_of l)).
Proof.
  induction l as [|v l IH]; intros H; [reflexivity|]. cbn [forallb] in H.
  apply andb_prop in H. destruct H as [H1 H2]. cbn [mapo map]. rewrite (IH H2).
  destruct v as [t z| | | | | | | | | |]; try discriminate H1. destruct t; try discriminate H1.
  cbn -[literal_fits]. unfold is_lit in H1. rewrite H1. reflexivity.
Qed.

Ltac same_mask := apply frame_args; [vm_compute; reflexivity|]; let f := fresh "f" in let F := fresh "F" in
  intros f F; vm_compute in F; injection F as <-;
  cbn [SrcAst.f_params map fst snd bind_params coerce_opt];
  match goal with |- context [coerce 10 (SrcAst.TyRef ?t) (VList ?l)] =>
    replace (coerce 10 (SrcAst.TyRef t) (VList l)) with (Some (VList (map (VInt U32) (map lit_of l))))
  end;
  [ match goal with |- context [coerce 10 (SrcAst.TyRef ?t) (VList (map (VInt U32) ?ms))] =>
      change (coerce 10 (SrcAst.TyRef t) (VList (map (VInt U32) ms))) with
        (option_map VList (mapo (coerce 8 (SrcAst.TyPath ["u32"] [])) (map (VInt U32) ms)));
      rewrite mask_fits
    end; reflexivity
  | match goal with |- _ = coerce 10 (SrcAst.TyRef ?t) (VList ?l) =>
      change (coerce 10 (SrcAst.TyRef t) (VList l)) with
        (option_map VList (mapo (coerce 8 (SrcAst.TyPath ["u32"] [])) l)); rewrite lit_mask by assumption
    end; reflexivity ].

Lemma calls_set32 p n w l o k : forallb is_lit l = true ->
  calls_of P p (S n) "u32.set" [VInt U32 w; VList l] o k =
  match set_u32 p w (map lit_of l) with Ret z => k (VInt U32 z) o | Panic w => Halt (Why w) end.
Proof.
  intros H. apply (calls_gives P (VInt U32)). rewrite run_shared by help. rewrite <- (set32_frame (calls_of P p n) p). same_mask.
Qed.

Lemma calls_set16 p n w l o k : forallb is_lit l = true ->
  calls_of P p (S n) "u16.set" [VInt U16 w; VList l] o k =
  match set_u16 p w (map lit_of l) with Ret z => k (VInt U32 z) o | Panic w => Halt (Why w) end.
Proof.
  intros H. apply (calls_gives P (VInt U32)). rewrite run_shared by help. rewrite <- (set16_frame (calls_of P p n) p). same_mask.
Qed.

(** [only_rv64], for any opcode. *)
Lemma calls_only_rv64 p n v isa o k :
  calls_of P p (S n) "decode::only_rv64" [v; of_isa isa] o k =
  match isa with
  | Rv32 => k (VEnum "Result" "Err" [VEnum "DecodingError" "OnlyRv64Inst" []]) o
  | Rv64 => k (VEnum "Result" "Ok" [v]) o
  end.
Proof.
  rewrite (calls_gives P (of_result (fun x => x)) p (S n) _ _ o k (only_rv64 v isa)).
  - destruct isa; reflexivity.
  - rewrite run_shared by help. apply only_rv64_frame.
Qed.

Lemma calls_only32 p n v o k :
  calls_of P p (S n) "decode::only_rv64" [v; VEnum "Isa" "Rv32" []] o k =
  k (VEnum "Result" "Err" [VEnum "DecodingError" "OnlyRv64Inst" []]) o.
Proof. exact (calls_only_rv64 p n v Rv32 o k). Qed.
Lemma calls_only64 p n v o k :
  calls_of P p (S n) "decode::only_rv64" [v; VEnum "Isa" "Rv64" []] o k =
  k (VEnum "Result" "Ok" [v]) o.
Proof. exact (calls_only_rv64 p n v Rv64 o k). Qed.

End helped.

(** ** Running a body *)

(** What the functions above answer, in continuation-passing style; [other] is everything else. *)
Definition ret_to (t : ity) (m : outcome Z) (o : string) (k : value -> string -> ans) : ans :=
  match m with Ret z => k (VInt t z) o | Panic w => Halt (Why w) end.

Definition fits2 (a b : Z) : bool := literal_fits U32 a && literal_fits U32 b.

Definition known_or (other : string -> list value -> string -> (value -> string -> ans) -> ans)
  (p : platform) (key : string) (vs : list value) (o : string) (k : value -> string -> ans) : ans :=
  match vs with
  | [VInt U32 w; VInt Lit a; VInt Lit b] =>
      if (key =? "u32.slice") && fits2 a b then ret_to U32 (slice_u32 p w a b) o k
      else other key vs o k
  | [VInt U16 w; VInt Lit a; VInt Lit b] =>
      if (key =? "u16.slice") && fits2 a b then ret_to U16 (slice_u16 p w a b) o k
      else other key vs o k
  | [VInt U32 w; VInt I32 v; VInt Lit b] =>
      if (key =? "u32.to_signed_nbit") && literal_fits U32 b
      then ret_to I32 (to_signed_nbit p v b) o k
      else other key vs o k
  | [VInt U16 w; VInt I32 v; VInt Lit b] =>
      if (key =? "u16.to_signed_nbit") && literal_fits U32 b
      then ret_to I32 (to_signed_nbit p v b) o k
      else other key vs o k
  | [VInt U32 w; VList l] =>
      if (key =? "u32.set") && forallb is_lit l then ret_to U32 (set_u32 p w (map lit_of l)) o k
      else other key vs o k
  | [VInt U16 w; VList l] =>
      if (key =? "u16.set") && forallb is_lit l then ret_to U32 (set_u16 p w (map lit_of l)) o k
      else other key vs o k
  | [v; VEnum t c []] =>
      if (key =? "decode::only_rv64") && (t =? "Isa") then
        if c =? "Rv32" then k (VEnum "Result" "Err" [VEnum "DecodingError" "OnlyRv64Inst" []]) o
        else if c =? "Rv64" then k (VEnum "Result" "Ok" [v]) o
        else other key vs o k
      else other key vs o k
  | _ => other key vs o k
  end.

Lemma calls_ext P p n key vs o k1 k2 : (forall v o, k1 v o = k2 v o) ->
  calls_of P p n key vs o k1 = calls_of P p n key vs o k2.
Proof. intros H. unfold calls_of. destruct (run _ _ _ _ _ _); try reflexivity. apply H. Qed.
Lemma callr_ext p n key vs o k1 k2 : (forall v o, k1 v o = k2 v o) ->
  callr p n key vs o k1 = callr p n key vs o k2.
Proof. apply calls_ext. Qed.

Local Opaque calls_of.
Lemma known_ok P p n key vs o k1 k2 : helped P -> (forall v o, k1 v o = k2 v o) ->
  calls_of P p (S n) key vs o k1 = known_or (calls_of P p (S n)) p key vs o k2.
Proof.
  intros Help H. rewrite (calls_ext P p (S n) key vs o k1 k2 H). clear H.
  unfold known_or, ret_to, fits2.
  repeat match goal with
  | |- context [match ?x with _ => _ end] => is_var x; destruct x; try reflexivity
  | |- context [if ?b then _ else _] =>
      let E := fresh "E" in destruct b eqn:E; try reflexivity
  end;
  repeat match goal with
  | E : (_ && _)%bool = true |- _ => apply andb_prop in E; destruct E
  | E : (_ =? _) = true |- _ => apply String.eqb_eq in E; subst
  end;
  first [ rewrite (calls_only32 P Help) | rewrite (calls_only64 P Help)
        | rewrite (calls_slice32 P Help) by assumption | rewrite (calls_slice16 P Help) by assumption
        | rewrite (calls_set32 P Help) by assumption | rewrite (calls_set16 P Help) by assumption
        | rewrite (calls_signed32 P Help) by assumption | rewrite (calls_signed16 P Help) by assumption ];
  reflexivity.
Qed.

(** One call, with the answers of the functions above put in. *)
Definition leaf (other : string -> list value -> string -> (value -> string -> ans) -> ans)
  (p : platform) : string -> list value -> string -> ans := frame (known_or other p) p.

Lemma run_leaf P p n key vs o : helped P -> shares P key ->
  run P p (S (S n)) key vs o = leaf (calls_of P p (S n)) p key vs o.
Proof.
  intros Help H. rewrite (run_shared P p (S n) key vs o H). unfold leaf, frame.
  destruct (assoc key (p_fns crate)) as [f|]; [|reflexivity].
  destruct (bind_params _ _ _); [|reflexivity]. destruct (SrcAst.f_body f); [|reflexivity].
  apply ev_ext; [|reflexivity..]. intros. apply known_ok; assumption.
Qed.

Lemma run_body p n key vs o : is_some (assoc key (p_fns crate)) = true ->
  run crate p (S (S n)) key vs o = leaf (callr p (S n)) p key vs o.
Proof. intros K. apply run_leaf; [exact helped_crate|exact (shares_crate key K)]. Qed.
(** What holds with any other calls holds in the crate. *)
Lemma leaf_run p n key vs o a : is_some (assoc key (p_fns crate)) = true ->
  (forall c, leaf c p key vs o = a) -> run crate p (S (S n)) key vs o = a.
Proof. intros K H. rewrite run_body by exact K. apply H. Qed.

Ltac norm_body := lazy -[callr calls_of shr shl_u ck_u ck_i32 as_i32 as_usize Z.land Z.lor Z.add Z.sub Z.pow
  Z.eqb Z.leb Z.ltb Z.geb Fmt.dec_str Fmt.hex_i32 Fmt.hex_usize write
  of_basei of_m of_a of_c of_zifencei of_zicboz of_zicsr of_zicfiss of_zicntr of_priv of_fmt of_err
  of_op usize_bits gives slice_u32 slice_u16 set_u32 set_u16 to_signed_nbit].

(** The same with the opcode known. *)
Ltac norm_operand := lazy -[callr calls_of shr shl_u ck_u ck_i32 as_i32 as_usize Z.land Z.lor Z.add Z.sub Z.pow
  Z.eqb Z.leb Z.ltb Z.geb usize_bits gives slice_u32 slice_u16 set_u32 set_u16 to_signed_nbit].

(** Split what the left side branches on: outcomes, sizes, and equality tests of the patterns. *)
Ltac outcomes :=
  repeat match goal with
  | |- match ?x with Ret _ => _ | Panic _ => _ end = _ =>
      let E := fresh "E" in destruct x eqn:E; [|reflexivity]; cbv beta iota; rewrite ?E; clear E
  | |- (if (?z <? ?b)%Z then _ else _) = _ =>
      destruct (z <? b)%Z; [|reflexivity]; cbv beta iota
  end.

(** Split a number the right side matches on; impossible cases go. *)
Ltac bits :=
  repeat match goal with
  | |- _ = ?R =>
      match R with context [match ?x with _ => _ end] =>
        is_var x; match type of x with Z => idtac | positive => idtac end; destruct x
      end
  end; cbv beta iota; try congruence.

Ltac tests :=
  cbv beta iota;
  lazymatch goal with
  | |- (if (?z =? ?c)%Z then _ else _) = _ =>
      let H := fresh "H" in destruct (Z.eqb_spec z c) as [->|H]; tests
  | |- Done _ _ = ?R =>
      first [ reflexivity | bits; reflexivity ]
  | |- Halt _ = ?R =>
      first [ reflexivity | bits; reflexivity ]
  | _ => idtac
  end.
