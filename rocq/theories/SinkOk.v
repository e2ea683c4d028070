(** Proofs about [Display] with an arbitrary formatter (C54). *)
From Coq Require Import ZArith List Bool String Lia.
From Verif Require Import Rust Types Fmt FmtSink SpecSink.
From Verif Require Text.
Import ListNotations.
Local Open Scope list_scope.
Local Open Scope Z_scope.

(** [f] gives the pieces [l] to any sink. *)
Definition gives (f : forall T, sink T -> writing T) (l : list string) : Prop :=
  forall T (k : sink T) t, f T k t = feed k l t.

Lemma feed_app {T} (k : sink T) l l' t :
  feed k (l ++ l') t = then_ (feed k l) (feed k l') t.
Proof.
  revert t. induction l as [|s l IH]; intros t; [reflexivity|]. cbn [app feed].
  unfold then_. cbn [feed]. destruct (k t s) as [t' []]; [apply IH|reflexivity].
Qed.
Lemma gives_then f g l l' : gives f l -> gives g l' -> gives (fun T k => then_ (f T k) (g T k)) (l ++ l').
Proof.
  intros F G T k t. rewrite feed_app. unfold then_. rewrite (F T k t).
  destruct (feed k l t) as [t' [[]|]]; [apply G|reflexivity..].
Qed.
Lemma gives_nothing : gives (fun T k => nothing_more) [].
Proof. intros T k t. reflexivity. Qed.
Lemma gives_str s : gives (fun T k => write_str k s) [s].
Proof. intros T k t. cbn. unfold write_str. destruct (k t s) as [t' []]; reflexivity. Qed.

(** ** Arguments *)

Definition lit_strs (s : string) : list string := if (s =? "")%string then [] else [s].
Definition int_strs (v : Z) : list string :=
  if 0 <=? v then [unsigned_str 10 v] else ["-"%string; unsigned_str 10 (- v)].

Lemma gives_lit s : gives (fun T k => put k (Lit s)) (lit_strs s).
Proof. unfold lit_strs, put. destruct (s =? "")%string; [exact gives_nothing|exact (gives_str s)]. Qed.
Lemma gives_str_arg s : gives (fun T k => put k (Arg plain (str_fmt k s))) [s].
Proof. exact (gives_str s). Qed.
Lemma gives_int v : gives (fun T k => put k (Arg plain (int_fmt k v))) (int_strs v).
Proof.
  unfold int_strs. intros T k t. cbn [put]. unfold int_fmt, pad_integral.
  cbn [plain sign_plus alternate zero_pad width]. unfold padded. cbn [plain width].
  destruct (Z.leb_spec 0 v) as [L|L]; cbn [negb].
  - rewrite Z.abs_eq by exact L. exact (gives_str _ T k t).
  - rewrite Z.abs_neq by lia.
    exact (gives_then _ _ ["-"%string] [_] (gives_then _ _ [_] [] (gives_str _) gives_nothing) (gives_str _) T k t).
Qed.
Lemma gives_hex_i32 v : gives (fun T k => put k (Arg plain (hex_i32_fmt k v))) [hex_i32 v].
Proof. exact (gives_str _). Qed.
Lemma gives_0x s : gives (fun T k => put k (Arg hash (pad_integral k true "0x" s))) ["0x"%string; s].
Proof.
  exact (gives_then _ _ ["0x"%string] [_] (gives_then _ _ [] [_] gives_nothing (gives_str _)) (gives_str _)).
Qed.
Lemma gives_mnemonic s : gives (fun T k => write_fmt k [Arg plain (mnemonic_fmt k s)]) (lit_strs s).
Proof.
  intros T k t. cbn [write_fmt fold_right put]. unfold mnemonic_fmt. cbn [write_fmt fold_right].
  pose proof (gives_then _ _ _ _ (gives_then _ _ _ _ (gives_lit s) gives_nothing) gives_nothing T k t) as E.
  rewrite E, !app_nil_r. reflexivity.
Qed.
Lemma gives_opc op o : gives (fun T k => put k (Arg o (OpcodeKind_fmt k op))) (lit_strs (OpcodeKind_display op)).
Proof. destruct op; exact (gives_mnemonic _). Qed.

Lemma joined_app l l' : joined (l ++ l') = (joined l ++ joined l')%string.
Proof.
  unfold joined. induction l as [|s l IH]; [reflexivity|]. cbn [app fold_right append]. rewrite IH.
  symmetry. apply Text.append_assoc.
Qed.

Lemma joined_lit s : joined (lit_strs s) = s.
Proof.
  unfold lit_strs. destruct (String.eqb_spec s "") as [->|N]; [reflexivity|]. apply Text.append_nil.
Qed.
Lemma joined_int v : joined (int_strs v) = dec_str v.
Proof.
  unfold int_strs, dec_str. destruct (Z.leb_spec 0 v); destruct (Z.ltb_spec v 0); try lia; cbn [joined fold_right].
  - apply Text.append_nil.
  - rewrite Text.append_nil. reflexivity.
Qed.

(** ** Instructions *)

Definition explained (d : outcome string) (f : options -> forall T, sink T -> writing T) : Prop :=
  (exists why, d = Panic why /\ forall o T (k : sink T) t, f o T k t = (t, Panic why)) \/
  (exists l, d = Ret (joined l) /\ forall o, gives (f o) l).

Ltac gv := lazymatch goal with
  | |- gives (fun T k => then_ _ _) _ => apply gives_then; [gv|gv]
  | |- gives (fun T k => nothing_more) _ => apply gives_nothing
  | |- gives (fun T k => put k (Arg _ (OpcodeKind_fmt k _))) _ => apply gives_opc
  | |- gives (fun T k => put k (Arg plain (str_fmt k _))) _ => apply gives_str_arg
  | |- gives (fun T k => put k (Arg plain (int_fmt k _))) _ => apply gives_int
  | |- gives (fun T k => put k (Arg plain (hex_i32_fmt k _))) _ => apply gives_hex_i32
  | |- gives (fun T k => put k (Arg hash _)) _ => apply gives_0x
  | |- gives (fun T k => put k (Lit _)) _ => apply gives_lit
  end.
Ltac done_pieces :=
  right; eexists; split; cycle 1;
  [intros o; cbn [write_ write_fmt fold_right]; gv
  |rewrite ?joined_app, ?joined_lit, ?joined_int; cbn [joined fold_right]; rewrite ?Text.append_nil; reflexivity].
Ltac done_panic := left; eexists; split; [reflexivity|intros; reflexivity].
Ltac args := lazymatch goal with
  | |- explained (bind ?m _) _ => destruct m; cbn [bind]; [args|done_panic]
  | |- _ => first [done_panic|done_pieces]
  end.
Lemma pieces i : explained (Instruction_display i) (fun o T k => Instruction_fmt k i o).
Proof.
  unfold Instruction_display, Instruction_fmt.
  destruct (inst_format i); try args;
    (destruct (opc i) as [x|x|x|x|x|x|x|x|x|x]; try args; destruct x; args).
Qed.
Lemma opcode_pieces op : explained (Ret (OpcodeKind_display op)) (fun o T k => OpcodeKind_fmt k op o).
Proof.
  right. exists (lit_strs (OpcodeKind_display op)). split; [rewrite joined_lit; reflexivity|].
  intros o. exact (gives_opc op o).
Qed.

(** ** Sinks that store text *)

Lemma feed_stores {T} (k : sink T) content l t : stores k content ->
  exists u v, joined l = (u ++ v)%string /\ content (fst (feed k l t)) = (content t ++ u)%string /\
    ((snd (feed k l t) = Ret true /\ v = ""%string) \/ snd (feed k l t) = Ret false).
Proof.
  intros S. revert t. induction l as [|s l IH]; intros t.
  - exists ""%string, ""%string. split; [reflexivity|]. split; [cbn; symmetry; apply Text.append_nil|]. left. split; reflexivity.
  - destruct (S t s) as [u [v [E [C O]]]]. cbn [feed joined fold_right]. change (fold_right append ""%string l) with (joined l).
    destruct (k t s) as [t' ok]. cbn [fst snd] in *. destruct ok.
    + rewrite (O eq_refl), Text.append_nil in E. subst u. destruct (IH t') as [u' [v' [E' [C' R]]]].
      exists (s ++ u')%string, v'. split; [rewrite E'; symmetry; apply Text.append_assoc|].
      split; [rewrite C', C; apply Text.append_assoc|exact R].
    + exists u, (v ++ joined l)%string. split; [rewrite E; apply Text.append_assoc|]. split; [exact C|]. right. reflexivity.
Qed.

Lemma written {T} i o (k : sink T) content t : stores k content ->
  let (t', r) := Instruction_fmt k i o t in
  match Instruction_display i with
  | Panic why => t' = t /\ r = Panic why
  | Ret text => exists u v, text = (u ++ v)%string /\ content t' = (content t ++ u)%string /\
      (r = Ret true /\ v = ""%string \/ r = Ret false)
  end.
Proof.
  intros S. destruct (pieces i) as [[why [-> P]]|[l [-> P]]].
  - rewrite (P o T k t). auto.
  - rewrite (P o T k t). pose proof (feed_stores k content l t S) as F.
    destruct (feed k l t) as [t' r]. exact F.
Qed.

Lemma unlimited_stores : stores unlimited (fun t => t).
Proof.
  intros t s. exists s, ""%string. split; [symmetry; apply Text.append_nil|]. split; [reflexivity|]. intros _. reflexivity.
Qed.
Lemma sub_split n s : exists v, s = (substring 0 n s ++ v)%string /\ (String.length s <= n -> v = ""%string)%nat.
Proof.
  revert n. induction s as [|c s IH]; intros n.
  - exists ""%string. destruct n; split; reflexivity.
  - destruct n as [|n]; cbn [substring].
    + exists (String c s). split; [reflexivity|]. cbn. lia.
    + destruct (IH n) as [v [E L]]. exists v. split; [cbn; rewrite <- E; reflexivity|]. cbn. intros H. apply L. lia.
Qed.
Lemma buffer_stores n : stores (buffer n) (fun t => t).
Proof.
  intros t s. destruct (sub_split (n - String.length t) s) as [v [E L]]. eexists. exists v.
  split; [exact E|]. split; [reflexivity|]. cbn. rewrite Nat.leb_le. intros H. apply L. lia.
Qed.

Lemma sub_app s : forall a b m, (String.length s <= m)%nat -> 
  substring 0 m (s ++ a ++ b) = (s ++ substring 0 (m - String.length s) (a ++ b))%string.
Proof.
  induction s as [|c s IH]; intros a b m L; cbn [append String.length] in *.
  - rewrite Nat.sub_0_r. reflexivity.
  - destruct m as [|m]; [lia|]. cbn [substring Nat.sub]. rewrite IH by lia. reflexivity.
Qed.
Lemma sub_left s : forall b m, (m <= String.length s)%nat -> substring 0 m (s ++ b) = substring 0 m s.
Proof.
  induction s as [|c s IH]; intros b m L; cbn [append String.length] in *.
  - assert (m = O) as -> by lia. destruct b; reflexivity.
  - destruct m as [|m]; [reflexivity|]. cbn [substring]. rewrite IH by lia. reflexivity.
Qed.
Lemma sub_all s m : (String.length s <= m)%nat -> substring 0 m s = s.
Proof.
  revert m. induction s as [|c s IH]; intros m L; [destruct m; reflexivity|]. cbn [String.length] in L.
  destruct m as [|m]; [lia|]. cbn [substring]. rewrite IH by lia. reflexivity.
Qed.
Lemma length_app a b : String.length (a ++ b) = (String.length a + String.length b)%nat.
Proof. induction a as [|c a IH]; [reflexivity|]. cbn. rewrite IH. reflexivity. Qed.

Lemma feed_buffer n l : forall t, (String.length t <= n)%nat ->
  feed (buffer n) l t =
    (substring 0 n (t ++ joined l), Ret (String.length t + String.length (joined l) <=? n)%nat).
Proof.
  induction l as [|s l IH]; intros t L; cbn [feed joined fold_right].
  - rewrite Text.append_nil, sub_all by exact L. cbn [String.length]. rewrite Nat.add_0_r.
    f_equal. f_equal. symmetry. apply Nat.leb_le. exact L.
  - change (fold_right append ""%string l) with (joined l). unfold buffer at 1.
    destruct (Nat.leb_spec (String.length t + String.length s) n) as [F|F].
    + rewrite sub_all by lia. rewrite IH by (rewrite length_app; lia).
      rewrite Text.append_assoc, !length_app, Nat.add_assoc. reflexivity.
    + f_equal.
      * rewrite sub_app by exact L. rewrite sub_left by lia. reflexivity.
      * f_equal. symmetry. apply Nat.leb_gt. rewrite length_app. lia.
Qed.
Lemma in_buffer n i o text : Instruction_display i = Ret text ->
  Instruction_fmt (buffer n) i o ""%string = (substring 0 n text, Ret (String.length text <=? n)%nat).
Proof.
  intros D. destruct (pieces i) as [[why [E _]]|[l [E P]]]; rewrite D in E; [discriminate E|].
  injection E as ->. rewrite (P o string (buffer n) ""%string), feed_buffer by (cbn; lia). reflexivity.
Qed.
Lemma in_string i o t text : Instruction_display i = Ret text ->
  Instruction_fmt unlimited i o t = ((t ++ text)%string, Ret true).
Proof.
  intros D. pose proof (written i o unlimited (fun t => t) t unlimited_stores) as W. rewrite D in W.
  destruct (pieces i) as [[why [E _]]|[l [E P]]]; rewrite D in E; [discriminate E|]. injection E as ->.
  rewrite (P o string unlimited t). clear. revert t.
  induction l as [|s l IH]; intros t; cbn [feed joined fold_right unlimited]; [rewrite Text.append_nil; reflexivity|].
  change (fold_right append ""%string l) with (joined l). rewrite IH, Text.append_assoc. reflexivity.
Qed.

Lemma any_sink :
  (forall i,
    (exists why, Instruction_display i = Panic why /\
       forall o T (k : sink T) t, Instruction_fmt k i o t = (t, Panic why)) \/
    (exists pieces, Instruction_display i = Ret (joined pieces) /\
       forall o T (k : sink T) t, Instruction_fmt k i o t = feed k pieces t)) /\
  (forall op, exists pieces, OpcodeKind_display op = joined pieces /\
       forall o T (k : sink T) t, OpcodeKind_fmt k op o t = feed k pieces t).
Proof.
  split; [exact pieces|]. intros op. destruct (opcode_pieces op) as [[why [E _]]|[l [E P]]]; [discriminate E|].
  injection E as E. exists l. split; [exact E|exact P].
Qed.
Lemma stored T (k : sink T) content : stores k content -> forall i o t,
  let (t', r) := Instruction_fmt k i o t in
  match Instruction_display i with
  | Panic why => t' = t /\ r = Panic why
  | Ret text => exists u v, text = (u ++ v)%string /\ content t' = (content t ++ u)%string /\
      (r = Ret true /\ v = ""%string \/ r = Ret false)
  end.
Proof. intros S i o t. exact (written i o k content t S). Qed.
Lemma buffers i text : Instruction_display i = Ret text -> forall o,
  (forall t, Instruction_fmt unlimited i o t = ((t ++ text)%string, Ret true)) /\
  (forall n, Instruction_fmt (buffer n) i o ""%string =
     (substring 0 n text, Ret (String.length text <=? n)%nat)).
Proof.
  intros D o. split; [intros t; apply in_string; exact D|intros n; apply in_buffer; exact D].
Qed.
