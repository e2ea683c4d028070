(** The [Debug] text identifies the value (C46). *)
From Coq Require Import ZArith List Bool String Ascii Lia.
From Verif Require Import Rust Types Fmt Debug Spec SpecText SpecDebug Numerals Operands Text Text2.
Import ListNotations.
Local Open Scope string_scope.
Local Open Scope list_scope.
Local Open Scope Z_scope.

(** ** Strings without a given character *)

Fixpoint free (x : ascii) (s : string) : bool :=
  match s with EmptyString => true | String c s' => negb (c =? x)%char && free x s' end.
Lemma free_split x a : forall a' b b', free x a = true -> free x a' = true ->
  (a ++ String x b = a' ++ String x b')%string -> a = a' /\ b = b'.
Proof.
  induction a as [|c a IH]; intros [|c' a'] b b' A A' E; cbn in *.
  - injection E as <-. auto.
  - injection E as <- _. rewrite Ascii.eqb_refl in A'. discriminate A'.
  - injection E as -> _. rewrite Ascii.eqb_refl in A. discriminate A.
  - injection E as <- E. apply andb_true_iff in A, A'. destruct (IH a' b b') as [-> ->]; tauto.
Qed.
Lemma app_cancel (l a b : string) : (l ++ a = l ++ b)%string -> a = b.
Proof. induction l as [|c l IH]; intros E; [exact E|]. cbn in E. injection E as E. auto. Qed.
Lemma clean_free x s : clean (String x "") = false -> clean s = true -> free x s = true.
Proof.
  intros X. induction s as [|c s IH]; [reflexivity|]. cbn [clean free]. intros H.
  apply andb_true_iff in H. destruct H as [H1 H2]. rewrite (IH H2), andb_true_r.
  apply negb_true_iff. destruct (Ascii.eqb_spec c x) as [->|]; [|reflexivity].
  cbn [clean] in X. rewrite H1 in X. discriminate X.
Qed.

Lemma free_app x a b : free x (a ++ b) = free x a && free x b.
Proof. induction a as [|c a IH]; [reflexivity|]. cbn. rewrite IH, andb_assoc. reflexivity. Qed.
Lemma dec_clean v : clean (dec_str v) = true.
Proof.
  destruct (dec_str_decimal v) as [[_ [_ D]]|[_ [t [-> [_ D]]]]]; [exact (value_clean _ _ _ _ D)|].
  cbn. exact (value_clean _ _ _ _ D).
Qed.
Lemma dec_inj v v' : dec_str v = dec_str v' -> v = v'.
Proof. intros E. apply (decimal_value (dec_str v)); [|rewrite E]; apply dec_str_decimal. Qed.

(** ** Texts that end at the comma after them *)

Definition ends {A} (f : A -> string) : Prop :=
  forall a a' r r', (f a ++ String "," r = f a' ++ String "," r')%string -> a = a' /\ r = r'.

Lemma ends_leaf {A} (f : A -> string) :
  (forall a, free "," (f a) = true) -> (forall a a', f a = f a' -> a = a') -> ends f.
Proof.
  intros F I a a' r r' E. apply free_split in E; [|apply F|apply F]. destruct E as [E ->].
  split; [apply I; assumption|reflexivity].
Qed.

(** [name(value)], with any layout of the parentheses. *)
Definition parens (open : string) (x : ascii) (close name value : string) : string :=
  (name ++ String "(" (open ++ value ++ String x close))%string.

Lemma parens_ends open x close n n' v v' r r' : x = ")"%char \/ x = ","%char ->
  clean n = true -> clean n' = true -> free x v = true -> free x v' = true ->
  (parens open x close n v ++ String "," r = parens open x close n' v' ++ String "," r')%string ->
  n = n' /\ v = v' /\ r = r'.
Proof.
  intros X N N' V V' E. unfold parens in E. rewrite !append_assoc in E. cbn [append] in E.
  apply free_split in E; [|apply clean_free; [reflexivity|assumption]..].
  destruct E as [-> E]. rewrite !append_assoc in E. apply app_cancel in E. cbn [append] in E.
  apply free_split in E; [|assumption..].
  destruct E as [-> E]. apply app_cancel in E. injection E as ->. auto.
Qed.

(** Numbers are printed with [f], which may be one-to-one on [dom] only. *)
Definition opt (f : Z -> string) (open : string) (x : ascii) (close : string) (o : option Z) : string :=
  match o with None => "None" | Some v => parens open x close "Some" (f v) end.
Definition one_to_one (dom : Z -> Prop) (f : Z -> string) : Prop :=
  (forall v, free "," (f v) = true /\ free ")" (f v) = true) /\
  (forall v v', dom v -> dom v' -> f v = f v' -> v = v').
Definition all_in (dom : Z -> Prop) (o : option Z) : Prop := forall v, o = Some v -> dom v.
Lemma dec_one_to_one : one_to_one (fun _ => True) dec_str.
Proof.
  split; [intros v; split; (apply clean_free; [reflexivity|apply dec_clean])|].
  intros v v' _ _. apply dec_inj.
Qed.
Lemma opt_ends dom f open x close a a' r r' : one_to_one dom f -> x = ")"%char \/ x = ","%char ->
  all_in dom a -> all_in dom a' ->
  (opt f open x close a ++ String "," r = opt f open x close a' ++ String "," r')%string -> a = a' /\ r = r'.
Proof.
  intros [F I] X D D' E. destruct a as [a|], a' as [a'|]; cbn [opt] in E; try discriminate E.
  - apply parens_ends in E; try reflexivity; [|assumption|destruct (F a), (F a'), X as [-> | ->]; assumption..].
    destruct E as [_ [E ->]]. apply I in E; [|apply D; reflexivity|apply D'; reflexivity]. subst a'. auto.
  - injection E as ->. auto.
Qed.

Definition name_of (n : node) : string := match n with Leaf s | Tuple s _ | Struct s _ => s | _ => "" end.
Definition variant (op : OpcodeKind) : string :=
  match OpcodeKind_debug op with Tuple _ [Leaf s] => s | _ => "" end.
Lemma opcode_node op : OpcodeKind_debug op = Tuple (family op) [Leaf (variant op)].
Proof. destruct op; reflexivity. Qed.
Lemma family_clean op : clean (family op) = true.
Proof. destruct op; reflexivity. Qed.
Lemma variant_clean op : clean (variant op) = true.
Proof. destruct op as [[]|[]|[]|[]|[]|[]|[]|[]|[]|[]]; reflexivity. Qed.
Lemma names_inj op op' : family op = family op' -> variant op = variant op' -> op = op'.
Proof.
  destruct op as [o|o|o|o|o|o|o|o|o|o], op' as [o'|o'|o'|o'|o'|o'|o'|o'|o'|o']; intros E; try discriminate E;
    clear E; destruct o; destruct o'; intros E; (reflexivity || discriminate E).
Qed.
Lemma format_ends : ends (fun f => name_of (InstFormat_debug f)).
Proof.
  apply ends_leaf; [intros []; reflexivity|]. intros [] []; intros E; (reflexivity || discriminate E).
Qed.
Lemma spelled op : variant op = spelling op.
Proof. destruct op as [[]|[]|[]|[]|[]|[]|[]|[]|[]|[]]; reflexivity. Qed.

(** ** The struct *)

Section Printed.
(** How numbers and [bool]s are printed. *)
Variables (f g : Z -> string) (fl : bool -> string).

Definition seven (p0 p1 p2 p3 p4 p5 p6 open : string) (x : ascii) (close e : string) (i : Instruction) : string :=
  (p0 ++ parens open x close (family (opc i)) (variant (opc i)) ++ String ","
  (p1 ++ opt f open x close (rd i) ++ String ","
  (p2 ++ opt f open x close (rs1 i) ++ String ","
  (p3 ++ opt f open x close (rs2 i) ++ String ","
  (p4 ++ opt g open x close (imm i) ++ String ","
  (p5 ++ name_of (InstFormat_debug (inst_format i)) ++ String ","
  (p6 ++ fl (is_compressed i) ++ e)))))))%string.

Lemma seven_inj dom dom' p0 p1 p2 p3 p4 p5 p6 open x close e i j r r' : x = ")"%char \/ x = ","%char ->
  one_to_one dom f -> one_to_one dom' g -> (forall r r' : string, fl true ++ e ++ r <> fl false ++ e ++ r')%string ->
  (forall k, k = i \/ k = j -> all_in dom (rd k) /\ all_in dom (rs1 k) /\ all_in dom (rs2 k) /\ all_in dom' (imm k)) ->
  (seven p0 p1 p2 p3 p4 p5 p6 open x close e i ++ r = seven p0 p1 p2 p3 p4 p5 p6 open x close e j ++ r')%string ->
  i = j.
Proof.
  intros X F G FL D E. destruct (D i (or_introl eq_refl)) as [D1 [D2 [D3 D4]]].
  destruct (D j (or_intror eq_refl)) as [D1' [D2' [D3' D4']]]. clear D.
  destruct i as [op d s t m h z], j as [op' d' s' t' m' h' z'].
  unfold seven in E. cbn [opc rd rs1 rs2 imm inst_format is_compressed] in *.
  repeat (rewrite !append_assoc in E; cbn [append] in E).
  assert (V : forall o, free x (variant o) = true).
  { intros o. apply clean_free; [destruct X as [-> | ->]; reflexivity|apply variant_clean]. }
  apply app_cancel in E. apply parens_ends in E; [|assumption|apply family_clean|apply family_clean|apply V|apply V].
  destruct E as [N [W E]]. rewrite (names_inj _ _ N W).
  apply app_cancel in E. apply (opt_ends dom) in E; [|assumption..]. destruct E as [-> E].
  apply app_cancel in E. apply (opt_ends dom) in E; [|assumption..]. destruct E as [-> E].
  apply app_cancel in E. apply (opt_ends dom) in E; [|assumption..]. destruct E as [-> E].
  apply app_cancel in E. apply (opt_ends dom') in E; [|assumption..]. destruct E as [-> E].
  apply app_cancel in E. apply format_ends in E. destruct E as [-> E].
  apply app_cancel in E. destruct z, z'; try reflexivity; [destruct (FL _ _ E)|destruct (FL _ _ (eq_sym E))].
Qed.

(** [Instruction_debug] with the numbers as text. *)
Definition printed_node (i : Instruction) : node :=
  Struct "Instruction" [
    ("opc", OpcodeKind_debug (opc i));
    ("rd", option_debug (fun v => Leaf (f v)) (rd i));
    ("rs1", option_debug (fun v => Leaf (f v)) (rs1 i));
    ("rs2", option_debug (fun v => Leaf (f v)) (rs2 i));
    ("imm", option_debug (fun v => Leaf (g v)) (imm i));
    ("inst_format", InstFormat_debug (inst_format i));
    ("is_compressed", Leaf (fl (is_compressed i)))]%string.

Lemma option_compact h o : compact (option_debug (fun v => Leaf (h v)) o) = opt h "" ")" "" o.
Proof. destruct o; reflexivity. Qed.
Lemma compact_seven i : compact (printed_node i) =
  seven "Instruction { opc: " " rd: " " rs1: " " rs2: " " imm: " " inst_format: " " is_compressed: "
    "" ")" "" " }" i.
Proof.
  destruct i as [op d s t m h z]. unfold printed_node, seven.
  cbn [opc rd rs1 rs2 imm inst_format is_compressed].
  rewrite opcode_node. cbn [compact]. rewrite !option_compact. unfold parens. cbn [compact].
  assert (F : compact (InstFormat_debug h) = name_of (InstFormat_debug h)) by reflexivity. rewrite F.
  repeat (rewrite !append_assoc; cbn [append]). reflexivity.
Qed.

Definition popen (n : nat) : string := (newline ++ indent (S n))%string.
Definition pclose (n : nat) : string := (newline ++ indent n ++ ")")%string.
Lemma pretty_tuple n c x : pretty n (Tuple c [Leaf x]) = parens (popen n) "," (pclose n) c x.
Proof.
  cbn [pretty]. unfold parens, popen, pclose. rewrite !append_assoc. reflexivity.
Qed.
Lemma option_pretty h n o : pretty n (option_debug (fun v => Leaf (h v)) o) = opt h (popen n) "," (pclose n) o.
Proof. destruct o as [v|]; [|reflexivity]. apply pretty_tuple. Qed.

Definition line (n : nat) (s : string) : string := (newline ++ indent (S n) ++ s)%string.
Lemma pretty_seven n i : pretty n (printed_node i) =
  seven ("Instruction {" ++ line n "opc: ") (line n "rd: ") (line n "rs1: ") (line n "rs2: ") (line n "imm: ")
    (line n "inst_format: ") (line n "is_compressed: ") (popen (S n)) "," (pclose (S n))
    ("," ++ newline ++ indent n ++ "}") i.
Proof.
  destruct i as [op d s t m h z]. unfold printed_node, seven.
  cbn [opc rd rs1 rs2 imm inst_format is_compressed].
  rewrite opcode_node. set (nl := newline).
  remember (Tuple (family op) [Leaf (variant op)]) as o eqn:O.
  remember (option_debug (fun v => Leaf (f v)) d) as d1 eqn:D. remember (option_debug (fun v => Leaf (f v)) s) as s1 eqn:S.
  remember (option_debug (fun v => Leaf (f v)) t) as t1 eqn:T. remember (option_debug (fun v => Leaf (g v)) m) as m1 eqn:M.
  remember (InstFormat_debug h) as f1 eqn:F. remember (Leaf (fl z)) as z1 eqn:B.
  cbn [pretty]. subst o d1 s1 t1 m1. rewrite !option_pretty, pretty_tuple. subst f1 z1.
  assert (E : pretty (Datatypes.S n) (InstFormat_debug h) = name_of (InstFormat_debug h)) by reflexivity.
  rewrite E. cbn [pretty]. unfold line. subst nl.
  generalize (popen (Datatypes.S n)) (pclose (Datatypes.S n)). intros a b.
  generalize (opt f a "," b d) (opt f a "," b s) (opt f a "," b t) (opt g a "," b m)
    (parens a "," b (family op) (variant op)) (name_of (InstFormat_debug h)) newline (indent n).
  intros. remember (indent (Datatypes.S n)) as k. 
  repeat (rewrite !append_assoc; cbn [append]). reflexivity.
Qed.

Lemma error_names e e' r r' :
  (name_of (DecodingError_debug e) ++ String ")" r = name_of (DecodingError_debug e') ++ String ")" r')%string ->
  e = e'.
Proof.
  intros E. apply free_split in E; [|destruct e; reflexivity|destruct e'; reflexivity].
  destruct E as [E _]. destruct e, e'; (reflexivity || discriminate E).
Qed.
Lemma error_lines e e' r r' :
  (name_of (DecodingError_debug e) ++ String "," r = name_of (DecodingError_debug e') ++ String "," r')%string ->
  e = e'.
Proof.
  intros E. apply free_split in E; [|destruct e; reflexivity|destruct e'; reflexivity].
  destruct E as [E _]. destruct e, e'; (reflexivity || discriminate E).
Qed.

Lemma tuple_compact c x : compact (Tuple c [x]) = (c ++ "(" ++ compact x ++ ")")%string.
Proof. reflexivity. Qed.
Lemma tuple_pretty c x : pretty 0 (Tuple c [x]) =
  (c ++ ("(" ++ newline ++ indent 1) ++ pretty 1 x ++ "," ++ newline ++ ")")%string.
Proof. cbn [pretty indent]. rewrite !append_assoc. reflexivity. Qed.

(** The text in full. *)
Definition opt_val (h : Z -> string) (o : option Z) : value :=
  match o with None => Plain "None" | Some v => Wrapped "Some" (h v) end.
Lemma format_named h : name_of (InstFormat_debug h) = format_name h.
Proof. destruct h; reflexivity. Qed.
Lemma error_named e : name_of (DecodingError_debug e) = error_name e.
Proof. destruct e; reflexivity. Qed.
Lemma opt_one h o : opt h "" ")" "" o = match opt_val h o with Plain s => s | Wrapped c s => (c ++ "(" ++ s ++ ")")%string end.
Proof. destruct o; reflexivity. Qed.

Definition the_fields (i : Instruction) : list (string * value) :=
  [("opc", Wrapped (family (opc i)) (spelling (opc i))); ("rd", opt_val f (rd i)); ("rs1", opt_val f (rs1 i));
   ("rs2", opt_val f (rs2 i)); ("imm", opt_val g (imm i));
   ("inst_format", Plain (format_name (inst_format i)));
   ("is_compressed", Plain (fl (is_compressed i)))]%string.

Lemma compact_text i : compact (printed_node i) = on_one_line (the_fields i).
Proof.
  rewrite compact_seven. unfold seven, on_one_line, the_fields. rewrite !opt_one, format_named, spelled.
  cbn [map fst snd String.concat].
  generalize (opt_val f (rd i)) (opt_val f (rs1 i)) (opt_val f (rs2 i)) (opt_val g (imm i)). intros d a b m.
  unfold parens. repeat (rewrite !append_assoc; cbn [append]). reflexivity.
Qed.

Lemma append_nil (a : string) : (a ++ "" = a)%string.
Proof. induction a as [|c a IH]; [reflexivity|]. cbn. rewrite IH. reflexivity. Qed.
Lemma indent_comm n s : (indent n ++ "    " ++ s = indent (S n) ++ s)%string.
Proof. induction n as [|n IH]; [reflexivity|]. cbn [indent]. rewrite !append_assoc, IH. reflexivity. Qed.

(** Lines, each after a newline. *)
Fixpoint lead (l : list string) : string :=
  match l with [] => ""%string | s :: l' => (newline ++ s ++ lead l')%string end.
Lemma lead_app a b : lead (a ++ b) = (lead a ++ lead b)%string.
Proof. induction a as [|s a IH]; [reflexivity|]. cbn [lead app]. rewrite IH, !append_assoc. reflexivity. Qed.
Lemma text_lead s l : text_of_lines (s :: l) = (s ++ lead l)%string.
Proof.
  unfold text_of_lines. revert s. induction l as [|t l IH]; intros s; [cbn; symmetry; apply append_nil|].
  transitivity (s ++ newline ++ String.concat newline (t :: l))%string; [reflexivity|].
  rewrite IH. reflexivity.
Qed.
Definition field_lines (x : string * value) : list string :=
  match snd x with
  | Plain s => [fst x ++ ": " ++ s ++ ","]
  | Wrapped c s => [fst x ++ ": " ++ c ++ "("; "    " ++ s ++ ","; "),"]
  end%string.
(** [n] levels further. *)
Fixpoint deeper (n : nat) (l : list string) : list string :=
  match n with O => l | S n => deeper n (further l) end.
Lemma further_app a b : further (a ++ b) = further a ++ further b.
Proof. apply map_app. Qed.
Lemma deeper_app n a b : deeper n (a ++ b) = deeper n a ++ deeper n b.
Proof. revert a b. induction n as [|n IH]; intros a b; [reflexivity|]. cbn [deeper]. rewrite further_app. apply IH. Qed.
Lemma deeper_map n l : deeper n l = map (fun s => indent n ++ s)%string l.
Proof.
  revert l. induction n as [|n IH]; intros l; [symmetry; apply map_id|]. cbn [deeper]. rewrite IH.
  unfold further. rewrite map_map. apply map_ext. intros s. apply indent_comm.
Qed.
Definition value_text (n : nat) (x : value) : string :=
  match x with Plain s => s | Wrapped c s => parens (popen (S n)) "," (pclose (S n)) c s end.
Lemma field_text n h x :
  lead (deeper (S n) (field_lines (h, x))) = (line n h ++ ": " ++ value_text n x ++ ",")%string.
Proof.
  rewrite deeper_map. destruct x as [s|c s]; cbn [field_lines snd fst map lead value_text]; unfold line.
  - rewrite append_nil, !append_assoc. reflexivity.
  - rewrite indent_comm. unfold parens, popen, pclose. generalize (indent (S n)) (indent (S (S n))). intros k k'.
    repeat (rewrite !append_assoc; cbn [append]). reflexivity.
Qed.
Lemma opt_value_text h n o : opt h (popen (S n)) "," (pclose (S n)) o = value_text n (opt_val h o).
Proof. destruct o; reflexivity. Qed.
Lemma pretty_lead n i : pretty n (printed_node i) =
  ("Instruction {" ++ lead (deeper n (further (flat_map field_lines (the_fields i)) ++ ["}"%string])))%string.
Proof.
  rewrite pretty_seven. unfold seven, the_fields. rewrite format_named, !opt_value_text, spelled.
  change (parens (popen (S n)) "," (pclose (S n)) (family (opc i)) (spelling (opc i)))
    with (value_text n (Wrapped (family (opc i)) (spelling (opc i)))).
  change (deeper n (further ?a ++ ?b)) with (deeper n (further a ++ b)).
  rewrite deeper_app, lead_app. change (deeper n (further ?l)) with (deeper (S n) l).
  unfold flat_map. rewrite !deeper_app, !lead_app, !field_text, (deeper_map n ["}"%string]).
  cbn [deeper lead map]. assert (E : deeper n (further []) = []) by (rewrite deeper_map; reflexivity). rewrite E.
  generalize (value_text n (opt_val f (rd i))) (value_text n (opt_val f (rs1 i))) (value_text n (opt_val f (rs2 i)))
    (value_text n (opt_val g (imm i))) (value_text n (Wrapped (family (opc i)) (spelling (opc i)))).
  intros d a b m o. cbn [value_text lead]. unfold line.
  generalize (indent (S n)) (indent n). intros k k'.
  repeat (rewrite !append_assoc; cbn [append]). reflexivity.
Qed.

Lemma on_lines_eq l : on_lines l = "Instruction {"%string :: further (flat_map field_lines l) ++ ["}"%string].
Proof. reflexivity. Qed.
Lemma comma_last l s : comma (l ++ [s]) = l ++ [(s ++ ",")%string].
Proof.
  induction l as [|t l IH]; [reflexivity|]. cbn [app]. destruct l as [|u l]; [reflexivity|].
  transitivity (t :: comma ((u :: l) ++ [s])); [reflexivity|]. rewrite IH. reflexivity.
Qed.
Lemma pretty_text i : pretty 0 (printed_node i) = text_of_lines (on_lines (the_fields i)).
Proof. rewrite pretty_lead, on_lines_eq, text_lead. reflexivity. Qed.
Lemma pretty_text_ok i : pretty 0 (Tuple "Ok" [printed_node i]) =
  text_of_lines ("Ok(" :: further (comma (on_lines (the_fields i))) ++ [")"])%string%list.
Proof.
  rewrite tuple_pretty, pretty_lead, on_lines_eq, text_lead, lead_app.
  change ("Instruction {"%string :: ?l ++ [?x]) with (("Instruction {"%string :: l) ++ [x]). rewrite comma_last.
  generalize (further (flat_map field_lines (the_fields i))). intros l.
  change (deeper 1 ?m) with (further m). cbn [app]. unfold further. cbn [map lead].
  rewrite !map_app, !lead_app. cbn [map lead indent]. rewrite !append_nil.
  generalize (lead (map (fun s => "    " ++ s)%string l)). intros s.
  repeat (rewrite !append_assoc; cbn [append]). reflexivity.
Qed.

End Printed.

(** ** {:?} and {:#?} *)

Definition bool_str (b : bool) : string := if b then "true" else "false".
Notation plain_node := (printed_node dec_str dec_str bool_str).
Lemma compact_plain i : compact (Instruction_debug i) = compact (plain_node i).
Proof. destruct i as [op [d|] [s|] [t|] [m|] h z]; reflexivity. Qed.
Lemma pretty_plain n i : pretty n (Instruction_debug i) = pretty n (plain_node i).
Proof. destruct i as [op [d|] [s|] [t|] [m|] h z]; reflexivity. Qed.
Lemma any_value i j (k : Instruction) : k = i \/ k = j -> all_in (fun _ => True) (rd k) /\
  all_in (fun _ => True) (rs1 k) /\ all_in (fun _ => True) (rs2 k) /\ all_in (fun _ => True) (imm k).
Proof. intros _. repeat split. Qed.
Lemma true_false (e r r' : string) : (bool_str true ++ e ++ r <> bool_str false ++ e ++ r')%string.
Proof. intros E. discriminate E. Qed.
Lemma debug_inj r r' : compact (decode_debug r) = compact (decode_debug r') -> r = r'.
Proof.
  destruct r as [i|e], r' as [j|e']; unfold decode_debug, result_debug; rewrite !tuple_compact;
    intros E; try discriminate E.
  - apply (app_cancel "Ok(") in E. rewrite !compact_plain, !compact_seven in E. f_equal.
    exact (seven_inj _ _ _ _ _ _ _ _ _ _ _ _ _ _ _ _ i j _ _ (or_introl eq_refl) dec_one_to_one dec_one_to_one
      (true_false _) (any_value i j) E).
  - apply (app_cancel "Err(") in E. f_equal. exact (error_names e e' _ _ E).
Qed.
Lemma debug_pretty_inj r r' : pretty 0 (decode_debug r) = pretty 0 (decode_debug r') -> r = r'.
Proof.
  destruct r as [i|e], r' as [j|e']; unfold decode_debug, result_debug; rewrite !tuple_pretty;
    intros E; try discriminate E; apply app_cancel, app_cancel in E; f_equal.
  - rewrite !pretty_plain, !pretty_seven in E.
    exact (seven_inj _ _ _ _ _ _ _ _ _ _ _ _ _ _ _ _ i j _ _ (or_intror eq_refl) dec_one_to_one dec_one_to_one
      (true_false _) (any_value i j) E).
  - exact (error_lines e e' _ _ E).
Qed.
Lemma compact_inj i j : compact (Instruction_debug i) = compact (Instruction_debug j) -> i = j.
Proof.
  rewrite !compact_plain, !compact_seven. intros E.
  apply (f_equal (fun s => s ++ "")%string) in E.
  exact (seven_inj _ _ _ _ _ _ _ _ _ _ _ _ _ _ _ _ i j _ _ (or_introl eq_refl) dec_one_to_one dec_one_to_one
    (true_false _) (any_value i j) E).
Qed.
Lemma pretty_inj i j : pretty 0 (Instruction_debug i) = pretty 0 (Instruction_debug j) -> i = j.
Proof.
  rewrite !pretty_plain, !pretty_seven. intros E.
  apply (f_equal (fun s => s ++ "")%string) in E.
  exact (seven_inj _ _ _ _ _ _ _ _ _ _ _ _ _ _ _ _ i j _ _ (or_intror eq_refl) dec_one_to_one dec_one_to_one
    (true_false _) (any_value i j) E).
Qed.

Lemma opt_val_ok o : option_value (opt_val dec_str o) o.
Proof. destruct o as [v|]; [|reflexivity]. exists (dec_str v). split; [reflexivity|apply dec_str_decimal]. Qed.
Lemma opt_val_only o x : option_value x o -> x = opt_val dec_str o.
Proof. destruct o as [v|]; [|trivial]. intros [n [-> D]]. apply decimal_iff in D. subst n. reflexivity. Qed.
Notation plain_fields := (the_fields dec_str dec_str bool_str).
Lemma the_fields_ok i : fields i (plain_fields i).
Proof. do 4 eexists. split; [reflexivity|]. repeat split; apply opt_val_ok. Qed.

Lemma debug_one_line i : exists l, fields i l /\ compact (Instruction_debug i) = on_one_line l /\
  compact (decode_debug (Ok i)) = ("Ok(" ++ on_one_line l ++ ")")%string.
Proof.
  exists (plain_fields i). split; [apply the_fields_ok|]. rewrite <- compact_text, <- compact_plain. split; reflexivity.
Qed.
Lemma debug_lines i : exists l, fields i l /\ pretty 0 (Instruction_debug i) = text_of_lines (on_lines l) /\
  pretty 0 (decode_debug (Ok i)) = text_of_lines ("Ok(" :: further (comma (on_lines l)) ++ [")"])%string%list.
Proof.
  exists (plain_fields i). split; [apply the_fields_ok|].
  split; [rewrite pretty_plain; apply pretty_text|]. rewrite <- pretty_text_ok.
  unfold decode_debug, result_debug. rewrite !tuple_pretty, pretty_plain. reflexivity.
Qed.
Lemma debug_error e : compact (decode_debug (Err e)) = ("Err(" ++ error_name e ++ ")")%string /\
  pretty 0 (decode_debug (Err e)) = text_of_lines ["Err("; "    " ++ error_name e ++ ","; ")"]%string.
Proof. destruct e; split; reflexivity. Qed.

Lemma fields_one i l l' : fields i l -> fields i l' -> l = l'.
Proof.
  intros [d [a [b [m [-> [D [A [B M]]]]]]]] [d' [a' [b' [m' [-> [D' [A' [B' M']]]]]]]].
  apply opt_val_only in D, A, B, M, D', A', B', M'. subst. reflexivity.
Qed.
