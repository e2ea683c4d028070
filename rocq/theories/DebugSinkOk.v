(** Proofs about [Debug] with an arbitrary formatter (C56). *)
From Coq Require Import ZArith List Bool String Ascii Lia.
From Verif Require Import Rust Types Fmt FmtSink Debug DebugSink Spec SpecText SpecSink SpecDebug SpecDebugSink.
From Verif Require Import Numerals SinkOk DebugOk.
From Verif Require Text.
Import ListNotations.
Local Open Scope list_scope.
Local Open Scope Z_scope.

Notation append_assoc := Text.append_assoc.

(** [f] writes [s], in pieces that do not depend on the sink. *)
Definition writes (f : forall T, sink T -> writing T) (s : string) : Prop :=
  exists l, gives f l /\ joined l = s.

Lemma writes_then f g a b : writes f a -> writes g b ->
  writes (fun T k => then_ (f T k) (g T k)) (a ++ b)%string.
Proof.
  intros [l [F <-]] [l' [G <-]]. exists (l ++ l'). split; [apply gives_then; assumption|apply joined_app].
Qed.
Lemma writes_nothing : writes (fun T k => nothing_more) "".
Proof. exists []. split; [exact gives_nothing|reflexivity]. Qed.
Lemma writes_str s : writes (fun T k => write_str k s) s.
Proof. exists [s]. split; [exact (gives_str s)|]. cbn. apply Text.append_nil. Qed.
Lemma writes_eq f a b : writes f a -> a = b -> writes f b.
Proof. intros W <-. exact W. Qed.

(** ** Padding *)

Fixpoint rep (n : nat) (c : ascii) : string := match n with O => "" | S n' => String c (rep n' c) end.
Lemma writes_repeated n c : writes (fun T k => repeated n (write_str k (String c ""))) (rep n c).
Proof.
  induction n as [|n IH]; [exact writes_nothing|]. exact (writes_then _ _ _ _ (writes_str _) IH).
Qed.

Definition before_of (o : options) (dflt : alignment) (missing : Z) : Z :=
  match match align o with Some a => a | None => dflt end with
  | ALeft => 0 | ARight => missing | ACenter => missing / 2 end.
Definition pad_text (o : options) (dflt : alignment) (n : Z) (body : string) : string :=
  match width o with
  | Some w =>
      if n <? w then
        (rep (Z.to_nat (before_of o dflt (w - n))) (fill o) ++
        body ++ rep (Z.to_nat (w - n - before_of o dflt (w - n))) (fill o))%string
      else body
  | None => body
  end.
Lemma writes_padded o dflt n f s : writes f s ->
  writes (fun T k => padded k o dflt n (f T k)) (pad_text o dflt n s).
Proof.
  intros W. unfold padded, pad_text. destruct (width o) as [w|]; [|exact W].
  destruct (n <? w); [|exact W].
  exact (writes_then _ _ _ _ (writes_repeated _ _) (writes_then _ _ _ _ W (writes_repeated _ _))).
Qed.

Definition cut (o : options) (s : string) : string :=
  match precision o with Some m => substring 0 (Z.to_nat m) s | None => s end.
Definition str_text (o : options) (s : string) : string := pad_text o ALeft (len (cut o s)) (cut o s).
Lemma writes_pad o s : writes (fun T k => pad k s o) (str_text o s).
Proof. exact (writes_padded _ _ _ _ _ (writes_str _)). Qed.

Definition sign_of (o : options) (nonneg : bool) : string :=
  if negb nonneg then "-"%string else if sign_plus o then "+"%string else ""%string.
Definition prefix_of (o : options) (prefix : string) : string := if alternate o then prefix else ""%string.
Definition zero_fill (o : options) : options :=
  {| fill := "0"; align := Some ARight; width := width o; precision := precision o;
     sign_plus := sign_plus o; alternate := alternate o; zero_pad := true; debug_hex := debug_hex o |}.
Definition integral_text (o : options) (nonneg : bool) (prefix digits : string) : string :=
  let lead := (sign_of o nonneg ++ prefix_of o prefix)%string in
  let n := len (lead ++ digits) in
  if zero_pad o then (lead ++ pad_text (zero_fill o) ARight n digits)%string
  else pad_text o ARight n (lead ++ digits)%string.
Lemma writes_integral o nonneg prefix digits :
  writes (fun T k => pad_integral k nonneg prefix digits o) (integral_text o nonneg prefix digits).
Proof.
  unfold pad_integral, integral_text. fold (sign_of o nonneg) (prefix_of o prefix) (zero_fill o).
  assert (W : writes (fun T k => then_ (if (sign_of o nonneg =? "")%string then nothing_more else write_str k (sign_of o nonneg))
              (if alternate o then write_str k prefix else nothing_more)) (sign_of o nonneg ++ prefix_of o prefix)%string).
  { apply (writes_then (fun T k => if (sign_of o nonneg =? "")%string then nothing_more else write_str k (sign_of o nonneg))).
    - destruct (String.eqb_spec (sign_of o nonneg) "") as [->|N]; [exact writes_nothing|exact (writes_str _)].
    - unfold prefix_of. destruct (alternate o); [exact (writes_str _)|exact writes_nothing]. }
  assert (L : Z.of_nat (String.length (sign_of o nonneg) + String.length (prefix_of o prefix) + String.length digits)
              = len ((sign_of o nonneg ++ prefix_of o prefix) ++ digits)).
  { unfold len. rewrite !length_app. reflexivity. }
  rewrite L. destruct (zero_pad o).
  - exact (writes_then _ _ _ _ W (writes_padded _ _ _ _ _ (writes_str _))).
  - exact (writes_padded _ _ _ _ _ (writes_then _ _ _ _ W (writes_str _))).
Qed.

Definition int_text (o : options) (ty : int_type) (v : Z) : string :=
  match debug_hex o with
  | Some Lower => integral_text o true "0x" (hex_digits ty v)
  | Some Upper => integral_text o true "0x" (upper_digits (hex_digits ty v))
  | None => integral_text o (0 <=? v) "" (unsigned_str 10 (Z.abs v))
  end.
Lemma writes_int o ty v : writes (fun T k => int_debug_fmt k ty v o) (int_text o ty v).
Proof.
  unfold int_debug_fmt, int_text. destruct (debug_hex o) as [[]|]; exact (writes_integral _ _ _ _).
Qed.

(** ** Indentation *)

Definition lf : ascii := ascii_of_nat 10.
Lemma newline_lf : newline = String lf "".
Proof. reflexivity. Qed.

(** Four spaces before each line; [b]: at the beginning of a line. *)
Fixpoint ind (b : bool) (s : string) : string :=
  match s with
  | EmptyString => ""
  | String c s' => ((if b then "    " else "") ++ String c (ind (c =? lf)%char s'))%string
  end.
Definition after (b : bool) (s : string) : bool := if (s =? "")%string then b else ends_line s.
Lemma ind_app a : forall b s, ind b (a ++ s) = (ind b a ++ ind (after b a) s)%string.
Proof.
  induction a as [|c a IH]; intros b s; [reflexivity|]. cbn [append ind]. rewrite IH, append_assoc. cbn [append].
  assert (E : after (c =? lf)%char a = after b (String c a)).
  { unfold after. cbn [String.eqb ends_line]. destruct a; reflexivity. }
  rewrite E. reflexivity.
Qed.

(** What a [PadAdapter] writes for lines, and whether it is then at the beginning of a line. *)
Fixpoint lines_out (b : bool) (l : list string) : list string :=
  match l with [] => [] | s :: l' => (if b then ["    "%string; s] else [s]) ++ lines_out (ends_line s) l' end.
Fixpoint lines_end (b : bool) (l : list string) : bool :=
  match l with [] => b | s :: l' => lines_end (ends_line s) l' end.
Lemma adapter_feed {T} (k : sink T) l : forall t b,
  exists b', adapter_lines k t b l =
    ((fst (feed k (lines_out b l) t), b'), match snd (feed k (lines_out b l) t) with Ret x => x | _ => false end) /\
    (exists x, snd (feed k (lines_out b l) t) = Ret x) /\
    (snd (feed k (lines_out b l) t) = Ret true -> b' = lines_end b l).
Proof.
  induction l as [|s l IH]; intros t b; cbn [adapter_lines lines_out lines_end].
  - exists b. split; [reflexivity|]. split; [exists true; reflexivity|reflexivity].
  - destruct b; cbn [app feed].
    + destruct (k t "    "%string) as [t1 []]; [|exists true; split; [reflexivity|split; [exists false; reflexivity|discriminate]]].
      destruct (k t1 s) as [t2 []]; [exact (IH t2 _)|].
      exists (ends_line s). split; [reflexivity|split; [exists false; reflexivity|discriminate]].
    + destruct (k t s) as [t2 []]; [exact (IH t2 _)|].
      exists (ends_line s). split; [reflexivity|split; [exists false; reflexivity|discriminate]].
Qed.
Fixpoint adapted (b : bool) (l : list string) : list string :=
  match l with
  | [] => []
  | s :: l' => lines_out b (split_lines s) ++ adapted (lines_end b (split_lines s)) l'
  end.
Lemma feed_adapter {T} (k : sink T) l : forall t b,
  exists b', feed (pad_adapter k) l (t, b) = ((fst (feed k (adapted b l) t), b'), snd (feed k (adapted b l) t)).
Proof.
  induction l as [|s l IH]; intros t b; cbn [feed adapted]; [exists b; reflexivity|].
  destruct (adapter_feed k (split_lines s) t b) as [b' [E [[x R] B]]]. unfold pad_adapter at 1. cbn [fst snd].
  rewrite E. rewrite feed_app. unfold then_.
  destruct (feed k (lines_out b (split_lines s)) t) as [t1 r]. cbn [fst snd] in *. subst r. destruct x.
  - rewrite (B eq_refl). apply IH.
  - exists b'. reflexivity.
Qed.
Lemma gives_indented f l : gives f l -> gives (fun T k => indented k f) (adapted true l).
Proof.
  intros F T k t. unfold indented. rewrite (F _ (pad_adapter k) (t, true)).
  destruct (feed_adapter k l t true) as [b' ->]. cbn [fst snd]. destruct (feed k (adapted true l) t). reflexivity.
Qed.

Lemma split_nonempty s : ~ In ""%string (split_lines s).
Proof.
  induction s as [|c s IH]; [intros []|]. cbn [split_lines]. destruct (c =? ascii_of_nat 10)%char.
  - intros [E|H]; [discriminate E|exact (IH H)].
  - destruct (split_lines s) as [|l ls]; [intros [E|[]]; discriminate E|].
    intros [E|H]; [discriminate E|]. apply IH. right. exact H.
Qed.
Lemma split_joined s : joined (split_lines s) = s.
Proof.
  induction s as [|c s IH]; [reflexivity|]. cbn [split_lines]. destruct (c =? ascii_of_nat 10)%char.
  - cbn [joined fold_right append]. change (fold_right append ""%string (split_lines s)) with (joined (split_lines s)).
    rewrite IH. reflexivity.
  - destruct (split_lines s) as [|l ls]; cbn in IH |- *; rewrite <- IH; reflexivity.
Qed.
(** A newline only at the end. *)
Fixpoint one_line (s : string) : bool :=
  match s with
  | EmptyString => true
  | String c s' => (negb (c =? lf)%char || (s' =? "")%string) && one_line s'
  end.
Lemma split_one_line s : forallb one_line (split_lines s) = true.
Proof.
  induction s as [|c s IH]; [reflexivity|]. cbn [split_lines]. fold lf. destruct (c =? lf)%char eqn:E.
  - cbn [forallb one_line]. rewrite E. cbn. exact IH.
  - destruct (split_lines s) as [|l ls]; cbn [forallb one_line] in *; rewrite E; cbn [negb orb andb]; [reflexivity|exact IH].
Qed.
Lemma ind_one_line s : s <> ""%string -> one_line s = true -> forall b, ind b s = ((if b then "    " else "") ++ s)%string.
Proof.
  assert (A : forall s, one_line s = true -> ind false s = s).
  { clear s. induction s as [|c s IH]; [reflexivity|]. cbn [one_line ind append]. intros H.
    apply andb_true_iff in H. destruct H as [H1 H2]. destruct (c =? lf)%char; cbn [negb orb] in H1.
    - apply String.eqb_eq in H1. subst s. reflexivity.
    - rewrite (IH H2). reflexivity. }
  intros N O b. destruct s as [|c s]; [congruence|]. specialize (A _ O). cbn [ind append] in *. rewrite A. reflexivity.
Qed.
Lemma joined_cons s l : joined (s :: l) = (s ++ joined l)%string.
Proof. reflexivity. Qed.
Lemma lines_out_ind l : (forall s, In s l -> s <> ""%string) -> forallb one_line l = true ->
  forall b, joined (lines_out b l) = ind b (joined l) /\ lines_end b l = after b (joined l).
Proof.
  induction l as [|s l IH]; intros N O b; [split; reflexivity|].
  cbn [forallb] in O. apply andb_true_iff in O. destruct O as [O1 O2].
  assert (S : s <> ""%string) by (apply N; left; reflexivity).
  destruct (IH (fun t H => N t (or_intror H)) O2 (ends_line s)) as [I E].
  assert (A : after b s = ends_line s).
  { unfold after. destruct (String.eqb_spec s "") as [->|]; [congruence|reflexivity]. }
  split.
  - cbn [lines_out]. rewrite joined_app, I, joined_cons, ind_app, (ind_one_line s S O1), A.
    destruct b; cbn [joined fold_right append]; rewrite Text.append_nil; reflexivity.
  - cbn [lines_end]. rewrite E. rewrite joined_cons. clear - S. unfold after.
    assert (X : forall a c, ends_line (a ++ c) = if (c =? "")%string then ends_line a else ends_line c).
    { induction a as [|x a IH]; intros c.
      - cbn. destruct (String.eqb_spec c "") as [->|]; reflexivity.
      - cbn [append ends_line]. rewrite IH. destruct a as [|y a]; [|cbn [append]; destruct (c =? "")%string; reflexivity].
        cbn [append]. destruct c; reflexivity. }
    rewrite X. destruct s; [congruence|]. cbn [append String.eqb]. destruct (joined l =? "")%string; reflexivity.
Qed.
Lemma after_app b a s : after b (a ++ s) = after (after b a) s.
Proof.
  revert b. induction a as [|c a IH]; intros b; [reflexivity|].
  transitivity (after (c =? lf)%char (a ++ s)).
  - unfold after. cbn [append String.eqb ends_line]. destruct (a ++ s)%string; reflexivity.
  - rewrite IH. f_equal. unfold after. cbn [String.eqb ends_line]. destruct a; reflexivity.
Qed.
Lemma adapted_ind l : forall b, joined (adapted b l) = ind b (joined l).
Proof.
  induction l as [|s l IH]; intros b; [reflexivity|]. cbn [adapted].
  destruct (lines_out_ind (split_lines s)) with (b := b) as [E A].
  - intros x X ->. exact (split_nonempty _ X).
  - apply split_one_line.
  - rewrite split_joined in E, A. rewrite joined_app, E, A, IH, joined_cons, ind_app. reflexivity.
Qed.
Lemma writes_indented f s : writes f s -> writes (fun T k => indented k f) (ind true s).
Proof.
  intros [l [F <-]]. exists (adapted true l). split; [apply gives_indented; exact F|apply adapted_ind].
Qed.

(** ** Nodes *)

Fixpoint node_rect' (P : node -> Prop) (L : forall s, P (Leaf s)) (I : forall ty v, P (Int ty v)) (B : forall b, P (Flag b))
    (T : forall c l, Forall P l -> P (Tuple c l)) (S : forall c l, Forall (fun x => P (snd x)) l -> P (Struct c l))
    (t : node) : P t :=
  match t with
  | Leaf s => L s | Int ty v => I ty v | Flag b => B b
  | Tuple c l => T c l ((fix go (l : list node) : Forall P l :=
      match l with [] => Forall_nil _ | x :: l' => Forall_cons x (node_rect' P L I B T S x) (go l') end) l)
  | Struct c l => S c l ((fix go (l : list (string * node)) : Forall (fun x => P (snd x)) l :=
      match l with [] => Forall_nil _ | x :: l' => Forall_cons x (node_rect' P L I B T S (snd x)) (go l') end) l)
  end.

Section Text.
Variable o : options.

(** The numbers and [bool]s as text. *)
Fixpoint leaves (t : node) : node :=
  match t with
  | Leaf s => Leaf s
  | Int ty v => Leaf (int_text o ty v)
  | Flag b => Leaf (str_text o (bool_str b))
  | Tuple c l => Tuple c (map leaves l)
  | Struct c l => Struct c (map (fun x => (fst x, leaves (snd x))) l)
  end.

(** [label value] as a field, and the fields. *)
Definition field_out (first : bool) (open open_line label value : string) : string :=
  if alternate o then ((if first then open_line else "") ++ ind true (label ++ value ++ "," ++ nl))%string
  else ((if first then open else ", ") ++ label ++ value)%string.
Lemma writes_field first open open_line label value a b : writes label a -> writes value b ->
  writes (fun T k => field_fmt k o first open open_line label value) (field_out first open open_line a b).
Proof.
  intros A B. unfold field_fmt, field_out. destruct (alternate o).
  - apply writes_then.
    + destruct first; [exact (writes_str _)|exact writes_nothing].
    + exact (writes_indented _ _ (writes_then _ _ _ _ A (writes_then _ _ _ _ B (writes_str _)))).
  - exact (writes_then _ _ _ _ (writes_str _) (writes_then _ _ _ _ A B)).
Qed.

Fixpoint out (t : node) : string :=
  match t with
  | Leaf s => s
  | Int ty v => int_text o ty v
  | Flag b => str_text o (bool_str b)
  | Tuple c l =>
      (c ++ (fix go (first : bool) (l : list node) : string :=
         match l with
         | [] => ""
         | x :: l' => field_out first "(" ("(" ++ nl) "" (out x) ++ go false l'
         end) true l ++ match l with [] => "" | _ => ")" end)%string
  | Struct c l =>
      (c ++ (fix go (first : bool) (l : list (string * node)) : string :=
         match l with
         | [] => ""
         | (f, x) :: l' => field_out first " { " (" {" ++ nl) (f ++ ": ") (out x) ++ go false l'
         end) true l ++ match l with [] => "" | _ => if alternate o then "}" else " }" end)%string
  end.

Lemma tuple_fields l : Forall (fun x => writes (node_fmt x o) (out x)) l -> forall first,
  writes (fun T k => (fix go (first : bool) (l : list node) : writing T :=
            match l with
            | [] => nothing_more
            | x :: l' => then_ (field_fmt k o first "(" ("(" ++ nl) no_label (node_fmt x o)) (go false l')
            end) first l)
         ((fix go (first : bool) (l : list node) : string :=
         match l with
         | [] => ""
         | x :: l' => field_out first "(" ("(" ++ nl) "" (out x) ++ go false l'
         end) first l)%string.
Proof.
  intros F. induction F as [|x l X F IH]; intros first; [exact writes_nothing|].
  exact (writes_then _ _ _ _ (writes_field first _ _ _ _ _ _ writes_nothing X) (IH false)).
Qed.
Lemma struct_fields l : Forall (fun x => writes (node_fmt (snd x) o) (out (snd x))) l -> forall first,
  writes (fun T k => (fix go (first : bool) (l : list (string * node)) : writing T :=
            match l with
            | [] => nothing_more
            | (f, x) :: l' =>
                then_ (field_fmt k o first " { " (" {" ++ nl) (name_label f) (node_fmt x o)) (go false l')
            end) first l)
         ((fix go (first : bool) (l : list (string * node)) : string :=
         match l with
         | [] => ""
         | (f, x) :: l' => field_out first " { " (" {" ++ nl) (f ++ ": ") (out x) ++ go false l'
         end) first l)%string.
Proof.
  intros F. induction F as [|[f x] l X F IH]; intros first; [exact writes_nothing|].
  exact (writes_then _ _ _ _ (writes_field first _ _ _ _ _ _
    (writes_then _ _ _ _ (writes_str f) (writes_str _)) X) (IH false)).
Qed.

Lemma writes_node t : writes (node_fmt t o) (out t).
Proof.
  induction t as [s|ty v|b|c l F|c l F] using node_rect'.
  - exact (writes_str s).
  - exact (writes_int o ty v).
  - exact (writes_pad o (bool_str b)).
  - refine (writes_then _ _ _ _ (writes_str c) (writes_then _ _ _ _ (tuple_fields l F true) _)).
    destruct l; [exact writes_nothing|exact (writes_str _)].
  - refine (writes_then _ _ _ _ (writes_str c) (writes_then _ _ _ _ (struct_fields l F true) _)).
    destruct l; [exact writes_nothing|]. destruct (alternate o); exact (writes_str _).
Qed.

End Text.

(** ** Lines *)

(** Lines, each followed by a newline. *)
Fixpoint term (l : list string) : string :=
  match l with [] => ""%string | s :: l' => (s ++ newline ++ term l')%string end.
Lemma term_app a b : term (a ++ b) = (term a ++ term b)%string.
Proof. induction a as [|s a IH]; [reflexivity|]. cbn [term app]. rewrite IH, !append_assoc. reflexivity. Qed.
Lemma term_last l s : text_of_lines (l ++ [s]) = (term l ++ s)%string.
Proof.
  induction l as [|t l IH]; [reflexivity|]. cbn [app term]. rewrite !append_assoc, <- IH.
  unfold text_of_lines. destruct l; reflexivity.
Qed.
Lemma comma_term l s : (text_of_lines (l ++ [s]) ++ "," ++ newline)%string = term (comma (l ++ [s])).
Proof.
  rewrite comma_last, term_last, term_app. cbn [term]. rewrite !append_assoc, Text.append_nil. reflexivity.
Qed.
Lemma free_ind s r : free lf s = true -> ind false (s ++ r) = (s ++ ind false r)%string.
Proof.
  induction s as [|c s IH]; [reflexivity|]. cbn [free append ind]. intros H.
  apply andb_true_iff in H. destruct H as [H1 H2]. apply negb_true_iff in H1. rewrite H1, (IH H2). reflexivity.
Qed.
Lemma ind_true s : s <> ""%string -> ind true s = ("    " ++ ind false s)%string.
Proof. destruct s; [congruence|]. reflexivity. Qed.
Lemma ind_term l : forallb (free lf) l = true -> ind true (term l) = term (further l).
Proof.
  induction l as [|s l IH]; [reflexivity|]. cbn [forallb]. intros H. apply andb_true_iff in H. destruct H as [H1 H2].
  cbn [term further map]. fold (further l). rewrite <- (IH H2), ind_true.
  - rewrite (free_ind _ _ H1), append_assoc. reflexivity.
  - destruct s; discriminate.
Qed.

(** ** Numbers and [bool]s are without newline if the fill character is not one *)

Lemma free_rep x n c : c <> x -> free x (rep n c) = true.
Proof.
  intros N. induction n as [|n IH]; [reflexivity|]. cbn [rep free]. rewrite IH, andb_true_r.
  apply negb_true_iff. apply Ascii.eqb_neq. exact N.
Qed.
Lemma free_pad x o dflt n s : fill o <> x -> free x s = true -> free x (pad_text o dflt n s) = true.
Proof.
  intros N F. unfold pad_text. destruct (width o) as [w|]; [|exact F]. destruct (n <? w); [|exact F].
  rewrite !free_app, F, !free_rep by exact N. reflexivity.
Qed.
Lemma free_integral x o nonneg prefix digits : fill o <> x -> x <> "0"%char -> x <> "+"%char -> x <> "-"%char ->
  free x prefix = true -> free x digits = true -> free x (integral_text o nonneg prefix digits) = true.
Proof.
  intros N Z0 P M F D. unfold integral_text.
  assert (L : free x (sign_of o nonneg ++ prefix_of o prefix) = true).
  { rewrite free_app. apply andb_true_iff. split.
    - unfold sign_of. destruct nonneg; cbn [negb]; [destruct (sign_plus o); [|reflexivity]|]; cbn [free];
        rewrite andb_true_r; apply negb_true_iff, Ascii.eqb_neq; congruence.
    - unfold prefix_of. destruct (alternate o); [exact F|reflexivity]. }
  destruct (zero_pad o).
  - rewrite free_app, L. apply free_pad; [cbn; congruence|exact D].
  - apply free_pad; [exact N|]. rewrite free_app, L. exact D.
Qed.

Definition outside (x : ascii) : Prop := x = lf \/ x = ","%char \/ x = ")"%char.
Lemma digit_outside x d : outside x -> (digit_char d =? x)%char = false.
Proof.
  intros H. unfold digit_char.
  repeat match goal with |- (match ?z with _ => _ end =? _)%char = _ => destruct z end;
    destruct H as [-> | [-> | ->]]; reflexivity.
Qed.
Lemma digits_outside x fuel base : outside x -> forall n acc, free x acc = true -> free x (digits fuel base n acc) = true.
Proof.
  intros H. induction fuel as [|fuel IH]; intros n acc F; [exact F|]. cbn [digits].
  assert (G : free x (String (digit_char (n mod base)) acc) = true).
  { cbn [free]. rewrite digit_outside by exact H. exact F. }
  destruct (n / base =? 0); [exact G|]. apply IH. exact G.
Qed.
Lemma unsigned_outside x base n : outside x -> free x (unsigned_str base n) = true.
Proof. intros H. apply digits_outside; [exact H|reflexivity]. Qed.
Lemma upper_outside x s : outside x -> free x s = true -> free x (upper_digits s) = true.
Proof.
  intros H. induction s as [|c s IH]; [reflexivity|]. cbn [free upper_digits]. intros F.
  apply andb_true_iff in F. destruct F as [F1 F2]. rewrite (IH F2), andb_true_r.
  destruct ((97 <=? nat_of_ascii c)%nat && (nat_of_ascii c <=? 102)%nat) eqn:E; [|exact F1].
  apply andb_true_iff in E. destruct E as [E1 E2]. apply Nat.leb_le in E1, E2.
  assert (C : (nat_of_ascii c = 97 \/ nat_of_ascii c = 98 \/ nat_of_ascii c = 99 \/ nat_of_ascii c = 100 \/
    nat_of_ascii c = 101 \/ nat_of_ascii c = 102)%nat) by lia.
  destruct C as [-> | [-> | [-> | [-> | [-> | ->]]]]]; destruct H as [-> | [-> | ->]]; reflexivity.
Qed.
Lemma int_outside x o ty v : outside x -> fill o <> x -> free x (int_text o ty v) = true.
Proof.
  intros H N.
  assert (D : x <> "0"%char /\ x <> "+"%char /\ x <> "-"%char).
  { destruct H as [-> | [-> | ->]]; repeat split; discriminate. }
  assert (P : free x "0x" = true) by (destruct H as [-> | [-> | ->]]; reflexivity).
  assert (U : free x (hex_digits ty v) = true) by (destruct ty; apply unsigned_outside; exact H).
  unfold int_text. destruct (debug_hex o) as [[]|]; apply free_integral; try tauto.
  - apply upper_outside; assumption.
  - apply unsigned_outside. exact H.
Qed.
Lemma free_sub x n s : free x s = true -> free x (substring 0 n s) = true.
Proof.
  revert n. induction s as [|c s IH]; intros [|n] F; try reflexivity. cbn [substring free] in *.
  apply andb_true_iff in F. rewrite (proj1 F), IH by apply F. reflexivity.
Qed.
Lemma bool_outside x o b : outside x -> fill o <> x -> free x (str_text o (bool_str b)) = true.
Proof.
  intros H N. apply free_pad; [exact N|].
  assert (F : free x (bool_str b) = true) by (destruct H as [-> | [-> | ->]], b; reflexivity).
  unfold cut. destruct (precision o); [apply free_sub|]; exact F.
Qed.

(** ** The text *)

Definition fields_of (o : options) (i : Instruction) : list (string * value) :=
  the_fields (int_text o Usize) (int_text o I32) (fun b => str_text o (bool_str b)) i.

Definition value_out (o : options) (x : value) : string :=
  match x with
  | Plain s => s
  | Wrapped c s => out o (Tuple c [Leaf s])
  end.
Lemma tuple_out o c x : out o (Tuple c [x]) =
  if alternate o then (c ++ "(" ++ newline ++ ind true (out o x ++ "," ++ newline) ++ ")")%string
  else (c ++ "(" ++ out o x ++ ")")%string.
Proof.
  cbn [out]. unfold field_out. destruct (alternate o); rewrite !append_assoc, ?Text.append_nil; reflexivity.
Qed.
Fixpoint struct_out (o : options) (first : bool) (l : list (string * string)) : string :=
  match l with
  | [] => ""%string
  | (f, x) :: l' => (field_out o first " { " (" {" ++ nl) (f ++ ": ") x ++ struct_out o false l')%string
  end.
Lemma struct_out_ok o c l : l <> [] -> out o (Struct c l) =
  (c ++ struct_out o true (map (fun x => (fst x, out o (snd x))) l) ++ if alternate o then "}" else " }")%string.
Proof.
  intros N. cbn [out]. f_equal. f_equal; [|destruct l; [congruence|reflexivity]].
  clear N. set (first := true) at 1 3.
  assert (G : forall first, (fix go (first0 : bool) (l0 : list (string * node)) {struct l0} : string :=
   match l0 with
   | [] => ""
   | (f, x) :: l' => field_out o first0 " { " (" {" ++ nl) (f ++ ": ") (out o x) ++ go false l'
   end)%string first l = struct_out o first (map (fun x => (fst x, out o (snd x))) l)).
  { clear. induction l as [|[f x] l IH]; intros first; [reflexivity|]. cbn [map struct_out fst snd]. rewrite <- IH. reflexivity. }
  apply G.
Qed.
Lemma opt_out o ty x : out o (option_debug (fun v => Int ty v) x) = value_out o (opt_val (int_text o ty) x).
Proof. destruct x; reflexivity. Qed.
Lemma opcode_out o op : out o (OpcodeKind_debug op) = value_out o (Wrapped (family op) (spelling op)).
Proof. rewrite opcode_node, spelled. reflexivity. Qed.
Lemma instruction_out o i : out o (Instruction_debug i) =
  ("Instruction" ++ struct_out o true (map (fun x => (fst x, value_out o (snd x))) (fields_of o i)) ++
   if alternate o then "}" else " }")%string.
Proof.
  unfold Instruction_debug. rewrite struct_out_ok by discriminate. unfold fields_of, the_fields. cbn [map fst snd].
  rewrite opcode_out. unfold usize_debug, i32_debug. rewrite !opt_out.
  assert (F : out o (InstFormat_debug (inst_format i)) = format_name (inst_format i)).
  { rewrite <- format_named. reflexivity. }
  rewrite F. reflexivity.
Qed.

Lemma struct_line o l : alternate o = false -> forall first, l <> [] ->
  struct_out o first (map (fun x => (fst x, value_out o (snd x))) l) =
  ((if first then " { " else ", ") ++ String.concat ", " (map (fun x => fst x ++ ": " ++
    match snd x with Plain s => s | Wrapped c s => c ++ "(" ++ s ++ ")" end) l))%string.
Proof.
  intros A. induction l as [|[f x] l IH]; intros first N; [congruence|]. cbn [map struct_out fst snd].
  assert (V : value_out o x = match x with Plain s => s | Wrapped c s => (c ++ "(" ++ s ++ ")")%string end).
  { destruct x as [s|c s]; [reflexivity|]. cbn [value_out]. rewrite tuple_out, A. reflexivity. }
  rewrite V. unfold field_out. rewrite A. destruct l as [|y l].
  - cbn [map struct_out String.concat]. rewrite !append_assoc, Text.append_nil. reflexivity.
  - rewrite (IH false) by discriminate. rewrite !append_assoc. f_equal. cbn [map String.concat].
    rewrite !append_assoc. reflexivity.
Qed.
Definition value_free (x : value) : bool :=
  match x with Plain s => free lf s | Wrapped c s => free lf c && free lf s end.
Lemma struct_lines o l : alternate o = true -> forallb (fun x => free lf (fst x) && value_free (snd x)) l = true ->
  struct_out o false (map (fun x => (fst x, value_out o (snd x))) l) = term (further (flat_map field_lines l)).
Proof.
  intros A. induction l as [|[f x] l IH]; intros F; [reflexivity|]. cbn [map struct_out fst snd flat_map forallb] in *.
  apply andb_true_iff in F. destruct F as [F G]. apply andb_true_iff in F. destruct F as [F1 F2].
  rewrite further_app, term_app, <- (IH G). f_equal. unfold field_out. rewrite A.
  assert (E : (((f ++ ": ") ++ value_out o x ++ "," ++ nl) = term (field_lines (f, x)))%string).
  { destruct x as [s|c s]; cbn [value_out field_lines fst snd term].
    - rewrite !append_assoc, Text.append_nil. reflexivity.
    - rewrite tuple_out, A. cbn [out].
      assert (I : ind true (s ++ "," ++ newline) = ("    " ++ s ++ "," ++ newline)%string).
      { pose proof (ind_term [(s ++ ",")%string]) as I. cbn [term further map forallb] in I.
        rewrite Text.append_nil, !append_assoc in I. apply I. rewrite free_app.
        cbn [value_free] in F2. apply andb_true_iff in F2. rewrite (proj2 F2). reflexivity. }
      rewrite I, !append_assoc, Text.append_nil. reflexivity. }
  transitivity (ind true (term (field_lines (f, x)))); [rewrite <- E; reflexivity|]. apply ind_term.
  destruct x as [s|c s]; cbn [field_lines fst snd forallb value_free] in *; rewrite ?free_app, ?F1;
    [rewrite F2; reflexivity|].
  apply andb_true_iff in F2. rewrite !(proj1 F2), !(proj2 F2). reflexivity.
Qed.
Lemma field_out_first o label x : alternate o = true ->
  field_out o true " { " (" {" ++ nl) label x = (" {" ++ newline ++ field_out o false " { " (" {" ++ nl) label x)%string.
Proof. intros A. unfold field_out. rewrite A. rewrite !append_assoc. reflexivity. Qed.
Lemma struct_first o l : alternate o = true -> l <> [] ->
  struct_out o true l = (" {" ++ newline ++ struct_out o false l)%string.
Proof.
  intros A N. destruct l as [|[f x] l]; [congruence|]. cbn [struct_out]. rewrite field_out_first by exact A.
  rewrite !append_assoc. reflexivity.
Qed.
Lemma names_free op : free lf (family op) = true /\ free lf (spelling op) = true.
Proof. destruct op as [[]|[]|[]|[]|[]|[]|[]|[]|[]|[]]; split; reflexivity. Qed.
Lemma fields_free o i : fill o <> lf -> forallb (fun x => free lf (fst x) && value_free (snd x)) (fields_of o i) = true.
Proof.
  intros N. unfold fields_of, the_fields. destruct (names_free (opc i)) as [A B].
  assert (O : forall ty x, value_free (opt_val (int_text o ty) x) = true).
  { intros ty [v|]; [|reflexivity]. cbn. apply int_outside; [left; reflexivity|exact N]. }
  assert (C : free lf (format_name (inst_format i)) = true) by (destruct (inst_format i); reflexivity).
  cbn [forallb fst snd]. rewrite !O. cbn [value_free]. rewrite A, B, C, bool_outside; [reflexivity|left; reflexivity|exact N].
Qed.

Lemma instruction_text o i : (alternate o = true -> fill o <> lf) ->
  out o (Instruction_debug i) = debug_text o (fields_of o i).
Proof.
  intros N. rewrite instruction_out. unfold debug_text. destruct (alternate o) eqn:A.
  - rewrite struct_first by (exact A || discriminate). rewrite struct_lines by (exact A || exact (fields_free o i (N eq_refl))).
    rewrite on_lines_eq. change ("Instruction {"%string :: ?l ++ [?x]) with (("Instruction {"%string :: l) ++ [x]).
    rewrite term_last. cbn [term]. rewrite !append_assoc. reflexivity.
  - rewrite struct_line by (exact A || discriminate). unfold on_one_line. rewrite !append_assoc. reflexivity.
Qed.
Lemma lines_free o i : fill o <> lf -> forallb (free lf) (comma (on_lines (fields_of o i))) = true.
Proof.
  intros N. rewrite on_lines_eq. change ("Instruction {"%string :: ?l ++ [?x]) with (("Instruction {"%string :: l) ++ [x]).
  rewrite comma_last. cbn [app forallb]. rewrite forallb_app. cbn [forallb append].
  change (free lf "Instruction {") with true. change (free lf "},") with true. cbn [andb]. rewrite andb_true_r.
  pose proof (fields_free o i N) as F. revert F.
  generalize (fields_of o i). intros l. induction l as [|[f x] l IH]; [reflexivity|]. cbn [forallb flat_map fst snd].
  intros F. apply andb_true_iff in F. destruct F as [F G]. apply andb_true_iff in F. destruct F as [F1 F2].
  rewrite further_app, forallb_app, (IH G), andb_true_r.
  destruct x as [s|c s]; cbn [field_lines fst snd further map forallb value_free] in *; rewrite ?free_app, ?F1;
    [rewrite F2; reflexivity|].
  apply andb_true_iff in F2. rewrite !(proj1 F2), !(proj2 F2). reflexivity.
Qed.
Lemma decode_text o r : (alternate o = true -> fill o <> lf) ->
  out o (decode_debug r) = match r with Ok i => ok_text o (fields_of o i) | Err e => err_text o e end.
Proof.
  intros N. unfold decode_debug, result_debug. destruct r as [i|e]; rewrite tuple_out.
  - rewrite (instruction_text o i N). unfold ok_text, debug_text. destruct (alternate o) eqn:A; [|reflexivity].
    pose proof (lines_free o i (N eq_refl)) as F. rewrite on_lines_eq in *.
    change ("Instruction {"%string :: ?l ++ [?x]) with (("Instruction {"%string :: l) ++ [x]) in *.
    rewrite comma_term, ind_term by exact F.
    change ("Ok("%string :: ?l ++ [?x]) with (("Ok("%string :: l) ++ [x]). rewrite term_last. cbn [term].
    rewrite !append_assoc. reflexivity.
  - unfold err_text. destruct (alternate o); destruct e; reflexivity.
Qed.
