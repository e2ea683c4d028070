(** The evaluator finds what SpecMeaning.v says: numbers, declared types, patterns, what is derived. *)
From Coq Require Import ZArith List Bool String Lia.
From Verif Require Import Rust Fmt Debug SrcLex SrcAst SrcNames SrcLink SrcSem SpecMeaning SrcTie SrcTie2.
From Verif Require SpecText Numerals.
Import ListNotations.
Local Open Scope string_scope.
Local Open Scope Z_scope.

Definition fine (a : ans) : Prop := match a with Wrong _ => False | _ => True end.

Ltac bad := exfalso; match goal with H : Wrong _ = ?a, F : fine ?a |- _ => rewrite <- H in F; exact F end.
Ltac strings :=
  repeat match goal with
  | H : (_ =? _)%string = true |- _ => apply String.eqb_eq in H
  | H : (_ =? _)%string = false |- _ => apply String.eqb_neq in H
  | H : _ && _ = true |- _ => apply andb_true_iff in H; destruct H
  end.

Lemma assoc_finds {A} x (v : A) l : assoc x l = Some v -> Finds x v l.
Proof.
  induction l as [|[y w] l IH]; cbn [assoc]; intros H; [discriminate H|].
  destruct (x =? y)%string eqn:E; strings; [injection H as ->; subst; apply F_here|apply F_later; auto].
Qed.

Lemma assoc_none {A} x (l : list (string * A)) : assoc x l = None -> ~ In x (map fst l).
Proof.
  induction l as [|[y w] l IH]; cbn [assoc map fst In]; intros H; [tauto|].
  destruct (x =? y)%string eqn:E; strings; [discriminate H|]. intros [K|K]; [congruence|exact (IH H K)].
Qed.

Lemma assoc_split {A} x (v : A) l : assoc x l = Some v ->
  exists l1 l2, l = (l1 ++ (x, v) :: l2)%list /\ ~ In x (map fst l1).
Proof.
  induction l as [|[y w] l IH]; cbn [assoc]; intros H; [discriminate H|].
  destruct (x =? y)%string eqn:E; strings.
  - injection H as ->. subst. exists [], l. split; [reflexivity|intros []].
  - destruct (IH H) as (l1 & l2 & -> & N). exists ((y, w) :: l1), l2. split; [reflexivity|].
    cbn. intros [K|K]; [congruence|exact (N K)].
Qed.

Lemma update_split x v w l1 l2 : ~ In x (map fst l1) ->
  update x w (l1 ++ (x, v) :: l2)%list = (l1 ++ (x, w) :: l2)%list.
Proof.
  induction l1 as [|[y u] l1 IH]; cbn; intros N; [rewrite String.eqb_refl; reflexivity|].
  destruct (x =? y)%string eqn:E; strings; [subst; tauto|]. rewrite IH by tauto. reflexivity.
Qed.

Lemma prim_named x t : prim_ity x = Some t <-> Int_named x t.
Proof.
  unfold prim_ity. split.
  - repeat match goal with |- (if (?a =? ?b)%string then _ else _) = _ -> _ => destruct (a =? b)%string eqn:?; strings end;
      intros H; try discriminate H; injection H as <-; subst; constructor.
  - intros []; reflexivity.
Qed.

Lemma prim_none x : prim_ity x = None -> forall t, ~ Int_named x t.
Proof. intros H t K. apply prim_named in K. congruence. Qed.

Lemma int_name t : has_size t -> Int_named (ity_name t) t.
Proof. destruct t; intros []; constructor. Qed.

Lemma join_common t u c : join t u = Some c -> Common t u c.
Proof. destruct t, u; cbn; intros H; try discriminate H; injection H as <-; constructor; discriminate. Qed.

Section Numbers.
Variable p : platform.
Hypothesis ok : platform_ok p.

Lemma width_bits t : width p t = bits p t.
Proof. reflexivity. Qed.

Lemma bits_pos t : has_size t -> 0 < bits p t.
Proof. destruct t; cbn; intros []; try lia. destruct ok as [E|[E|E]]; rewrite E; lia. Qed.

Lemma mod_wraps t z : is_unsigned t -> Wraps p t z (z mod 2 ^ bits p t).
Proof.
  intros T. assert (B : 0 < 2 ^ bits p t) by (apply Z.pow_pos_nonneg; [lia|apply Z.lt_le_incl, bits_pos; destruct t; try destruct T; exact I]).
  split.
  - destruct t; try destruct T; cbn [in_range]; apply Z.mod_pos_bound, B.
  - exists (z / 2 ^ bits p t). pose proof (Z.div_mod z (2 ^ bits p t)). lia.
Qed.

Lemma wrap_wraps z : Wraps p I32 z (wrap_i32 z).
Proof.
  unfold wrap_i32. cbn [bits]. pose proof (Z.div_mod z (2 ^ 32)). pose proof (Z.mod_pos_bound z (2 ^ 32) ltac:(lia)).
  change (2 ^ 32) with 4294967296 in *. change (2 ^ 31) with 2147483648 in *.
  destruct (Z.ltb_spec (z mod 4294967296) 2147483648); split; cbn [in_range bits]; change (2 ^ 31) with 2147483648;
    change (2 ^ 32) with 4294967296; try lia.
  - exists (z / 4294967296). lia.
  - exists (z / 4294967296 + 1). lia.
Qed.

Lemma checked_settles t z : Settles p t z (checked p t z).
Proof.
  destruct t; cbn [checked]; try (apply Z_fits; exact I); unfold ck_u, ck_i32; rewrite ?width_bits;
    match goal with |- Settles _ ?t _ (if ?c then _ else _) => destruct c eqn:E end;
    try (apply Z_fits; cbn [in_range]; lia);
    (destruct (overflow_checks p) eqn:O; [apply Z_panics; [cbn [in_range]; lia|exact O]|apply Z_wraps; [cbn [in_range]; lia|exact O|]]);
    first [apply mod_wraps; exact I|apply wrap_wraps].
Qed.

Lemma shift_amount t n : has_size t -> Amount p t n (ck_shift (bits p t) p n).
Proof.
  intros T. pose proof (bits_pos t T). unfold ck_shift.
  destruct ((0 <=? n) && (n <? bits p t)) eqn:E; [apply A_fits; lia|].
  destruct (overflow_checks p) eqn:O; [apply A_panics; [lia|exact O]|].
  apply A_wraps; [lia|exact O|apply Z.mod_pos_bound; lia|].
  exists (n / bits p t). pose proof (Z.div_mod n (bits p t)). lia.
Qed.

Lemma seq_ok m k a : seq m k = a -> match m with Ret z => k z = a | Panic w => Halt (Why w) = a end.
Proof. destruct m; exact (fun H => H). Qed.

Lemma amount_range t n m : has_size t -> Amount p t n (Ret m) -> 0 <= m < bits p t.
Proof. intros T H. inversion H; subst; lia. Qed.

Lemma arith_ok op t x u y k a : arith p op t x u y k = a -> fine a ->
  exists r, Operation p op t x u y r /\ match r with Ret v => k v = a | Panic w => Halt (Why w) = a end.
Proof.
  intros H F. destruct op; cbn [arith] in H;
    try (match type of H with (match ?j with _ => _ end) = _ => destruct j eqn:J end; [apply join_common in J|bad]); try bad.
  all: try (apply seq_ok in H).
  all: try match goal with J : Common _ _ _ |- _ => idtac end.
  all: match goal with
       | H : match checked p ?c (?a + ?b) with _ => _ end |- _ =>
           eexists; split; [eapply O_plus; [eassumption|apply checked_settles]|destruct (checked p c (a + b)); exact H]
       | H : match checked p ?c (?a - ?b) with _ => _ end |- _ =>
           eexists; split; [eapply O_minus; [eassumption|apply checked_settles]|destruct (checked p c (a - b)); exact H]
       | _ => idtac
       end.
  all: try (eexists; split; [eapply O_and; [eassumption|intros; apply Z.land_spec]|exact H]).
  all: try (eexists; split; [eapply O_or; [eassumption|intros; apply Z.lor_spec]|exact H]).
  all: try (eexists; split; [eapply O_eq; [eassumption|apply Z.eqb_eq]|exact H]).
  all: try (exists (Ret (VBool (negb (x =? y)))); split; [eapply O_ne; [eassumption|rewrite negb_true_iff; apply Z.eqb_neq]|exact H]).
  all: try (exists (Ret (VBool (x >=? y))); split; [eapply O_ge; [eassumption|rewrite Z.geb_leb; apply Z.leb_le]|exact H]).
  all: match goal with |- exists r, Operation _ _ ?t _ _ _ _ /\ _ => destruct t eqn:T; try bad; apply seq_ok in H;
         pose proof (shift_amount t y) as A; rewrite T in A; specialize (A I); unfold shr, shl_u in H; rewrite ?width_bits in H;
         match type of A with Amount _ _ _ ?c => destruct c as [m|w] eqn:K end end;
       cbn [bind] in H;
       (eexists; split; [first [eapply O_shr|eapply O_shl]; [exact I|exact A]|cbn [map_outcome]]); try exact H;
       (apply amount_range in A; [|exact I]); first [rewrite <- Z.shiftr_div_pow2 by lia|rewrite <- Z.shiftl_mul_pow2 by lia]; exact H.
Qed.

Lemma prim_call_ok t m vs k a : prim_call p t m vs k = a -> fine a -> exists v, Primitive p t m vs v /\ k v = a.
Proof.
  unfold prim_call. intros H F. destruct (prim_ity t) as [i|] eqn:T.
  - apply prim_named in T. destruct vs as [|[j z| | | | | | | | | |] [|]]; try bad.
    destruct (m =? "try_from")%string eqn:M; strings; [subst m|].
    + assert (U : is_unsigned i /\ is_unsigned j).
      { destruct i; try bad; try solve [inversion T]; destruct j; try bad; split; exact I. }
      destruct U as [U V].
      assert (E : (if z <? 2 ^ width p i then k (VEnum "Result" "Ok" [VInt i z]) else k (VEnum "Result" "Err" [VOpaque])) = a)
        by (destruct i; try destruct U; destruct j; try destruct V; exact H).
      rewrite width_bits in E. destruct (Z.ltb_spec z (2 ^ bits p i)); eexists; (split; [|exact E]).
      * apply P_try_ok; assumption.
      * eapply P_try_err; eassumption.
    + destruct (m =? "from")%string eqn:N; strings; [subst m|bad].
      destruct i; try bad; destruct j; try bad. inversion T; subst t. eexists. split; [apply P_from|exact H].
  - destruct vs; [|bad]. destruct (m =? "caller")%string eqn:M; strings; [subst m|bad].
    eexists. split; [apply P_caller, prim_none, T|exact H].
Qed.

Lemma between_range lo z hi : between lo z hi = true -> lo <= z <= hi.
Proof. unfold between. destruct (Z.compare_spec lo z), (Z.compare_spec z hi); intros; try discriminate; lia. Qed.

Lemma usize_16 : 2 ^ 16 <= 2 ^ usize_bits p.
Proof. apply Z.pow_le_mono_r; [lia|]. destruct ok as [E|[E|E]]; rewrite E; lia. Qed.

Lemma literal_range t z : literal_fits t z = true -> in_range p t z.
Proof.
  pose proof usize_16. destruct t; cbn [literal_fits in_range bits]; intros H0; try exact I; apply between_range in H0; lia.
Qed.

Lemma suffix_range t z : suffix_fits p t z = true -> in_range p t z.
Proof. destruct t; try apply literal_range. cbn [suffix_fits in_range bits]. lia. Qed.

Lemma ity_eqb_eq t u : ity_eqb t u = true -> t = u.
Proof. destruct t, u; intros H; try discriminate H; reflexivity. Qed.

Lemma variant_iff t c v : is_variant t c v = true <-> exists vs, v = VEnum t c vs.
Proof.
  split.
  - destruct v; cbn [is_variant]; intros H; try discriminate H. strings. subst. eauto.
  - intros (vs & ->). cbn [is_variant]. rewrite !String.eqb_refl. reflexivity.
Qed.

Lemma some_ok_iff v : is_variant "Option" "Some" v || is_variant "Result" "Ok" v = true <->
  exists t c vs, v = VEnum t c vs /\ some_or_ok t c.
Proof.
  rewrite orb_true_iff, !variant_iff. split.
  - intros [(vs & ->)|(vs & ->)]; do 3 eexists; (split; [reflexivity|]); [left|right]; auto.
  - intros (t & c & vs & -> & [[-> ->]|[-> ->]]); eauto.
Qed.

Lemma coerce_takes n : forall t v w, coerce n t v = Some w -> Takes p t v w.
Proof.
  induction n as [|n IH]; intros t v w H; [discriminate H|]. cbn [coerce] in H. destruct t as [q l|t|t].
  - destruct q as [|x [|]]; try (injection H as <-; apply K_path; discriminate).
    destruct (prim_ity x) as [i|] eqn:T.
    + apply prim_named in T. destruct v as [j z| | | | | | | | | |]; try discriminate H.
      assert (C : j = Lit /\ literal_fits i z = true /\ w = VInt i z \/ j = Into /\ w = VInt i z \/ i = j /\ w = VInt j z).
      { destruct j; try (destruct (ity_eqb i _) eqn:E; [|discriminate H]; apply ity_eqb_eq in E; injection H as <-; auto).
        - destruct (literal_fits i z) eqn:L; [|discriminate H]. injection H as <-. auto.
        - injection H as <-. auto. }
      destruct C as [(-> & L & ->)|[(-> & ->)|(-> & ->)]].
      * apply K_literal; [exact T|apply literal_range, L].
      * apply K_into, T.
      * apply K_int, T.
    + pose proof (prim_none _ T) as N. destruct l as [|a l].
      * injection H as <-. apply K_other; [exact N|intros K; destruct K; reflexivity].
      * destruct (is_variant "Option" "Some" v || is_variant "Result" "Ok" v) eqn:S.
        -- apply some_ok_iff in S. destruct S as (t & c & vs & -> & S).
           destruct vs as [|u [|]]; try discriminate H. destruct (coerce n a u) eqn:C; [|discriminate H].
           injection H as <-. apply K_inner; auto.
        -- injection H as <-. apply K_other; [exact N|]. intros _ t c vs -> K.
           rewrite (proj2 (some_ok_iff _)) in S; [discriminate S|eauto 6].
  - apply K_ref, IH, H.
  - destruct v as [| | | | | | |vs| | |]; try discriminate H. destruct (mapo (coerce n t) vs) as [ws|] eqn:M; [|discriminate H].
    injection H as <-. apply K_slice. revert ws M. induction vs as [|v vs IHv]; intros ws M; cbn in M.
    + injection M as <-. apply K_nil.
    + destruct (coerce n t v) eqn:C; [|discriminate M]. destruct (mapo _ vs); [|discriminate M].
      injection M as <-. apply K_cons; [apply IH, C|apply IHv; reflexivity].
Qed.

Lemma coerce_opt_takes t v w : coerce_opt t v = Some w -> Takes_if p t v w.
Proof. destruct t; cbn [coerce_opt]; intros H; [apply K_some, (coerce_takes 10), H|injection H as <-; apply K_none]. Qed.

Lemma bind_binds ps : forall vs s s', bind_params ps vs s = Some s' -> Binds p ps vs s s'.
Proof.
  induction ps as [|[x t] ps IH]; intros [|v vs] s s' H; cbn [bind_params] in H; try discriminate H.
  - injection H as <-. apply B_nil.
  - destruct (coerce_opt t v) eqn:C; [|discriminate H]. eapply B_cons; [apply coerce_opt_takes, C|apply IH, H].
Qed.

End Numbers.

(** ** Patterns *)

Definition pmatch_good (q : pat) : Prop := forall v b ks kf a, pmatch q v b ks kf = a -> fine a ->
  exists r, Meets q v b r /\ match r with Some b' => ks b' = a | None => kf tt = a end.

Lemma pmatch_all_ok ps : Forall pmatch_good ps -> forall vs b ks kf a,
  (fix all (ps : list pat) (vs : list value) (b : env) : ans :=
     match ps, vs with
     | [], [] => ks b
     | p :: ps', v :: vs' => pmatch p v b (fun b' => all ps' vs' b') kf
     | _, _ => Wrong "pattern"
     end) ps vs b = a -> fine a ->
  exists r, Meets_all ps vs b r /\ match r with Some b' => ks b' = a | None => kf tt = a end.
Proof.
  induction 1 as [|q ps Q _ IH]; intros [|v vs] b ks kf a E F; try bad.
  - eexists. split; [apply M_nil|exact E].
  - destruct (Q _ _ _ _ _ E F) as ([b'|] & M & K).
    + destruct (IH _ _ _ _ _ K F) as (r & N & L). exists r. split; [eapply M_cons; eassumption|exact L].
    + exists None. split; [apply M_misses, M|exact K].
Qed.

Lemma pmatch_ok q : pmatch_good q.
Proof.
  induction q as [|x|z|lo hi|q|q ps _|ps IH|ps IH|t c ps IH] using pat_ind'; intros v b ks kf a E F; cbn [pmatch] in E; try bad.
  - eexists. split; [apply M_wild|exact E].
  - eexists. split; [apply M_bind|exact E].
  - destruct v as [t y| | | | | | | | | |]; try bad. destruct (Z.eqb_spec y z) as [->|N].
    + eexists. split; [apply M_lit|exact E].
    + exists None. split; [apply M_not_lit, N|exact E].
  - destruct v as [t y| | | | | | | | | |]; try bad. destruct ((lo <=? y) && (y <=? hi)) eqn:R.
    + exists (Some b). split; [apply M_range; lia|exact E].
    + exists None. split; [apply M_not_range; lia|exact E].
  - destruct v; try bad. destruct (pmatch_all_ok _ IH _ _ _ _ _ E F) as (r & M & K).
    exists r. split; [apply M_tuple, M|exact K].
  - induction IH as [|q ps Q _ IHps].
    + exists None. split; [apply M_no_or|exact E].
    + destruct (Q _ _ _ _ _ E F) as ([b'|] & M & K).
      * exists (Some b'). split; [apply M_or_first, M|exact K].
      * destruct (IHps K) as (r & N & L). exists r. split; [eapply M_or_next; eassumption|exact L].
  - destruct v as [| | | |t' c' vs| | | | | |]; try bad. destruct (t' =? t)%string eqn:T; [|bad]. strings. subst t'.
    destruct (c' =? c)%string eqn:C; strings.
    + subst c'. destruct (pmatch_all_ok _ IH _ _ _ _ _ E F) as (r & M & K). exists r. split; [apply M_ctor, M|exact K].
    + exists None. split; [apply M_not_ctor, C|exact E].
Qed.

(** ** What is derived *)

Section Derived.
Variable P : program.

Definition with_eq : list string := map fst (filter (fun d => existsb (String.eqb "PartialEq") (snd d)) (p_derives P)).

Lemma existsb_in x l : existsb (String.eqb x) l = true -> In x l.
Proof. intros H. apply existsb_exists in H. destruct H as (y & I & E). strings. subst. exact I. Qed.

Lemma with_eq_derives t : existsb (String.eqb t) with_eq = true -> exists ds, In (t, ds) (p_derives P) /\ In "PartialEq" ds.
Proof.
  intros H. apply existsb_in, in_map_iff in H. destruct H as ([x ds] & <- & I). apply filter_In in I. destruct I as [I E].
  exists ds. split; [exact I|]. apply existsb_in, E.
Qed.

Lemma veq_equal n : forall x y r, veq n with_eq x y = Some r -> Equal P x y r.
Proof.
  induction n as [|n IH]; intros x y r H; [discriminate H|]. cbn [veq] in H. cbv zeta in H.
  assert (All : forall xs ys r,
    (fix vs_eq (xs ys : list value) : option bool :=
        match xs, ys with
        | [], [] => Some true
        | x :: xs', y :: ys' =>
            match veq n with_eq x y with
            | Some true => vs_eq xs' ys'
            | r => r
            end
        | _, _ => None
        end) xs ys = Some r -> Equal_all P xs ys r).
  { induction xs as [|x' xs IHx]; intros [|y' ys] r' E; try discriminate E.
    - injection E as <-. apply Q_nil.
    - destruct (veq n with_eq x' y') as [[|]|] eqn:V; [|injection E as <-|discriminate E].
      + apply Q_cons; [apply IH, V|apply IHx, E].
      + apply Q_differ, IH, V. }
  destruct x as [t i|b1| | |t c xs|t xs| | | | |]; try discriminate H; destruct y as [u j|b2| | |u d ys|u ys| | | | |]; try discriminate H.
  - destruct (join t u) eqn:J; [|discriminate H]. injection H as <-. eapply Q_int; [apply join_common, J|apply Z.eqb_eq].
  - injection H as <-. apply Q_bool. apply Bool.eqb_true_iff.
  - injection H as <-. apply Q_unit.
  - destruct ((t =? u)%string && existsb (String.eqb t) ("Option" :: "Result" :: with_eq)%list) eqn:T; [|discriminate H].
    apply andb_true_iff in T. destruct T as [T D]. apply String.eqb_eq in T. subst u.
    assert (K : comparable P t).
    { cbn [existsb] in D. apply orb_true_iff in D. destruct D as [D|D]; [strings; left; exact D|].
      apply orb_true_iff in D. destruct D as [D|D]; [strings; right; left; exact D|]. right. right. apply with_eq_derives, D. }
    destruct (c =? d)%string eqn:C; strings.
    + subst d. apply Q_enum; [exact K|apply All, H].
    + injection H as <-. apply Q_variant; assumption.
  - destruct ((t =? u)%string && existsb (String.eqb t) with_eq) eqn:T; [|discriminate H].
    apply andb_true_iff in T. destruct T as [T D]. apply String.eqb_eq in T. subst u.
    apply Q_struct; [apply with_eq_derives, D|]. clear All.
    revert ys r H. induction xs as [|[f x] xs IHx]; intros [|[g y] ys] r E; try discriminate E.
    + injection E as <-. apply Q_no_field.
    + destruct (f =? g)%string eqn:G; [|discriminate E]. strings. subst g.
      destruct (veq n with_eq x y) as [[|]|] eqn:V; [|injection E as <-|discriminate E].
      * apply Q_field; [apply IH, V|apply IHx, E].
      * apply Q_field_differs, IH, V.
Qed.

Lemma concat_cons sep s ss : ss <> [] -> String.concat sep (s :: ss) = s ++ sep ++ String.concat sep ss.
Proof. destruct ss; [intros []; reflexivity|reflexivity]. Qed.

Lemma compact_tuple c l : compact (Tuple c l) = c ++ "(" ++ String.concat ", " (map compact l) ++ ")".
Proof.
  cbn [compact]. do 3 f_equal. induction l as [|x l IH]; [reflexivity|]. cbn [map].
  destruct l as [|y l]; [reflexivity|]. rewrite concat_cons by discriminate. rewrite <- IH. reflexivity.
Qed.

Lemma app_assoc_s (a b c : string) : (a ++ b) ++ c = a ++ b ++ c.
Proof. induction a; cbn; [reflexivity|f_equal; assumption]. Qed.

Lemma compact_struct t l : compact (Struct t l) =
  t ++ " { " ++ String.concat ", " (map (fun fs => fst fs ++ ": " ++ compact (snd fs)) l) ++ " }".
Proof.
  cbn [compact]. do 3 f_equal. induction l as [|[f x] l IH]; [reflexivity|]. cbn [map fst snd].
  destruct l as [|y l]; [reflexivity|]. rewrite concat_cons by discriminate. rewrite !app_assoc_s, <- IH. reflexivity.
Qed.

Lemma debug_debugs n : forall v d, derived_debug P n v = Some d -> Debugs P v (compact d).
Proof.
  induction n as [|n IH]; intros v d H; [discriminate H|]. cbn [derived_debug] in H. cbv zeta in H.
  assert (All : forall vs ds, mapo (derived_debug P n) vs = Some ds -> Debugs_all P vs (map compact ds)).
  { induction vs as [|v' vs IHv]; intros ds E; cbn in E.
    - injection E as <-. apply G_nil.
    - destruct (derived_debug P n v') eqn:V; [|discriminate E]. destruct (mapo _ vs); [|discriminate E].
      injection E as <-. apply G_cons; [apply IH, V|apply IHv; reflexivity]. }
  assert (Has : forall t, existsb (String.eqb "Debug") match assoc t (p_derives P) with Some l => l | None => [] end = true ->
    exists ds, Finds t ds (p_derives P) /\ In "Debug" ds).
  { intros t E. destruct (assoc t (p_derives P)) as [ds|] eqn:A; [|discriminate E]. exists ds.
    split; [apply assoc_finds, A|apply existsb_in, E]. }
  destruct v as [t z|b| | |t c vs|t fs| | | | |]; try discriminate H.
  - destruct t; try discriminate H; injection H as <-; (apply G_int; [auto|apply Numerals.dec_str_decimal]).
  - injection H as <-. apply G_bool.
  - destruct (_ || _ || _)%bool eqn:D in H; [|discriminate H].
    assert (K : debuggable P t).
    { apply orb_true_iff in D. destruct D as [D|D]; [|strings; right; left; exact D].
      apply orb_true_iff in D. destruct D as [D|D]; [right; right; apply Has, D|strings; left; exact D]. }
    destruct vs as [|v vs].
    + injection H as <-. apply G_unit, K.
    + destruct (mapo (derived_debug P n) (v :: vs)) as [ds|] eqn:M; [|discriminate H]. injection H as <-.
      rewrite compact_tuple. apply G_tuple; [exact K|discriminate|apply All, M].
  - destruct (assoc t (p_structs P)) as [ds|] eqn:A; [|discriminate H].
    destruct (_ && _ && _)%bool eqn:D in H; [|discriminate H]. strings.
    destruct (mapo _ _) as [l|] eqn:M in H; [|discriminate H]. injection H as <-.
    match goal with E : words_eqb _ _ = true |- _ => apply words_eqb_eq in E; rename E into W end.
    match goal with E : negb _ = true |- _ => rename E into N end.
    assert (L : List.length l = List.length fs).
    { rewrite <- (map_length snd fs). clear -M. revert l M. induction (map snd fs) as [|v vs IHv]; intros l M; cbn in M.
      - injection M as <-. reflexivity.
      - destruct (derived_debug P n v); [|discriminate M]. destruct (mapo _ vs); [|discriminate M].
        injection M as <-. cbn. f_equal. apply IHv. reflexivity. }
    rewrite compact_struct.
    replace (map (fun fs : string * node => fst fs ++ ": " ++ compact (snd fs)) (combine (map fst fs) l))
      with (map (fun fs => fst fs ++ ": " ++ snd fs) (combine (map fst fs) (map compact l))).
    + eapply G_struct; [apply Has; assumption|apply assoc_finds, A|exact W| |apply All, M].
      intros ->. discriminate N.
    + clear. revert l. induction (map fst fs) as [|f l' IHf]; intros [|x l]; cbn; try reflexivity. f_equal. apply IHf.
Qed.

End Derived.

Lemma hex_i32_ok z : Hex I32 z (hex_i32 z).
Proof. apply H_i32, Numerals.hex_i32_iff. reflexivity. Qed.

Lemma hex_usize_ok z : Hex Usize z (hex_usize z).
Proof.
  destruct (Z.ltb_spec z 0) as [N|N].
  - apply H_negative; [exact N|]. unfold hex_usize, unsigned_str.
    replace (Z.log2 z) with 0 by (symmetry; apply Z.log2_nonpos; lia). cbn [Z.to_nat digits].
    pose proof (Z.mod_pos_bound z 16 ltac:(lia)) as B.
    assert (G : forall m, 0 <= m < 16 -> SpecText.numeral 16 (String (digit_char m) "") m).
    { intros m M. assert (In m [0;1;2;3;4;5;6;7;8;9;10;11;12;13;14;15]) as I by (cbn; lia).
      cbn [In] in I. repeat (destruct I as [<-|I]; [split; [cbn; intros; reflexivity|reflexivity]|]). destruct I. }
    destruct (z / 16 =? 0); apply G, B.
  - apply H_usize; [exact N|]. apply Numerals.hex_usize_iff. split; [exact N|reflexivity].
Qed.

Lemma number_numbers l : forall i, Numbers i l (number_from i l).
Proof. induction l as [|v l IH]; intros i; constructor. apply IH. Qed.
