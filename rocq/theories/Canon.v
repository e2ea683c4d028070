(** The model only looks at the canonical word. *)
From Coq Require Import ZArith List Bool Lia.
From Verif Require Import Rust Types DecodeUtil Dec32 Dec16 Decode Spec Util Plat CanonBase.
Import ListNotations.
Local Open Scope Z_scope.

Lemma sel_canon o rd f3 rs1 r2 f7 p isa : ranges o rd f3 rs1 r2 f7 ->
  parse_opcode_u32 p (build o rd f3 rs1 r2 f7) isa
  = parse_opcode_u32 p0 (canon_of o rd f3 rs1 r2 f7) isa.
Proof.
  intros H. unfold canon_of.
  pose proof (norm_ranges _ _ _ _ _ _ o f3 H) as Hn. cbv zeta in Hn.
  unfold parse_opcode_u32, parse_extension_u32, basei_parse_opcode, m_parse_opcode,
    a_parse_opcode, zicsr_parse_opcode, zifencei_parse_opcode, zicfiss_parse_opcode,
    zicboz_parse_opcode, zicntr_parse_opcode.
  rewrite !priv_parse_opcode_ite.
  slices.
  rewrite !build_o, !build_rd, !build_f3, !build_rs1, !build_r2, !build_f7, !build_f6, !build_f5,
    !build_csr by assumption.
  clear Hn.
  pose proof H as [_ [Hd [H3 [H1 [H2 H7]]]]].
  destruct (Z.eq_dec o 0x13) as [->|N1].
  { f3_cases f3 H3; rel; try reflexivity; among; try reflexivity;
      (destruct isa; [tree f7|]);
      (assert (Hf : f7 / 2 <> 0 /\ f7 / 2 <> 16) by (Z.div_mod_to_equations; lia));
      generalize dependent (f7 / 2); intros f6 Hf; tree f6. }
  destruct (Z.eq_dec o 0x33) as [->|N2]; [rel; among; try reflexivity; f3_cases f3 H3; tree f7|].
  destruct (Z.eq_dec o 0x1b) as [->|N3].
  { f3_cases f3 H3; rel; try reflexivity; among; try reflexivity; tree f7. }
  destruct (Z.eq_dec o 0x3b) as [->|N4]; [rel; among; try reflexivity; f3_cases f3 H3; tree f7|].
  destruct (Z.eq_dec o 0x2f) as [->|N5].
  { rel. cbn [norm].
    replace (4 * (f7 / 4) / 4) with (f7 / 4) by (rewrite Z.mul_comm, Z.div_mul; lia).
    set (f5 := f7 / 4). clearbody f5. tree f5. }
  destruct (Z.eq_dec o 0x63) as [->|N6]; [reflexivity|].
  destruct (Z.eq_dec o 0x03) as [->|N7]; [reflexivity|].
  destruct (Z.eq_dec o 0x23) as [->|N8]; [reflexivity|].
  destruct (Z.eq_dec o 0x0f) as [->|N9].
  { f3_cases f3 H3; try reflexivity. rel.
    remember (r2 + 32 * f7) as c eqn:Hc.
    among; try solve [subst c; reflexivity | subst c; tree rd
                     | assert (Hc' : c <> 4) by lia; clear Hc; tree c]. }
  destruct (Z.eq_dec o 0x73) as [->|N10].
  { clear N1 N2 N3 N4 N5 N6 N7 N8 N9. f3_cases f3 H3; try reflexivity; rel.
    - rewrite priv_ite_norm by assumption. cbv zeta. rel.
      change (norm Full 0) with 0.
      match goal with |- context [priv_ite ?a ?b] => generalize (priv_ite a b) end.
      intro pr.
      among; try reflexivity; solve [tree r2 | tree f7].
    - remember (r2 + 32 * f7) as c eqn:Hc.
      among; subst c; try reflexivity.
      all: match goal with |- context [match ?a with _ => _ end] =>
             match a with ?x + 32 * ?y => remember a as c eqn:Hc end end.
      all: assert (Hn : c <> 3072 /\ c <> 3073 /\ c <> 3074 /\ c <> 3200 /\ c <> 3201 /\ c <> 3202)
        by lia; clear Hc; tree c.
    - remember (r2 + 32 * f7) as c eqn:Hc.
      among; subst c; try reflexivity.
      all: try solve [tree rs1].
      all: match goal with |- context [match ?a with _ => _ end] =>
             match a with ?x + 32 * ?y => remember a as c eqn:Hc end end.
      all: assert (Hn : c <> 0xce1 /\ c <> 0xce5 /\ c <> 0xcdc) by lia; clear Hc; tree c. }
  clear -N1 N2 N3 N4 N5 N6 N7 N8 N9 N10.
  destruct o as [|q|q]; [reflexivity| |reflexivity].
  repeat (destruct q as [q|q|]; try reflexivity; try congruence).
Qed.

Lemma parse_opcode_canon p w isa : is_u32 w ->
  parse_opcode_u32 p w isa = parse_opcode_u32 p0 (canon w) isa.
Proof.
  intros H. rewrite (build_fields w H) at 1. apply sel_canon. apply fields_ranges.
Qed.
