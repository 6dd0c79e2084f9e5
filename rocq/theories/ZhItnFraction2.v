(** Fractions of the Chinese inverse normaliser: from the tokens to the answer (C86). *)
From Coq Require Import List NArith ZArith Bool String Lia Arith.
From Verif Require Import Text TextFacts TokenModel Fst FstFacts GrammarModel GrammarSpec GrammarAccept NumeralSpec EnglishNumeralSpec ZhSpokenSpec BoundarySpec WholeSpec.
From Verif Require Import DataZhItn ZhItnModel ZhSpokenProofs ZhSpokenProofs2 ZhSpokenProofs3 ZhSpokenProofs4 ZhSpokenProofs5 ZhSpokenProofs6.
From Verif Require Import TokenVerbal Apart JaHead ZhItnTag ZhItnTag2.
From Verif Require Import NbestModel NbestSpec EngineSpec PipelineModel Boundary BoundaryRules BoundaryChar BoundaryLaw BoundaryLawProofs PlainSpec Letters Whole OneToken Fields Fields2 PropsBoundary ZhItnVerbal Least ZhItnSaid ZhItnPercent ZhItnFraction.
From Verif Require EndToEnd FstEval TokenProofs2.
From Verif Require Import PlainRules.
Import ListNotations.
Local Open Scope list_scope.

Definition fraction_order (a b : text) : list (text * text) := [(u "sign", []); (u "numerator", b); (u "denominator", a ++ u "分之")].
Definition fraction_spec o : rule_spec := RuleSpec (Fraction.rule o) (Some 10500%Z) true.
Lemma only_zh_itn_fraction o : name_only (rules o) (u "fraction") (fraction_spec o).
Proof. destruct o as [a b c d]; PlainRules.only_tac. Qed.
Lemma space_slash r : ~ In 92%N r -> ~ In 92%N (u " " ++ r).
Proof. intros N I. apply in_app_iff in I as [I|I]; [vm_compute in I; intuition discriminate|exact (N I)]. Qed.
Section Fraction.
Variables (o : options) (x y : text) (dx dy : text) (cx cy : Z).
Notation number := (Cardinal.number (enable_million o)).
Hypothesis Kx : forallb pc x = true.
Hypothesis Ky : forallb pc y = true.
Hypothesis Rx : forall z w, denote number x z w <-> z = dx /\ w = cx.
Hypothesis Ry : forall z w, denote number y z w <-> z = dy /\ w = cy.
Let Bx : forallb bare (x ++ u "分之") = true.
Proof. rewrite forallb_app, (pc_bare _ Kx). reflexivity. Qed.
Let By : forallb bare y = true.
Proof. exact (pc_bare _ Ky). Qed.
Lemma fraction_token e : tagger_union (rules o) = Some e -> denote e (x ++ u "分之" ++ y) (fields_token (u "fraction") (fraction_fields x y) ++ u " ") (cx + cy + 10500)%Z.
Proof.
  intro Union. apply (taggers_spec _ _ Union). exists (fraction_spec o), 10500%Z. split; [unfold rules, fraction_spec; cbn [In]; tauto|]. split; [reflexivity|]. replace (cx + cy + 10500 - 10500)%Z with (cx + cy)%Z by lia.
  cbn [s_rule fraction_spec r_tagger Fraction.rule]. apply tokens_added. exists (piece (u "sign") [] ++ u " " ++ piece (u "denominator") (x ++ u "分之") ++ u " " ++ piece (u "numerator") y). split.
  { unfold fields_token, fraction_fields. cbn [map join Datatypes.fst snd]. rewrite (bare_escape _ Bx), (bare_escape _ By). change (escape_value []) with (@nil N). rewrite <- !app_assoc. reflexivity. }
  right. unfold Fraction.parts.
  assert (A : denote (tag_field (u "sign") Fraction.g_sign) [] (piece (u "sign") []) 0%Z) by (apply tag_field_spec; split; [reflexivity|]; split; [reflexivity|]; exists []; right; now cbn).
  assert (B : denote (tag_field (u "denominator") (Fraction.g_denominator o)) (x ++ u "分之") (piece (u "denominator") (x ++ u "分之")) cx).
  { apply tag_field_spec. split; [rewrite forallb_app, (proj1 (pc_plain _ Kx)); reflexivity|]. split; [unfold piece; now rewrite (bare_escape _ Bx)|]. exists (dx ++ []). unfold Fraction.g_denominator. replace cx with (cx + 0)%Z by lia. apply cat_i; [now apply Rx|now cbn]. }
  assert (C : denote (tag_field (u "numerator") (Fraction.g_numerator o)) y (piece (u "numerator") y) cy).
  { apply tag_field_spec. split; [exact (proj1 (pc_plain _ Ky))|]. split; [unfold piece; now rewrite (bare_escape _ By)|]. exists dy. now apply Ry. }
  assert (I : denote (insert (u " ")) [] (u " ") 0%Z) by now cbn.
  pose proof (cat_i _ _ _ _ _ _ _ _ (cat_i _ _ _ _ _ _ _ _ (cat_i _ _ _ _ _ _ _ _ (cat_i _ _ _ _ _ _ _ _ A I) B) I) C) as X.
  rewrite !app_nil_r in X. cbn [app] in X. rewrite <- !app_assoc in X. replace (0 + 0 + cx + 0 + cy)%Z with (cx + cy)%Z in X by lia. exact X.
Qed.
Lemma fraction_verbal z w : denote (r_verbalizer (Fraction.rule o)) (fields_token (u "fraction") (fraction_order x y)) z w <-> z = dy ++ u "/" ++ dx /\ w = (cx + cy)%Z.
Proof.
  unfold fields_token, fraction_order. cbn [map join Datatypes.fst snd]. rewrite (bare_escape _ Bx), (bare_escape _ By). change (escape_value []) with (@nil N). cbn [r_verbalizer Fraction.rule]. unfold Fraction.name. rewrite tokens_inner.
  assert (Ns : ~ In 92%N (u " " ++ piece (u "denominator") (x ++ u "分之"))) by (apply space_slash, piece_no_bsl; [reflexivity|exact Bx]).
  assert (Nn : ~ In 92%N (u " " ++ piece (u "numerator") y ++ u " " ++ piece (u "denominator") (x ++ u "分之"))) by (apply space_slash; intro I; apply in_app_iff in I as [I|I]; [exact (piece_no_bsl (u "numerator") y eq_refl By I)|exact (Ns I)]).
  split.
  - intro H. apply cat_inv in H as (x1 & y1 & w1 & x2 & y2 & w2 & E & -> & -> & H & H2). apply cat_inv in H as (x3 & y3 & w3 & x4 & y4 & w4 & -> & -> & -> & H & (-> & -> & ->)). apply cat_inv in H as (x5 & y5 & w5 & x6 & y6 & w6 & -> & -> & -> & H5 & H6). rewrite app_nil_r, <- app_assoc in E.
    destruct (vfield_cut false (u "sign") Fraction.g_sign x5 y5 w5 (x6 ++ x2) [] _ eq_refl Nn H5 (eq_sym E)) as (G5 & _ & E2).
    destruct (vfield_cut true (u "numerator") (Fraction.g_numerator o) x6 y6 w6 x2 y _ By Ns H6 E2) as (G6 & _ & ->).
    destruct (vfield_cut true (u "denominator") (Fraction.g_denominator o) _ y2 w2 [] (x ++ u "分之") [] Bx (fun I => I) H2 ltac:(rewrite !app_nil_r; reflexivity)) as (G2 & _).
    assert (y5 = [] /\ w5 = 0%Z) as (-> & ->).
    { destruct G5 as [G5|(_ & -> & ->)]; [exfalso|auto]. revert G5. apply (apart_known pc); [vm_compute; reflexivity|reflexivity]. }
    apply Ry in G6 as (-> & ->). unfold Fraction.g_denominator in G2. apply cat_inv in G2 as (a & d1 & v1 & b & d2 & v2 & Eb & -> & -> & G2 & (-> & -> & ->)). apply app_inv_tail in Eb. subst a. apply Rx in G2 as (-> & ->). rewrite !app_nil_r, <- !app_assoc. split; [reflexivity|lia].
  - intros (-> & ->).
    pose proof (vfield_i false (u "sign") Fraction.g_sign [] [] 0%Z eq_refl eq_refl (or_intror (conj eq_refl (conj eq_refl eq_refl)))) as A.
    pose proof (vfield_i true (u "numerator") (Fraction.g_numerator o) y dy cy By (proj1 (pc_plain _ Ky)) (proj2 (Ry _ _) (conj eq_refl eq_refl))) as B.
    assert (G : denote (Fraction.g_denominator o) (x ++ u "分之") dx cx) by (unfold Fraction.g_denominator; rewrite <- (app_nil_r dx); replace cx with (cx + 0)%Z by lia; apply cat_i; [now apply Rx|now cbn]).
    pose proof (vfield_i true (u "denominator") (Fraction.g_denominator o) (x ++ u "分之") dx cx Bx ltac:(rewrite forallb_app, (proj1 (pc_plain _ Kx)); reflexivity) G) as C.
    assert (I : denote (insert (u "/")) [] (u "/") 0%Z) by now cbn.
    pose proof (cat_i _ _ _ _ _ _ _ _ (cat_i _ _ _ _ _ _ _ _ (cat_i _ _ _ _ _ _ _ _ A B) I) C) as X. rewrite app_nil_r in X. cbn [app] in X. rewrite <- !app_assoc in X. replace (0 + cy + 0 + cx)%Z with (cx + cy)%Z in X by lia. exact X.
Qed.
End Fraction.
Theorem fraction_said o x n dx y m dy : spoken_number x = Some n -> spoken_number y = Some m -> (enable_million o = true \/ n < 1000000)%N -> (enable_million o = true \/ m < 1000000)%N -> ~ ends_liang y -> decimal dx n -> decimal dy m ->
  zh_itn_said o (x ++ u "分之" ++ y) (dy ++ u "/" ++ dx).
Proof.
  intros Sx Sy Mx My Nl Dx Dy. destruct (any_reads o x n Sx Mx dx Dx) as (cx & Cx & Rx). destruct (any_reads o y m Sy My dy Dy) as (cy & Cy & Ry). pose proof (x_pc o x n Sx Mx) as Kx. pose proof (x_pc o y m Sy My) as Ky.
  assert (KQ : forallb pc (x ++ u "分之" ++ y) = true) by (rewrite !forallb_app, Kx, Ky; reflexivity). pose proof (proj1 (pc_plain _ KQ)) as V. pose proof (proj1 (pc_plain _ Kx)) as Vx. pose proof (proj1 (pc_plain _ Ky)) as Vy.
  apply zh_itn_said_only; [now apply vtext_spec|intro E; apply app_eq_nil in E as (_ & E); discriminate E|]. intros t v Et Ev. unfold tagger in Et. unfold verbalizer in Ev.
  destruct (tagger_union (rules o)) as [e|] eqn:E; [|discriminate]. injection Et as <-.
  destruct (verbalizer_union (rules o)) as [e'|] eqn:E'; [|discriminate]. injection Ev as <-.
  apply (fields_sole (rules o) (u "fraction") (fraction_spec o) e e' (postprocessor o) zh_itn_token_orders (x ++ u "分之" ++ y) (dy ++ u "/" ++ dx) (dy ++ u "/" ++ dx) (cx + cy) (fraction_fields x y) (fraction_order x y)); [reflexivity|reflexivity|apply only_zh_itn_fraction|exact (zh_itn_rules o)|exact E'|reflexivity|discriminate|exact (fraction_verbal o x y dx dy cx cy Kx Ky Rx Ry)| |reflexivity|repeat constructor; cbn; intuition discriminate|discriminate|reflexivity|].
  - intros z w. apply post_keeps. rewrite !forallb_app. apply andb_true_iff. split; [exact (digits_kept dy m Dy)|]. apply andb_true_iff. split; [reflexivity|exact (digits_kept dx n Dx)].
  - apply EndToEnd.trim_cheapest.
    + apply fields_valid; [reflexivity|]. unfold good_values, fraction_fields. cbn [forallb Datatypes.fst snd]. rewrite forallb_app, Vx, Vy. reflexivity.
    + exists (cx + cy + 10500)%Z. split; [exact (star_one _ _ _ _ (fraction_token o x y dx dy cx cy Kx Ky Rx Ry e E))|].
      intros t w H. destruct (fraction_tokens o e E x y n m Sx Sy Mx My Nl cx cy Cx Cy x [] [] 0%Z eq_refl (star_nil _) t w H) as (L & X). cbn [app] in X. split; [lia|]. intro W. apply X. lia.
Qed.
