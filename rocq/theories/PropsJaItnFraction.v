(** Property C81: a spoken fraction through the whole Japanese inverse normaliser.

    Vocabulary as in PropsJaMeasure.v. *)
From Coq Require Import List NArith ZArith Bool String Lia.
From Verif Require Import Text TextFacts TokenModel Fst FstFacts FstRun GrammarModel GrammarSpec GrammarAccept NumeralSpec EnglishNumeralSpec DataJaItn JaItnModel ZhTnEndSpec ZhDateSpec JaNumeralSpec WholeSpec BoundarySpec BoundaryLaw PlainSpec.
From Verif Require Import NbestModel PropsBoundary BoundaryChar Letters Apart OneToken TokenVerbal Fields Fields2 ZhNumberProofs JaApart JaHead JaItnSaid JaSpoken JaSpoken2 JaSpoken3 JaSpoken4 JaUnit JaTen PropsJaSpoken.
From Verif Require Import PipelineModel NbestWitness.
From Verif Require EndToEnd PlainRules PropsZhSpoken Whole GrammarEngine EnNumberProofs4.
Import ListNotations.
Local Open Scope list_scope.

Definition fchars : text := Eval vm_compute in sp_chars ++ u "分の".
Definition fchar (c : N) : bool := among fchars c.
Definition FEN : N := Eval vm_compute in hd 0%N (u "分").
Definition NO : N := Eval vm_compute in hd 0%N (u "の").
Definition nono (c : N) : bool := negb (c =? NO)%N.
Lemma fchar_valid c : fchar c = true -> vchar c = true.
Proof. intro H. apply among_in in H. assert (A : forallb vchar fchars = true) by (vm_compute; reflexivity). rewrite forallb_forall in A. exact (A c H). Qed.
Lemma fchar_bare c : fchar c = true -> bare c = true.
Proof. intro H. apply among_in in H. assert (A : forallb bare fchars = true) by (vm_compute; reflexivity). rewrite forallb_forall in A. exact (A c H). Qed.
Lemma known_fchar c : known c = true -> fchar c = true.
Proof. intro H. apply among_in in H. assert (A : forallb fchar sp_chars = true) by (vm_compute; reflexivity). rewrite forallb_forall in A. exact (A c H). Qed.
Lemma still_f o : still fchar (preprocessor o) = true.
Proof. destruct o as [[] [] [] []]; vm_compute; reflexivity. Qed.
Lemma only_itn_fraction o : name_only (rules o) (u "fraction") (RuleSpec (Fraction.rule o) (Some 10500%Z) true).
Proof. destruct o as [a b c d]; PlainRules.only_tac. Qed.
Lemma fraction_rules o s k : In s (rules o) -> s_weight s = Some k ->
  s = RuleSpec (Fraction.rule o) (Some 10500%Z) true \/ (10500 < k)%Z \/ confined fchar nono (r_tagger (s_rule s)) = true.
Proof.
  intros I W. unfold rules in I.
  cbn [In] in I. destruct I as [<-|[<-|[<-|[<-|[<-|[<-|[<-|[<-|[<-|[<-|[]]]]]]]]]]]; cbn [s_weight] in W; try (injection W as <-); try discriminate W; auto 10;
      try (right; left; lia); do 2 right; destruct o as [[] [] [] []]; vm_compute; reflexivity.
Qed.
Lemma part_known a z w : forallb fchar a = true -> denote Fraction.part a z w -> forallb known a = true.
Proof. apply (confined_sound fchar known fchar_valid). vm_compute. reflexivity. Qed.
(** ** The parts *)
Lemma no_root a z w : forallb fchar a = true -> ~ denote Fraction.root_word a z w.
Proof. intros K H. exact (apart2_sound fchar fchar_valid Fraction.root_word ltac:(vm_compute; reflexivity) _ _ _ K H). Qed.
Lemma part_counts a z w : forallb fchar a = true -> denote Fraction.part a z w <-> denote (counts true) a z w.
Proof.
  intro K. split.
  - intros [[[H|H]|H]|H]; [right; exact H|exfalso|exfalso|left; exact H].
    + apply cat_inv in H as (x1 & y1 & w1 & x2 & y2 & w2 & -> & _ & _ & H & _). apply cat_inv in H as (x3 & y3 & w3 & x4 & y4 & w4 & -> & _ & _ & _ & H). rewrite !forallb_app, !andb_true_iff in K. destruct K as ((_ & K) & _). exact (no_root _ _ _ K H).
    + apply cat_inv in H as (x1 & y1 & w1 & x2 & y2 & w2 & -> & _ & _ & H & _). rewrite forallb_app, andb_true_iff in K. destruct K as (K & _). exact (no_root _ _ _ K H).
  - intros [H|H]; [right; exact H|left; left; left; exact H].
Qed.
Lemma counts_reads s sw m n d f z w : ja_sign_words s = Some sw -> japanese_value m = Some n -> (n < 100000000)%N -> Forall digit_char f -> just (Cardinal.positive_integer true) m d -> decimal d n ->
  denote (counts true) (sw ++ m ++ ja_point_words f) z w <-> z = numeral s d f /\ w = 0%Z.
Proof.
  intros Sg V L F J D. pose proof (measure_reads (Options false false true true) s sw m n d f z w Sg V L F J D) as R. unfold Measure.decimal, Measure.cardinal in R. cbn [enable_0_to_9 enable_million] in R. unfold counts. rewrite R. unfold counted_ok. cbn [enable_0_to_9]. intuition.
Qed.
Lemma space_free x : forallb fchar (u " " ++ x) = true -> False.
Proof. intro K. rewrite forallb_app, andb_true_iff in K. destruct K as (K & _). vm_compute in K. discriminate K. Qed.
Lemma denominator_read o x z w : forallb fchar x = true -> denote (Fraction.g_denominator o) x z w <-> exists a, x = a ++ [FEN; NO] /\ denote (counts true) a z w.
Proof.
  intro K. etransitivity; [exact (still_pre fchar fchar_valid (preprocessor o) (Fraction.part + ques (delete (u " ")) + Fraction.fraction_word)%fst (still_f o) x z w K)|]. split.
  - intro H. apply cat_inv in H as (x1 & y1 & w1 & x2 & y2 & w2 & -> & -> & -> & H & H2). apply cat_inv in H as (a & y3 & w3 & x4 & y4 & w4 & -> & -> & -> & H3 & H4). rewrite !forallb_app, !andb_true_iff in K. destruct K as ((Ka & K4) & K2).
    destruct H4 as [(-> & -> & ->)|(-> & -> & ->)]; [exfalso; vm_compute in K4; discriminate K4|].
    destruct H2 as [[[(-> & -> & ->)|(-> & -> & ->)]|(-> & -> & ->)]|(-> & -> & ->)]; try (exfalso; vm_compute in K2; discriminate K2). exists a. rewrite !app_nil_r, !Z.add_0_r. split; [reflexivity|]. now apply part_counts.
  - intros (a & -> & H). rewrite forallb_app, andb_true_iff in K. destruct K as (Ka & _). apply (part_counts a z w Ka) in H. rewrite <- (app_nil_r z). replace w with (w + 0)%Z by lia. apply cat_i; [|left; left; left; now cbn].
    rewrite <- (app_nil_r a), <- (app_nil_r z). replace w with (w + 0)%Z by lia. apply cat_i; [exact H|right; now cbn].
Qed.
Lemma numerator_read o x z w : forallb fchar x = true -> denote (Fraction.g_numerator o) x z w <-> denote (counts true) x z w.
Proof.
  intro K. etransitivity; [exact (still_pre fchar fchar_valid (preprocessor o) (Star (delete (u " ")) + Fraction.part)%fst (still_f o) x z w K)|]. split.
  - intro H. apply cat_inv in H as (x1 & y1 & w1 & x2 & y2 & w2 & -> & -> & -> & H & H2). rewrite forallb_app, andb_true_iff in K. destruct K as (K1 & K2). change (star (denote (delete (u " "))) x1 y1 w1) in H. destruct H as [|x3 y3 w3 x4 y4 w4 (-> & _) _].
    + cbn [app]. rewrite Z.add_0_l. now apply part_counts.
    + exfalso. exact (space_free x4 K1).
  - intro H. change x with ([] ++ x). change z with ([] ++ z). replace w with (0 + w)%Z by lia. apply cat_i; [apply star_nil|now apply part_counts].
Qed.
Lemma no_fen c : known c = true -> c <> FEN. Proof. intros K ->. vm_compute in K. discriminate K. Qed.
Lemma cut_fen a : forall a' q q', forallb known a = true -> forallb known a' = true -> a ++ FEN :: q = a' ++ FEN :: q' -> a = a' /\ q = q'.
Proof.
  intros a' q q' K K'. pose proof (forallb_forall known a) as (A & _). pose proof (forallb_forall known a') as (A' & _). specialize (A K). specialize (A' K'). clear K K'. revert a' A'.
  induction a as [|c a IH]; intros [|c' a'] A' E; cbn [app] in E.
  - injection E as ->. auto.
  - injection E as X _. exfalso. exact (no_fen c' (A' c' (or_introl eq_refl)) (eq_sym X)).
  - injection E as X _. exfalso. exact (no_fen c (A c (or_introl eq_refl)) X).
  - injection E as -> E. destruct (IH (fun x I => A x (or_intror I)) a' (fun x I => A' x (or_intror I)) E) as (-> & ->). auto.
Qed.
Definition signs : list (text * text) := map Fst.entry ja_itn_number_sign.
Lemma sign_heads p z : In (p, z) signs -> p <> [] /\ head_in nums p = false.
Proof.
  assert (A : forallb (fun e => negb (text_eqb (Datatypes.fst e) []) && negb (head_in nums (Datatypes.fst e))) signs = true) by (vm_compute; reflexivity).
  rewrite forallb_forall in A. intro I. specialize (A _ I). cbn [Datatypes.fst] in A. rewrite andb_true_iff, !negb_true_iff in A. destruct A as (A & B). split; [intros ->; discriminate A|exact B].
Qed.
Lemma no_sign o p q z w : forallb fchar p = true -> head_in nums (p ++ q) = true -> ~ denote (Fraction.g_sign o) p z w.
Proof.
  intros K H D. apply (proj1 (still_pre fchar fchar_valid (preprocessor o) (string_file ja_itn_number_sign) (still_f o) p z w K)) in D as (I & _). destruct (sign_heads p z I) as (N & F). rewrite (head_in_app nums p q N), F in H. discriminate H.
Qed.
(** ** The token *)
Definition fraction_inner (a b : text) : text := piece (u "denominator") (a ++ [FEN; NO]) ++ u " " ++ piece (u "numerator") b.
Lemma fraction_parse o a b t w : forallb known a = true -> forallb fchar b = true -> head_in nums a = true -> denote (Fraction.fraction o) (a ++ [FEN; NO] ++ b) t w -> t = fraction_inner a b.
Proof.
  intros Ka Kb Ha H. assert (K : forallb fchar (a ++ [FEN; NO] ++ b) = true) by (rewrite !forallb_app, Kb, (all_sub known fchar _ known_fchar Ka); reflexivity).
  apply cat_inv in H as (x1 & y1 & w1 & q & y2 & w2 & E & -> & -> & H & H4). apply cat_inv in H as (x3 & y3 & w3 & x4 & y4 & w4 & -> & -> & -> & H & (-> & -> & ->)). apply cat_inv in H as (x5 & y5 & w5 & p & y6 & w6 & -> & -> & -> & H1 & H3).
  assert (Na : a <> []) by (intros ->; discriminate Ha).
  rewrite app_nil_r, <- app_assoc in E. assert (Kp : forallb fchar x5 = true /\ forallb fchar p = true /\ forallb fchar q = true) by (rewrite E, !forallb_app, !andb_true_iff in K; exact K). destruct Kp as (K5 & Kp & Kq).
  destruct H1 as [H1|(-> & -> & ->)].
  - exfalso. apply cat_inv in H1 as (x6 & y7 & w7 & x7 & y8 & w8 & -> & _ & _ & H1 & (-> & _)). rewrite app_nil_r in *. apply tag_field_spec in H1 as (_ & _ & z & H1).
    apply (no_sign o x6 (p ++ q) z w7 K5); [rewrite <- E, (head_in_app nums a _ Na); exact Ha|exact H1].
  - cbn [app] in E |- *. apply tag_field_spec in H3 as (_ & -> & z & H3). apply tag_field_spec in H4 as (_ & -> & z' & H4).
    apply (denominator_read o p z w6 Kp) in H3 as (a' & -> & H3). rewrite forallb_app, andb_true_iff in Kp. destruct Kp as (Ka' & _). apply (part_counts a' z w6 Ka') in H3. pose proof (part_known a' z w6 Ka' H3) as Ka2.
    rewrite <- app_assoc in E. cbn [app] in E. apply (cut_fen a a' _ _ Ka Ka2) in E as (<- & E). injection E as <-. unfold fraction_inner, piece.
    rewrite (bare_escape b (all_sub fchar bare _ fchar_bare Kb)), (bare_escape (a ++ [FEN; NO])); [rewrite <- !app_assoc; reflexivity|]. rewrite forallb_app, (all_sub fchar bare _ fchar_bare Ka'). reflexivity.
Qed.
Lemma fraction_token a b : forallb known a = true -> forallb fchar b = true -> fields_token (u "fraction") [(u "denominator", a ++ [FEN; NO]); (u "numerator", b)] = u "fraction" ++ u " { " ++ fraction_inner a b ++ u " }".
Proof.
  intros Ka Kb. apply two_fields; [rewrite forallb_app, (all_sub fchar bare _ fchar_bare (all_sub known fchar _ known_fchar Ka)); reflexivity|exact (all_sub fchar bare _ fchar_bare Kb)].
Qed.
Section Verb.
Variables (o : options) (a b da db : text).
Hypothesis Ka : forallb known a = true.
Hypothesis Kb : forallb fchar b = true.
Hypothesis Ra : forall z w, denote (Fraction.g_denominator o) (a ++ [FEN; NO]) z w <-> z = da /\ w = 0%Z.
Hypothesis Rb : forall z w, denote (Fraction.g_numerator o) b z w <-> z = db /\ w = 0%Z.
Lemma fraction_verbal z w : denote (Fraction.verbalizer o) (piece (u "numerator") b ++ u " " ++ piece (u "denominator") (a ++ [FEN; NO])) z w <-> z = db ++ u "/" ++ da /\ w = 0%Z.
Proof.
  pose proof (all_sub fchar bare _ fchar_bare Kb) as Bb. assert (Ba : forallb bare (a ++ [FEN; NO]) = true) by (rewrite forallb_app, (all_sub fchar bare _ fchar_bare (all_sub known fchar _ known_fchar Ka)); reflexivity).
  assert (Na : ~ In 92%N (u " " ++ piece (u "denominator") (a ++ [FEN; NO]))) by (intro I; apply in_app_iff in I as [I|I]; [vm_compute in I; intuition discriminate|exact (piece_no_bsl (u "denominator") _ eq_refl Ba I)]).
  split.
  - intro H. apply cat_inv in H as (x1 & y1 & w1 & xd & yd & wd & E & -> & -> & H & Hd). apply cat_inv in H as (x2 & y2 & w2 & x3 & y3 & w3 & -> & -> & -> & H & (-> & -> & ->)). apply cat_inv in H as (x4 & y4 & w4 & x5 & y5 & w5 & -> & -> & -> & H & (-> & -> & ->)).
    apply cat_inv in H as (xs & ys & ws & xn & yn & wn & -> & -> & -> & Hs & Hn). rewrite app_nil_r, <- !app_assoc in E. destruct Hs as [Hs|(-> & -> & ->)].
    + exfalso. apply cat_inv in Hs as (x6 & y6 & w6 & x7 & y7 & w7 & -> & _ & _ & Hs & _). apply vfield_denote in Hs as (v & -> & _). unfold piece in E. discriminate E.
    + cbn [app] in E. destruct (vfield_cut false (u "numerator") _ xn yn wn (u " " ++ xd) b _ Bb Na Hn (eq_sym E)) as (G & _ & E2). apply Rb in G as (-> & ->). apply app_inv_head in E2. subst xd.
      destruct (vfield_cut false (u "denominator") (Fraction.g_denominator o) (piece (u "denominator") (a ++ [FEN; NO])) yd wd [] (a ++ [FEN; NO]) [] Ba (fun I => I) Hd eq_refl) as (G & _). apply Ra in G as (-> & ->). cbn [app]. rewrite app_nil_r, <- app_assoc. auto.
  - intros (-> & ->). assert (Vb : forallb vchar b = true) by exact (all_sub fchar vchar _ fchar_valid Kb). assert (Va : forallb vchar (a ++ [FEN; NO]) = true) by (rewrite forallb_app, (all_sub fchar vchar _ fchar_valid (all_sub known fchar _ known_fchar Ka)); reflexivity).
    pose proof (vfield_i false (u "numerator") _ b db 0%Z Bb Vb (proj2 (Rb _ _) (conj eq_refl eq_refl))) as Pb. pose proof (vfield_i false (u "denominator") _ _ da 0%Z Ba Va (proj2 (Ra _ _) (conj eq_refl eq_refl))) as Pa.
    assert (Sp : denote (delete (u " ")) (u " ") [] 0%Z) by now cbn. assert (Sl : denote (insert (u "/")) [] (u "/") 0%Z) by now cbn.
    assert (S0 : denote (ques (verbalize_field (u "sign") (Some (Fraction.g_sign o)) false + delete (u " "))) [] [] 0%Z) by (right; now cbn).
    pose proof (cat_i _ _ _ _ _ _ _ _ (cat_i _ _ _ _ _ _ _ _ (cat_i _ _ _ _ _ _ _ _ (cat_i _ _ _ _ _ _ _ _ S0 Pb) Sp) Sl) Pa) as X. cbn [lead app] in X. rewrite !app_nil_r, <- !app_assoc in X. exact X.
Qed.
End Verb.
(** A spoken fraction, with the digits of its parts. *)
Theorem C81_fraction o m1 n1 f1 s sw m2 n2 f2 : japanese_value m1 = Some n1 -> (n1 < 100000000)%N -> ~ one_ten m1 -> Forall digit_char f1 ->
  ja_sign_words s = Some sw -> japanese_value m2 = Some n2 -> (n2 < 100000000)%N -> ~ one_ten m2 -> Forall digit_char f2 ->
  exists d1 d2, decimal d1 n1 /\ decimal d2 n2 /\ ja_itn_said o ((m1 ++ ja_point_words f1) ++ u "分の" ++ sw ++ m2 ++ ja_point_words f2) (numeral s d2 f2 ++ u "/" ++ numeral [] d1 f1).
Proof.
  intros V1 L1 O1 F1 Sg V2 L2 O2 F2. destruct (int_reads true m1 n1 V1 L1 (or_introl eq_refl) O1) as (d1 & D1 & J1). destruct (int_reads true m2 n2 V2 L2 (or_introl eq_refl) O2) as (d2 & D2 & J2). exists d1, d2. split; [exact D1|]. split; [exact D2|].
  pose proof (number_known [] [] m1 f1 n1 eq_refl V1 L1 F1) as Ka. pose proof (all_sub known fchar _ known_fchar (number_known s sw m2 f2 n2 Sg V2 L2 F2)) as Kb. change ([] ++ m1 ++ ja_point_words f1) with (m1 ++ ja_point_words f1) in Ka.
  pose proof (fun z w => counts_reads [] [] m1 n1 d1 f1 z w eq_refl V1 L1 F1 J1 D1) as Ra0. pose proof (fun z w => counts_reads s sw m2 n2 d2 f2 z w Sg V2 L2 F2 J2 D2) as Rb0. change ([] ++ m1 ++ ja_point_words f1) with (m1 ++ ja_point_words f1) in Ra0.
  assert (Ha : head_in nums (m1 ++ ja_point_words f1) = true) by (destruct (value_nums m1 n1 V1 L1) as (X & Y); destruct m1 as [|c m1]; [congruence|]; cbn [forallb] in X; apply andb_true_iff in X as (X & _); exact X).
  change (u "分の") with [FEN; NO]. set (a := m1 ++ ja_point_words f1) in *. set (b := sw ++ m2 ++ ja_point_words f2) in *.
  assert (Ka2 : forallb fchar (a ++ [FEN; NO]) = true) by (rewrite forallb_app, (all_sub known fchar _ known_fchar Ka); reflexivity).
  assert (Ra : forall z w, denote (Fraction.g_denominator o) (a ++ [FEN; NO]) z w <-> z = numeral [] d1 f1 /\ w = 0%Z).
  { intros z w. rewrite (denominator_read o _ z w Ka2). split; [intros (a' & E & H); apply app_inv_tail in E; subst a'; now apply Ra0|intro H; exists a; split; [reflexivity|now apply Ra0]]. }
  assert (Rb : forall z w, denote (Fraction.g_numerator o) b z w <-> z = numeral s d2 f2 /\ w = 0%Z) by (intros z w; rewrite (numerator_read o b z w Kb); apply Rb0).
  assert (K : forallb fchar (a ++ [FEN; NO] ++ b) = true) by (rewrite app_assoc, forallb_app, Ka2, Kb; reflexivity).
  apply (ja_itn_said_fields o (u "fraction") (Fraction.rule o) 10500 (a ++ [FEN; NO] ++ b) (numeral s d2 f2 ++ u "/" ++ numeral [] d1 f1) [(u "denominator", a ++ [FEN; NO]); (u "numerator", b)] [(u "numerator", b); (u "denominator", a ++ [FEN; NO])] (only_itn_fraction o)) with (k0 := 0%Z) (kv := 0%Z); try reflexivity.
  - exact (all_sub fchar vchar _ fchar_valid K).
  - intro E. apply app_eq_nil in E as (E & _). rewrite E in Ha. discriminate Ha.
  - unfold good_values. cbn [forallb snd]. now rewrite (all_sub fchar vchar _ fchar_valid Ka2), (all_sub fchar vchar _ fchar_valid Kb).
  - repeat constructor; cbn; intuition discriminate.
  - discriminate.
  - discriminate.
  - cbn [Fraction.rule r_tagger]. apply PlainRules.tokens_added. exists (fraction_inner a b). rewrite (fraction_token a b Ka Kb). split; [rewrite <- !app_assoc; reflexivity|].
    assert (Sp : denote (insert (u " ")) [] (u " ") 0%Z) by now cbn. assert (S0 : denote (ques (tag_field (u "sign") (Fraction.g_sign o) + insert (u " "))) [] [] 0%Z) by (right; now cbn).
    assert (Ta : denote (tag_field (u "denominator") (Fraction.g_denominator o)) (a ++ [FEN; NO]) (piece (u "denominator") (a ++ [FEN; NO])) 0%Z).
    { apply tag_field_spec. split; [exact (all_sub fchar vchar _ fchar_valid Ka2)|]. rewrite (bare_escape _ (all_sub fchar bare _ fchar_bare Ka2)). split; [reflexivity|]. exists (numeral [] d1 f1). now apply Ra. }
    assert (Tb : denote (tag_field (u "numerator") (Fraction.g_numerator o)) b (piece (u "numerator") b) 0%Z).
    { apply tag_field_spec. split; [exact (all_sub fchar vchar _ fchar_valid Kb)|]. rewrite (bare_escape _ (all_sub fchar bare _ fchar_bare Kb)). split; [reflexivity|]. exists (numeral s d2 f2). now apply Rb. }
    pose proof (cat_i _ _ _ _ _ _ _ _ (cat_i _ _ _ _ _ _ _ _ (cat_i _ _ _ _ _ _ _ _ S0 Ta) Sp) Tb) as X. cbn [app] in X. rewrite !app_nil_r, <- !app_assoc in X. exact X.
  - intros r wt y w Ir W H. pose proof (Whole.nonneg_sound _ (itn_nonneg o r Ir) _ _ _ H) as P. destruct (fraction_rules o r wt Ir W) as [->|[Lw|A]]; [|split; lia|].
    + cbn [s_weight] in W. injection W as <-. split; [lia|]. intros _. cbn [s_rule Fraction.rule r_tagger] in H. apply PlainRules.tokens_added in H as (t & Et & H). apply (fraction_parse o a b t w Ka Kb Ha) in H. subst t.
      apply (app_inv_tail (u " ")). rewrite Et, (fraction_token a b Ka Kb), <- !app_assoc. reflexivity.
    + exfalso. pose proof (confined_sound fchar nono fchar_valid _ A _ _ _ K H) as X. rewrite !forallb_app, !andb_true_iff in X. destruct X as (_ & X & _). discriminate X.
  - assert (R : forall z w, denote (r_verbalizer (Fraction.rule o)) (fields_token (u "fraction") [(u "numerator", b); (u "denominator", a ++ [FEN; NO])]) z w <-> z = numeral s d2 f2 ++ u "/" ++ numeral [] d1 f1 /\ w = 0%Z).
    { intros z w. rewrite (two_fields _ _ _ _ _ (all_sub fchar bare _ fchar_bare Kb) (all_sub fchar bare _ fchar_bare Ka2)). cbn [Fraction.rule r_verbalizer]. unfold Fraction.name. rewrite tokens_inner. now apply fraction_verbal. }
    split; [now apply R|]. intros z w H. apply R in H as (-> & ->). split; [lia|reflexivity].
Qed.
Print Assumptions C81_fraction.
(** A sign before the denominator may be the sign of the fraction or of the denominator: the rule has two tokens
    for マイナス三分の一 that cost the same, and they say -1/3 and 1/-3. *)
Theorem C81_sign_refuted : exists o t1 t2, t1 <> t2 /\
  denote (r_tagger (Fraction.rule o)) (u "マイナス三分の一") t1 0%Z /\ denote (r_tagger (Fraction.rule o)) (u "マイナス三分の一") t2 0%Z /\
  (forall t w, denote (r_tagger (Fraction.rule o)) (u "マイナス三分の一") t w -> (0 <= w)%Z) /\
  denote (Fraction.g_sign o) (u "マイナス") (u "-") 0%Z /\ denote (Fraction.g_denominator o) (u "マイナス三分の") (u "-3") 0%Z.
Proof.
  set (o := Options false true false false).
  assert (D1 : decimal (u "1") 1) by (split; [discriminate|split; [apply PropsZhSpoken.digits_of; reflexivity|split; [discriminate|reflexivity]]]).
  assert (D3 : decimal (u "3") 3) by (split; [discriminate|split; [apply PropsZhSpoken.digits_of; reflexivity|split; [discriminate|reflexivity]]]).
  assert (O1 : ~ one_ten (u "一")) by (apply free_one_ten; reflexivity). assert (O3 : ~ one_ten (u "三")) by (apply free_one_ten; reflexivity).
  assert (J1 : just (Cardinal.positive_integer true) (u "一") (u "1")) by (destruct (int_reads true (u "一") 1 eq_refl eq_refl (or_introl eq_refl) O1) as (d & D & J); now rewrite (EnNumberProofs4.decimal_unique _ _ _ D D1) in J).
  assert (J3 : just (Cardinal.positive_integer true) (u "三") (u "3")) by (destruct (int_reads true (u "三") 3 eq_refl eq_refl (or_introl eq_refl) O3) as (d & D & J); now rewrite (EnNumberProofs4.decimal_unique _ _ _ D D3) in J).
  assert (Rs : denote (Fraction.g_sign o) (u "マイナス") (u "-") 0%Z).
  { apply (proj2 (still_pre fchar fchar_valid (preprocessor o) (string_file ja_itn_number_sign) (still_f o) (u "マイナス") (u "-") 0%Z eq_refl)). split; [vm_compute; tauto|reflexivity]. }
  assert (Rn : denote (Fraction.g_numerator o) (u "一") (u "1") 0%Z) by (apply (numerator_read o (u "一") (u "1") 0%Z eq_refl), (counts_reads [] [] (u "一") 1 (u "1") [] (u "1") 0%Z eq_refl eq_refl eq_refl (Forall_nil _) J1 D1); auto).
  assert (Rd : denote (Fraction.g_denominator o) (u "三分の") (u "3") 0%Z).
  { apply (denominator_read o (u "三分の") (u "3") 0%Z eq_refl). exists (u "三"). split; [reflexivity|]. apply (counts_reads [] [] (u "三") 3 (u "3") [] (u "3") 0%Z eq_refl eq_refl eq_refl (Forall_nil _) J3 D3); auto. }
  assert (Rd' : denote (Fraction.g_denominator o) (u "マイナス三分の") (u "-3") 0%Z).
  { apply (denominator_read o (u "マイナス三分の") (u "-3") 0%Z eq_refl). exists (u "マイナス三"). split; [reflexivity|]. apply (counts_reads (u "-") (u "マイナス") (u "三") 3 (u "3") [] (u "-3") 0%Z eq_refl eq_refl eq_refl (Forall_nil _) J3 D3); auto. }
  assert (T : forall k g x d, forallb fchar x = true -> denote g x d 0%Z -> denote (tag_field k g) x (piece k x) 0%Z).
  { intros k g x d K H. apply tag_field_spec. split; [exact (all_sub fchar vchar _ fchar_valid K)|]. rewrite (bare_escape _ (all_sub fchar bare _ fchar_bare K)). split; [reflexivity|eauto]. }
  assert (Sp : denote (insert (u " ")) [] (u " ") 0%Z) by now cbn. assert (S0 : denote (ques (tag_field (u "sign") (Fraction.g_sign o) + insert (u " "))) [] [] 0%Z) by (right; now cbn).
  pose proof (T (u "sign") _ (u "マイナス") _ eq_refl Rs) as Ts. pose proof (T (u "numerator") _ (u "一") _ eq_refl Rn) as Tn. pose proof (T (u "denominator") _ (u "三分の") _ eq_refl Rd) as Td. pose proof (T (u "denominator") _ (u "マイナス三分の") _ eq_refl Rd') as Td'.
  exists o, (u "fraction" ++ u " { " ++ (piece (u "sign") (u "マイナス") ++ u " " ++ piece (u "denominator") (u "三分の") ++ u " " ++ piece (u "numerator") (u "一")) ++ u " } "),
    (u "fraction" ++ u " { " ++ (piece (u "denominator") (u "マイナス三分の") ++ u " " ++ piece (u "numerator") (u "一")) ++ u " } ").
  split; [vm_compute; discriminate|]. split; [|split; [|split; [|split; [exact Rs|exact Rd']]]].
  - apply PlainRules.tokens_added. eexists. split; [reflexivity|].
    assert (S1 : denote (ques (tag_field (u "sign") (Fraction.g_sign o) + insert (u " "))) (u "マイナス" ++ []) (piece (u "sign") (u "マイナス") ++ u " ") (0 + 0)%Z) by (left; exact (cat_i _ _ _ _ _ _ _ _ Ts Sp)).
    exact (cat_i _ _ _ _ _ _ _ _ (cat_i _ _ _ _ _ _ _ _ (cat_i _ _ _ _ _ _ _ _ S1 Td) Sp) Tn).
  - apply PlainRules.tokens_added. eexists. split; [reflexivity|]. exact (cat_i _ _ _ _ _ _ _ _ (cat_i _ _ _ _ _ _ _ _ (cat_i _ _ _ _ _ _ _ _ S0 Td') Sp) Tn).
  - intros t w H. refine (Whole.nonneg_sound _ (itn_nonneg o (RuleSpec (Fraction.rule o) (Some 10500%Z) true) _) _ _ _ H). exact (proj1 (only_itn_fraction o)).
Qed.
Print Assumptions C81_sign_refuted.
Example C81_witness : exists o, ~ one_ten (u "二十五") /\ ~ one_ten (u "三") /\ ja_itn_said o (u "二十五分の三") (u "3/25").
Proof.
  set (o := Options false true false false). exists o.
  assert (D1 : decimal (u "25") 25) by (split; [discriminate|split; [apply PropsZhSpoken.digits_of; reflexivity|split; [discriminate|reflexivity]]]).
  assert (D3 : decimal (u "3") 3) by (split; [discriminate|split; [apply PropsZhSpoken.digits_of; reflexivity|split; [discriminate|reflexivity]]]).
  assert (O1 : ~ one_ten (u "二十五")) by (apply free_one_ten; reflexivity). assert (O3 : ~ one_ten (u "三")) by (apply free_one_ten; reflexivity). do 2 (split; [assumption|]).
  destruct (C81_fraction o (u "二十五") 25 [] [] [] (u "三") 3 [] eq_refl eq_refl O1 (Forall_nil _) eq_refl eq_refl eq_refl O3 (Forall_nil _)) as (a & b & Da & Db & H).
  rewrite (EnNumberProofs4.decimal_unique _ _ _ Da D1), (EnNumberProofs4.decimal_unique _ _ _ Db D3) in H. exact H.
Qed.
