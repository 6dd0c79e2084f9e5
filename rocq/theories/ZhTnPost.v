(** The words of a number through the Chinese postprocessor, and the two rules that say numbers (C65). *)
From Coq Require Import List NArith ZArith Bool String Lia Arith.
From Verif Require Import Text TextFacts TokenModel Fst FstFacts FstRun GrammarModel GrammarAccept NumeralSpec DataZhTn ZhTnModel ZhTnEndSpec.
From Verif Require EndToEnd PipelineModel BoundarySpec EnglishNumeralSpec PlainRules.
From Verif Require Import BoundaryRules TokenVerbal BoundaryChar ZhNumberProofs ZhNumberProofs4 Apart Letters OneToken ZhTnRead ZhTnTag ZhTnTag2.
Import ListNotations.
Local Open Scope list_scope.

(** ** Characters the postprocessor leaves alone *)
Definition unlisted (lines : list string) (c : N) : bool := forallb (fun e : text * text => match Datatypes.fst e with [] => true | a :: _ => negb (a =? c)%N end) (map entry lines).
Definition safe (c : N) : bool :=
  vchar c && unlisted zh_tn_char_traditional_to_simple c && unlisted zh_tn_default_blacklist c && unlisted zh_tn_char_punctuations_zh c && negb (is_punct c)
  && unlisted zh_tn_char_fullwidth_to_halfwidth c && charset c.
Lemma conj_all (a b c d e f g : bool) : (a && b && c && d && e && f && g)%bool = true -> a = true /\ b = true /\ c = true /\ d = true /\ e = true /\ f = true /\ g = true.
Proof. now destruct a, b, c, d, e, f, g. Qed.
Lemma safe_all c : safe c = true -> vchar c = true /\ unlisted zh_tn_char_traditional_to_simple c = true /\ unlisted zh_tn_default_blacklist c = true /\ unlisted zh_tn_char_punctuations_zh c = true /\
  negb (is_punct c) = true /\ unlisted zh_tn_char_fullwidth_to_halfwidth c = true /\ charset c = true.
Proof. exact (conj_all _ _ _ _ _ _ _). Qed.
Definition keeping (s : fst) : Prop := forall x z w, forallb safe x = true -> denote s x z w <-> z = x /\ w = 0%Z.
Lemma safe_valid c : safe c = true -> vchar c = true.
Proof. intro S. apply safe_all in S as (V & _). exact V. Qed.
Lemma keeping_when b p s : keeping p -> keeping s -> keeping (when b p s).
Proof.
  intros P S. unfold when. destruct b; [|exact P]. intros x z w K. split.
  - intros (m & w1 & w2 & -> & H & G). apply (P _ _ _ K) in H as (-> & ->). apply (S _ _ _ K) in G as (-> & ->). auto.
  - intros (-> & ->). exists x, 0%Z, 0%Z. split; [reflexivity|]. split; [now apply P|now apply S].
Qed.
Lemma keeping_rewrite tau : (forall c x y w, denote tau (c :: x) y w -> safe c = false) -> keeping (Rewrite tau Anywhere Anywhere).
Proof. intros H x z w K. cbn [denote]. exact (rewrite_keeps _ _ _ safe H safe_valid x _ z w K). Qed.
Lemma unlisted_table lines c x y w : denote (string_file lines) (c :: x) y w -> unlisted lines c = false.
Proof.
  intros (I & _). apply not_true_iff_false. intro U. unfold unlisted in U. rewrite forallb_forall in U. specialize (U _ I). cbn [Datatypes.fst] in U. now rewrite N.eqb_refl in U.
Qed.
Theorem post_keeps o : keeping (postprocessor o).
Proof.
  unfold postprocessor. cbv zeta. unfold build_rule, oov_tagger.
  repeat apply keeping_when; apply keeping_rewrite; intros c x y w H; apply not_true_iff_false; intro S; apply safe_all in S as (_ & S1 & S2 & S3 & S4 & S5 & S6).
  - destruct H as (E & _). discriminate E.
  - apply unlisted_table in H. rewrite H in S1. discriminate S1.
  - destruct H as (_ & t & H). apply unlisted_table in H. rewrite H in S2. discriminate S2.
  - destruct H as (_ & t & [H|H]); [apply unlisted_table in H; rewrite H in S3; discriminate S3|]. destruct H as (a & E & _ & P & _). injection E as <- _. 
    rewrite P in S4. discriminate S4.
  - apply unlisted_table in H. rewrite H in S5. discriminate S5.
  - apply cat_inv in H as (x1 & y1 & w1 & x2 & y2 & w2 & E & -> & -> & H & (-> & -> & ->)). rewrite app_nil_r in E.
    apply cat_inv in H as (x3 & y3 & w3 & x4 & y4 & w4 & E' & -> & -> & (-> & -> & ->) & (a & -> & -> & P & ->)). rewrite <- E in E'. cbn [app] in E'. injection E' as -> _.
    apply andb_true_iff in P as (_ & P). rewrite S6 in P. discriminate P.
Qed.

(** ** The words of a number *)
Definition words : text := Eval vm_compute in u "零一二三四五六七八九十百千万亿两幺点负正分之".
Definition word (c : N) : bool := existsb (N.eqb c) words.
Lemma words_safe : forallb safe words = true.
Proof. vm_compute. reflexivity. Qed.
Lemma word_in c : word c = true -> In c words.
Proof. unfold word. intro H. apply existsb_exists in H as (a & I & E). apply N.eqb_eq in E. subst a. exact I. Qed.
Lemma in_safe c : In c words -> safe c = true.
Proof. intro I. exact (proj1 (forallb_forall safe words) words_safe c I). Qed.
Lemma word_safe c : word c = true -> safe c = true.
Proof. intro H. exact (in_safe c (word_in c H)). Qed.
Lemma all_safe x : forallb word x = true -> forallb safe x = true.
Proof. apply all_imp. exact word_safe. Qed.
Lemma integer_words t m w : denote Cardinal.integer t m w -> forallb word m = true.
Proof. apply (writes_sound word Cardinal.integer). vm_compute. reflexivity. Qed.
Lemma liang_words m : forallb word m = true -> forallb word (liang_fn m) = true.
Proof.
  intro H. unfold liang_fn. destruct m as [|c [|d r]]; [exact H|exact H|]. destruct ((c =? ER)%N && liang_unit d)%bool; [|exact H]. cbn [forallb] in *. apply andb_true_iff in H as (_ & H).
  rewrite H, andb_true_r. vm_compute. reflexivity.
Qed.
Lemma sign_words_words s d : sign_words s = Some d -> forallb word d = true.
Proof.
  unfold sign_words. destruct (text_eqb s []); [now intros [= <-]|]. destruct (text_eqb s _); [now intros [= <-]|]. destruct (text_eqb s _); [now intros [= <-]|].
  destruct (text_eqb s _); [now intros [= <-]|discriminate].
Qed.
Lemma digit_words f : Forall digit_char f -> forallb word (flat_map digit_word f) = true /\ forallb word (flat_map phone_word f) = true.
Proof.
  assert (A : forallb (fun c => forallb word (digit_word c) && forallb word (phone_word c)) [48; 49; 50; 51; 52; 53; 54; 55; 56; 57]%N = true) by (vm_compute; reflexivity). rewrite forallb_forall in A.
  intro F. induction F as [|c f D F (IH & IH')]; [auto|]. cbn [flat_map]. specialize (A c (ten_digits c D)). apply andb_true_iff in A as (A & A'). rewrite !forallb_app, A, A', IH, IH'. auto.
Qed.
Lemma points_words f : Forall digit_char f -> forallb word (point_words f) = true.
Proof. intro F. destruct f as [|c f]; [reflexivity|]. unfold point_words. rewrite forallb_app. rewrite (proj1 (digit_words _ F)). reflexivity. Qed.
Lemma number_words s t f d m : sign_words s = Some d -> Forall digit_char f -> denote Cardinal.integer t m 0%Z -> forallb word (words_of s f d m) = true.
Proof.
  intros S F H. unfold words_of. rewrite !forallb_app, (sign_words_words _ _ S), (points_words _ F), andb_true_r. cbn [andb]. apply integer_words in H.
  unfold said. destruct s; [now apply liang_words|exact H].
Qed.

(** ** The two rules *)
Lemma only_math o : name_only (rules o) (u "math") (RuleSpec Math.rule (Some 900000%Z) true).
Proof. destruct o as [i [] t p f v]; PlainRules.only_tac. Qed.
Lemma only_cardinal o : name_only (rules o) (u "cardinal") (RuleSpec Cardinal.rule (Some 10600%Z) true).
Proof. destruct o as [i [] t p f v]; PlainRules.only_tac. Qed.
Section Answers.
Variables (o : options) (t v : fst).
Hypothesis Tagger : tagger o = Some t.
Hypothesis Verbalizer : verbalizer o = Some v.
Definition orders := PipelineModel.zh_tn_token_orders.
Lemma value_answer name r wt g x m k : name_only (rules o) name (RuleSpec r wt true) -> r_verbalizer r = delete_tokens name (raw_field g) ->
  EndToEnd.namechars name = true -> one_word name = true -> dict_get name orders = None -> forallb vchar name = true ->
  forallb known x = true -> forallb safe m = true -> (forall z w, denote g x z w <-> z = m /\ w = k) ->
  (forall e, tagger_union (rules o) = Some e -> EnglishNumeralSpec.cheapest (denote (Star e)) x (value_token name x ++ u " ")) ->
  BoundarySpec.only_answer orders t v x m.
Proof.
  intros Only Eq Name Word Dict Nv K Sm G Tag. destruct (plain_value x K) as (_ & Q & B).
  unfold tagger in Tagger. unfold verbalizer in Verbalizer. destruct (tagger_union (rules o)) as [e|] eqn:E; [|discriminate]. injection Tagger as <-.
  destruct (verbalizer_union (rules o)) as [e'|] eqn:E'; [|discriminate]. injection Verbalizer as <-.
  apply (value_sole (rules o) name (RuleSpec r wt true) e e' (postprocessor o) orders x m m k); try assumption.
  - apply BoundaryRules.zh_tn_rules.
  - intros z w. cbn [s_rule]. rewrite Eq, raw_denote. apply G.
  - intros z w. now apply post_keeps.
  - exact (known_valid x K).
  - exact (Tag e eq_refl).
Qed.
End Answers.
