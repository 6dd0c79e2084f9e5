(** Property C71: a written number, and a written percentage, through the whole Japanese normaliser.

    Vocabulary (NumeralSpec.v, ZhTnEndSpec.v, JaNumeralSpec.v): [decimal t n] says that [t] are the
    decimal digits of [n]; [grouped t x] that [x] is [t] with or without commas; [numeral s x f] is the
    sign [s], the digits [x] and the digits [f] after a point, or no point when there are none;
    [ja_sign_words] and [ja_point_words] are what is said for the sign and after the point,
    [japanese_value] is the number a Japanese numeral stands for.  [marked o w] (JaPost.v) is [w] with
    <oov> and </oov> around each character outside the character set when the option asks for it.
    [ja_said o x d] (JaPost.v): with the options [o], normalize answers [d] for [x], alone or among
    characters that no rule but the one of single characters reads, whatever the engine. *)
From Coq Require Import List NArith ZArith Bool String Lia.
From Verif Require Import Text TextFacts TokenModel Fst FstFacts FstRun GrammarModel GrammarSpec GrammarAccept NumeralSpec EnglishNumeralSpec DataJaTn JaTnModel ZhTnEndSpec ZhDateSpec JaNumeralSpec WholeSpec BoundarySpec BoundaryLaw PlainSpec.
From Verif Require Import NbestModel PropsBoundary BoundaryChar Letters Apart OneToken TokenVerbal Fields ZhNumberProofs ZhTnRead ZhDate ZhDate2 JaApart JaPost JaNumber JaNumber2 JaDate JaDate2 JaDate3 JaTnRead JaTnRead2 PropsJaDate.
From Verif Require EndToEnd PlainRules PropsZhSpoken PropsWhole Whole PipelineModel.
Import ListNotations.
Local Open Scope list_scope.

Lemma only_jcardinal o : name_only (rules o) (u "cardinal") (RuleSpec (Cardinal.rule o) (Some 10600%Z) true).
Proof. destruct o as [[] i p f v]; PlainRules.only_tac. Qed.
(** No other rule is about texts of digits, commas, signs, points and the percent sign, but the dates. *)
Definition nchar (c : N) : bool := jchar c && negb (c =? 47)%N.
Lemma nchar_valid c : nchar c = true -> vchar c = true.
Proof. unfold nchar. intro H. apply andb_true_iff in H as (H & _). now apply jchar_valid. Qed.
Lemma other_jrules o s k : In s (rules o) -> s_weight s = Some k ->
  s = RuleSpec (Cardinal.rule o) (Some 10600%Z) true \/ s = RuleSpec (Date.rule o (r_tagger (Range.rule o))) (Some 10200%Z) true \/ (10600 < k)%Z \/ apart2 nchar (r_tagger (s_rule s)) = true.
Proof.
  intros I W. unfold rules in I. apply in_app_iff in I as [I|I].
  - cbn [In] in I. destruct I as [<-|[<-|[<-|[<-|[<-|[<-|[<-|[<-|[<-|[<-|[<-|[]]]]]]]]]]]]; cbn [s_weight] in W; try (injection W as <-); try discriminate W; auto;
      try (right; right; left; lia); right; right; right; destruct o as [t i p [] v]; vm_compute; reflexivity.
  - destruct (transliterate o); [|destruct I]. destruct I as [<-|[]]. right. right. right. destruct o as [t i p [] v]; vm_compute; reflexivity.
Qed.
Section Said.
Variables (o : options) (x m : text).
Hypothesis Chars : forallb nchar x = true.
Hypothesis Nonempty : x <> [].
Hypothesis Reading : just cardinal0 x m.
Hypothesis Seps : (seps x <= 2)%nat.
Hypothesis Date : forall fs, ~ jdated x fs.
Hypothesis Safe : forallb jsafe m = true.
Lemma Jchars : forallb jchar x = true.
Proof. generalize Chars. apply all_imp. intros c. unfold nchar. intro H. now apply andb_true_iff in H. Qed.
Lemma cardinal_pre z w : denote (Cardinal.cardinal o) x z w <-> z = m /\ w = 0%Z.
Proof. rewrite <- (Reading z w). exact (pre_reads o cardinal0 x z w Jchars). Qed.
Lemma value_fields : fields_token (u "cardinal") [(u "value", x)] = value_token (u "cardinal") x.
Proof. unfold fields_token, value_token, piece. cbn [map join Datatypes.fst snd]. rewrite (bare_escape x (jbare x Jchars)), <- !app_assoc. reflexivity. Qed.
Lemma jnumber_said : ja_said o x (marked o m).
Proof.
  apply (ja_said_fields o (u "cardinal") (Cardinal.rule o) 10600 x m [(u "value", x)] [(u "value", x)] (only_jcardinal o)); try reflexivity; try assumption; try discriminate.
  - exact (jvalid x Jchars).
  - unfold good_values. cbn [forallb Datatypes.fst snd]. rewrite (jvalid x Jchars). reflexivity.
  - cbn [map Datatypes.fst]. repeat constructor. intros [].
  - apply PlainRules.tokens_added. exists (piece (u "value") (escape_value x)). split; [unfold fields_token, piece; cbn [map join Datatypes.fst snd]; now rewrite <- !app_assoc|].
    apply tag_field_spec. split; [exact (jvalid x Jchars)|]. split; [reflexivity|]. exists m. now apply cardinal_pre.
  - intros s k y v I W H. pose proof (Whole.nonneg_sound _ (jrules_nonneg o s I) _ _ _ H) as P. destruct (other_jrules o s k I W) as [->|[->|[L|A]]].
    + cbn [s_weight] in W. injection W as <-. split; [lia|]. intros _. apply PlainRules.tokens_added in H as (z & E & H). apply tag_field_spec in H as (_ & -> & _).
      unfold fields_token. cbn [map join Datatypes.fst snd]. change (u " } ") with (u " }" ++ u " ") in E. rewrite !app_assoc in E. apply app_inv_tail in E. rewrite E. unfold piece. rewrite <- !app_assoc. reflexivity.
    + exfalso. destruct (jdate_tagged o x y v Jchars Seps H) as (fs & D & _). exact (Date fs D).
    + split; lia.
    + exfalso. exact (apart2_sound nchar nchar_valid _ A _ _ _ Chars H).
  - intros z w. rewrite value_fields. rewrite <- (cardinal_pre z w). exact (raw_denote (u "cardinal") (Cardinal.cardinal o) x z w).
Qed.
End Said.
Lemma sign_nchar s d : ja_sign_words s = Some d -> forallb nchar s = true.
Proof. intro E. apply jsign_cases in E as (_ & [(-> & _)|(c & -> & [-> |[-> | ->]])]); reflexivity. Qed.
Lemma ichar_nchar c : ichar c = true -> nchar c = true.
Proof. intro H. unfold nchar. rewrite (ichar_jchar c H). destruct (N.eqb_spec c 47); [|reflexivity]. subst c. discriminate H. Qed.
Lemma numeral_nchar s x f d : ja_sign_words s = Some d -> forallb ichar x = true -> Forall digit_char f -> forallb nchar (numeral s x f) = true.
Proof.
  intros S X F. unfold numeral. rewrite !forallb_app, (sign_nchar _ _ S), (all_imp ichar nchar x ichar_nchar X). destruct f as [|c f]; [reflexivity|]. rewrite forallb_app, (all_imp ichar nchar _ ichar_nchar (digits_ichar _ F)). reflexivity.
Qed.
Lemma numeral_some s x f : x <> [] -> numeral s x f <> [].
Proof. intros N E. apply N. unfold numeral in E. apply app_eq_nil in E as (_ & E). now apply app_eq_nil in E as (E & _). Qed.
Lemma value_safe m n : japanese_value m = Some n -> forallb jsafe m = true.
Proof. intro V. destruct (value_chars m n V) as [-> |H]; [vm_compute; reflexivity|exact (jword_safe m H)]. Qed.
Lemma point_words_safe f : Forall digit_char f -> forallb jsafe (ja_point_words f) = true.
Proof.
  assert (A : forallb (fun c => forallb jsafe (ja_digit_word c)) ZhDate.ten = true) by (vm_compute; reflexivity). rewrite forallb_forall in A.
  intro F. assert (W : forallb jsafe (flat_map ja_digit_word f) = true) by (induction F as [|c f D F IH]; [auto|]; cbn [flat_map]; rewrite forallb_app, (A c (ten_digits c D)), IH; auto).
  destruct f as [|c f]; [reflexivity|]. unfold ja_point_words. rewrite forallb_app, W. vm_compute. reflexivity.
Qed.

Lemma said_number o s sw t n x f m : ja_sign_words s = Some sw -> decimal t n -> (n < 100000000)%N -> grouped t x -> Forall digit_char f ->
  ~ (s = [] /\ List.length t = 4%nat /\ zero_month f) -> just Cardinal.integer x m -> japanese_value m = Some n -> ja_said o (numeral s x f) (marked o (sw ++ m ++ ja_point_words f)).
Proof.
  intros S D L G F Not J V. pose proof (grouped_ichar t x (proj1 (proj2 D)) G) as X. apply jnumber_said.
  - exact (numeral_nchar s x f sw S X F).
  - apply numeral_some. exact (grouped_nonempty t x (proj1 D) G).
  - exact (cardinal_reads s t x f sw m n S D L G F J).
  - pose proof (numeral_seps s t x f sw n S D L G F [] eq_refl) as H. now rewrite app_nil_r in H.
  - intro fs. eapply numeral_not_dated; eassumption.
  - rewrite !forallb_app, (jword_safe sw (proj1 (jsign_cases s sw S))), (value_safe m n V), (point_words_safe f F). reflexivity.
Qed.
Lemma said_percent o s sw t n x f m : ja_sign_words s = Some sw -> decimal t n -> (n < 100000000)%N -> grouped t x -> Forall digit_char f ->
  just Cardinal.integer x m -> japanese_value m = Some n -> ja_said o (numeral s x f ++ u "%") (marked o (sw ++ m ++ ja_point_words f ++ u "パーセント")).
Proof.
  intros S D L G F J V. pose proof (grouped_ichar t x (proj1 (proj2 D)) G) as X. apply jnumber_said.
  - rewrite forallb_app, (numeral_nchar s x f sw S X F). reflexivity.
  - intro E. apply app_eq_nil in E as (_ & E). discriminate E.
  - exact (cardinal_percent s t x f sw m n S D L G F J).
  - exact (numeral_seps s t x f sw n S D L G F (u "%") eq_refl).
  - intro fs. eapply percent_not_dated; eassumption.
  - rewrite !forallb_app, (jword_safe sw (proj1 (jsign_cases s sw S))), (value_safe m n V), (point_words_safe f F). vm_compute. reflexivity.
Qed.

(** A number below 10^8 with or without commas, sign and decimals.  The one exception looks like a
    month: four digits, a point, a month with a leading zero. *)
Theorem C71_number o s sw t n x f : ja_sign_words s = Some sw -> decimal t n -> (n < 100000000)%N -> grouped t x -> Forall digit_char f ->
  ~ (s = [] /\ List.length t = 4%nat /\ zero_month f) ->
  exists m, japanese_value m = Some n /\ ja_said o (numeral s x f) (marked o (sw ++ m ++ ja_point_words f)).
Proof.
  intros S D L G F Not. destruct (ja_integer t n x D L G) as (m & J & V). exists m. split; [exact V|]. exact (said_number o s sw t n x f m S D L G F Not J V).
Qed.
Print Assumptions C71_number.
Theorem C71_percent o s sw t n x f : ja_sign_words s = Some sw -> decimal t n -> (n < 100000000)%N -> grouped t x -> Forall digit_char f ->
  exists m, japanese_value m = Some n /\ ja_said o (numeral s x f ++ u "%") (marked o (sw ++ m ++ ja_point_words f ++ u "パーセント")).
Proof.
  intros S D L G F. destruct (ja_integer t n x D L G) as (m & J & V). exists m. split; [exact V|]. exact (said_percent o s sw t n x f m S D L G F J V).
Qed.
Print Assumptions C71_percent.

(** With every character of the words in the character set, or without the option, they come out as they are. *)
Lemma marked_off o w : tag_oov o = false \/ forallb JaTnModel.charset w = true -> marked o w = w.
Proof.
  intros H. unfold marked. induction w as [|c w IH]; [reflexivity|]. cbn [flat_map]. rewrite IH by (destruct H as [H|H]; [now left|right]; cbn [forallb] in H; now apply andb_true_iff in H).
  assert (E : tag_oov o && negb (JaTnModel.charset c) = false). { destruct H as [->|H]; [reflexivity|]. cbn [forallb] in H. apply andb_true_iff in H as (-> & _). apply andb_false_r. }
  rewrite E. reflexivity.
Qed.
Theorem C71_unmarked o s sw t n x f : ja_sign_words s = Some sw -> decimal t n -> (n < 100000000)%N -> grouped t x -> Forall digit_char f ->
  ~ (s = [] /\ List.length t = 4%nat /\ zero_month f) -> tag_oov o = false \/ n <> 0%N /\ ~ In 48%N f ->
  exists m, japanese_value m = Some n /\ ja_said o (numeral s x f) (sw ++ m ++ ja_point_words f).
Proof.
  intros S D L G F Not T. destruct (C71_number o s sw t n x f S D L G F Not) as (m & V & H). exists m. split; [exact V|]. rewrite marked_off in H; [exact H|]. destruct T as [T|(Z & Nf)]; [now left|right].
  assert (A : forall w, forallb jword w = true -> forallb JaTnModel.charset w = true) by (intro w; apply all_imp; intros c C; exact (proj2 (jword_good c C))).
  rewrite !forallb_app, (A sw (proj1 (jsign_cases s sw S))), (A m (value_chars_nz m n V Z)). cbn [andb].
  assert (W : forallb JaTnModel.charset (flat_map ja_digit_word f) = true).
  { assert (B : forallb (fun c => forallb JaTnModel.charset (ja_digit_word c)) [49; 50; 51; 52; 53; 54; 55; 56; 57]%N = true) by (vm_compute; reflexivity). rewrite forallb_forall in B.
    clear -F Nf B. induction F as [|c f Dc F IH]; [reflexivity|]. cbn [flat_map]. rewrite forallb_app, IH by (intro I; apply Nf; now right). rewrite andb_true_r. apply B.
    assert (c <> 48%N) by (intros ->; apply Nf; now left). unfold digit_char in Dc. cbn [In]. lia. }
  destruct f as [|c g]; [reflexivity|]. unfold ja_point_words. rewrite forallb_app, W. vm_compute. reflexivity.
Qed.
Print Assumptions C71_unmarked.

(** Not without exceptions: the option marks the normaliser's own 〇 and ー, and a year with a month is no number. *)
Definition marking : options := Options false false false false true.
Lemma zero_decimal : decimal (u "0") 0.
Proof. split; [discriminate|split; [apply PropsZhSpoken.digits_of; reflexivity|split; [reflexivity|reflexivity]]]. Qed.
Lemma five_decimal : decimal (u "5") 5.
Proof. split; [discriminate|split; [apply PropsZhSpoken.digits_of; reflexivity|split; [discriminate|reflexivity]]]. Qed.
Theorem C71_marked_refuted : numeral [] (u "0") [] = u "0" /\ numeral [] (u "5") [] = u "5" /\ decimal (u "0") 0 /\ decimal (u "5") 5 /\
  ja_said marking (u "0") (u "<oov>〇</oov>") /\ ja_said marking (u "5%") (u "五パ<oov>ー</oov>セント").
Proof.
  split; [reflexivity|]. split; [reflexivity|]. split; [exact zero_decimal|]. split; [exact five_decimal|]. split.
  - assert (J : just Cardinal.integer (u "0") (u "〇")) by (apply few_reads; [vm_compute; lia|exact zero_reads]).
    assert (H : ja_said marking (numeral [] (u "0") []) (marked marking ([] ++ u "〇" ++ ja_point_words []))).
    { apply (said_number marking [] [] (u "0") 0 (u "0") [] (u "〇") eq_refl zero_decimal ltac:(lia) (or_introl eq_refl) ltac:(constructor)); [intros (_ & E & _); discriminate E|exact J|vm_compute; reflexivity]. }
    assert (E : marked marking ([] ++ u "〇" ++ ja_point_words []) = u "<oov>〇</oov>") by (vm_compute; reflexivity). rewrite E in H. exact H.
  - assert (J : just Cardinal.integer (u "5") (u "五")).
    { change (u "5") with [53%N]. change (u "五") with (w1 53). apply few_reads; [vm_compute; lia|]. apply one_reads. unfold nz. lia. }
    assert (H : ja_said marking (numeral [] (u "5") [] ++ u "%") (marked marking ([] ++ u "五" ++ ja_point_words [] ++ u "パーセント"))).
    { apply (said_percent marking [] [] (u "5") 5 (u "5") [] (u "五") eq_refl five_decimal ltac:(lia) (or_introl eq_refl) ltac:(constructor)); [exact J|vm_compute; reflexivity]. }
    assert (E : marked marking ([] ++ u "五" ++ ja_point_words [] ++ u "パーセント") = u "五パ<oov>ー</oov>セント") by (vm_compute; reflexivity). rewrite E in H. exact H.
Qed.
Print Assumptions C71_marked_refuted.
Theorem C71_month_refuted o : numeral [] (u "1234") (u "05") = u "1234.05" /\ decimal (u "1234") 1234 /\
  exists w, japanese_value w = Some 1234%N /\ ja_said o (u "1234.05") (w ++ u "年五月").
Proof.
  assert (D : decimal (u "1234") 1234) by (split; [discriminate|split; [apply PropsZhSpoken.digits_of; reflexivity|split; [discriminate|reflexivity]]]).
  split; [reflexivity|]. split; [exact D|]. destruct (C72_year_month o (u "1234") (u "1234") 46 (u "05")) as (w & V & H & _).
  - split; [reflexivity|]. split; [exact (proj1 (proj2 D))|]. split; [discriminate|]. now left.
  - exists 53%N. split; [lia|reflexivity].
  - right. right. reflexivity.
  - exists w. split; [exact V|]. assert (E : u "年" ++ month_words (u "05") = u "年五月") by (vm_compute; reflexivity). rewrite E in H. exact H.
Qed.
Print Assumptions C71_month_refuted.
Example C71_witness : ja_sign_words (u "-") = Some (u "マイナス") /\ decimal (u "12345678") 12345678 /\ grouped (u "12345678") (u "12,345,678") /\
  numeral (u "-") (u "12,345,678") (u "05") = u "-12,345,678.05" /\ japanese_value (u "千二百三十四万五千六百七十八") = Some 12345678%N /\ ja_point_words (u "05") = u "点〇五".
Proof.
  split; [reflexivity|]. split; [split; [discriminate|split; [apply PropsZhSpoken.digits_of; reflexivity|split; [discriminate|reflexivity]]]|].
  split; [right; right; exists (u "12"), (u "345"), (u "678"); repeat split; cbn; lia|]. repeat split; vm_compute; reflexivity.
Qed.
