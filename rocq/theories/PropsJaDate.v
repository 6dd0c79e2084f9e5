(** Property C72: a written date through the whole Japanese normaliser.

    Vocabulary (ZhTnEndSpec.v, ZhDateSpec.v, JaNumeralSpec.v): [year_digits t y] says that [y] is the
    year [t] of four digits without a leading zero, written with or without a comma (2,024);
    [month_text], [day_like] and [zero_month] say that a text is a month, a day and a month written
    with a leading zero; [date_sep] is one of the characters / - and the point; [month_words] and
    [day_words] are what is said, and [japanese_value] is the number a Japanese numeral stands for.
    [ja_said o x d] (JaPost.v): with the options [o], normalize answers [d] for [x], alone or among
    characters that no rule but the one of single characters reads, whatever the engine. *)
From Coq Require Import List NArith ZArith Bool String Lia.
From Verif Require Import Text TextFacts TokenModel Fst FstFacts GrammarModel GrammarSpec GrammarAccept NumeralSpec EnglishNumeralSpec DataJaTn JaTnModel ZhTnEndSpec ZhDateSpec JaNumeralSpec WholeSpec BoundarySpec BoundaryLaw PlainSpec.
From Verif Require Import NbestModel PropsBoundary BoundaryChar Letters OneToken Fields ZhNumberProofs ZhTnRead ZhDate ZhDate2 JaPost JaDate JaDate2 JaDate3.
From Verif Require EndToEnd PlainRules PropsZhSpoken PropsWhole Whole.
Import ListNotations.
Local Open Scope list_scope.

Lemma only_jdate o : name_only (rules o) (u "date") (RuleSpec (Date.rule o (r_tagger (Range.rule o))) (Some 10200%Z) true).
Proof. destruct o as [[] i p f v]; PlainRules.only_tac. Qed.
Lemma jdate_first o s k : In s (rules o) -> s_weight s = Some k -> s = RuleSpec (Date.rule o (r_tagger (Range.rule o))) (Some 10200%Z) true \/ (10200 < k)%Z.
Proof.
  intros I W. unfold rules in I. apply in_app_iff in I as [I|I].
  - cbn [In] in I. destruct I as [<-|[<-|[<-|[<-|[<-|[<-|[<-|[<-|[<-|[<-|[<-|[]]]]]]]]]]]]; cbn [s_weight] in W; try (injection W as <-); try discriminate W; auto; right; lia.
  - destruct (transliterate o); [|destruct I]. destruct I as [<-|[]]. cbn [s_weight] in W. injection W as <-. right. lia.
Qed.
Lemma jrules_nonneg o s : In s (rules o) -> Whole.nonneg (r_tagger (s_rule s)) = true.
Proof.
  assert (A : forallb (fun s => Whole.nonneg (r_tagger (s_rule s))) (rules o) = true) by (destruct o as [[] i p [] v]; vm_compute; reflexivity). rewrite forallb_forall in A. exact (A s).
Qed.
Lemma short_words p : List.length p = 1 \/ List.length p = 2 -> Forall digit_char p -> within 1 31 p = true -> forallb jword (month_words p) && forallb jword (day_words p) = true.
Proof.
  intros L F W. assert (H : (if within 1 31 p then forallb jword (month_words p) && forallb jword (day_words p) else true) = true).
  { revert L F. apply (short_all (fun p => if within 1 31 p then forallb jword (month_words p) && forallb jword (day_words p) else true)). vm_compute. reflexivity. }
  now rewrite W in H.
Qed.
Lemma month_jword p : month_text p -> forallb jword (month_words p) = true.
Proof. intros (L & F & B). refine (proj1 (proj1 (andb_true_iff _ _) (short_words p L F _))). unfold within. apply andb_true_iff. split; apply N.leb_le; lia. Qed.
Lemma day_jword p : day_like p -> forallb jword (day_words p) = true.
Proof. intros (L & F & B). refine (proj2 (proj1 (andb_true_iff _ _) (short_words p L F _))). unfold within. apply andb_true_iff. split; apply N.leb_le; lia. Qed.
Section Said.
Variables (o : options) (x m yw : text) (fs : list (text * text)) (yo : option text) (b : text) (dayo : option text).
Hypothesis Dated : jdated x fs.
Hypothesis Read : denote (Date.date o) x (shown fs) 0%Z.
Hypothesis Year : match yo with Some a => is_year a /\ (forall z w, denote (Date.g_year o) a z w <-> z = yw ++ u "年" /\ w = 0%Z) /\ forallb jword yw = true | None => True end.
Hypothesis Month : month_text b.
Hypothesis Day : match dayo with Some a => day_like a | None => True end.
Let fs' : list (text * text) := match yo with Some a => [(u "year", a)] | None => [] end ++ [(u "month", b)] ++ match dayo with Some a => [(u "day", a)] | None => [] end.
Hypothesis Order : TokenProofs2.emitted PipelineModel.ja_tn_token_orders (u "date") fs = fs'.
Hypothesis Words : m = match yo with Some a => yw ++ u "年" | None => [] end ++ month_words b ++ match dayo with Some a => day_words a | None => [] end.
Lemma jdate_words : forallb jword m = true.
Proof.
  rewrite Words, !forallb_app, (month_jword b Month). destruct yo as [a|]; [destruct Year as (_ & _ & Y); rewrite forallb_app, Y|]; (destruct dayo as [d|]; [rewrite (day_jword d Day)|]); reflexivity.
Qed.
Lemma jdate_keys : good_keys fs = true /\ NoDup (map Datatypes.fst fs) /\ fs <> [] /\ forallb (fun kv : text * text => forallb vchar (Datatypes.fst kv)) fs = true.
Proof. destruct Dated; (split; [reflexivity|split; [|split; [discriminate|reflexivity]]]); cbn [map Datatypes.fst]; repeat constructor; cbn [In]; intuition discriminate. Qed.
Lemma jdate_verb z w : denote (delete_tokens Date.name (Date.verbalizer o)) (fields_token (u "date") fs') z w <-> z = m /\ w = 0%Z.
Proof.
  assert (E : fields_token (u "date") fs' = Date.name ++ u " { " ++ (year_part yo ++ (u "month: """ ++ b ++ u """") ++ day_part dayo) ++ u " }").
  { assert (Ey : forall a, is_year a -> escape_value a = a) by (intros a H; exact (bare_escape a (jbare a (year_jchar a H)))).
    assert (Ed : forall a, day_like a -> escape_value a = a) by (intros a H; exact (bare_escape a (jbare a (day_jchar a H)))).
    unfold fields_token, fs', piece. destruct yo as [a|], dayo as [d|]; cbn [app map join Datatypes.fst snd year_part day_part]; rewrite ?(bare_escape b (jbare b (month_jchar b Month)));
      try rewrite (Ey _ (proj1 Year)); try rewrite (Ed _ Day); rewrite <- ?app_assoc; reflexivity. }
  rewrite E, tokens_inner, Words. apply jdate_verbal.
  - destruct yo as [a|]; [|reflexivity]. destruct Year as (Y1 & Y2 & _). split; [exact (bare_unquoted _ (jbare a (year_jchar a Y1)))|exact Y2].
  - split; [exact (bare_unquoted _ (jbare b (month_jchar b Month)))|exact (g_month_reads o b Month)].
  - destruct dayo as [d|]; [|reflexivity]. split; [exact (bare_unquoted _ (jbare d (day_jchar d Day)))|exact (g_day_reads o d Day)].
Qed.
Lemma jdate_tag : denote (Date.tagger o (r_tagger (Range.rule o))) x (fields_token (u "date") fs ++ u " ") 0%Z.
Proof.
  unfold Date.tagger. left. rewrite <- (app_nil_r x), <- (app_nil_r (fields_token _ _ ++ _)). change 0%Z with (0 + 0)%Z. apply cat_i; [|right; cbn; auto].
  apply PlainRules.tokens_added. exists (shown fs). split; [|exact Read]. unfold fields_token, shown. rewrite <- !app_assoc. reflexivity.
Qed.
Lemma jdate_said : ja_said o x m.
Proof.
  destruct jdate_keys as (K1 & K2 & K3 & K4). destruct (jdated_jchar x fs Dated) as (Kx & Kv). rewrite <- (jword_marked o m jdate_words).
  apply (ja_said_fields o (u "date") (Date.rule o (r_tagger (Range.rule o))) 10200 x m fs fs' (only_jdate o)); try reflexivity; try assumption.
  - exact (jvalid x Kx).
  - intros ->. pose proof (jdated_seps _ _ Dated) as (L & _). cbv in L. lia.
  - unfold good_values. rewrite forallb_forall in *. intros kv I. specialize (K4 kv I). specialize (Kv kv I). cbn beta in *. now rewrite K4, (jvalid _ Kv).
  - unfold fs'. destruct yo, dayo; reflexivity.
  - unfold fs'. destruct yo, dayo; discriminate.
  - exact (jword_safe m jdate_words).
  - exact jdate_tag.
  - intros s k y v I W H. pose proof (Whole.nonneg_sound _ (jrules_nonneg o s I) _ _ _ H) as P. destruct (jdate_first o s k I W) as [->|L]; [|split; lia].
    cbn [s_weight] in W. injection W as <-. split; [lia|]. intros _. pose proof (jdated_seps _ _ Dated) as (_ & S). destruct (jdate_tagged o x y v Kx S H) as (fs1 & D1 & ->). now rewrite (jdated_unique _ _ _ Dated D1).
  - exact jdate_verb.
Qed.
End Said.
Lemma year_nz t a : year_of t a -> decimal_value t <> 0%N.
Proof. intro Y. apply year_shape in Y as (c & g & d & e & f & -> & _ & _ & Nc & Dd & De & Df). unfold nz, digit_char in *. unfold decimal_value. cbn [fold_left]. lia. Qed.

Lemma year_word t y o : year_of t y -> exists w, japanese_value w = Some (decimal_value t) /\ is_year y /\ (forall z v, denote (Date.g_year o) y z v <-> z = w ++ u "年" /\ v = 0%Z) /\ forallb jword w = true.
Proof.
  intro Y. destruct (g_year_reads o t y Y) as (w & V & R). exists w. split; [exact V|]. split; [now exists t|]. split; [exact R|]. exact (value_chars_nz w _ V (year_nz t y Y)).
Qed.
Lemma month_some o a : month_text a -> exists z, denote (Date.g_month o) a z 0%Z.
Proof. intro H. exists (month_words a). now apply g_month_reads. Qed.
Lemma day_some o a : day_like a -> exists z, denote (Date.g_day o) a z 0%Z.
Proof. intro H. exists (day_words a). now apply g_day_reads. Qed.
Lemma just_some (g : fst) y w : (forall z v, denote g y z v <-> z = w /\ v = 0%Z) -> exists z, denote g y z 0%Z.
Proof. intro R. exists w. now apply R. Qed.
Ltac parts Ry := first [exact (just_some _ _ _ Ry) | now apply month_some | now apply day_some | now apply g_mm_reads | (apply jvalid; auto using year_jchar, month_jchar, day_jchar, zero_jchar; fail) | assumption].

(** Year, month, day, in either order, with any of the separators: the year is said as a number. *)
Theorem C72_year_month_day o t y s m s' d : year_of t y -> month_text m -> day_like d -> date_sep s -> date_sep s' ->
  exists w, japanese_value w = Some (decimal_value t) /\
    ja_said o (y ++ [s] ++ m ++ [s'] ++ d) (w ++ u "年" ++ month_words m ++ day_words d).
Proof.
  intros Y M D S S'. destruct (year_word t y o Y) as (w & V & Y1 & Y2 & Y3). exists w. split; [exact V|]. change (y ++ [s] ++ m ++ [s'] ++ d) with (y ++ s :: m ++ s' :: d). rewrite (app_assoc w).
  apply (jdate_said o _ _ w [(u "year", y); (u "month", m); (u "day", d)] (Some y) m (Some d)); auto; try reflexivity.
  - now apply jdated_ymd.
  - do 4 left. apply jparts3_i; parts Y2.
Qed.
Print Assumptions C72_year_month_day.
Theorem C72_day_month_year o t y s m s' d : year_of t y -> month_text m -> day_like d -> date_sep s -> date_sep s' ->
  exists w, japanese_value w = Some (decimal_value t) /\
    ja_said o (d ++ [s] ++ m ++ [s'] ++ y) (w ++ u "年" ++ month_words m ++ day_words d).
Proof.
  intros Y M D S S'. destruct (year_word t y o Y) as (w & V & Y1 & Y2 & Y3). exists w. split; [exact V|]. change (d ++ [s] ++ m ++ [s'] ++ y) with (d ++ s :: m ++ s' :: y). rewrite (app_assoc w).
  apply (jdate_said o _ _ w [(u "day", d); (u "month", m); (u "year", y)] (Some y) m (Some d)); auto; try reflexivity.
  - now apply jdated_dmy.
  - do 3 left. right. apply jparts3_i; parts Y2.
Qed.
Print Assumptions C72_day_month_year.
(** Two of them: the month is written with a leading zero. *)
Theorem C72_year_month o t y s m : year_of t y -> zero_month m -> date_sep s ->
  exists w, japanese_value w = Some (decimal_value t) /\
    ja_said o (y ++ [s] ++ m) (w ++ u "年" ++ month_words m) /\ ja_said o (m ++ [s] ++ y) (w ++ u "年" ++ month_words m).
Proof.
  intros Y M S. destruct (year_word t y o Y) as (w & V & Y1 & Y2 & Y3). pose proof (zero_month_text m M) as M'. exists w. split; [exact V|]. rewrite <- (app_nil_r (month_words m)), (app_assoc w). split.
  - change (y ++ [s] ++ m) with (y ++ s :: m). apply (jdate_said o _ _ w [(u "year", y); (u "month", m)] (Some y) m None); auto; try reflexivity.
    + now apply jdated_ym.
    + do 2 left. right. apply jparts2_i; parts Y2.
  - change (m ++ [s] ++ y) with (m ++ s :: y). apply (jdate_said o _ _ w [(u "month", m); (u "year", y)] (Some y) m None); auto; try reflexivity.
    + now apply jdated_my.
    + left. right. apply jparts2_i; parts Y2.
Qed.
Print Assumptions C72_year_month.
Theorem C72_month_day o s m d : zero_month m -> day_like d -> date_sep s -> ja_said o (m ++ [s] ++ d) (month_words m ++ day_words d).
Proof.
  intros M D S. pose proof (zero_month_text m M) as M'. change (m ++ [s] ++ d) with (m ++ s :: d).
  apply (jdate_said o _ _ [] [(u "month", m); (u "day", d)] None m (Some d)); auto; try reflexivity.
  - now apply jdated_md.
  - right. apply jparts2_i; first [now apply g_mm_reads|now apply day_some|(apply jvalid; auto using day_jchar, zero_jchar; fail)|assumption].
Qed.
Print Assumptions C72_month_day.

Ltac digits_tac := apply PropsZhSpoken.digits_of; reflexivity.
Example C72_witness : year_of (u "2024") (u "2,024") /\ month_text (u "12") /\ zero_month (u "05") /\ day_like (u "31") /\ date_sep 45 /\
  u "2,024" ++ [45%N] ++ u "12" ++ [47%N] ++ u "31" = u "2,024-12/31" /\ japanese_value (u "二千二十四") = Some 2024%N /\
  month_words (u "12") ++ day_words (u "31") = u "十二月三十一日".
Proof.
  split; [|split; [|split; [|split; [|split]]]].
  - split; [reflexivity|]. split; [digits_tac|]. split; [discriminate|]. right. left. exists (u "2"), (u "024"). repeat split; cbn; lia.
  - split; [now right|]. split; [digits_tac|]. vm_compute. intuition discriminate.
  - exists 53%N. split; [lia|reflexivity].
  - split; [now right|]. split; [digits_tac|]. vm_compute. intuition discriminate.
  - right. left. reflexivity.
  - repeat split; vm_compute; reflexivity.
Qed.
