(** Property C67: a written date through the whole Chinese normaliser.

    Vocabulary (ZhTnEndSpec.v, ZhDateSpec.v): [year_like], [month_text], [month_like] and [day_like]
    say that a text is a year of four digits, a month (with two digits in the last case) and a day;
    [date_sep] is one of the characters / - and the point; [year_words], [month_words] and
    [day_words] are what is said.  [said_as x d] (PropsZhTnEnd.v): normalize answers [d] for [x],
    alone or among characters that no rule but the one of single characters reads, whatever the
    options and the engine. *)
From Coq Require Import List NArith ZArith Bool String Lia.
From Verif Require Import Text TextFacts TokenModel Fst FstFacts GrammarModel GrammarSpec NumeralSpec DataZhTn ZhTnModel ZhTnEndSpec ZhDateSpec WholeSpec.
From Verif Require Import BoundarySpec BoundaryLaw PlainSpec NbestModel PropsBoundary BoundaryChar Letters OneToken Fields ZhTnRead ZhTnPost PropsZhTnEnd ZhWhole ZhDate ZhDate2.
From Verif Require EndToEnd PlainRules PropsZhSpoken PropsWhole.
Import ListNotations.
Local Open Scope list_scope.

Lemma only_date o : name_only (rules o) (u "date") (RuleSpec (Date.rule (r_tagger Range.rule)) (Some 10200%Z) true).
Proof. destruct o as [i [] t p f v]; PlainRules.only_tac. Qed.
Lemma date_first o s k : In s (rules o) -> s_weight s = Some k -> s = RuleSpec (Date.rule (r_tagger Range.rule)) (Some 10200%Z) true \/ (10200 < k)%Z.
Proof.
  intros I W. unfold rules in I. cbn [In] in I.
  destruct I as [<-|[<-|[<-|[<-|[<-|[<-|[<-|[<-|[<-|[<-|[<-|[]]]]]]]]]]]]; cbn [s_weight] in W; try (injection W as <-); try discriminate W; auto; right; lia.
Qed.
(** Month and day are said in characters the postprocessor leaves alone. *)
Definition said_chars : text := Eval vm_compute in u "零一二三四五六七八九十年月日".
Definition said_char (c : N) : bool := existsb (N.eqb c) said_chars.
Lemma said_chars_safe : forallb safe said_chars = true.
Proof. vm_compute. reflexivity. Qed.
Lemma said_char_in c : said_char c = true -> In c said_chars.
Proof. unfold said_char. intro H. apply existsb_exists in H as (a & I & E). apply N.eqb_eq in E. subst a. exact I. Qed.
Lemma said_char_safe c : said_char c = true -> safe c = true.
Proof. intro H. exact (proj1 (forallb_forall safe said_chars) said_chars_safe c (said_char_in c H)). Qed.
Lemma digits_said f : Forall digit_char f -> forallb said_char (flat_map digit_word f) = true.
Proof.
  assert (A : forallb (fun c => forallb said_char (digit_word c)) ten = true) by (vm_compute; reflexivity). rewrite forallb_forall in A.
  intro F. induction F as [|c f D F IH]; [auto|]. cbn [flat_map]. rewrite forallb_app, (A c (ten_digits c D)), IH. auto.
Qed.
Lemma year_said a : year_like a -> forallb said_char (year_words a) = true.
Proof. intros (_ & F & _). unfold year_words. rewrite forallb_app, (digits_said _ F). vm_compute. reflexivity. Qed.
Lemma short_said p : List.length p = 1 \/ List.length p = 2 -> Forall digit_char p -> forallb said_char (month_words p) && forallb said_char (day_words p) = true.
Proof. apply (short_all (fun p => forallb said_char (month_words p) && forallb said_char (day_words p))). vm_compute. reflexivity. Qed.
Lemma month_said p : month_text p -> forallb said_char (month_words p) = true.
Proof. intros (L & F & _). exact (proj1 (proj1 (andb_true_iff _ _) (short_said p L F))). Qed.
Lemma day_said p : day_like p -> forallb said_char (day_words p) = true.
Proof. intros (L & F & _). exact (proj2 (proj1 (andb_true_iff _ _) (short_said p L F))). Qed.
Lemma digits_plain a : Forall digit_char a -> forallb vchar a = true /\ forallb bare a = true.
Proof.
  assert (A : forallb (fun c => vchar c && bare c) ten = true) by (vm_compute; reflexivity). rewrite forallb_forall in A. rewrite !forallb_forall, Forall_forall. intro F.
  split; intros c I; specialize (A c (ten_digits c (F c I))); now apply andb_true_iff in A.
Qed.
Lemma month_like_text b : month_like b -> month_text b.
Proof. intros (L & F & B). split; [auto|]. auto. Qed.
Section Said.
Variables (x m : text) (fs : list (text * text)) (yo : option text) (b : text) (dayo : option text).
Hypothesis Dated : dated x fs.
Hypothesis Read : denote Date.date x (shown fs) 0%Z.
Hypothesis Valid : forallb vchar x = true.
Hypothesis Values : forallb (fun kv : text * text => forallb vchar (snd kv)) fs = true.
Hypothesis Year : match yo with Some a => year_like a | None => True end.
Hypothesis Month : month_text b.
Hypothesis Day : match dayo with Some a => day_like a | None => True end.
Let fs' : list (text * text) := match yo with Some a => [(u "year", a)] | None => [] end ++ [(u "month", b)] ++ match dayo with Some a => [(u "day", a)] | None => [] end.
Hypothesis Order : TokenProofs2.emitted orders (u "date") fs = fs'.
Hypothesis Words : m = match yo with Some a => year_words a | None => [] end ++ month_words b ++ match dayo with Some a => day_words a | None => [] end.
Lemma date_chars_said : forallb said_char m = true.
Proof.
  rewrite Words, !forallb_app, (month_said b Month). destruct yo as [a|]; [rewrite (year_said a Year)|]; (destruct dayo as [d|]; [rewrite (day_said d Day)|]); reflexivity.
Qed.
Lemma date_not_phone : ~ phone_text x.
Proof.
  intro P. apply phone_texts in P. assert (H : exists s, date_sep s /\ In s x).
  { destruct Dated; exists s; (split; [assumption|]); apply in_app_iff; right; left; reflexivity. }
  destruct H as (s & S & I). rewrite forallb_forall in P. specialize (P s I). destruct S as [-> |[-> | ->]]; vm_compute in P; discriminate P.
Qed.
Lemma date_keys : good_keys fs = true /\ NoDup (map Datatypes.fst fs) /\ fs <> [] /\ forallb (fun kv : text * text => forallb vchar (Datatypes.fst kv)) fs = true.
Proof. destruct Dated; (split; [reflexivity|split; [|split; [discriminate|reflexivity]]]); cbn [map Datatypes.fst]; repeat constructor; cbn [In]; intuition discriminate. Qed.
Lemma date_verb z w : denote (delete_tokens Date.name Date.verbalizer) (fields_token (u "date") fs') z w <-> z = m /\ w = 0%Z.
Proof.
  assert (E : fields_token (u "date") fs' = Date.name ++ u " { " ++ (year_part yo ++ (u "month: """ ++ b ++ u """") ++ day_part dayo) ++ u " }").
  { assert (Ey : forall a, year_like a -> escape_value a = a) by (intros a (_ & F & _); exact (bare_escape a (proj2 (digits_plain a F)))).
    assert (Ed : forall a, day_like a -> escape_value a = a) by (intros a (_ & F & _); exact (bare_escape a (proj2 (digits_plain a F)))).
    destruct Month as (_ & Fb & _). unfold fields_token, fs', piece. destruct yo as [a|], dayo as [d|]; cbn [app map join Datatypes.fst snd year_part day_part]; rewrite ?(bare_escape b (proj2 (digits_plain b Fb)));
      try rewrite (Ey _ Year); try rewrite (Ed _ Day); rewrite <- ?app_assoc; reflexivity. }
  rewrite E, tokens_inner, Words. apply date_verbal.
  - destruct yo as [a|]; [|reflexivity]. split; [destruct Year as (_ & F & _); exact (bare_unquoted _ (proj2 (digits_plain a F)))|exact (year_reads a Year)].
  - split; [destruct Month as (_ & F & _); exact (bare_unquoted _ (proj2 (digits_plain b F)))|exact (month_reads b Month)].
  - destruct dayo as [d|]; [|reflexivity]. split; [destruct Day as (_ & F & _); exact (bare_unquoted _ (proj2 (digits_plain d F)))|exact (day_reads d Day)].
Qed.
Lemma date_tagged : denote (Date.tagger (r_tagger Range.rule)) x (fields_token (u "date") fs ++ u " ") 0%Z.
Proof.
  unfold Date.tagger. rewrite <- (app_nil_r x), <- (app_nil_r (fields_token _ _ ++ _)). change 0%Z with (0 + 0)%Z. apply cat_i; [|right; cbn; auto].
  apply PlainRules.tokens_added. exists (shown fs). split; [|exact Read]. unfold fields_token, shown. rewrite <- !app_assoc. reflexivity.
Qed.
Lemma date_said : said_as x m.
Proof.
  destruct date_keys as (K1 & K2 & K3 & K4).
  apply (said_fields (u "date") (Date.rule (r_tagger Range.rule)) 10200 x m fs fs' only_date); try reflexivity; try assumption.
  - exact date_not_phone.
  - unfold good_values. rewrite forallb_forall in *. intros kv I. specialize (K4 kv I). specialize (Values kv I). cbn beta in *. now rewrite K4, Values.
  - unfold fs'. destruct yo, dayo; reflexivity.
  - unfold fs'. destruct yo, dayo; discriminate.
  - generalize date_chars_said. apply all_imp. exact said_char_safe.
  - exact date_tagged.
  - intros o s k y v I W H. pose proof (whole_no_less o s x _ v I date_not_phone H) as P. destruct (date_first o s k I W) as [->|L]; [|split; lia].
    cbn [s_weight] in W. injection W as <-. split; [lia|]. intros _. exact (date_token x fs y v Dated H).
  - exact date_verb.
Qed.
End Said.

Ltac digit_facts := repeat match goal with
  | H : year_like ?a |- _ => lazymatch goal with K : forallb vchar a = true /\ _ |- _ => fail | _ => pose proof (digits_plain a (proj1 (proj2 H))) end
  | H : month_text ?a |- _ => lazymatch goal with K : forallb vchar a = true /\ _ |- _ => fail | _ => pose proof (digits_plain a (proj1 (proj2 H))) end
  | H : day_like ?a |- _ => lazymatch goal with K : forallb vchar a = true /\ _ |- _ => fail | _ => pose proof (digits_plain a (proj1 (proj2 H))) end
  end.
Lemma sep_vchar s : date_sep s -> vchar s = true.
Proof. intros [-> |[-> | ->]]; reflexivity. Qed.
Lemma year_some a : year_like a -> exists z, denote Date.g_year a z 0%Z.
Proof. intro H. exists (year_words a). now apply year_reads. Qed.
Lemma month_some a : month_text a -> exists z, denote Date.g_month a z 0%Z.
Proof. intro H. exists (month_words a). now apply month_reads. Qed.
Lemma day_some a : day_like a -> exists z, denote Date.g_day a z 0%Z.
Proof. intro H. exists (day_words a). now apply day_reads. Qed.
Lemma some_reads g a : (exists z, denote g a z 0%Z) -> reads_as g a.
Proof. intros (z & H). now exists z, 0%Z. Qed.
Ltac valid_parts := repeat (rewrite ?forallb_app; cbn [forallb Datatypes.fst snd]); repeat match goal with
  | H : forallb vchar ?a = true /\ _ |- context [forallb vchar ?a] => rewrite (proj1 H)
  | H : date_sep ?s |- context [vchar ?s] => rewrite (sep_vchar s H)
  end; try reflexivity.

(** Year, month, day, in either order, with any of the separators. *)
Theorem C67_year_month_day y s m s' d : year_like y -> month_text m -> day_like d -> date_sep s -> date_sep s' ->
  said_as (y ++ [s] ++ m ++ [s'] ++ d) (year_words y ++ month_words m ++ day_words d).
Proof.
  intros Y M D S S'. change (y ++ [s] ++ m ++ [s'] ++ d) with (y ++ s :: m ++ s' :: d). digit_facts.
  apply (date_said _ _ [(u "year", y); (u "month", m); (u "day", d)] (Some y) m (Some d)); try assumption; try reflexivity; [| |valid_parts..].
  - apply dated_ymd; auto using some_reads, year_some, month_some, day_some.
  - do 4 left. apply parts3_i; try apply year_some; try apply month_some; try apply day_some; try assumption; valid_parts.
Qed.
Print Assumptions C67_year_month_day.
Theorem C67_day_month_year y s m s' d : year_like y -> month_text m -> day_like d -> date_sep s -> date_sep s' ->
  said_as (d ++ [s] ++ m ++ [s'] ++ y) (year_words y ++ month_words m ++ day_words d).
Proof.
  intros Y M D S S'. change (d ++ [s] ++ m ++ [s'] ++ y) with (d ++ s :: m ++ s' :: y). digit_facts.
  apply (date_said _ _ [(u "day", d); (u "month", m); (u "year", y)] (Some y) m (Some d)); try assumption; try reflexivity; [| |valid_parts..].
  - apply dated_dmy; auto using some_reads, year_some, month_some, day_some.
  - do 3 left. right. apply parts3_i; try apply year_some; try apply month_some; try apply day_some; try assumption; valid_parts.
Qed.
Print Assumptions C67_day_month_year.
(** Two of them: the month has two digits. *)
Theorem C67_year_month y s m : year_like y -> month_like m -> date_sep s ->
  said_as (y ++ [s] ++ m) (year_words y ++ month_words m) /\ said_as (m ++ [s] ++ y) (year_words y ++ month_words m).
Proof.
  intros Y M S. pose proof (month_like_text m M) as Mt. digit_facts. rewrite <- (app_nil_r (month_words m)). split.
  - change (y ++ [s] ++ m) with (y ++ s :: m). apply (date_said _ _ [(u "year", y); (u "month", m)] (Some y) m None); try exact I; try assumption; try reflexivity; [| |valid_parts..].
    + apply dated_ym; auto using some_reads, year_some, two_digit_reads.
    + do 2 left. right. apply parts2_i; try apply year_some; try apply two_digit_reads; try assumption; valid_parts.
  - change (m ++ [s] ++ y) with (m ++ s :: y). apply (date_said _ _ [(u "month", m); (u "year", y)] (Some y) m None); try exact I; try assumption; try reflexivity; [| |valid_parts..].
    + apply dated_my; auto using some_reads, year_some, two_digit_reads.
    + left. right. apply parts2_i; try apply year_some; try apply two_digit_reads; try assumption; valid_parts.
Qed.
Print Assumptions C67_year_month.
Theorem C67_month_day m s d : month_like m -> day_like d -> date_sep s -> said_as (m ++ [s] ++ d) (month_words m ++ day_words d).
Proof.
  intros M D S. pose proof (month_like_text m M) as Mt. digit_facts. change (m ++ [s] ++ d) with (m ++ s :: d).
  apply (date_said _ _ [(u "month", m); (u "day", d)] None m (Some d)); try exact I; try assumption; try reflexivity; [| |valid_parts..].
  - apply dated_md; auto using some_reads, day_some, two_digit_reads.
  - right. apply parts2_i; try apply day_some; try apply two_digit_reads; try assumption; valid_parts.
Qed.
Print Assumptions C67_month_day.

(** The hypotheses are met by ordinary dates, and the words are the expected ones. *)
Ltac digits_tac := repeat constructor; unfold digit_char; cbn; lia.
Example C67_witness : year_like (u "2024") /\ month_text (u "1") /\ month_like (u "10") /\ day_like (u "05") /\ date_sep 45 /\
  u "2024" ++ [45%N] ++ u "1" ++ [47%N] ++ u "05" = u "2024-1/05" /\
  year_words (u "2024") ++ month_words (u "1") ++ day_words (u "05") = u "二零二四年一月五日" /\
  month_words (u "10") ++ day_words (u "31") = u "十月三十一日".
Proof.
  assert (Y : year_like (u "2024")) by (unfold year_like; vm_compute u; split; [reflexivity|split; [digits_tac|vm_compute; auto; intuition discriminate]]).
  split; [exact Y|]. split; [unfold month_text; vm_compute u; split; [left; reflexivity|split; [digits_tac|vm_compute; intuition discriminate]]|].
  split; [unfold month_like; vm_compute u; split; [reflexivity|split; [digits_tac|vm_compute; intuition discriminate]]|].
  split; [unfold day_like; vm_compute u; split; [auto|split; [digits_tac|vm_compute; intuition discriminate]]|].
  split; [unfold date_sep; auto|]. repeat split; vm_compute; reflexivity.
Qed.
