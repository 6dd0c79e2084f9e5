(** Properties C68, C69 and C70: written fractions, amounts of money and times of day through the
    whole Chinese normaliser.

    Vocabulary (ZhTnEndSpec.v, ZhAmountSpec.v): [numeral s t f] is the number with sign [s], digits
    [t] and, after a point, the digits [f]; [sign_words] and [point_words] are what is said for the
    sign and for the digits after the point; [chinese_value] (NumeralSpec.v) is the number a Chinese
    numeral means; [gap g] says [g] is at most one space; [written_date x] that [x] is a date (C67);
    [currency_name c m] that the code or symbol [c] is listed with the name [m]; [hour_text],
    [minute_text] and [colon_char] describe the written time, [hour_words], [minute_words],
    [second_words] and [noon_words] what is said for its parts.  [said_as x d] (PropsZhTnEnd.v):
    normalize answers [d] for [x], alone or among characters that no rule but the one of single
    characters reads, whatever the options and the engine. *)
From Coq Require Import List NArith ZArith Bool String Lia.
From Verif Require Import Text TextFacts Fst GrammarModel NumeralSpec EnglishNumeralSpec DataZhTn ZhTnModel ZhTnEndSpec ZhDateSpec ZhAmountSpec.
From Verif Require Import BoundarySpec BoundaryLaw PlainSpec ZhNumberProofs4 PropsBoundary PropsZhTnEnd ZhTnRead ZhTnTag ZhTnPost ZhDate2 ZhAmount ZhMoney ZhTime.
From Verif Require FstFacts BoundaryLawProofs PropsZhSpoken PropsZhDate PlainRules.
Import ListNotations.
Local Open Scope list_scope.

(** A fraction: the denominator is said first. *)
Theorem C68_fraction s s' d d' t t' n n' : sign_words s = Some d -> sign_words s' = Some d' -> decimal t n -> decimal t' n' ->
  (n < 1000000000000)%N -> (n' < 1000000000000)%N ->
  exists y y', chinese_value y = Some n /\ chinese_value y' = Some n' /\
  forall f f' g g', Forall digit_char f -> Forall digit_char f' -> gap g -> gap g' ->
    let x := numeral s t f ++ g ++ u "/" ++ g' ++ numeral s' t' f' in
    ~ written_date x -> said_as x ((d' ++ y' ++ point_words f') ++ u "分之" ++ d ++ y ++ point_words f).
Proof.
  intros S S' D D' L L'. destruct (integer_reading t n D L) as (m & J & V). destruct (integer_reading t' n' D' L') as (m' & J' & V').
  exists (said s m), (said s' m'). split; [now rewrite said_value|]. split; [now rewrite said_value|]. intros f f' g g' F F' G G' x W.
  exact (fraction_said _ _ _ _ g g' (number_spoken s d t n f m S D F J V) (number_spoken s' d' t' n' f' m' S' D' F' J' V') G G' W).
Qed.
Print Assumptions C68_fraction.
(** No date has fewer than four characters (1/2), and none has anything but digits and separators. *)
Lemma dates_long x : written_date x -> 4 <= List.length x.
Proof.
  intros [(y & s & m & s' & d & (Ly & _) & (Lm & _) & (Ld & _) & _ & _ & [-> | ->])|(m & s & p & (Lm & _) & _ & [((Lp & _) & ->)|([(Lp & _)|(Lp & _)] & ->)])];
    rewrite ?app_length; cbn [List.length]; rewrite ?app_length; cbn [List.length]; lia.
Qed.
Lemma dates_digits x : written_date x -> Forall (fun c => digit_char c \/ date_sep c) x.
Proof.
  assert (A : forall p, Forall digit_char p -> Forall (fun c => digit_char c \/ date_sep c) p) by (intros p; apply Forall_impl; auto).
  assert (B : forall c, date_sep c -> Forall (fun c => digit_char c \/ date_sep c) [c]) by (intros c S; constructor; auto).
  intros [(y & s & m & s' & d & (_ & Fy & _) & (_ & Fm & _) & (_ & Fd & _) & S & S' & [-> | ->])|(m & s & p & (_ & Fm & _) & S & [((_ & Fp & _) & ->)|([(_ & Fp & _)|(_ & Fp & _)] & ->)])];
    repeat (apply Forall_app; split); auto.
Qed.
Theorem C68_no_date x : List.length x < 4 \/ Exists (fun c => ~ digit_char c /\ ~ date_sep c) x -> ~ written_date x.
Proof.
  intros [L|E] W; [apply dates_long in W; lia|]. apply dates_digits in W. rewrite Exists_exists in E. rewrite Forall_forall in W. destruct E as (c & I & A & B). destruct (W c I); contradiction.
Qed.
Print Assumptions C68_no_date.
(** With the month in two digits a fraction is a date: 10/5 is the fifth of October (C67). *)
Theorem C68_date_refuted : exists d d' t t' n n', sign_words [] = Some d /\ sign_words [] = Some d' /\ decimal t n /\ decimal t' n' /\
  said_as (numeral [] t [] ++ u "/" ++ numeral [] t' []) (u "十月五日").
Proof.
  exists [], [], (u "10"), (u "5"), 10%N, 5%N. split; [reflexivity|]. split; [reflexivity|].
  split; [split; [discriminate|split; [apply PropsZhSpoken.digits_of; reflexivity|split; [discriminate|reflexivity]]]|].
  split; [split; [discriminate|split; [apply PropsZhSpoken.digits_of; reflexivity|split; [discriminate|reflexivity]]]|].
  pose proof (PropsZhDate.C67_month_day (u "10") 47 (u "5")) as H.
  assert (E : month_words (u "10") ++ day_words (u "5") = u "十月五日") by (vm_compute; reflexivity). rewrite E in H. apply H.
  - split; [reflexivity|]. split; [apply PropsZhSpoken.digits_of; reflexivity|]. vm_compute. split; discriminate.
  - split; [left; reflexivity|]. split; [apply PropsZhSpoken.digits_of; reflexivity|]. vm_compute. split; discriminate.
  - left. reflexivity.
Qed.
Print Assumptions C68_date_refuted.
(** An amount of money: the currency is said last. *)
Theorem C69_money c w s d t n : currency_name c w -> sign_words s = Some d -> decimal t n -> (n < 1000000000000)%N ->
  exists y, chinese_value y = Some n /\
  forall f g, Forall digit_char f -> gap g -> said_as (c ++ g ++ numeral s t f) ((d ++ y ++ point_words f) ++ w).
Proof.
  intros C S D L. destruct (integer_reading t n D L) as (m & J & V). exists (said s m). split; [now rewrite said_value|]. intros f g F G.
  exact (money_said c w _ _ g C (number_spoken s d t n f m S D F J V) G).
Qed.
Print Assumptions C69_money.
(** A time: hour and minute, maybe the second, maybe am or pm after at most one space. *)
Theorem C70_time h c m g : hour_text h -> colon_char c -> minute_text m -> gap g ->
  said_as (h ++ [c] ++ m ++ g) (hour_words h ++ minute_words m) /\
  forall n w, noon_words n = Some w -> said_as (h ++ [c] ++ m ++ g ++ n) (w ++ hour_words h ++ minute_words m).
Proof.
  intros H C M G. split.
  - pose proof (time_said h c m None g None [] H C M I G eq_refl) as T. cbn [second_text noon_text second_said app] in T. rewrite !app_nil_r in T. exact T.
  - intros n w W. pose proof (time_said h c m None g (Some n) w H C M I G W) as T. cbn [second_text noon_text second_said app] in T. rewrite app_nil_r in T. exact T.
Qed.
Print Assumptions C70_time.
Theorem C70_time_seconds h c m c' s g : hour_text h -> colon_char c -> minute_text m -> colon_char c' -> minute_text s -> gap g ->
  said_as (h ++ [c] ++ m ++ [c'] ++ s ++ g) (hour_words h ++ minute_words m ++ second_words s) /\
  forall n w, noon_words n = Some w -> said_as (h ++ [c] ++ m ++ [c'] ++ s ++ g ++ n) (w ++ hour_words h ++ minute_words m ++ second_words s).
Proof.
  intros H C M C' S G. split.
  - pose proof (time_said h c m (Some (c', s)) g None [] H C M (conj C' S) G eq_refl) as T. cbn [second_text noon_text second_said app] in T. rewrite app_nil_r in T. exact T.
  - intros n w W. exact (time_said h c m (Some (c', s)) g (Some n) w H C M (conj C' S) G W).
Qed.
Print Assumptions C70_time_seconds.

(** Concrete texts: 氣溫 and 啊 are plain; the first is rewritten and the second dropped. *)
Lemma among x d : said_as x d -> exists o en, engine_for (zh_tn o) en /\ normalizes_to en (u "氣溫" ++ x ++ u "啊") (u "气温" ++ d).
Proof.
  intro H. set (o := Options true true true true true true). destruct (engine_zh_tn o) as (en & En). exists o, en. split; [exact En|].
  assert (P : forall x, forallb (BoundaryLawProofs.plainb (rules o)) x = true -> plain (zh_tn o) x) by (intros z; apply (all_plain _ _ _ (PlainRules.zh_tn_only o))).
  unfold said_as in H. specialize (H o en (u "氣溫") (u "啊") En).
  assert (E1 : flat_map (zh_tn_clean o) (u "氣溫") = u "气温") by (vm_compute; reflexivity). assert (E2 : flat_map (zh_tn_clean o) (u "啊") = []) by (vm_compute; reflexivity). rewrite E1, E2, app_nil_r in H.
  apply H; [apply FstFacts.vtext_spec; reflexivity|apply FstFacts.vtext_spec; reflexivity|apply P; vm_compute; reflexivity|apply P; vm_compute; reflexivity].
Qed.
Lemma some_decimal t n : t <> [] -> forallb (fun c => (48 <=? c) && (c <=? 57))%N%bool t = true -> hd 0%N t <> 48%N -> decimal_value t = n -> decimal t n.
Proof. intros A B C D. split; [exact A|]. split; [exact (PropsZhSpoken.digits_of t B)|]. split; [intro E; contradiction|exact D]. Qed.
Example C68_witness : exists o en y y', engine_for (zh_tn o) en /\ chinese_value y = Some 3%N /\ chinese_value y' = Some 25%N /\
  normalizes_to en (u "氣溫-3.5/ 25啊") (u "气温" ++ y' ++ u "分之负" ++ y ++ u "点五").
Proof.
  destruct (C68_fraction (u "-") [] (u "负") [] (u "3") (u "25") 3 25 eq_refl eq_refl) as (y & y' & V & V' & H); try (apply some_decimal; [discriminate|reflexivity|discriminate|reflexivity]); try reflexivity.
  specialize (H (u "5") [] [] (u " ")). destruct (among _ _ (H ltac:(apply PropsZhSpoken.digits_of; reflexivity) ltac:(constructor) (or_introl eq_refl) (or_intror eq_refl)
    ltac:(apply C68_no_date; right; apply Exists_exists; exists 32%N; split; [vm_compute; tauto|unfold digit_char, date_sep; lia]))) as (o & en & En & N).
  exists o, en, y, y'. split; [exact En|]. split; [exact V|]. split; [exact V'|].
  assert (E1 : point_words [] = []) by reflexivity. assert (E2 : point_words (u "5") = u "点五") by (vm_compute; reflexivity). rewrite E1, E2, app_nil_r in N. exact N.
Qed.
Example C69_witness : exists o en y, engine_for (zh_tn o) en /\ chinese_value y = Some 1200%N /\
  normalizes_to en (u "氣溫USD 1200.5啊") (u "气温" ++ y ++ u "点五美元").
Proof.
  assert (C : currency_name (u "USD") (u "美元")) by (unfold currency_name; vm_compute; tauto).
  destruct (C69_money _ _ [] [] (u "1200") 1200 C eq_refl) as (y & V & H); try (apply some_decimal; [discriminate|reflexivity|discriminate|reflexivity]); try reflexivity.
  destruct (among _ _ (H (u "5") (u " ") ltac:(apply PropsZhSpoken.digits_of; reflexivity) (or_intror eq_refl))) as (o & en & En & N).
  exists o, en, y. split; [exact En|]. split; [exact V|].
  assert (E2 : point_words (u "5") = u "点五") by (vm_compute; reflexivity). rewrite E2 in N. cbn [app] in N. rewrite <- (app_assoc y) in N. exact N.
Qed.
Example C70_witness : exists o en, engine_for (zh_tn o) en /\ normalizes_to en (u "氣溫2:05:30 pm啊") (u "气温下午两点零五分三十秒").
Proof.
  assert (M : forall p, List.length p = 2 -> forallb (fun c => (48 <=? c) && (c <=? 57))%N%bool p = true -> (decimal_value p <= 59)%N -> minute_text p) by (intros p A B C; split; [exact A|split; [exact (PropsZhSpoken.digits_of p B)|exact C]]).
  assert (H : hour_text (u "2")) by (split; [left; split; [reflexivity|discriminate]|split; [apply PropsZhSpoken.digits_of; reflexivity|vm_compute; discriminate]]).
  assert (C : colon_char 58) by (left; reflexivity).
  assert (Np : noon_words (u "pm") = Some (u "下午")) by (vm_compute; reflexivity).
  destruct (C70_time_seconds (u "2") 58 (u "05") 58 (u "30") (u " ") H C (M (u "05") eq_refl eq_refl ltac:(vm_compute; discriminate)) C (M (u "30") eq_refl eq_refl ltac:(vm_compute; discriminate)) (or_intror eq_refl)) as (_ & T).
  destruct (among _ _ (T (u "pm") (u "下午") Np)) as (o & en & En & N). exists o, en. split; [exact En|].
  assert (E : u "气温" ++ u "下午" ++ hour_words (u "2") ++ minute_words (u "05") ++ second_words (u "30") = u "气温下午两点零五分三十秒") by (vm_compute; reflexivity).
  assert (E' : u "氣溫" ++ (u "2" ++ [58%N] ++ u "05" ++ [58%N] ++ u "30" ++ u " " ++ u "pm") ++ u "啊" = u "氣溫2:05:30 pm啊") by (vm_compute; reflexivity). rewrite E, E' in N. exact N.
Qed.
