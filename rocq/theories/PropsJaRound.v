(** Property C83: what the Japanese normaliser says for a written date, fraction, amount of money,
    percentage or time, the Japanese inverse normaliser writes with the same numbers.

    Vocabulary (ZhTnEndSpec.v, ZhDateSpec.v, JaNumeralSpec.v, JaAmountSpec.v): [year_of t y] says that [y]
    is the year [t] of four digits, written with or without a comma; [numeral s x f] is the number with
    sign [s], digits [x] and, after a point, the digits [f]; [grouped t x] says that [x] is [t] with or
    without commas; [decimal d n] that [d] are the decimal digits of [n].  [JaPost.ja_said o x w]: the
    normaliser with the options [o] answers [w] for [x]; [ja_itn_said o' w d] (JaItnSaid.v): the inverse
    normaliser with the options [o'] answers [d] for [w]; both alone or among characters that no rule but
    the one of single characters reads, whatever the engine. *)
From Coq Require Import List NArith ZArith Bool String Lia.
From Verif Require Import Text TextFacts Fst GrammarModel NumeralSpec EnglishNumeralSpec DataJaItn JaItnModel ZhTnEndSpec ZhDateSpec ZhAmountSpec JaNumeralSpec JaAmountSpec WholeSpec BoundarySpec BoundaryLaw PlainSpec.
From Verif Require Import ZhNumberProofs JaItnSaid JaSpoken JaSpoken2 JaSpoken3 JaSpoken4 JaUnit JaTen JaRound PropsJaSpoken PropsJaMeasure PropsJaItnMoney PropsJaItnDate PropsJaItnFraction PropsJaItnTime.
From Verif Require JaTnModel JaDate PropsZhSpoken PropsJaNumber PropsJaDate PropsJaAmount JaNumber2 JaPost JaFraction JaMoney EnNumberProofs4 PropsZhAmount.
Import ListNotations.
Local Open Scope list_scope.
Local Notation dunique := EnNumberProofs4.decimal_unique.

(** Year, month and day, in either order. *)
Theorem C83_year_month_day o o' t y s m s' d : year_of t y -> month_text m -> day_like d -> date_sep s -> date_sep s' ->
  exists w md dd, decimal md (decimal_value m) /\ decimal dd (decimal_value d) /\
    JaPost.ja_said o (y ++ [s] ++ m ++ [s'] ++ d) w /\ JaPost.ja_said o (d ++ [s] ++ m ++ [s'] ++ y) w /\
    ja_itn_said o' w (t ++ u "年" ++ md ++ u "月" ++ dd ++ u "日").
Proof.
  intros Y M D S S'. destruct (ymd_words o t y s m s' d Y M D S S') as (w & V & O & A & B). destruct (year_decimal t y Y) as (Dt & Lt). pose proof M as (Lm & Fm & Bm). pose proof D as (Ld & Fd & Bd).
  destruct (small_means m Lm Fm ltac:(lia)) as (Vm & Om). destruct (small_means d Ld Fd ltac:(lia)) as (Vd & Od).
  destruct (C80_year_month_day o' w _ _ _ _ _ V Lt O Vm Bm Om Vd Bd Od) as (yd & md & dd & Dy & Dm & Dd & H). exists (w ++ u "年" ++ month_words m ++ day_words d), md, dd. do 4 (split; [assumption|]).
  rewrite (dunique _ _ _ Dt Dy). unfold month_words, day_words. rewrite <- !app_assoc. exact H.
Qed.
Print Assumptions C83_year_month_day.
(** Year and month, and month and day, the month with a leading zero. *)
Theorem C83_year_month o o' t y s m : year_of t y -> zero_month m -> date_sep s ->
  exists w md, decimal md (decimal_value m) /\ JaPost.ja_said o (y ++ [s] ++ m) w /\ JaPost.ja_said o (m ++ [s] ++ y) w /\ ja_itn_said o' w (t ++ u "年" ++ md ++ u "月").
Proof.
  intros Y M S. destruct (ym_words o t y s m Y M S) as (w & V & O & A & B). destruct (year_decimal t y Y) as (Dt & Lt). pose proof (JaDate.zero_month_text m M) as (Lm & Fm & Bm).
  destruct (small_means m Lm Fm ltac:(lia)) as (Vm & Om). destruct (C80_year_month o' w _ _ _ V Lt O Vm Bm Om) as (yd & md & Dy & Dm & H). exists (w ++ u "年" ++ month_words m), md. do 3 (split; [assumption|]).
  rewrite (dunique _ _ _ Dt Dy). exact H.
Qed.
Print Assumptions C83_year_month.
Theorem C83_month_day o o' m s d : zero_month m -> day_like d -> date_sep s ->
  exists w md dd, decimal md (decimal_value m) /\ decimal dd (decimal_value d) /\ JaPost.ja_said o (m ++ [s] ++ d) w /\ ja_itn_said o' w (md ++ u "月" ++ dd ++ u "日").
Proof.
  intros M D S. pose proof (JaDate.zero_month_text m M) as (Lm & Fm & Bm). pose proof D as (Ld & Fd & Bd).
  destruct (small_means m Lm Fm ltac:(lia)) as (Vm & Om). destruct (small_means d Ld Fd ltac:(lia)) as (Vd & Od).
  destruct (C80_month_day o' _ _ _ _ Vm Bm Om Vd Bd Od) as (md & dd & Dm & Dd & H). exists (month_words m ++ day_words d), md, dd. do 2 (split; [assumption|]). split; [exact (PropsJaDate.C72_month_day o s m d M D S)|].
  unfold month_words, day_words. rewrite <- !app_assoc. exact H.
Qed.
Print Assumptions C83_month_day.
(** A fraction whose denominator has no sign comes back as it was written, without commas and spaces. *)
Theorem C83_fraction o o' s sw t t' n n' x x' f f' g g' : ja_sign_words s = Some sw -> decimal t n -> decimal t' n' -> (n < 100000000)%N -> (n' < 100000000)%N -> grouped t x -> grouped t' x' ->
  Forall digit_char f -> Forall digit_char f' -> gap g -> gap g' -> JaTnModel.tag_oov o = false ->
  let q := numeral s x f ++ g ++ u "/" ++ g' ++ numeral [] x' f' in
  ~ ja_written_date q -> exists w, JaPost.ja_said o q w /\ ja_itn_said o' w (numeral s t f ++ u "/" ++ numeral [] t' f').
Proof.
  intros S D D' L L' X X' F F' G G' T q W. destruct (JaNumber2.ja_integer t n x D L X) as (y & J & V). destruct (JaNumber2.ja_integer t' n' x' D' L' X') as (y' & J' & V').
  assert (O : ~ one_ten y) by exact (integer_never x y 0%Z (proj2 (J y 0%Z) (conj eq_refl eq_refl))). assert (O' : ~ one_ten y') by exact (integer_never x' y' 0%Z (proj2 (J' y' 0%Z) (conj eq_refl eq_refl))).
  pose proof (JaFraction.jfraction_said o _ _ _ _ g g' (JaFraction.number_jspoken s sw t n x f y S D L X F J V) (JaFraction.number_jspoken [] [] t' n' x' f' y' eq_refl D' L' X' F' J' V') G G' W) as H.
  rewrite PropsJaNumber.marked_off in H by now left. eexists. split; [exact H|].
  destruct (C81_fraction o' y' n' f' s sw y n f V' L' O' F' S V L O F) as (d1 & d2 & D1 & D2 & B). rewrite (dunique _ _ _ D D2), (dunique _ _ _ D' D1). exact B.
Qed.
Print Assumptions C83_fraction.
(** A percentage. *)
Theorem C83_percent o o' s sw t n x f : ja_sign_words s = Some sw -> decimal t n -> (n < 100000000)%N -> grouped t x -> Forall digit_char f -> JaTnModel.tag_oov o = false -> enable_million o' = true \/ (n < 1000000)%N ->
  exists w, JaPost.ja_said o (numeral s x f ++ u "%") w /\ ja_itn_said o' w (numeral s t f ++ u "%").
Proof.
  intros S D L X F T M. destruct (JaNumber2.ja_integer t n x D L X) as (y & J & V). assert (O : ~ one_ten y) by exact (integer_never x y 0%Z (proj2 (J y 0%Z) (conj eq_refl eq_refl))).
  pose proof (PropsJaNumber.said_percent o s sw t n x f y S D L X F J V) as H. rewrite PropsJaNumber.marked_off in H by now left. eexists. split; [exact H|].
  destruct (C78_percent o' s sw y n f S V L O F M) as (d & Dd & B). rewrite (dunique _ _ _ D Dd). rewrite <- !app_assoc in B. exact B.
Qed.
Print Assumptions C83_percent.
(** An amount of money comes back with the symbol the inverse normaliser lists for the name. *)
Theorem C83_money o o' c k v s sw t n x f g : ja_currency_name c k -> c <> u "HK＄" -> currency_word k v -> ja_sign_words s = Some sw -> decimal t n -> (n < 100000000)%N -> grouped t x -> Forall digit_char f -> gap g ->
  JaTnModel.tag_oov o = false -> enable_million o' = true \/ (n < 1000000)%N -> counted_ok o' s n f ->
  exists w, JaPost.ja_said o (c ++ g ++ numeral s x f) w /\ ja_itn_said o' w (v ++ numeral s t f).
Proof.
  intros C Nw Cw S D L X F G T M Ok. destruct (JaNumber2.ja_integer t n x D L X) as (y & J & V). assert (O : ~ one_ten y) by exact (integer_never x y 0%Z (proj2 (J y 0%Z) (conj eq_refl eq_refl))).
  pose proof (JaMoney.jmoney_said o c k _ _ g C (PropsJaAmount.narrow c k C Nw) (JaFraction.number_jspoken s sw t n x f y S D L X F J V) G) as H. rewrite PropsJaNumber.marked_off in H by now left. eexists. split; [exact H|].
  destruct (C79_money o' s sw y n f k v S V L O F M Ok Cw) as (d & Dd & B). rewrite (dunique _ _ _ D Dd). exact B.
Qed.
Print Assumptions C83_money.
(** A time whose parts are in the tables of the inverse normaliser. *)
Definition hour_back (h : text) : Prop := ja_hour_text h /\ decimal_value h <> 0%N /\ decimal_value h <> 2%N.
Definition minute_back (m : text) : Prop := minute_text m /\ decimal_value m <> 0%N /\ decimal_value m <> 52%N.
Lemma hour_heard h : hour_back h -> ja_hour_words h = small_words (decimal_value h) ++ u "時" /\ hour_value (small_words (decimal_value h)) (decimal_value h).
Proof.
  intros ((L & F & B) & Z & T). destruct (small_means h L F Z) as (V & O). unfold ja_hour_words. cbv zeta. destruct (N.eqb_spec (decimal_value h) 0); [contradiction|]. split; [reflexivity|]. split; [exact V|]. split; [lia|]. split; assumption.
Qed.
Lemma minute_heard m : minute_back m -> ja_minute_words m = small_words (decimal_value m) ++ u "分" /\ ja_second_words m = small_words (decimal_value m) ++ u "秒" /\ sixty_value (small_words (decimal_value m)) (decimal_value m).
Proof.
  intros ((L & F & B) & Z & T). destruct (small_means m (or_intror L) F Z) as (V & O). unfold ja_minute_words, ja_second_words. cbv zeta. destruct (N.eqb_spec (decimal_value m) 0); [contradiction|]. do 2 (split; [reflexivity|]). split; [exact V|]. split; [lia|]. split; assumption.
Qed.
Theorem C83_hour_minute_second o o' h m s : hour_back h -> minute_back m -> minute_back s -> JaTnModel.tag_oov o = false ->
  exists w hd md sd, decimal hd (decimal_value h) /\ decimal md (decimal_value m) /\ decimal sd (decimal_value s) /\
    JaPost.ja_said o (h ++ u ":" ++ m ++ u ":" ++ s) w /\ ja_itn_said o' w (hd ++ u "時" ++ md ++ u "分" ++ sd ++ u "秒").
Proof.
  intros H M S T. destruct (hour_heard h H) as (Eh & Vh). destruct (minute_heard m M) as (Em & _ & Vm). destruct (minute_heard s S) as (_ & Es & Vs).
  pose proof (proj1 (PropsJaAmount.C75_time_seconds o h m s (proj1 H) (proj1 M) (proj1 S))) as A. rewrite PropsJaNumber.marked_off, Eh, Em, Es, <- !app_assoc in A by now left.
  destruct (C82_hour_minute_second o' _ _ _ _ _ _ Vh Vm Vs) as (hd & md & sd & Dh & Dm & Ds & B). eexists; exists hd, md, sd. do 3 (split; [assumption|]). split; [exact A|exact B].
Qed.
Print Assumptions C83_hour_minute_second.
Theorem C83_hour_minute o o' h m : hour_back h -> minute_back m -> JaTnModel.tag_oov o = false ->
  exists w hd md, decimal hd (decimal_value h) /\ decimal md (decimal_value m) /\
    JaPost.ja_said o (h ++ u ":" ++ m) w /\ ja_itn_said o' w (hd ++ u "時" ++ md ++ u "分").
Proof.
  intros H M T. destruct (hour_heard h H) as (Eh & Vh). destruct (minute_heard m M) as (Em & _ & Vm).
  pose proof (proj1 (PropsJaAmount.C75_time o h m (proj1 H) (proj1 M))) as A. rewrite PropsJaNumber.marked_off, Eh, Em, <- !app_assoc in A by now left.
  destruct (C82_hour_minute o' _ _ _ _ Vh Vm) as (hd & md & Dh & Dm & B). eexists; exists hd, md. do 2 (split; [assumption|]). split; [exact A|exact B].
Qed.
Print Assumptions C83_hour_minute.
(** Concrete texts meet the hypotheses. *)
Ltac dg := apply PropsZhSpoken.digits_of; reflexivity.
Example C83_witness_date o o' : year_of (u "2024") (u "2,024") /\ month_text (u "12") /\ day_like (u "05") /\ date_sep 45 /\
  exists w, JaPost.ja_said o (u "2,024-12/05") w /\ ja_itn_said o' w (u "2024年12月5日").
Proof.
  assert (Y : year_of (u "2024") (u "2,024")) by (split; [reflexivity|]; split; [dg|]; split; [discriminate|]; right; left; exists (u "2"), (u "024"); repeat split; cbn; lia).
  assert (M : month_text (u "12")) by (split; [now right|]; split; [dg|]; vm_compute; intuition discriminate).
  assert (D : day_like (u "05")) by (split; [now right|]; split; [dg|]; vm_compute; intuition discriminate).
  do 3 (split; [assumption|]). split; [right; left; reflexivity|].
  destruct (C83_year_month_day o o' (u "2024") (u "2,024") 45 (u "12") 47 (u "05") Y M D (or_intror (or_introl eq_refl)) (or_introl eq_refl)) as (w & md & dd & Dm & Dd & A & _ & B). exists w. split; [exact A|].
  assert (D1 : decimal (u "12") 12) by (apply PropsZhAmount.some_decimal; [discriminate|reflexivity|discriminate|reflexivity]).
  assert (D2 : decimal (u "5") 5) by (apply PropsZhAmount.some_decimal; [discriminate|reflexivity|discriminate|reflexivity]).
  rewrite (dunique _ _ _ Dm D1), (dunique _ _ _ Dd D2) in B. exact B.
Qed.
Example C83_witness o' : exists o, JaTnModel.tag_oov o = false /\ hour_back (u "03") /\ minute_back (u "45") /\
  (exists w, JaPost.ja_said o (u "-1,234.50 / 3") w /\ ja_itn_said o' w (u "-1234.50/3")) /\ (exists w, JaPost.ja_said o (u "+12,345%") w /\ ja_itn_said o' w (u "+12345%")).
Proof.
  exists (JaTnModel.Options true true true true false). split; [reflexivity|].
  split; [split; [split; [now right|]; split; [dg|]; vm_compute; discriminate|split; discriminate]|]. split; [split; [split; [reflexivity|]; split; [dg|]; vm_compute; discriminate|split; discriminate]|].
  assert (D1 : decimal (u "1234") 1234) by (apply PropsZhAmount.some_decimal; [discriminate|reflexivity|discriminate|reflexivity]).
  assert (D2 : decimal (u "3") 3) by (apply PropsZhAmount.some_decimal; [discriminate|reflexivity|discriminate|reflexivity]).
  assert (D3 : decimal (u "12345") 12345) by (apply PropsZhAmount.some_decimal; [discriminate|reflexivity|discriminate|reflexivity]).
  assert (G1 : grouped (u "1234") (u "1,234")) by (right; left; exists (u "1"), (u "234"); repeat split; cbn; lia).
  assert (G3 : grouped (u "12345") (u "12,345")) by (right; left; exists (u "12"), (u "345"); repeat split; cbn; lia).
  split.
  - refine (C83_fraction (JaTnModel.Options true true true true false) o' (u "-") (u "マイナス") (u "1234") (u "3") 1234 3 (u "1,234") (u "3") (u "50") [] (u " ") (u " ") eq_refl D1 D2 eq_refl eq_refl G1 (or_introl eq_refl) ltac:(dg) ltac:(constructor) (or_intror eq_refl) (or_intror eq_refl) eq_refl _).
    apply PropsJaAmount.C73_no_date. apply Exists_exists. exists 32%N. split; [vm_compute; tauto|]. unfold digit_char, date_sep. lia.
  - exact (C83_percent (JaTnModel.Options true true true true false) o' (u "+") (u "プラス") (u "12345") 12345 (u "12,345") [] eq_refl D3 eq_refl G3 ltac:(constructor) eq_refl (or_intror eq_refl)).
Qed.
