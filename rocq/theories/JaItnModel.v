(** Transcription of the Japanese inverse normalisation grammar: /repo/itn/japanese/rules and
    /repo/itn/japanese/inverse_normalizer.py (rules/postprocessor.py is not used there).
    [x |= y] is [x = x | y].  Model only. *)
From Coq Require Import List NArith ZArith Bool String.
From Verif Require Import Text Fst GrammarModel DataJaItn.
Import ListNotations.
Local Open Scope list_scope.
Local Open Scope fst_scope.

(** The constructor's options, inverse_normalizer.py:43-56. *)
Record options := Options {
  full_to_half : bool; enable_standalone_number : bool; enable_0_to_9 : bool; enable_million : bool }.

(** ** itn/japanese/rules/preprocessor.py:23-31 *)
Definition preprocessor (o : options) : fst :=
  let p := build_rule (Cross [] []) Anywhere Anywhere in
  if full_to_half o
  then p @ build_rule (string_file ja_itn_char_fullwidth_to_halfwidth) Anywhere Anywhere
  else p.
Definition pre (o : options) (graph : fst) : fst := apply_input_processor graph (Some (preprocessor o)).
(** A rule with one field, [value]. *)
Definition value_rule (name : text) (graph : fst) : rule :=
  Rule (add_tokens name (tag_field (u "value") graph))
       (delete_tokens name (verbalize_field (u "value") (Some graph) false)).

(** ** itn/japanese/rules/cardinal.py:43-143 *)
Module Cardinal.
(** :44-50 *)
Definition zero : fst := string_file ja_itn_number_zero.
Definition digit : fst := string_file ja_itn_number_digit.
Definition hundred_digit : fst := string_file ja_itn_number_hundred_digit.
Definition sign : fst := string_file ja_itn_number_sign.
Definition dot : fst := string_file ja_itn_number_dot.
Definition ties : fst := string_file ja_itn_number_ties.
Definition graph_teen : fst := string_file ja_itn_number_teen.
(** :52-72 *)
Definition addzero : fst := insert (u "0").
Definition digits : fst := zero ∪ digit.
Definition teen : fst := graph_teen ∪ (Cross (u "十") (u "1") + (digit ∪ addzero)).
Definition tens : fst := (ties + addzero) ∪ (ties + (digit ∪ addzero)).
Definition hundred : fst :=
  (digit + delete (u "百") + (tens ∪ teen ∪ (addzero ** 1 + digits) ∪ addzero ** 2))
  ∪ (Cross (u "百") (u "1") + (tens ∪ teen ∪ (addzero + digits) ∪ addzero ** 2))
  ∪ hundred_digit.
Definition below_thousand : fst :=
  hundred ∪ (addzero + tens) ∪ (addzero + teen) ∪ (addzero ** 2 + digits) ∪ addzero ** 3.
Definition thousand : fst :=
  ((hundred ∪ teen ∪ tens ∪ digits) + delete (u "千") + below_thousand)
  ∪ (Cross (u "千") (u "1") + below_thousand).
(** :75-91 *)
Definition below_man : fst :=
  thousand ∪ (addzero + hundred) ∪ (addzero ** 2 + tens) ∪ (addzero ** 2 + teen) ∪ (addzero ** 3 + digits)
  ∪ addzero ** 4.
Definition ten_thousand (million : bool) : fst :=
  if million then (thousand ∪ hundred ∪ teen ∪ tens ∪ digits) + delete (u "万") + below_man
  else ((teen ∪ tens ∪ digits) + delete (u "万") + below_man)
       ∪ ((thousand ∪ hundred) + accep (u "万") + ques (thousand ∪ hundred ∪ tens ∪ teen ∪ digits)).
(** :93-109 *)
Definition ten_thousand_minus : fst := digits ∪ teen ∪ tens ∪ hundred ∪ thousand.
Definition positive_integer (m : bool) : fst := ten_thousand_minus ∪ ten_thousand m.
Definition number (m : bool) : fst := ques sign + positive_integer m.
Definition number_exclude_0_to_9 (m : bool) : fst := teen ∪ tens ∪ hundred ∪ thousand ∪ ten_thousand m.
Definition decimal (m : bool) : fst := ques sign + positive_integer m + dot + plus digits.
Definition percent (m : bool) : fst := (number m ∪ decimal m) + Cross (u "パーセント") (u "%").
(** :111-116 *)
Definition man_part : fst :=
  ques (ten_thousand_minus + ques (accep (u "万") + ques ten_thousand_minus)).
Definition big_integer0 : fst :=
  ques sign + ((ques (ten_thousand_minus + accep (u "兆")) + ten_thousand_minus + accep (u "億") + man_part)
               ∪ (ten_thousand_minus + accep (u "兆") + ques (ten_thousand_minus + accep (u "億")) + man_part)).
Definition big_integer (m : bool) : fst := number m ∪ big_integer0.
(** :118-139 *)
Definition formats (m : bool) : fst :=
  plus digit + plus (dot + plus digits) ∪ decimal m ∪ digits ** 2 + plus digits ∪ percent m.
Definition number_two_plus (m : bool) : fst :=
  ques sign + ((digits + plus digits) ∪ teen ∪ tens ∪ hundred ∪ thousand ∪ ten_thousand m ∪ big_integer0).
Definition graph (o : options) : fst :=
  let m := enable_million o in
  if enable_standalone_number o then
    if enable_0_to_9 o then formats m ∪ (number m ∪ big_integer0) else formats m ∪ number_two_plus m
  else formats m.
Definition cardinal (o : options) : fst := pre o (graph o).
(** :140-143 *)
Definition name : text := u "cardinal".
Definition rule (o : options) : rule := value_rule name (cardinal o).
End Cardinal.

(** ** itn/japanese/rules/char.py:26-31 *)
Module Char.
Definition graph (o : options) : fst := pre o VCHAR.
Definition name : text := u "char".
Definition rule (o : options) : rule := value_rule name (graph o).
End Char.

(** ** itn/japanese/rules/date.py:32-68 *)
Module Date.
Definition cardinal : fst := Cardinal.ten_thousand_minus.
Definition day0 : fst := string_file ja_itn_date_day.
Definition month0 : fst := string_file ja_itn_date_month.
Definition to : fst := Cross (u "から") (u "〜").
Definition g_year (o : options) : fst := pre o (cardinal + ques (to + cardinal) + delete (u "年")).
Definition g_month (o : options) : fst := pre o (month0 + ques (to + month0) + delete (u "月")).
Definition g_day (o : options) : fst := pre o (day0 + ques (to + day0) + delete (u "日")).
Definition year (o : options) : fst := tag_field (u "year") (g_year o).
Definition month (o : options) : fst := tag_field (u "month") (g_month o).
Definition day (o : options) : fst := tag_field (u "day") (g_day o).
Definition graph_date (o : options) : fst :=
  (year o + insert (u " ") + month o) ∪ (month o + insert (u " ") + day o)
  ∪ (year o + insert (u " ") + month o + insert (u " ") + day o).
Definition context : fst :=
  accep (u "今年は") ∪ accep (u "来年は") ∪ accep (u "再来年は") ∪ accep (u "去年は") ∪ accep (u "一昨年は")
  ∪ accep (u "おととしは").
Definition era : fst :=
  Cross (u "R") (u "令和") ∪ Cross (u "H") (u "平成") ∪ Cross (u "S") (u "昭和") ∪ Cross (u "T") (u "大正")
  ∪ Cross (u "M") (u "明治").
Definition g_era_year (o : options) : fst := pre o (context + era + cardinal).
Definition date (o : options) : fst := graph_date o ∪ tag_field (u "year") (g_era_year o).
Definition name : text := u "date".
Definition v_year (o : options) : fst := verbalize_field (u "year") (Some (g_year o)) false + insert (u "年").
Definition v_era_year (o : options) : fst := verbalize_field (u "year") (Some (g_era_year o)) false.
Definition v_month (o : options) : fst := verbalize_field (u "month") (Some (g_month o)) false + insert (u "月").
Definition v_day (o : options) : fst := verbalize_field (u "day") (Some (g_day o)) false + insert (u "日").
Definition verbalizer (o : options) : fst :=
  (v_year o + delete (u " ") + v_month o) ∪ (v_month o + delete (u " ") + v_day o)
  ∪ (v_year o + delete (u " ") + v_month o + delete (u " ") + v_day o)
  ∪ v_era_year o.
Definition rule (o : options) : rule := Rule (add_tokens name (date o)) (delete_tokens name (verbalizer o)).
End Date.

(** ** itn/japanese/rules/fraction.py:32-66, with Cardinal(enable_million=True) (inverse_normalizer.py:77, 80) *)
Module Fraction.
Definition cardinal : fst := Cardinal.number true.
Definition decimal : fst := Cardinal.decimal true.
Definition g_sign (o : options) : fst := pre o (string_file ja_itn_number_sign).
Definition fraction_word : fst :=
  delete (u "分の") ∪ delete (u " 分 の　") ∪ delete (u "分 の　") ∪ delete (u "分 の").
Definition root_word : fst := accep (u "√") ∪ Cross (u "ルート") (u "√").
Definition part : fst := decimal ∪ (cardinal + root_word + cardinal) ∪ (root_word + cardinal) ∪ cardinal.
Definition g_denominator (o : options) : fst := pre o (part + ques (delete (u " ")) + fraction_word).
Definition g_numerator (o : options) : fst := pre o (Star (delete (u " ")) + part).
Definition fraction (o : options) : fst :=
  ques (tag_field (u "sign") (g_sign o) + insert (u " ")) + tag_field (u "denominator") (g_denominator o)
  + insert (u " ") + tag_field (u "numerator") (g_numerator o).
Definition name : text := u "fraction".
Definition verbalizer (o : options) : fst :=
  ques (verbalize_field (u "sign") (Some (g_sign o)) false + delete (u " "))
  + verbalize_field (u "numerator") (Some (g_numerator o)) false + delete (u " ") + insert (u "/")
  + verbalize_field (u "denominator") (Some (g_denominator o)) false.
Definition rule (o : options) : rule := Rule (add_tokens name (fraction o)) (delete_tokens name (verbalizer o)).
End Fraction.

(** ** itn/japanese/rules/math.py:30-40 *)
Module Math.
Definition operator : fst := string_file ja_itn_math_operator.
Definition number (o : options) : fst :=
  Cardinal.big_integer (enable_million o) ∪ Cardinal.decimal (enable_million o).
Definition graph (o : options) : fst := pre o (number o + plus (operator + number o)).
Definition name : text := u "math".
Definition rule (o : options) : rule := value_rule name (graph o).
End Math.

(** ** itn/japanese/rules/measure.py:33-49 *)
Module Measure.
Definition unit_en : fst := string_file ja_itn_measure_unit_en.
Definition unit_ja : fst := string_file ja_itn_measure_unit_ja.
Definition cardinal (o : options) : fst :=
  if enable_0_to_9 o then Cardinal.number (enable_million o) else Cardinal.number_exclude_0_to_9 (enable_million o).
Definition decimal (o : options) : fst := Cardinal.decimal (enable_million o).
Definition suffix : fst :=
  insert (u "/") + (delete (u "每") ∪ delete (u "毎"))
  + (unit_en ∪ Cross (u "時") (u "h") ∪ Cross (u "分") (u "min") ∪ Cross (u "秒") (u "s")).
Definition measure (o : options) : fst :=
  ((cardinal o ∪ decimal o) + unit_en + ques suffix) ∪ ((cardinal o ∪ decimal o) + Weight 10 unit_ja).
Definition graph (o : options) : fst := pre o (measure o).
Definition name : text := u "measure".
Definition rule (o : options) : rule := value_rule name (graph o).
End Measure.

(** ** itn/japanese/rules/money.py:33-48 *)
Module Money.
Definition symbol : fst := string_file ja_itn_money_symbol.
Definition g_value (o : options) : fst := pre o (Measure.cardinal o ∪ Cardinal.decimal (enable_million o)).
Definition g_currency (o : options) : fst := pre o symbol.
Definition name : text := u "money".
Definition rule (o : options) : rule :=
  Rule (add_tokens name (tag_field (u "value") (g_value o) + insert (u " ") + tag_field (u "currency") (g_currency o)))
       (delete_tokens name (verbalize_field (u "currency") (Some (g_currency o)) false
                            + verbalize_field (u "value") (Some (g_value o)) true)).
End Money.

(** ** itn/japanese/rules/ordinal.py:29-36 *)
Module Ordinal.
Definition graph (o : options) : fst :=
  let cardinal := Cardinal.number (enable_million o) in
  pre o ((cardinal + accep (u "番目")) ∪ (accep (u "第") + cardinal)).
Definition name : text := u "ordinal".
Definition rule (o : options) : rule := value_rule name (graph o).
End Ordinal.

(** ** itn/japanese/rules/time.py:30-52 *)
Module Time.
Definition g_hour (o : options) : fst := pre o (string_file ja_itn_time_hour).
Definition g_minute (o : options) : fst := pre o (string_file ja_itn_time_minute).
Definition g_second (o : options) : fst := pre o (string_file ja_itn_time_second).
Definition time (o : options) : fst :=
  (ques (tag_field (u "hour") (g_hour o) + insert (u " ")) + tag_field (u "minute") (g_minute o)
   + ques (insert (u " ") + tag_field (u "second") (g_second o)))
  ∪ (tag_field (u "hour") (g_hour o) + insert (u " "))
  ∪ (insert (u " ") + tag_field (u "second") (g_second o)).
Definition v_hour (o : options) : fst :=
  verbalize_field (u "hour") (Some (g_hour o)) false + ques (delete (u " ")) + insert (u "時").
Definition v_minute (o : options) : fst := verbalize_field (u "minute") (Some (g_minute o)) false + insert (u "分").
Definition v_second (o : options) : fst :=
  ques (delete (u " ")) + verbalize_field (u "second") (Some (g_second o)) false + insert (u "秒").
Definition verbalizer (o : options) : fst :=
  (ques (v_hour o) + v_minute o + ques (v_second o)) ∪ v_second o ∪ v_hour o.
Definition name : text := u "time".
Definition rule (o : options) : rule := Rule (add_tokens name (time o)) (delete_tokens name (verbalizer o)).
End Time.

(** ** itn/japanese/rules/whitelist.py:28-35 *)
Module Whitelist.
Definition graph (o : options) : fst := pre o (string_file ja_itn_default_whitelist).
Definition name : text := u "whitelist".
Definition rule (o : options) : rule := value_rule name (graph o).
End Whitelist.

(** ** itn/japanese/inverse_normalizer.py:69-111 *)
Definition rules (o : options) : list rule_spec :=
  [ RuleSpec (Cardinal.rule o) (Some 10600%Z) true;
    RuleSpec (Char.rule o) (Some 1000000%Z) true;
    RuleSpec (Date.rule o) (Some 10200%Z) true;
    RuleSpec (Fraction.rule o) (Some 10500%Z) true;
    RuleSpec (Math.rule o) (Some 900000%Z) true;
    RuleSpec (Measure.rule o) (Some 10500%Z) true;
    RuleSpec (Money.rule o) (Some 10400%Z) true;
    RuleSpec (Ordinal.rule o) (Some 10400%Z) true;
    RuleSpec (Time.rule o) (Some 10400%Z) true;
    RuleSpec (Whitelist.rule o) (Some 10100%Z) true ].
Definition tagger (o : options) : option fst :=
  match tagger_union (rules o) with Some t => Some (trim_end t) | None => None end.
Definition verbalizer (o : options) : option fst :=
  match verbalizer_union (rules o) with Some v => Some (Star v) | None => None end.
