(** Transcription of the Chinese inverse normalisation grammar: /repo/itn/chinese/rules and
    /repo/itn/chinese/inverse_normalizer.py.  [x |= y] is [x = x | y].  Model only. *)
From Coq Require Import List NArith ZArith Bool String.
From Verif Require Import Text Fst GrammarModel DataZhItn.
Import ListNotations.
Local Open Scope list_scope.
Local Open Scope fst_scope.

(** The constructor's options, inverse_normalizer.py:44-57. *)
Record options := Options {
  remove_interjections : bool; enable_standalone_number : bool; enable_0_to_9 : bool; enable_million : bool }.

(** ** itn/chinese/rules/cardinal.py:34-151 *)
Module Cardinal.
(** :35-42 *)
Definition zero : fst := string_file zh_itn_number_zero.
Definition digit : fst := string_file zh_itn_number_digit.
Definition wan_yi : fst := ques (Weight (-1000) (accep (u "万") ∪ accep (u "亿"))).
Definition special_tilde : fst := string_file zh_itn_number_special_tilde + wan_yi.
Definition special_dash0 : fst := string_file zh_itn_number_special_dash + wan_yi.
Definition sign : fst := string_file zh_itn_number_sign.
Definition dot : fst := string_file zh_itn_number_dot.
(** :45-55 *)
Definition addzero : fst := insert (u "0").
Definition digits : fst := zero ∪ digit.
Definition teen : fst := Cross (u "十") (u "1") + (digit ∪ Weight 1000 addzero).
Definition tens : fst := digit + delete (u "十") + (digit ∪ Weight 1000 addzero).
Definition hundred : fst :=
  digit + delete (u "百") + (tens ∪ teen ∪ Weight 1000 (zero + digit) ∪ Weight 5000 (digit + addzero)
                             ∪ Weight 10000 (addzero ** 2)).
(** :57-63 *)
Definition thousand : fst :=
  digit + delete (u "千") + (hundred ∪ Weight 1000 (zero + (tens ∪ teen)) ∪ Weight 5000 (addzero + zero + digit)
                             ∪ Weight 8000 (digit + addzero ** 2) ∪ Weight 10000 (addzero ** 3)).
(** :65-81 *)
Definition below_wan : fst :=
  thousand ∪ Weight 1000 (zero + hundred) ∪ Weight 5000 (addzero + zero + (tens ∪ teen))
  ∪ Weight 5000 (addzero + addzero + zero + digit) ∪ Weight 8000 (digit + addzero ** 3) ∪ Weight 10000 (addzero ** 4).
Definition ten_thousand (million : bool) : fst :=
  if million then (thousand ∪ hundred ∪ teen ∪ tens ∪ digit) + delete (u "万") + below_wan
  else ((teen ∪ tens ∪ digit) + delete (u "万") + below_wan)
       ∪ ((thousand ∪ hundred) + accep (u "万") + ques (delete (u "零"))
          + ques (thousand ∪ hundred ∪ tens ∪ teen ∪ digits)).
(** :83-97 *)
Definition number0 (m : bool) : fst := digits ∪ teen ∪ tens ∪ hundred ∪ thousand ∪ ten_thousand m.
Definition group (n : fst) (unit : text) : fst := ques (n + accep unit + ques (delete (u "零"))).
Definition number1 (m : bool) : fst := group (number0 m) (u "兆") + group (number0 m) (u "亿") + number0 m.
Definition number2 (m : bool) : fst := ques sign + number1 m + ques (dot + plus digits).
Definition special_dash : fst :=
  Cross (u "十") (u "1") + special_dash0
  ∪ digit + delete (u "十") + special_dash0
  ∪ digit + delete (u "百") + special_dash0
  ∪ digit + delete (u "万") + digit + insert (u "000-") + digit + insert (u "000").
Definition number (m : bool) : fst := number2 m ∪ special_tilde ∪ special_dash.
(** :103-118 *)
Definition exclude0 (m : bool) : fst := teen ∪ tens ∪ hundred ∪ thousand ∪ ten_thousand m.
Definition exclude1 (m : bool) : fst :=
  group (exclude0 m ∪ digits) (u "兆") + group (exclude0 m ∪ digits) (u "亿") + exclude0 m.
Definition exclude2 (m : bool) : fst := exclude1 m ∪ (exclude1 m ∪ digits) + plus (dot + plus digits).
Definition number_exclude_0_to_9 (m : bool) : fst :=
  ques sign + (exclude2 m ∪ special_tilde ∪ Weight (-1000) special_dash).
(** :120-146; :123's digit_token is not used *)
Definition repeat_digit : fst := string_file zh_itn_number_repeat_digit.
Definition idcard_last_char : fst := digits ∪ accep (u "X") ∪ accep (u "x").
Definition formats (m : bool) : fst :=
  plus digits + plus (dot + plus digits)
  ∪ number m + dot + plus digits
  ∪ (digits ** 3 ∪ digits ** 4 ∪ digits ** 5 ∪ digits ** 11 ∪ (digits ** 17 + idcard_last_char) ∪ digits ** 18)
  ∪ plus digits + repeat_digit + Star digits.
Definition one (o : options) : fst :=
  let m := enable_million o in
  if enable_standalone_number o then
    if enable_0_to_9 o then formats m ∪ Weight 1000 (number m)
    else formats m ∪ Weight 1000 (number_exclude_0_to_9 m)
  else formats m.
Definition cardinal (o : options) : fst := one o ∪ Weight 1000 (one o + plus (insert (u " ") + one o)).
(** :147-151 *)
Definition name : text := u "cardinal".
Definition rule (o : options) : rule :=
  Rule (add_tokens name (tag_field (u "value") (cardinal o)))
       (delete_tokens name (verbalize_field (u "value") (Some (cardinal o)) false)).
End Cardinal.

(** ** itn/chinese/rules/char.py:22-29 *)
Module Char.
Definition name : text := u "char".
Definition rule : rule :=
  Rule (add_tokens name (insert (u "value: """) + CHAR + insert (u """"))) (build_verbalizer name).
End Char.

(** ** itn/chinese/rules/date.py:29-63 *)
Module Date.
Definition digit : fst := string_file zh_itn_number_digit.
Definition zero : fst := string_file zh_itn_number_zero.
Definition yyyy : fst := digit + (digit ∪ zero) ** 3.
Definition yyy : fst := digit + (digit ∪ zero) ** 2.
Definition yy : fst := (digit ∪ zero) ** 2.
Definition g_year : fst := (yyyy ∪ yyy ∪ yy) + delete (u "年").
Definition g_year_only : fst := (yyyy ∪ yyy ∪ yy) + accep (u "年").
Definition g_month : fst := string_file zh_itn_date_mm.
Definition g_day : fst := string_file zh_itn_date_dd.
Definition year : fst := tag_field (u "year") g_year + insert (u " ").
Definition year_only : fst := tag_field (u "year") g_year_only + insert (u " preserve_order: ""true""").
Definition month : fst := tag_field (u "month") g_month.
Definition day : fst := insert (u " ") + tag_field (u "day") g_day.
Definition date : fst := ((year + month + day) ∪ (year + month) ∪ (month + day)) ∪ year_only.
Definition name : text := u "date".
Definition verbalizer : fst :=
  ques (verbalize_field (u "year") (Some g_year) false + delete (u " ") + insert (u "/"))
  + verbalize_field (u "month") (Some g_month) false
  + ques (insert (u "/") + verbalize_field (u "day") (Some g_day) true)
  ∪ (verbalize_field (u "year") (Some g_year_only) false + delete (u " preserve_order: ""true""")).
Definition rule : rule := Rule (add_tokens name date) (delete_tokens name verbalizer).
End Date.

(** ** itn/chinese/rules/fraction.py:31-57 *)
Module Fraction.
Definition sign : fst := string_file zh_itn_number_sign.
Definition g_sign : fst := ques sign.
Definition g_denominator (o : options) : fst := Cardinal.number (enable_million o) + delete (u "分之").
Definition g_numerator (o : options) : fst := Cardinal.number (enable_million o).
Definition parts (o : options) (sign : fst) : fst :=
  tag_field (u "sign") sign + insert (u " ") + tag_field (u "denominator") (g_denominator o) + insert (u " ")
  + tag_field (u "numerator") (g_numerator o).
Definition name : text := u "fraction".
Definition rule (o : options) : rule :=
  Rule (add_tokens name (Weight (-10000) (parts o sign) ∪ parts o g_sign))
       (delete_tokens name (verbalize_field (u "sign") (Some g_sign) false
                            + verbalize_field (u "numerator") (Some (g_numerator o)) true + insert (u "/")
                            + verbalize_field (u "denominator") (Some (g_denominator o)) true)).
End Fraction.

(** A rule with one field, [value]: whitelist.py:27-34, license_plate.py:35-38,
    math.py:34-37, train_number.py:34-37. *)
Definition value_rule (name : text) (graph : fst) : rule :=
  Rule (add_tokens name (tag_field (u "value") graph))
       (delete_tokens name (verbalize_field (u "value") (Some graph) false)).

(** ** itn/chinese/rules/license_plate.py:27-38 *)
Module LicensePlate.
Definition digits : fst := string_file zh_itn_number_zero ∪ string_file zh_itn_number_digit.
Definition province : fst := string_file zh_itn_license_plate_province.
Definition graph : fst :=
  (province + ALPHA + (ALPHA ∪ digits) ** 5) ∪ (province + ALPHA + (ALPHA ∪ digits) ** 6).
Definition name : text := u "licenseplate".
Definition rule : rule := value_rule name graph.
End LicensePlate.

(** ** itn/chinese/rules/math.py:29-37 *)
Module Math.
Definition operator : fst := string_file zh_itn_math_operator.
Definition graph (o : options) : fst :=
  let number := Cardinal.number (enable_million o) in number + plus (operator + number).
Definition name : text := u "math".
Definition rule (o : options) : rule := value_rule name (graph o).
End Math.

(** ** itn/chinese/rules/measure.py:33-101 *)
Module Measure.
(** :34-44 *)
Definition units_en : fst := string_file zh_itn_measure_units_en ∪ Weight (-10) (Cross (u "度") (u "°")).
Definition units_zh : fst := string_file zh_itn_measure_units_zh.
Definition sign : fst := string_file zh_itn_number_sign.
Definition digit : fst := string_file zh_itn_number_digit.
Definition digit_zh : fst := string_file zh_itn_number_digit_zh.
Definition addzero : fst := insert (u "0").
Definition to : fst := Cross (u "到") (u "~") ∪ Cross (u "到百分之") (u "~").
Definition units : fst :=
  (ques (Weight (-5000) (accep (u "亿") ∪ accep (u "兆") ∪ accep (u "万"))) + units_zh)
  ∪ (ques (Weight (-5000) (Cross (u "亿") (u "00M") ∪ Cross (u "兆") (u "T") ∪ Cross (u "万") (u "W")))
     + Weight (-10000) units_en).
(** :46-53 *)
Definition any_number (o : options) : fst := Cardinal.number (enable_million o).
Definition number (o : options) : fst :=
  if enable_0_to_9 o then any_number o else Cardinal.number_exclude_0_to_9 (enable_million o).
Definition percent (o : options) : fst :=
  ques (sign + ques (delete (u "的"))) + delete (u "百分") + ques (delete (u "之"))
  + ((any_number o + ques (to + any_number o)) ∪ (ques (any_number o + to) + Cross (u "百") (u "100")))
  + insert (u "%").
Definition measure (o : options) : fst := number o + ques (to + number o) + units.
(** :57-81 *)
Definition unit_sp_case1 : fst :=
  accep (u "年") ∪ accep (u "月") ∪ accep (u "个月") ∪ accep (u "周") ∪ accep (u "天") ∪ accep (u "位")
  ∪ accep (u "次") ∪ accep (u "个") ∪ accep (u "顿").
Definition round : fst :=
  (digit + delete (u "百") + Weight 10000 (addzero ** 2))
  ∪ (digit + delete (u "千") + Weight 10000 (addzero ** 3))
  ∪ (digit + delete (u "万") + Weight 10000 (addzero ** 4)).
Definition measure_sp (o : options) : fst :=
  if enable_0_to_9 o then Weight (-5000) (round + insert (u " ") + digit + unit_sp_case1)
  else Weight (-5000) (round + digit_zh + unit_sp_case1).
(** :84-93 *)
Definition money_colloquial (o : options) : fst :=
  any_number o + accep (u "块") + digit + ques (accep (u "毛") ∪ delete (u "角")).
Definition g_value (o : options) : fst := measure o ∪ measure_sp o ∪ percent o ∪ money_colloquial o.
Definition g_denominator : fst := delete (u "每") + units.
Definition g_numerator (o : options) : fst := measure o.
Definition tagger (o : options) : fst :=
  tag_field (u "value") (g_value o)
  ∪ (tag_field (u "denominator") g_denominator + insert (u " ") + tag_field (u "numerator") (g_numerator o)).
(** :95-101 *)
Definition name : text := u "measure".
Definition rule (o : options) : rule :=
  Rule (add_tokens name (tagger o))
       (delete_tokens name (verbalize_field (u "value") (Some (g_value o)) false)
        ∪ delete_tokens name (verbalize_field (u "numerator") (Some (g_numerator o)) false + insert (u "/")
                              + verbalize_field (u "denominator") (Some g_denominator) true)).
End Measure.

(** ** itn/chinese/rules/money.py:32-53 *)
Module Money.
Definition code : fst := string_file zh_itn_money_code.
Definition symbol : fst := string_file zh_itn_money_symbol.
Definition digit : fst := string_file zh_itn_number_digit.
Definition g_value (o : options) : fst := Measure.number o ∪ (digit + insert (u "~") + digit).
Definition g_currency : fst := symbol ∪ Weight 10000 code.
Definition g_decimal : fst :=
  ques (insert (u ".") + digit + (delete (u "毛") ∪ delete (u "角")) + ques (digit + delete (u "分"))).
Definition name : text := u "money".
Definition rule (o : options) : rule :=
  Rule (add_tokens name (tag_field (u "value") (g_value o) + insert (u " ") + tag_field (u "currency") g_currency
                         + insert (u " ") + tag_field (u "decimal") g_decimal))
       (delete_tokens name (verbalize_field (u "currency") (Some g_currency) false
                            + verbalize_field (u "value") (Some (g_value o)) true
                            + verbalize_field (u "decimal") (Some g_decimal) true)).
End Money.

(** ** itn/chinese/rules/time.py:29-59 *)
Module Time.
Definition g_hour : fst := string_file zh_itn_time_hour.
Definition m : fst := string_file zh_itn_time_minute.
Definition m_zero : fst := string_file zh_itn_time_minute_zero.
Definition g_second : fst := string_file zh_itn_time_second.
Definition g_noon : fst := string_file zh_itn_time_noon.
Definition minute_tagger : fst := (m + ques (delete (u "分"))) ∪ (m_zero + delete (u "分")).
Definition g_minute : fst := minute_tagger ∪ m_zero.
Definition hour : fst := tag_field (u "hour") g_hour.
Definition minute : fst := insert (u " ") + tag_field (u "minute") minute_tagger.
Definition minute_zero_no_fen : fst := insert (u " ") + tag_field (u "minute") m_zero.
Definition second : fst := ques (insert (u " ") + tag_field (u "second") g_second).
Definition noon : fst := tag_field (u "noon") g_noon + insert (u " ").
Definition time : fst :=
  (ques noon + hour + minute + second) ∪ (noon + hour + minute_zero_no_fen + second).
Definition name : text := u "time".
Definition rule : rule :=
  Rule (add_tokens name time)
       (delete_tokens name (verbalize_field (u "hour") (Some g_hour) false + insert (u ":")
                            + verbalize_field (u "minute") (Some g_minute) true
                            + ques (insert (u ":") + verbalize_field (u "second") (Some g_second) true)
                            + ques (verbalize_field (u "noon") (Some g_noon) true))).
End Time.

(** ** itn/chinese/rules/train_number.py:27-37 *)
Module TrainNumber.
Definition digits : fst := string_file zh_itn_number_zero ∪ string_file zh_itn_number_digit.
Definition prefix : fst := string_file zh_itn_train_number_prefix.
Definition number : fst := digits + digits + ques (digits + ques digits).
Definition graph : fst := prefix + number.
Definition name : text := u "trainnumber".
Definition rule : rule := value_rule name graph.
End TrainNumber.

(** ** itn/chinese/rules/whitelist.py:27-34 *)
Module Whitelist.
Definition graph : fst := string_file zh_itn_default_whitelist.
Definition name : text := u "whitelist".
Definition rule : rule := value_rule name graph.
End Whitelist.

(** ** itn/chinese/rules/postprocessor.py:25-32 *)
Definition postprocessor (o : options) : fst :=
  if remove_interjections o
  then VSIGMA @ build_rule (Erase (string_file zh_itn_default_blacklist)) Anywhere Anywhere
  else VSIGMA.

(** ** itn/chinese/inverse_normalizer.py:70-104 *)
Definition rules (o : options) : list rule_spec :=
  [ RuleSpec Date.rule (Some 10200%Z) true;
    RuleSpec Whitelist.rule (Some 10100%Z) true;
    RuleSpec (Fraction.rule o) (Some 10500%Z) true;
    RuleSpec (Measure.rule o) (Some 10500%Z) true;
    RuleSpec (Money.rule o) (Some 10400%Z) true;
    RuleSpec Time.rule (Some 10500%Z) true;
    RuleSpec (Cardinal.rule o) (Some 10600%Z) true;
    RuleSpec (Math.rule o) (Some 11000%Z) true;
    RuleSpec LicensePlate.rule (Some 10000%Z) true;
    RuleSpec TrainNumber.rule (Some 10000%Z) true;
    RuleSpec Char.rule (Some 1000000%Z) true ].
Definition tagger (o : options) : option fst :=
  match tagger_union (rules o) with Some t => Some (trim_end t) | None => None end.
Definition verbalizer (o : options) : option fst :=
  match verbalizer_union (rules o) with Some v => Some (Star (v @ postprocessor o)) | None => None end.
