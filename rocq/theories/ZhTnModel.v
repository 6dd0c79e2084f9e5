(** Transcription of the Chinese text normalisation grammar: /repo/tn/chinese/rules and
    /repo/tn/chinese/normalizer.py.  Model only. *)
From Coq Require Import List NArith ZArith Bool String.
From Verif Require Import Text Fst GrammarModel DataZhTn.
Import ListNotations.
Local Open Scope list_scope.
Local Open Scope fst_scope.

(** ** tn/chinese/rules/cardinal.py:32-94; the data files, :33-37 *)
Module Cardinal.
Definition zero : fst := string_file zh_tn_number_zero.
Definition digit : fst := string_file zh_tn_number_digit.
Definition teen : fst := string_file zh_tn_number_teen.
Definition sign : fst := string_file zh_tn_number_sign.
Definition dot : fst := string_file zh_tn_number_dot.
(** :39-41 *)
Definition rmzero : fst := delete (u "0") ∪ delete (u "０").
Definition digits : fst := zero ∪ digit.
(** :43-50 *)
Definition ten : fst := teen + insert (u "十") + (digit ∪ rmzero).
Definition tens : fst := digit + insert (u "十") + (digit ∪ rmzero).
Definition hundred : fst := digit + insert (u "百") + (tens ∪ (zero + digit) ∪ rmzero ** 2).
Definition thousand : fst :=
  digit + insert (u "千") + (hundred ∪ (zero + tens) ∪ (rmzero + zero + digit) ∪ rmzero ** 3).
(** :52-55 *)
Definition four_nonzero : fst :=
  thousand ∪ (zero + hundred) ∪ (rmzero + zero + tens) ∪ (rmzero ** 2 + zero + digit).
Definition four_any : fst := four_nonzero ∪ rmzero ** 4.
(** :57-58 *)
Definition ten_thousand : fst := (thousand ∪ hundred ∪ ten ∪ digit) + insert (u "万") + four_any.
(** :60-66 *)
Definition hundred_million : fst :=
  (thousand ∪ hundred ∪ ten ∪ digit) + insert (u "亿") +
  (four_nonzero + insert (u "万") + four_any
   ∪ rmzero ** 4 + ((zero + hundred) ∪ (rmzero + zero + tens) ∪ (rmzero ** 2 + zero + digit)
                    ∪ (insert (u "零") + thousand))
   ∪ rmzero ** 8).
(** :68-71 *)
Definition integer : fst := digits ∪ ten ∪ hundred ∪ thousand ∪ ten_thousand ∪ hundred_million.
Definition liang : fst :=
  build_rule (Cross (u "二百") (u "两百") ∪ Cross (u "二千") (u "两千")
              ∪ Cross (u "二万") (u "两万") ∪ Cross (u "二亿") (u "两亿")) Edge Anywhere.
Definition plain_number : fst := (ques sign + integer + ques (dot + plus digits)) @ liang.
(** :72-73 *)
Definition percent : fst := insert (u "百分之") + plain_number + delete (u "%").
Definition number : fst := ques (accep (u "约")) + ques (accep (u "人均")) + (plain_number ∪ percent).
(** :75-89 *)
Definition phone_digits : fst := digits @ build_rule (Cross (u "一") (u "幺")) Anywhere Anywhere.
Definition phone : fst :=
  string_file zh_tn_cardinal_phone
  ∪ phone_digits ** 11
  ∪ accep (u "尾号") + ques (accep (u "是") ∪ accep (u "为")) + phone_digits ** 4.
Definition cardinal : fst :=
  plus digits + (dot + plus digits) ** 3
  ∪ percent
  ∪ plus digits + (delete (u "-") + plus digits) ** 2
  ∪ digits ** 3 + delete (u "-") + digits ** 8
  ∪ Weight (-10000) phone.
(** :90, 92-94 *)
Definition name : text := u "cardinal".
Definition rule : rule :=
  Rule (add_tokens name (tag_field (u "value") cardinal))
       (delete_tokens name (delete (u "value: """) + cardinal + delete (u """"))).
End Cardinal.

(** ** tn/chinese/rules/char.py:22-29 *)
Module Char.
Definition name : text := u "char".
Definition rule : rule :=
  Rule (add_tokens name (insert (u "value: """) + CHAR + insert (u """"))) (build_verbalizer name).
End Char.

(** ** tn/chinese/rules/range.py:24-29 *)
Module Range.
Definition name : text := u "range".
Definition range : fst := Cross (u "-") (u "到") ∪ Cross (u "~") (u "到").
Definition rule : rule :=
  Rule (add_tokens name (tag_field (u "value") range))
       (delete_tokens name (delete (u "value: """) + range + delete (u """"))).
End Range.

(** ** tn/chinese/rules/date.py:34-72, with a range tagger *)
Module Date.
Definition digit : fst := string_file zh_tn_number_digit.
Definition zero : fst := string_file zh_tn_number_zero.
Definition yyyy : fst := digit + (digit ∪ zero) ** 3.
Definition m : fst := string_file zh_tn_date_m.
Definition mm : fst := string_file zh_tn_date_mm.
Definition d : fst := string_file zh_tn_date_d.
Definition dd : fst := string_file zh_tn_date_dd.
Definition rmsign : fst := (delete (u "/") ∪ delete (u "-") ∪ delete (u ".")) + insert (u " ").
Definition g_year : fst := yyyy + insert (u "年").
Definition g_month : fst := m ∪ mm.
Definition g_day : fst := d ∪ dd.
Definition year : fst := tag_field (u "year") g_year.
Definition month : fst := tag_field (u "month") g_month.
Definition month_two_digit : fst := tag_field (u "month") mm.
Definition day : fst := tag_field (u "day") g_day.
Definition date : fst :=
  (year + rmsign + month + rmsign + day)
  ∪ (day + rmsign + month + rmsign + year)
  ∪ (year + rmsign + month_two_digit)
  ∪ (month_two_digit + rmsign + year)
  ∪ (month_two_digit + rmsign + day).
Definition name : text := u "date".
Definition tagger (range_tagger : fst) : fst :=
  add_tokens name date + ques (range_tagger + add_tokens name date).
Definition verbalizer : fst :=
  ques (delete (u "year: """) + g_year + delete (u """ "))
  + (delete (u "month: """) + g_month + delete (u """"))
  + ques (delete (u " day: """) + g_day + delete (u """")).
Definition rule (range_tagger : fst) : rule := Rule (tagger range_tagger) (delete_tokens name verbalizer).
End Date.

(** ** tn/chinese/rules/time.py:34-62, with a range tagger *)
Module Time.
Definition hour : fst := string_file zh_tn_time_hour.
Definition minute : fst := string_file zh_tn_time_minute.
Definition second : fst := string_file zh_tn_time_second.
Definition noon : fst := string_file zh_tn_time_noon.
Definition colon : fst := delete (u ":") ∪ delete (u "：").
Definition time : fst :=
  tag_field (u "hour") hour + insert (u " ") + colon + tag_field (u "minute") minute +
  ques (colon + insert (u " ") + tag_field (u "second") second) + ques (delete (u " ")) +
  ques (insert (u " ") + tag_field (u "noon") noon).
Definition name : text := u "time".
Definition tagger (range_tagger : fst) : fst :=
  add_tokens name time + ques (range_tagger + add_tokens name time).
Definition verbalizer : fst :=
  ques (delete (u "noon: """) + noon + delete (u """ "))
  + (delete (u "hour: """) + hour + delete (u """ "))
  + (delete (u "minute: """) + minute + delete (u """"))
  + ques (delete (u " second: """) + second + delete (u """")).
Definition rule (range_tagger : fst) : rule := Rule (tagger range_tagger) (delete_tokens name verbalizer).
End Time.

(** ** tn/chinese/rules/whitelist.py:31-46 *)
Module Whitelist.
Definition whitelist : fst := string_file zh_tn_default_whitelist ∪ string_file zh_tn_erhua_whitelist.
Definition erhua : fst := Weight 1000 (insert (u "erhua: """) + accep (u "儿") + insert (u """")).
Definition name : text := u "whitelist".
Definition rule (remove_erhua : bool) : rule :=
  Rule (add_tokens name (erhua ∪ tag_field (u "value") whitelist))
       (delete_tokens name (delete (u "value: """) + whitelist + delete (u """"))
        ∪ (if remove_erhua then delete_tokens name (delete (u "erhua: ""儿"""))
           else delete_tokens name (delete (u "erhua: """) + accep (u "儿") + delete (u """")))).
End Whitelist.

(** ** tn/chinese/rules/sport.py:33-49 *)
Module Sport.
Definition team : fst := string_file zh_tn_sport_country ∪ string_file zh_tn_sport_club.
Definition rmsign : fst := delete (u "/") ∪ delete (u "-") ∪ delete (u ":").
Definition rmspace : fst := ques (delete (u " ")).
Definition score : fst := rmspace + Cardinal.number + rmsign + insert (u "比") + Cardinal.number + rmspace.
Definition name : text := u "sport".
Definition rule : rule :=
  Rule (add_tokens name (tag_field (u "team") team + insert (u " ") + tag_field (u "score") score))
       (delete_tokens name ((delete (u "team: """) + team + delete (u """ "))
                            + (delete (u "score: """) + score + delete (u """")))).
End Sport.

(** ** tn/chinese/rules/fraction.py:29-41 *)
Module Fraction.
Definition number : fst := Cardinal.number.
Definition rmspace : fst := ques (delete (u " ")).
Definition name : text := u "fraction".
Definition rule : rule :=
  Rule (add_tokens name (tag_field (u "numerator") number + rmspace + delete (u "/") + rmspace + insert (u " ")
                         + tag_field (u "denominator") number))
       (delete_tokens name ((delete (u "denominator: """) + number + delete (u """ ")) + insert (u "分之")
                            + (delete (u "numerator: """) + number + delete (u """")))).
End Fraction.

(** ** tn/chinese/rules/measure.py:34-77 *)
Module Measure.
Definition units_en : fst := string_file zh_tn_measure_units_en.
Definition units_zh : fst := string_file zh_tn_measure_units_zh.
Definition units : fst :=
  ques (Weight 1000 (Cross (u "k") (u "千") ∪ Cross (u "w") (u "万"))) + (units_en ∪ units_zh).
Definition rmspace : fst := ques (delete (u " ")).
Definition to : fst := Cross (u "-") (u "到") ∪ Cross (u "~") (u "到") ∪ accep (u "到").
Definition strip_comma : fst := build_rule (delete (u ",") ∪ delete (u "，")) (Next is_digit) (Next is_digit).
Definition number : fst :=
  (strip_comma @ Cardinal.number) @ build_rule (Cross (u "二") (u "两")) Edge Edge.
Definition prefix : fst := number + ques (rmspace + units) + to.
Definition measure0 : fst := ques prefix + number + rmspace + units.
(** :49-51 *)
Definition er (unit : text) (measure : fst) : fst :=
  (measure @ build_rule (Cross (u "两" ++ unit) (u "二" ++ unit)) Edge Anywhere)
  @ build_rule (Cross (u "到两" ++ unit) (u "到二" ++ unit)) Anywhere Edge.
Definition measure : fst := er (u "号") (er (u "月") (er (u "两") measure0)).
(** :53-62 *)
Definition yyyy : fst := Cardinal.digits ** 4.
Definition unit : fst := accep (u "年") ∪ accep (u "年度") ∪ accep (u "赛季").
Definition annual_prefix : fst := yyyy + ques (rmspace + unit) + to.
Definition annual : fst := ques annual_prefix + yyyy + unit.
Definition denominator : fst := measure ∪ units.
(** :63-77 *)
Definition rmsign : fst := rmspace + delete (u "/") + rmspace.
Definition tagger : fst :=
  tag_field (u "value") (measure ∪ annual)
  ∪ tag_field (u "numerator") measure + rmsign + insert (u " ") + tag_field (u "denominator") denominator.
Definition name : text := u "measure".
Definition rule : rule :=
  Rule (add_tokens name tagger)
       (delete_tokens name (delete (u "value: """) + (measure ∪ annual) + delete (u """"))
        ∪ delete_tokens name (insert (u "每") + (delete (u "denominator: """) + denominator + delete (u """ "))
                              + (delete (u "numerator: """) + measure + delete (u """")))).
End Measure.

(** ** tn/chinese/rules/money.py:32-45 *)
Module Money.
Definition number : fst := Cardinal.number.
Definition currency : fst := string_file zh_tn_money_code ∪ string_file zh_tn_money_symbol.
Definition name : text := u "money".
Definition rule : rule :=
  Rule (add_tokens name (tag_field (u "currency") currency + ques (delete (u " ")) + insert (u " ")
                         + tag_field (u "value") number))
       (delete_tokens name ((delete (u "value: """) + number + delete (u """ "))
                            + (delete (u "currency: """) + currency + delete (u """")))).
End Money.

(** ** tn/chinese/rules/math.py:32-44 *)
Module Math.
Definition operator : fst := string_file zh_tn_math_operator.
Definition unambiguous_operator : fst := string_file zh_tn_math_operator_unambiguous.
Definition symbols : fst :=
  Cross (u "~") (u "到") ∪ Cross (u ":") (u "比") ∪ Cross (u "<") (u "小于") ∪ Cross (u ">") (u "大于").
Definition number : fst := Cardinal.number.
Definition math : fst :=
  number + Star (ques (delete (u " ")) + (operator ∪ symbols) + ques (delete (u " ")) + number)
  ∪ unambiguous_operator.
Definition name : text := u "math".
Definition rule : rule :=
  Rule (add_tokens name (tag_field (u "value") math))
       (delete_tokens name (delete (u "value: """) + math + delete (u """"))).
End Math.

(** ** tn/chinese/rules/postprocessor.py:24-59 *)
Record options := Options {
  remove_interjections : bool; remove_erhua : bool; traditional_to_simple : bool;
  remove_puncts : bool; full_to_half : bool; tag_oov : bool }.
Definition charset (c : N) : bool :=
  in_lines zh_tn_char_charset_national_standard_2013_8105 c || in_lines zh_tn_char_charset_extension c
  || in_lines zh_tn_char_punctuations_zh c || is_digit c || is_alpha c || is_punct c || is_space c.
Definition postprocessor (o : options) : fst :=
  let p := build_rule (Cross [] []) Anywhere Anywhere in
  let p := when (traditional_to_simple o) p (build_rule (string_file zh_tn_char_traditional_to_simple) Anywhere Anywhere) in
  let p := when (remove_interjections o) p (build_rule (Erase (string_file zh_tn_default_blacklist)) Anywhere Anywhere) in
  let p := when (remove_puncts o) p (build_rule (Erase (string_file zh_tn_char_punctuations_zh ∪ PUNCT)) Anywhere Anywhere) in
  let p := when (full_to_half o) p (build_rule (string_file zh_tn_char_fullwidth_to_halfwidth) Anywhere Anywhere) in
  when (tag_oov o) p (oov_tagger (u "oov") (Class (fun c => vchar c && negb (charset c)))).

(** ** tn/chinese/normalizer.py:74-112 *)
Definition rules (o : options) : list rule_spec :=
  [ RuleSpec (Date.rule (r_tagger Range.rule)) (Some 10200%Z) true;
    RuleSpec (Whitelist.rule (remove_erhua o)) (Some 10300%Z) true;
    RuleSpec Sport.rule (Some 10400%Z) true;
    RuleSpec Fraction.rule (Some 10500%Z) true;
    RuleSpec Measure.rule (Some 10500%Z) true;
    RuleSpec Money.rule (Some 10500%Z) true;
    RuleSpec (Time.rule (r_tagger Range.rule)) (Some 10500%Z) true;
    RuleSpec Cardinal.rule (Some 10600%Z) true;
    RuleSpec Math.rule (Some 900000%Z) true;
    RuleSpec Char.rule (Some 1000000%Z) true;
    RuleSpec Range.rule None true ].
(** [None]: the ValueError of an empty union. *)
Definition tagger (o : options) : option fst :=
  match tagger_union (rules o) with Some t => Some (trim_end t) | None => None end.
Definition verbalizer (o : options) : option fst :=
  match verbalizer_union (rules o) with Some v => Some (Star (v @ postprocessor o)) | None => None end.
