(** Transcription of the Japanese text normalisation grammar: /repo/tn/japanese/rules and
    /repo/tn/japanese/normalizer.py.  [x |= y] is [x = x | y].  Model only. *)
From Coq Require Import List NArith ZArith Bool String.
From Verif Require Import Text Fst GrammarModel DataJaTn.
Import ListNotations.
Local Open Scope list_scope.
Local Open Scope fst_scope.

(** The constructor's options, normalizer.py:44-59. *)
Record options := Options {
  transliterate : bool; remove_interjections : bool; remove_puncts : bool; full_to_half : bool; tag_oov : bool }.

(** ** tn/japanese/rules/preprocessor.py:23-31 *)
Definition preprocessor (o : options) : fst :=
  let p := build_rule (Cross [] []) Anywhere Anywhere in
  if full_to_half o
  then p @ build_rule (string_file ja_tn_char_fullwidth_to_halfwidth) Anywhere Anywhere
  else p.
Definition pre (o : options) (graph : fst) : fst := apply_input_processor graph (Some (preprocessor o)).
(** A rule with one field, [value], read back raw. *)
Definition raw_value (graph : fst) : fst := delete (u "value: """) + graph + delete (u """").
Definition value_rule (name : text) (graph : fst) : rule :=
  Rule (add_tokens name (tag_field (u "value") graph)) (delete_tokens name (raw_value graph)).

(** ** tn/japanese/rules/cardinal.py:35-113 *)
Module Cardinal.
(** :36-49 *)
Definition zero : fst := string_file ja_tn_number_zero.
Definition en_zero : fst := Cross (u "0") (u "ゼロ").
Definition digit : fst := string_file ja_tn_number_digit.
Definition teen : fst := string_file ja_tn_number_teen.
Definition sign : fst := string_file ja_tn_number_sign.
Definition dot : fst := string_file ja_tn_number_dot.
Definition rmzero : fst := delete (u "0") ∪ delete (u "０").
Definition rmpunct : fst := ques (delete (u ",")).
Definition rmspace : fst := ques (delete (u " ")).
Definition digits0 : fst := zero ∪ digit.
(** :52-65 *)
Definition ten : fst := teen + insert (u "十") + (digit ∪ rmzero).
Definition hundred : fst := teen + insert (u "百") + (ten ∪ (rmzero + digit) ∪ rmzero ** 2).
Definition hundred_prefix : fst := teen + insert (u "百") + rmpunct + (ten ∪ (rmzero + digit) ∪ rmzero ** 2).
Definition thousand0 : fst :=
  teen + insert (u "千") + rmpunct + (hundred ∪ (rmzero + ten) ∪ (rmzero ** 2 + digit) ∪ rmzero ** 3).
Definition thousand_prefix : fst :=
  digit + insert (u "千") + (hundred_prefix ∪ (rmzero + rmpunct + ten) ∪ (rmzero + rmpunct + rmzero + digit)
                             ∪ (rmzero + rmpunct + rmzero ** 2)).
(** :66-81 *)
Definition thousand (o : options) : fst := pre o thousand0.
Definition low : fst :=
  thousand0 ∪ (rmzero + rmpunct + hundred) ∪ (rmzero + rmpunct + rmzero + ten)
  ∪ (rmzero + rmpunct + rmzero + rmzero + digit) ∪ (rmzero + rmpunct + rmzero ** 3).
Definition high : fst := thousand_prefix ∪ hundred_prefix ∪ ten ∪ digit.
Definition ten_thousand : fst := high + insert (u "万") + low.
Definition hundred_millon : fst := high + insert (u "億") + rmzero ** 2 + rmpunct + rmzero ** 2 + low.
(** :83-87 *)
Definition integer : fst := digits0 ∪ ten ∪ hundred ∪ thousand0 ∪ ten_thousand ∪ hundred_millon.
Definition positive_integer (o : options) : fst := pre o integer.
Definition number0 : fst := ques sign + integer + ques (dot + plus digits0).
Definition number (o : options) : fst := pre o number0.
(** :90-107 *)
Definition percent : fst := number0 + delete (u "%") + insert (u "パーセント").
Definition ip : fst := plus digits0 + (dot + plus digits0) ** 3.
Definition no : fst := Cross (u "-") (u "の").
Definition country_code : fst := Cross (u "+81") (u "プラス八一") + ques no + rmspace.
Definition en_digits : fst := en_zero ∪ digit.
Definition phone0 : fst :=
  en_zero + digit + ques en_zero + no + en_digits ** 3 + ques en_digits + ques no + en_digits ** 4.
Definition phone : fst := ques country_code + (phone0 ∪ (en_zero + digit + ques en_zero + en_digits ** 8)).
Definition ordinal : fst := (accep (u "No.") ∪ accep (u "番号") ∪ accep (u "番号は")) + plus digits0.
Definition room : fst := plus digits0 + accep (u "号室").
Definition others : fst := digits0 ** 8 + plus digits0.
Definition cardinal (o : options) : fst :=
  pre o (number0 ∪ percent ∪ ip ∪ phone ∪ ordinal ∪ room ∪ others).
(** :109-113 *)
Definition name : text := u "cardinal".
Definition rule (o : options) : rule := value_rule name (cardinal o).
End Cardinal.

(** ** tn/japanese/rules/char.py:22-29 *)
Module Char.
Definition name : text := u "char".
Definition rule : rule :=
  Rule (add_tokens name (insert (u "value: """) + CHAR + insert (u """"))) (build_verbalizer name).
End Char.

(** ** tn/japanese/rules/range.py:24-32 *)
Module Range.
Definition range (o : options) : fst :=
  pre o (Cross (u "-") (u "から") ∪ Cross (u "~") (u "から") ∪ accep (u "から")).
Definition name : text := u "range".
Definition rule (o : options) : rule := value_rule name (range o).
End Range.

(** ** tn/japanese/rules/date.py:36-82, with a range tagger *)
Module Date.
Definition m : fst := string_file ja_tn_date_m.
Definition mm : fst := string_file ja_tn_date_mm.
Definition d : fst := string_file ja_tn_date_d.
Definition dd : fst := string_file ja_tn_date_dd.
Definition rmsign (o : options) : fst :=
  pre o (delete (u "/") ∪ delete (u "-") ∪ delete (u ".")) + insert (u " ").
Definition g_year (o : options) : fst := Cardinal.thousand o + insert (u "年").
Definition g_month (o : options) : fst := pre o (m ∪ mm).
Definition g_day (o : options) : fst := pre o (d ∪ dd).
Definition g_mm (o : options) : fst := pre o mm.
Definition year (o : options) : fst := tag_field (u "year") (g_year o).
Definition month (o : options) : fst := tag_field (u "month") (g_month o).
Definition day (o : options) : fst := tag_field (u "day") (g_day o).
Definition month_two_digit (o : options) : fst := tag_field (u "month") (g_mm o).
Definition date (o : options) : fst :=
  (year o + rmsign o + month o + rmsign o + day o)
  ∪ (day o + rmsign o + month o + rmsign o + year o)
  ∪ (year o + rmsign o + month_two_digit o)
  ∪ (month_two_digit o + rmsign o + year o)
  ∪ (month_two_digit o + rmsign o + day o).
Definition simple_date (o : options) : fst :=
  (year o + rmsign o + month o) ∪ (month o + rmsign o + year o) ∪ (month o + rmsign o + day o).
Definition name : text := u "date".
Definition tagger (o : options) (range_tagger : fst) : fst :=
  (add_tokens name (date o) + ques (range_tagger + add_tokens name (date o)))
  ∪ (add_tokens name (simple_date o) + range_tagger + add_tokens name (simple_date o)).
Definition verbalizer (o : options) : fst :=
  ques (delete (u "year: """) + g_year o + delete (u """ "))
  + (delete (u "month: """) + g_month o + delete (u """"))
  + ques (delete (u " day: """) + g_day o + delete (u """")).
Definition rule (o : options) (range_tagger : fst) : rule :=
  Rule (tagger o range_tagger) (delete_tokens name (verbalizer o)).
End Date.

(** ** tn/japanese/rules/fraction.py:30-43 *)
Module Fraction.
Definition rmspace : fst := ques (delete (u " ")).
Definition number (o : options) : fst := Cardinal.number o.
Definition slash (o : options) : fst := pre o (delete (u "/")).
Definition name : text := u "fraction".
Definition rule (o : options) : rule :=
  Rule (add_tokens name (tag_field (u "numerator") (number o) + rmspace + slash o + rmspace + insert (u " ")
                         + tag_field (u "denominator") (number o)))
       (delete_tokens name ((delete (u "denominator: """) + number o + delete (u """ ")) + insert (u "分の")
                            + (delete (u "numerator: """) + number o + delete (u """")))).
End Fraction.

(** ** tn/japanese/rules/math.py:33-45 *)
Module Math.
Definition operator : fst := string_file ja_tn_math_operator.
Definition math (o : options) : fst :=
  let number := Cardinal.number o in
  pre o (number + Star (ques (delete (u " ")) + operator + ques (delete (u " ")) + number)).
Definition name : text := u "math".
Definition rule (o : options) : rule := value_rule name (math o).
End Math.

(** ** tn/japanese/rules/measure.py:33-54 *)
Module Measure.
Definition units : fst := string_file ja_tn_measure_units_en ∪ string_file ja_tn_measure_units_ja.
Definition rmspace : fst := ques (delete (u " ")).
Definition to : fst := Cross (u "-") (u "から") ∪ Cross (u "~") (u "から") ∪ accep (u "から").
Definition prefix (o : options) : fst := Cardinal.number o + ques (rmspace + units) + to.
Definition measure0 (o : options) : fst := ques (prefix o) + Cardinal.number o + rmspace + units.
Definition measure (o : options) : fst :=
  pre o (measure0 o ∪ (measure0 o + rmspace + delete (u "/") + insert (u "毎") + rmspace + units)).
Definition name : text := u "measure".
Definition rule (o : options) : rule := value_rule name (measure o).
End Measure.

(** ** tn/japanese/rules/money.py:33-46 *)
Module Money.
Definition currency (o : options) : fst :=
  pre o (string_file ja_tn_money_code ∪ string_file ja_tn_money_symbol).
Definition name : text := u "money".
Definition rule (o : options) : rule :=
  Rule (add_tokens name (tag_field (u "currency") (currency o) + ques (delete (u " ")) + insert (u " ")
                         + tag_field (u "value") (Cardinal.number o)))
       (delete_tokens name ((delete (u "value: """) + Cardinal.number o + delete (u """ "))
                            + (delete (u "currency: """) + currency o + delete (u """")))).
End Money.

(** ** tn/japanese/rules/sport.py:34-58 *)
Module Sport.
Definition rmsign : fst := delete (u "/") ∪ delete (u "-") ∪ delete (u ":").
Definition number (o : options) : fst := Cardinal.positive_integer o.
Definition team (o : options) : fst := pre o (string_file ja_tn_sport_country ∪ string_file ja_tn_sport_club).
Definition score (o : options) : fst := pre o (number o + rmsign + insert (u "対") + number o).
Definition only_score (o : options) : fst := pre o (number o + Cross (u ":") (u "対") + number o).
Definition any_score (o : options) : fst := score o ∪ only_score o.
Definition name : text := u "sport".
Definition rule (o : options) : rule :=
  Rule (add_tokens name ((tag_field (u "team") (team o) + ques (delete (u " ")) + insert (u " ")
                          + tag_field (u "score") (score o))
                         ∪ tag_field (u "score") (only_score o)))
       (delete_tokens name (ques (delete (u "team: """) + team o + delete (u """ "))
                            + (delete (u "score: """) + any_score o + delete (u """")))).
End Sport.

(** ** tn/japanese/rules/time.py:35-65, with a range tagger *)
Module Time.
Definition colon (o : options) : fst := pre o (delete (u ":") ∪ delete (u "：")).
Definition g_hour (o : options) : fst := pre o (string_file ja_tn_time_hour).
Definition g_minute (o : options) : fst := pre o (string_file ja_tn_time_minute).
Definition g_second (o : options) : fst := pre o (string_file ja_tn_time_second).
Definition g_noon (o : options) : fst := pre o (string_file ja_tn_time_noon).
Definition h_noon (o : options) : fst :=
  tag_field (u "hour") (g_hour o) + insert (u " ") + tag_field (u "noon") (g_noon o).
Definition time (o : options) : fst :=
  (tag_field (u "hour") (g_hour o) + insert (u " ") + colon o + tag_field (u "minute") (g_minute o)
   + ques (colon o + insert (u " ") + tag_field (u "second") (g_second o))
   + ques (ques (delete (u " ")) + insert (u " ") + tag_field (u "noon") (g_noon o)))
  ∪ h_noon o.
Definition name : text := u "time".
Definition tagger (o : options) (range_tagger : fst) : fst :=
  add_tokens name (time o) + ques (range_tagger + add_tokens name (time o)).
Definition v_noon (o : options) : fst := delete (u "noon: """) + g_noon o + delete (u """ ").
Definition v_hour (o : options) : fst := delete (u "hour: """) + g_hour o + delete (u """").
Definition v_minute (o : options) : fst := delete (u " minute: """) + g_minute o + delete (u """").
Definition v_second (o : options) : fst := delete (u " second: """) + g_second o + delete (u """").
Definition verbalizer (o : options) : fst :=
  (ques (v_noon o) + v_hour o + v_minute o + ques (v_second o)) ∪ (v_noon o + v_hour o).
Definition rule (o : options) (range_tagger : fst) : rule :=
  Rule (tagger o range_tagger) (delete_tokens name (verbalizer o)).
End Time.

(** ** tn/japanese/rules/transliteration.py:31-40 *)
Module Transliteration.
Definition transliteration (o : options) : fst := pre o (string_file ja_tn_pyopenjtalk_transliteration).
Definition name : text := u "transliteration".
Definition rule (o : options) : rule := value_rule name (transliteration o).
End Transliteration.

(** ** tn/japanese/rules/whitelist.py:31-40 *)
Module Whitelist.
Definition whitelist (o : options) : fst := pre o (string_file ja_tn_default_whitelist).
Definition name : text := u "whitelist".
Definition rule (o : options) : rule := value_rule name (whitelist o).
End Whitelist.

(** ** tn/japanese/rules/postprocessor.py:25-50 *)
Definition charset (c : N) : bool :=
  in_lines ja_tn_char_hiragana_and_katakana c || in_lines ja_tn_char_common_chinese_char c
  || in_lines ja_tn_char_punctuations_ja c || is_digit c || is_alpha c || is_punct c || is_space c.
Definition postprocessor (o : options) : fst :=
  let p := build_rule (Cross [] []) Anywhere Anywhere in
  let p := when (full_to_half o) p (build_rule (string_file ja_tn_char_fullwidth_to_halfwidth) Anywhere Anywhere) in
  let p := when (remove_interjections o) p (build_rule (Erase (string_file ja_tn_default_blacklist)) Anywhere Anywhere) in
  let p := when (remove_puncts o) p (build_rule (Erase (string_file ja_tn_char_punctuations_ja ∪ PUNCT)) Anywhere Anywhere) in
  when (tag_oov o) p (oov_tagger (u "oov") (Class (fun c => vchar c && negb (charset c)))).

(** ** tn/japanese/normalizer.py:73-114 *)
Definition rules (o : options) : list rule_spec :=
  [ RuleSpec (Cardinal.rule o) (Some 10600%Z) true;
    RuleSpec Char.rule (Some 1000000%Z) true;
    RuleSpec (Date.rule o (r_tagger (Range.rule o))) (Some 10200%Z) true;
    RuleSpec (Fraction.rule o) (Some 10500%Z) true;
    RuleSpec (Math.rule o) (Some 900000%Z) true;
    RuleSpec (Measure.rule o) (Some 10500%Z) true;
    RuleSpec (Money.rule o) (Some 10500%Z) true;
    RuleSpec (Sport.rule o) (Some 10600%Z) true;
    RuleSpec (Time.rule o (r_tagger (Range.rule o))) (Some 10500%Z) true;
    RuleSpec (Whitelist.rule o) (Some 10300%Z) true;
    RuleSpec (Range.rule o) None true ]
  ++ (if transliterate o then [RuleSpec (Transliteration.rule o) (Some 10400%Z) true] else []).
Definition tagger (o : options) : option fst :=
  match tagger_union (rules o) with Some t => Some (trim_end t) | None => None end.
Definition verbalizer (o : options) : option fst :=
  match verbalizer_union (rules o) with Some v => Some (Star (v @ postprocessor o)) | None => None end.
