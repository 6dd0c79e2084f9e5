(** Transcription of the English inverse normalisation grammar: /repo/itn/english/rules and
    /repo/itn/english/inverse_normalizer.py.  [x |= y] is [x = x | y]; a union of strings or
    of crosses is kept as the table of its pairs.  Model only. *)
From Coq Require Import List NArith ZArith Bool String.
From Verif Require Import Text Fst GrammarModel DataEnItn.
Import ListNotations.
Local Open Scope list_scope.
Local Open Scope fst_scope.

(** ** Graph operations the other grammars do not use *)
(** union of strings *)
Definition strings (l : list text) : fst := Table (map (fun t => (t, t)) l).
(** invert(string_file(lines)); the tables inverted have no closures or weights *)
Definition swap (e : text * text) : text * text := (snd e, Datatypes.fst e).
Definition inverted (lines : list string) : fst := Table (map (fun l => swap (entry l)) lines).
(** difference(VSIGMA, l) for a finite union [l] of strings: the texts with their first
    character outside the first characters of [l], or which go on outside the tails. *)
Definition heads (l : list text) : list N := flat_map (fun t => match t with [] => [] | c :: _ => [c] end) l.
Definition tails (c : N) (l : list text) : list text :=
  flat_map (fun t => match t with [] => [] | d :: r => if (c =? d)%N then [r] else [] end) l.
Fixpoint except_within (fuel : nat) (l : list text) : fst :=
  match fuel with
  | O => VSIGMA
  | S n =>
      fold_right (fun c g => (accep [c] + except_within n (tails c l)) ∪ g)
        ((if existsb (fun t => match t with [] => true | _ => false end) l then Table [] else Cross [] [])
         ∪ (Class (fun c => vchar c && negb (existsb (N.eqb c) (heads l))) + VSIGMA))
        (nodup N.eq_dec (heads l))
  end.
Definition except (l : list text) : fst := except_within (S (list_max (map (@List.length N) l))) l.
(** Processor.__init__, tn/processor.py:135-137 *)
Definition NOT_SPACE : fst := Class (fun c => vchar c && negb (is_space c)).
Definition DELETE_SPACE : fst := Star (Erase SPACE).
Definition DELETE_EXTRA_SPACE : fst := Erase (plus SPACE) + insert (u " ").
(** delete(" ") *)
Definition ds : fst := delete (u " ").
(** build_rule(delete("and "), " ", self.ALPHA) *)
Definition delete_and : fst := build_rule (delete (u "and ")) (Next (N.eqb 32)) (Next is_alpha).
(** load_labels, tn/utils.py: the cells of each line; no cell of the files used is quoted *)
Definition labels (lines : list string) : list (text * text) := map entry lines.

(** Python's t.startswith(s) and t.endswith(s) *)
Fixpoint starts_with (t s : text) : bool :=
  match s, t with
  | [], _ => true
  | c :: s', d :: t' => (c =? d)%N && starts_with t' s'
  | _ :: _, [] => false
  end.
Definition ends_with (t s : text) : bool := starts_with (rev t) (rev s).

(** ** itn/english/rules/time.py:26-34, _num_to_word *)
Definition ones : list text :=
  map u [""; "one"; "two"; "three"; "four"; "five"; "six"; "seven"; "eight"; "nine"; "ten"; "eleven"; "twelve";
         "thirteen"; "fourteen"; "fifteen"; "sixteen"; "seventeen"; "eighteen"; "nineteen"]%string.
Definition tens : list text :=
  map u [""; ""; "twenty"; "thirty"; "forty"; "fifty"; "sixty"; "seventy"; "eighty"; "ninety"]%string.
Definition num_to_word (n : nat) : text :=
  if Nat.ltb n 20 then nth n ones []
  else nth (Nat.div n 10) tens [] ++
       (if Nat.eqb (Nat.modulo n 10) 0 then [] else u " " ++ nth (Nat.modulo n 10) ones []).
(** range(a, b) *)
Definition range (a b : nat) : list nat := seq a (b - a).
(** str(x) and f"{x:02d}" for x < 100 *)
Definition dec (n : nat) : text :=
  (if Nat.ltb n 10 then [] else [N.of_nat (48 + Nat.div n 10)]) ++ [N.of_nat (48 + Nat.modulo n 10)].
Definition dec2 (n : nat) : text := [N.of_nat (48 + Nat.div n 10); N.of_nat (48 + Nat.modulo n 10)].

Definition digit : fst := string_file en_itn_numbers_digit.
Definition zero : fst := string_file en_itn_numbers_zero.
Definition teen : fst := string_file en_itn_numbers_teen.
Definition ties : fst := string_file en_itn_numbers_ties.

(** ** itn/english/rules/cardinal.py:29-111 *)
Module Cardinal.
(** :36-40 *)
Definition two_digit : fst := teen ∪ (ties + (ds + digit ∪ Weight 1000 (insert (u "0")))).
Definition up_to_99 : fst := digit ∪ two_digit.
(** :43-46 *)
Definition after_hundred : fst := ds + two_digit ∪ ds + insert (u "0") + digit ∪ insert (u "00").
Definition hundreds : fst := digit + ds + delete (u "hundred") + after_hundred.
Definition hundreds_as_thousand : fst := (teen ∪ ties + ds + digit) + ds + delete (u "hundred") + after_hundred.
(** :49-52 *)
Definition up_to_999 : fst := up_to_99 ∪ hundreds.
Definition up_to_999_padded : fst := hundreds ∪ insert (u "0") + two_digit ∪ insert (u "00") + digit.
(** :54-58 *)
Definition with_mag (name : string) : fst := up_to_999 + ds + delete (u name).
Definition with_mag_padded (name : string) : fst := up_to_999_padded + ds + delete (u name).
(** :60-83.  [group name]: the group of a smaller magnitude, or three zeros *)
Definition group (name : string) : fst := ds + with_mag_padded name ∪ insert (u "000").
Definition units : fst := ds + up_to_999_padded ∪ insert (u "000").
Definition graph0 : fst :=
  zero ∪ up_to_999 ∪ hundreds_as_thousand
  ∪ with_mag "thousand" + units
  ∪ with_mag "million" + group "thousand" + units
  ∪ with_mag "billion" + group "million" + group "thousand" + units
  ∪ with_mag "trillion" + group "billion" + group "million" + group "thousand" + units
  ∪ with_mag "quadrillion" + group "trillion" + group "billion" + group "million" + group "thousand" + units
  ∪ with_mag "quintillion" + group "quadrillion" + group "trillion" + group "billion" + group "million"
    + group "thousand" + units
  ∪ with_mag "sextillion" + group "quintillion" + group "quadrillion" + group "trillion" + group "billion"
    + group "million" + group "thousand" + units.
(** :86 *)
Definition nonzero : fst := Class (fun c => is_digit c && negb (c =? 48)%N).
Definition strip_zeros : fst := (Erase (Star (accep (u "0"))) + nonzero + Star DIGIT) ∪ accep (u "0").
(** :88-92 *)
Definition graph : fst := delete_and @ (graph0 @ strip_zeros).
(** :95-101 *)
Definition exception_labels : list text := u "zero" :: map num_to_word (range 1 13).
Definition negative : fst := Cross (u "minus") (u "-") ∪ Cross (u "negative") (u "-").
Definition integer : fst := except exception_labels @ graph.
Definition name : text := u "cardinal".
Definition rule : rule :=
  Rule (add_tokens name (ques (tag_field (u "negative") negative + ds + insert (u " "))
                         + tag_field (u "integer") integer))
       (delete_tokens name (ques (verbalize_field (u "negative") (Some negative) false + DELETE_SPACE)
                            + verbalize_field (u "integer") (Some integer) false)).
End Cardinal.

(** ** itn/english/rules/ordinal.py:32-50 *)
Module Ordinal.
Definition suffix : fst :=
  string_file en_itn_ordinals_digit ∪ string_file en_itn_ordinals_teen
  ∪ Cross (u "tieth") (u "ty") ∪ Cross (u "th") [].
Definition graph : fst := (Star VCHAR + suffix) @ Cardinal.graph.
(** :45-49, cdrewrite(ordinal_suffix, "", "[EOS]", VSIGMA), whose last alternative
    insert("th", weight=0.01) matches the empty text.  An obligatory rule applied at the end:
    the leftmost match that reaches the end is replaced; where no non-empty match does, the
    empty one is.  Written out by the last characters. *)
Definition last_not (l : list N) : fst :=
  Cross [] [] ∪ VSIGMA + Class (fun c => vchar c && negb (existsb (N.eqb c) l)).
Definition add_suffix : fst :=
  VSIGMA + (Cross (u "11") (u "11th") ∪ Cross (u "12") (u "12th") ∪ Cross (u "13") (u "13th"))
  ∪ last_not [49%N] + (Cross (u "1") (u "1st") ∪ Cross (u "2") (u "2nd") ∪ Cross (u "3") (u "3rd"))
  ∪ last_not [49; 50; 51]%N + Weight 100 (insert (u "th")).
Definition name : text := u "ordinal".
Definition rule : rule :=
  Rule (add_tokens name (tag_field (u "integer") graph))
       (delete_tokens name (verbalize_field (u "integer") (Some graph) false @ add_suffix)).
End Ordinal.

(** ** itn/english/rules/decimal.py:31-82 *)
Module Decimal.
(** :37-42 *)
Definition frac_digit : fst := digit ∪ zero ∪ Cross (u "o") (u "0").
Definition frac_graph : fst := Star (frac_digit + ds) + frac_digit.
Definition negative : fst := Cross (u "minus") (u "-").
Definition integer : fst := Cardinal.graph.
Definition fractional : fst := delete (u "point") + ds + frac_graph.
Definition optional_negative : fst := ques (tag_field (u "negative") negative + ds + insert (u " ")).
Definition integer_part : fst := tag_field (u "integer_part") integer.
Definition frac_part : fst := tag_field (u "fractional_part") fractional.
(** :51-64; labels of one cell *)
Definition quantities : list text := map u en_itn_numbers_thousands.
Definition quantity : fst := strings quantities.
Definition quantity_no_thousand : fst := strings (filter (fun t => negb (text_eqb t (u "thousand"))) quantities).
Definition quantity_graph : fst :=
  optional_negative + integer_part + ds + insert (u " ") + frac_part + ds + insert (u " ")
  + tag_field (u "quantity") quantity.
Definition cardinal_quantity : fst :=
  optional_negative + tag_field (u "integer_part") Cardinal.up_to_999 + ds + insert (u " ")
  + tag_field (u "quantity") quantity_no_thousand.
Definition graph : fst :=
  optional_negative + ques (integer_part + ds + insert (u " ")) + frac_part
  ∪ Weight (-10) (quantity_graph ∪ cardinal_quantity).
Definition name : text := u "decimal".
(** :71-82 *)
Definition verbalizer : fst :=
  ques (verbalize_field (u "negative") (Some negative) false + DELETE_SPACE)
  + ques (verbalize_field (u "integer_part") (Some (integer ∪ Cardinal.up_to_999)) false + DELETE_SPACE)
  + ques (insert (u ".") + verbalize_field (u "fractional_part") (Some fractional) false + DELETE_SPACE)
  + ques (insert (u " ") + verbalize_field (u "quantity") (Some quantity) false + DELETE_SPACE).
Definition rule : rule := Rule (add_tokens name graph) (delete_tokens name verbalizer).
End Decimal.

(** ** itn/english/rules/date.py:34-163 *)
Module Date.
(** :36-45 *)
Definition g_month : fst := string_file en_itn_data_months.
Definition day_graph : fst := (Ordinal.graph ∪ Cardinal.graph) @ (DIGIT + ques DIGIT).
(** :53-77 *)
Definition two_digit : fst := teen ∪ (ties + (ds + digit ∪ insert (u "0"))).
Definition oh_digit : fst := (Cross (u "oh") (u "0") ∪ Cross (u "o") (u "0")) + ds + digit.
Definition year_two_parts : fst := (teen ∪ two_digit) + ds + (two_digit ∪ oh_digit ∪ teen).
Definition year_three_digit : fst := digit + ds + (two_digit ∪ oh_digit ∪ teen).
Definition hundreds : fst :=
  digit + ds + delete (u "hundred") + (ds + two_digit ∪ ds + insert (u "0") + digit ∪ insert (u "00")).
Definition up_to_999_padded : fst := hundreds ∪ insert (u "0") + two_digit ∪ insert (u "00") + digit.
Definition year_thousands : fst := digit + ds + delete (u "thousand") + (ds + up_to_999_padded ∪ insert (u "000")).
Definition year_hundreds : fst := (teen ∪ two_digit) + ds + oh_digit.
Definition year_xx_hundred : fst := (teen ∪ two_digit) + ds + delete (u "hundred") + insert (u "00").
(** :79-85 *)
Definition g_year : fst := delete_and @ (year_two_parts ∪ year_thousands ∪ year_hundreds ∪ year_xx_hundred).
Definition month : fst := tag_field (u "month") g_month.
Definition day : fst := tag_field (u "day") day_graph.
Definition year : fst := tag_field (u "year") g_year.
Definition po : fst := insert (u " preserve_order: ""true""").
(** :91-103 *)
Definition mdy : fst := month + ds + insert (u " ") + day + ds + insert (u " ") + year + po.
Definition md : fst := month + ds + insert (u " ") + day + po.
Definition my : fst := month + ds + insert (u " ") + Weight (-1000) year + po.
Definition day_dmy : fst := delete (u "the") + ds + day_graph + ds + delete (u "of").
Definition dmy : fst := tag_field (u "day") day_dmy + ds + insert (u " ") + month + ds + insert (u " ") + year + po.
Definition dm : fst := tag_field (u "day") day_dmy + ds + insert (u " ") + month + po.
Definition y : fst := year + po.
(** :106-115 *)
Definition decade_suffix : fst := plus ALPHA + (Cross (u "ies") (u "y") ∪ delete (u "s")).
Definition decade_word : fst := decade_suffix @ (ties ∪ Cross (u "ten") (u "10")).
Definition year_decade : fst := (teen ∪ two_digit) + ds + decade_word + insert (u "0s").
Definition decade : fst := tag_field (u "year") year_decade + po.
Definition quarter_num : fst :=
  Cross (u "first") (u "1") ∪ Cross (u "second") (u "2") ∪ Cross (u "third") (u "3") ∪ Cross (u "fourth") (u "4").
Definition day_quarter : fst := insert (u "Q") + quarter_num + ds + delete (u "quarter") + ds + delete (u "of").
Definition quarter : fst := tag_field (u "day") day_quarter + ds + insert (u " ") + year + po.
(** :118-124 *)
Definition bc_ad : fst :=
  ds + (Cross (u "b c e") (u "BCE") ∪ Cross (u "before common era") (u "BCE") ∪ Cross (u "b c") (u "BC")
        ∪ Cross (u "c e") (u "CE") ∪ Cross (u "common era") (u "CE") ∪ Cross (u "a d") (u "AD")).
Definition year_bc : fst := (g_year ∪ year_three_digit) + bc_ad.
Definition y_bc : fst := tag_field (u "year") year_bc + po.
(** :127-136 *)
Definition half_num : fst := Cross (u "first") (u "1") ∪ Cross (u "second") (u "2").
Definition day_half : fst := insert (u "H") + half_num + ds + delete (u "half") + ds + delete (u "of").
Definition half : fst := tag_field (u "day") day_half + ds + insert (u " ") + year + po.
Definition year_century : fst := (teen ∪ two_digit) + ds + Cross (u "hundreds") (u "00s").
Definition century : fst := tag_field (u "year") year_century + po.
Definition year_millennium : fst := Cross (u "two") (u "2") + ds + Cross (u "thousands") (u "000s").
Definition millennium : fst := tag_field (u "year") year_millennium + po.
Definition date : fst :=
  mdy ∪ md ∪ my ∪ dmy ∪ dm ∪ y ∪ decade ∪ quarter ∪ half ∪ y_bc ∪ century ∪ millennium.
(** :143-163 *)
Definition g_day : fst := day_graph ∪ day_dmy ∪ day_quarter ∪ day_half.
Definition g_years : fst := g_year ∪ year_decade ∪ year_bc ∪ year_century ∪ year_millennium.
Definition v_month : fst := verbalize_field (u "month") (Some g_month) false.
Definition v_day : fst := verbalize_field (u "day") (Some g_day) false.
Definition v_year : fst := verbalize_field (u "year") (Some g_years) false.
Definition delete_po : fst :=
  delete (u "preserve_order:") + DELETE_SPACE + delete (u """") + delete (u "true") + delete (u """").
Definition optional_day : fst := ques (DELETE_SPACE + insert (u " ") + v_day).
Definition optional_year : fst := ques (DELETE_SPACE + insert (u " ") + v_year).
Definition verbalizer : fst :=
  ((v_month + optional_day + optional_year)
   ∪ (v_day + DELETE_SPACE + insert (u " ") + v_month + optional_year)
   ∪ (v_day + DELETE_SPACE + insert (u " ") + v_year)
   ∪ v_year) + DELETE_SPACE + delete_po.
Definition name : text := u "date".
Definition rule : rule := Rule (add_tokens name date) (delete_tokens name verbalizer).
End Date.

(** ** itn/english/rules/time.py:44-138 *)
Module Time.
(** :45-69; _num_to_word(0) is empty *)
Definition hours (l : list nat) : fst := Table (map (fun x => (num_to_word x, dec2 x)) l).
Definition hour_12 : fst := hours (range 1 13).
Definition hour_all : fst := hours (range 1 24).
Definition min_single : fst := Table (map (fun x => (num_to_word x, u "0" ++ dec x)) (range 1 10)).
Definition min_double : fst := Table (map (fun x => (num_to_word x, dec x)) (range 10 60)).
Definition min_verbose : fst := Cross (u "half") (u "30") ∪ Cross (u "quarter") (u "15").
Definition min_single_raw : fst := Table (map (fun x => (num_to_word x, dec x)) (range 1 10)).
Definition oclock : fst :=
  delete (u "o'clock") ∪ delete (u "o' clock") ∪ delete (u "o clock") ∪ delete (u "oclock") ∪ delete (u "hundred hours").
Definition to_or_till : fst := accep (u "to") ∪ accep (u "till").
(** :71-83 *)
Definition g_hour : fst := hour_all ∪ hour_12.
Definition g_hour_to : fst := Erase to_or_till + ds + string_file en_itn_time_to_hour.
Definition g_oclock : fst := oclock + insert (u "00").
Definition o_single : fst := delete (u "o") + ds + min_single.
Definition g_minute : fst := o_single ∪ min_double.
Definition g_past : fst := (min_single ∪ min_double ∪ min_verbose) + ds + delete (u "past").
Definition g_quarter_to : fst := Cross (u "quarter") (u "45").
Definition g_min_to : fst :=
  ((min_single_raw ∪ min_double) @ string_file en_itn_time_minute_to)
  + ques (ds + delete (u "min") + ques (delete (u "ute")) + ques (delete (u "s"))).
Definition g_noon : fst := string_file en_itn_time_time_suffix.
Definition g_zone : fst := inverted en_itn_time_time_zone.
(** :85-115 *)
Definition hour : fst := tag_field (u "hour") g_hour.
Definition minute (g : fst) : fst := tag_field (u "minute") g.
Definition suffix : fst := ds + insert (u " ") + tag_field (u "noon") g_noon.
Definition zone_opt : fst := ques (ds + insert (u " ") + tag_field (u "zone") g_zone).
Definition style : fst := insert (u " style: ""to""").
Definition time : fst :=
  (hour + ds + insert (u " ") + minute g_oclock + zone_opt)
  ∪ (hour + ds + insert (u " ") + minute o_single)
  ∪ (hour + insert (u " minute: """"") + suffix + zone_opt)
  ∪ (hour + ds + insert (u " ") + minute min_double + suffix + zone_opt)
  ∪ (tag_field (u "hour") hour_12 + ds + insert (u " ") + minute min_double)
  ∪ (hour + ds + insert (u " ") + minute o_single + suffix + zone_opt)
  ∪ (minute g_past + ds + insert (u " ") + hour)
  ∪ (minute g_quarter_to + ds + insert (u " ") + tag_field (u "hour") g_hour_to + style)
  ∪ (minute g_min_to + ds + insert (u " ") + tag_field (u "hour") g_hour_to + suffix + style).
(** :117-138 *)
Definition g_minutes : fst := g_minute ∪ g_oclock ∪ g_past ∪ g_quarter_to ∪ g_min_to ∪ insert (u "00").
Definition rest : fst :=
  ques (insert (u " ") + DELETE_SPACE + verbalize_field (u "noon") (Some g_noon) true)
  + ques (insert (u " ") + DELETE_SPACE + verbalize_field (u "zone") (Some g_zone) true).
Definition v_regular : fst :=
  verbalize_field (u "hour") (Some (g_hour ∪ g_hour_to)) false + insert (u ":") + DELETE_SPACE
  + verbalize_field (u "minute") (Some g_minutes) true + rest.
Definition v_to : fst :=
  verbalize_field (u "hour") (Some g_hour_to) false + insert (u ":") + DELETE_SPACE
  + verbalize_field (u "minute") (Some (g_quarter_to ∪ g_min_to)) true + rest + delete (u " style: ""to""").
Definition name : text := u "time".
Definition rule : rule := Rule (add_tokens name time) (delete_tokens name (v_regular ∪ v_to)).
End Time.

(** ** itn/english/rules/measure.py:34-106 *)
Module Measure.
(** :43-49: the first symbol of each name, in the order of the file; no line of the file
    starts or ends with white space *)
Definition add_name (d : list (text * text)) (l : string) : list (text * text) :=
  let '(symbol, name) := entry l in
  if existsb (fun e => text_eqb (Datatypes.fst e) name) d then d else d ++ [(name, symbol)].
Definition singular_names : list (text * text) := fold_left add_name en_itn_data_measurements [].
(** :51-66 *)
Definition vowel (c : N) : bool := existsb (N.eqb c) (u "aeiou").
Definition plural (name : text) : text :=
  if text_eqb name (u "foot") then u "feet"
  else if text_eqb name (u "inch") then u "inches"
  else if text_eqb name (u "ounce") then u "ounces"
  else if existsb (ends_with name) (map u ["s"; "z"; "sh"; "ch"; "x"]%string) then name ++ u "es"
  else match rev name with
       | y :: c :: r => if (y =? 121)%N && negb (vowel c) then rev r ++ [c] ++ u "ies" else name ++ u "s"
       | _ => name ++ u "s"
       end.
Definition unit_singular : fst := inverted en_itn_data_measurements.
Definition unit_plural : fst := Table (map (fun e => (plural (Datatypes.fst e), snd e)) singular_names).
Definition unit : fst := unit_singular ∪ unit_plural.
(** :74-75 *)
Definition per_unit : fst := Weight 10000 (insert (u "/") + delete (u "per") + ds + unit_singular).
Definition g_units : fst := (unit + ques (ds + per_unit)) ∪ per_unit.
(** :78-94 *)
Definition frac_graph : fst := Decimal.frac_graph.
Definition decimal_value : fst := Cardinal.graph + ds + delete (u "point") + ds + insert (u ".") + frac_graph.
Definition minus : fst := delete (u "minus") ∪ delete (u "negative").
Definition optional_sign : fst := ques (insert (u "-") + minus + ds).
Definition point_only : fst := delete (u "point") + ds + insert (u ".") + frac_graph.
Definition g_value : fst := optional_sign + (decimal_value ∪ Cardinal.graph ∪ point_only).
Definition name : text := u "measure".
Definition rule : rule :=
  Rule (add_tokens name (tag_field (u "value") g_value + ds + insert (u " ") + tag_field (u "units") g_units))
       (delete_tokens name (verbalize_field (u "value") (Some g_value) false + DELETE_SPACE + insert (u " ")
                            + verbalize_field (u "units") (Some g_units) false)).
End Measure.

(** ** itn/english/rules/money.py:34-121 *)
Module Money.
(** :39-48 *)
Definition singular_pairs : list (text * text) := map swap (labels en_itn_data_currency).
Definition plural (name : text) : text := name ++ (if ends_with name (u "s") then u "es" else u "s").
Definition plural_pairs : list (text * text) := map (fun e => (plural (Datatypes.fst e), snd e)) singular_pairs.
Definition currency_singular : fst := Table singular_pairs.
Definition currency_plural : fst := Table (singular_pairs ++ plural_pairs).
Definition cent : fst := delete (u "cent") ∪ delete (u "cents").
Definition magnitude : fst :=
  strings (filter (fun t => negb (text_eqb t (u "thousand"))) (map snd (labels en_itn_data_magnitudes))).
(** :55-64 *)
Definition with_hundred : fst :=
  (Star NOT_SPACE + accep (u " ") + insert (u "hundred ") + VSIGMA) @ (Cardinal.graph @ DIGIT ** 3).
Definition not_one : fst := (DIGIT + DIGIT + Star DIGIT) ∪ Class (fun c => is_digit c && negb (c =? 49)%N).
Definition cardinal_plural : fst := (Cardinal.graph ∪ with_hundred) @ not_one.
Definition one : fst := Cross (u "one") (u "1").
(** :76-81 *)
Definition frac : fst := Decimal.frac_graph.
Definition decimal_value : fst := Cardinal.graph + ds + delete (u "point") + ds + insert (u ".") + frac.
Definition decimal_no_int_value : fst := insert (u ".") + delete (u "point") + ds + frac.
(** :94-105 *)
Definition cents_graph : fst := Table (map (fun x => (num_to_word x, dec2 x)) (range 1 100)).
Definition decimal_with_cents : fst := ques (delete (u "and") + ds) + cents_graph + ds + cent.
Definition cents_only_decimal : fst := cents_graph + ds + cent.
Definition value (g : fst) : fst := tag_field (u "value") g.
Definition currency (g : fst) : fst := tag_field (u "currency") g.
Definition quantity : fst := tag_field (u "quantity") magnitude.
Definition money : fst :=
  ((value cardinal_plural + ds + insert (u " ") + currency currency_plural)
   ∪ (value one + ds + insert (u " ") + currency currency_singular))
  ∪ Weight (-10000) (value Cardinal.up_to_999 + ds + insert (u " ") + quantity + ds + insert (u " ") + currency currency_plural)
  ∪ Weight (-10000) (value decimal_value + ds + insert (u " ") + quantity + ds + insert (u " ") + currency currency_plural)
  ∪ (value decimal_value + ds + insert (u " ") + currency currency_plural)
  ∪ (value decimal_no_int_value + ds + insert (u " ") + currency currency_plural)
  ∪ (value Cardinal.graph + ds + insert (u " ") + currency currency_plural + ds + insert (u " ")
     + tag_field (u "decimal") decimal_with_cents)
  ∪ (value Cardinal.graph + ds + insert (u " ") + currency currency_plural + ds + insert (u " ")
     + tag_field (u "decimal") cents_graph)
  ∪ (currency (insert (u "$")) + insert (u " ") + tag_field (u "decimal") cents_only_decimal).
(** :103-121 *)
Definition g_value : fst :=
  cardinal_plural ∪ one ∪ Cardinal.up_to_999 ∪ decimal_value ∪ decimal_no_int_value ∪ Cardinal.graph.
Definition g_currency : fst := currency_plural ∪ currency_singular ∪ insert (u "$").
Definition g_decimal : fst := decimal_with_cents ∪ cents_graph ∪ cents_only_decimal.
Definition v_currency : fst := verbalize_field (u "currency") (Some g_currency) false.
Definition v_decimal : fst := verbalize_field (u "decimal") (Some g_decimal) true.
Definition verbalizer : fst :=
  (v_currency + verbalize_field (u "value") (Some g_value) true
   + ques (insert (u ".") + DELETE_SPACE + v_decimal)
   + ques (insert (u " ") + DELETE_SPACE + verbalize_field (u "quantity") (Some magnitude) true))
  ∪ (v_currency + insert (u "0.") + DELETE_SPACE + v_decimal).
Definition name : text := u "money".
Definition rule : rule := Rule (add_tokens name money) (delete_tokens name verbalizer).
End Money.

(** ** itn/english/rules/telephone.py:31-147 *)
Module Telephone.
(** :35-71 *)
Definition single : fst := digit ∪ zero ∪ Cross (u "o") (u "0") ∪ Cross (u "oh") (u "0").
Definition digit_words : list (string * string) :=
  [("one", "1"); ("two", "2"); ("three", "3"); ("four", "4"); ("five", "5"); ("six", "6"); ("seven", "7");
   ("eight", "8"); ("nine", "9"); ("zero", "0"); ("oh", "0"); ("o", "0")]%string.
Definition double : fst :=
  Table (map (fun '(w, d) => (u "double " ++ u w, u d ++ u d)) digit_words).
Definition triple : fst :=
  Table (map (fun '(w, d) => (u "triple " ++ u w, u d ++ u d ++ u d)) digit_words).
Definition two_digit : fst := Cardinal.two_digit.
Definition token : fst := single ∪ double ∪ triple ∪ Weight 20 two_digit.
Definition seq : fst := token + Star (ds + token).
Definition dash : fst := insert (u "-").
(** :80-90 *)
Definition phone : fst := seq @ (DIGIT ** 3 + dash + DIGIT ** 3 + dash + DIGIT ** 4).
Definition country_digits : fst :=
  single ∪ Weight (-10) (single + ds + single) ∪ Weight (-20) (single + ds + single + ds + single) ∪ Weight 20 two_digit.
Definition country_code : fst := ques (Cross (u "plus ") (u "+")) + country_digits.
Definition optional_cc : fst := ques (tag_field (u "country_code") country_code + ds + insert (u " ")).
Definition number_field (graph : fst) (kind : string) : fst :=
  tag_field (u "number_part") graph + insert (u " kind: """ ++ u kind ++ u """").
(** :98-111 *)
Definition ssn : fst := seq @ (DIGIT ** 3 + dash + DIGIT ** 2 + dash + DIGIT ** 4).
Definition ip_token : fst :=
  (single + ques (ds + single + ques (ds + single))) ∪ double ∪ triple ∪ Weight 20 two_digit
  ∪ (single + ds + two_digit) ∪ (two_digit + ds + single).
Definition ip : fst := ip_token + (Cross (u " dot ") (u ".") + ip_token) ** 3.
(** :114-121 *)
Definition space : fst := insert (u " ").
Definition cc_format : fst :=
  (DIGIT ** 4 + space + DIGIT ** 4 + space + DIGIT ** 4 + space + DIGIT ** 4)
  ∪ (DIGIT ** 4 + space + DIGIT ** 6 + space + DIGIT ** 4)
  ∪ (DIGIT ** 4 + space + DIGIT ** 6 + space + DIGIT ** 5).
Definition credit_card : fst := seq @ cc_format.
(** :125-136 *)
Definition not_a : fst := Class (fun c => is_alpha c && negb (c =? 97)%N && negb (c =? 65)%N).
Definition serial_digit : fst := single ∪ Weight (-20) two_digit.
Definition serial_char : fst := serial_digit ∪ ALPHA.
Definition at_least_two (a : fst) : fst := a + a + Star a.
Definition seq1 : fst :=
  ((not_a ∪ serial_digit) + at_least_two (ds + serial_char)) ∪ (serial_char + at_least_two (ds + (single ∪ ALPHA))).
Definition seq2 : fst :=
  (ALPHA + plus (ds + ALPHA) + plus (ds + two_digit)) ∪ (not_a + plus (ds + two_digit))
  ∪ (two_digit + plus (ds + two_digit) + plus (ds + ALPHA)).
Definition serial : fst :=
  Weight 20000 ((seq1 ∪ seq2) @ (Star (ALPHA ∪ DIGIT) + DIGIT + Star (ALPHA ∪ DIGIT))).
Definition graph : fst :=
  (optional_cc + number_field phone "phone") ∪ number_field ssn "ssn" ∪ Weight (-10) (number_field ip "ip")
  ∪ (optional_cc + number_field credit_card "credit_card") ∪ number_field serial "serial".
(** :138-147 *)
Definition v_kind (graph : fst) (kind : string) : fst :=
  let marker := delete (u " kind: """ ++ u kind ++ u """") in
  (verbalize_field (u "country_code") (Some country_code) false + DELETE_SPACE + insert (u " ")
   + verbalize_field (u "number_part") (Some graph) true + marker)
  ∪ (verbalize_field (u "number_part") (Some graph) false + marker).
Definition verbalizer : fst :=
  v_kind phone "phone" ∪ v_kind ssn "ssn" ∪ v_kind ip "ip" ∪ v_kind credit_card "credit_card" ∪ v_kind serial "serial".
Definition name : text := u "telephone".
Definition rule : rule := Rule (add_tokens name graph) (delete_tokens name verbalizer).
End Telephone.

(** ** itn/english/rules/electronic.py:29-79 *)
Module Electronic.
(** :33-41 *)
Definition symbols : fst := inverted en_itn_electronic_symbols.
Definition char : fst := ALPHA ∪ digit ∪ zero.
Definition word : fst := Weight 1000 (ALPHA + ALPHA + Star ALPHA).
Definition token : fst := char ∪ symbols ∪ word.
(** difference(word, accep("dot")): the weighted acceptor [word] without that text *)
Definition first_token : fst := char ∪ (word @ except [u "dot"]).
Definition component : fst := first_token + Star (ds + token).
(** :43-70 *)
Definition dot : fst := Cross (u "dot") (u ".").
Definition domain : fst := component + plus (ds + dot + ds + component).
Definition g_domain : fst := delete (u "at") + ds + domain.
Definition protocol : fst :=
  (Cross (u "h t t p") (u "http") ∪ Cross (u "h t t p s") (u "https")) + Cross (u " colon slash slash ") (u "://").
Definition www : fst := Cross (u "w w w") (u "www").
Definition g_protocol : fst :=
  (protocol + ques (www + ds + dot + ds) + domain) ∪ (www + ds + dot + ds + domain) ∪ domain.
Definition name : text := u "electronic".
Definition rule : rule :=
  Rule (add_tokens name (Weight (-10) (tag_field (u "username") component + ds + insert (u " ")
                                       + tag_field (u "domain") g_domain)
                         ∪ tag_field (u "protocol") g_protocol))
       (delete_tokens name ((verbalize_field (u "username") (Some component) false + DELETE_SPACE + insert (u "@")
                             + verbalize_field (u "domain") (Some g_domain) false)
                            ∪ verbalize_field (u "protocol") (Some g_protocol) false)).
End Electronic.

(** ** itn/english/rules/whitelist.py:27-33 *)
Module Whitelist.
(** A third column is the weight of the entry; the only one in the file is -1.1. *)
Definition light (l : text) : bool := ends_with l (9%N :: u "-1.1").
Definition drop_weight (l : text) : text := firstn (List.length l - 5) l.
Definition row (l : text) : text * text :=
  match split_tab l with (a, Some b) => (b, a) | (a, None) => (a, a) end.
Definition lines : list text := map u en_itn_data_whitelist.
Definition graph : fst :=
  Table (map row (filter (fun l => negb (light l)) lines))
  ∪ Weight (-11000) (Table (map (fun l => row (drop_weight l)) (filter light lines))).
Definition name : text := u "whitelist".
Definition rule : rule :=
  Rule (add_tokens name (tag_field (u "value") graph))
       (delete_tokens name (verbalize_field (u "value") (Some graph) false)).
End Whitelist.

(** ** itn/english/rules/word.py:28-31 *)
Module Word.
Definition valid_char : fst := Class (fun c => vchar c && negb (is_space c) && negb (c =? 34)%N && negb (c =? 92)%N).
Definition name : text := u "word".
Definition rule : rule :=
  Rule (add_tokens name (insert (u "value: """) + plus valid_char + insert (u """"))) (build_verbalizer name).
End Word.

(** ** itn/english/rules/char.py:27-29 *)
Module Char.
Definition name : text := u "char".
Definition rule : rule :=
  Rule (add_tokens name (insert (u "value: """) + CHAR + insert (u """"))) (build_verbalizer name).
End Char.

(** ** itn/english/rules/punctuation.py:28-31 *)
Module Punctuation.
Definition marks : text := u "!#$%&'()*+,-./:;<=>?@^_`{|}~".
Definition punct : fst := Class (fun c => existsb (N.eqb c) marks).
Definition name : text := u "punctuation".
Definition rule : rule :=
  Rule (add_tokens name (insert (u "value: """) + punct + insert (u """"))) (build_verbalizer name).
End Punctuation.

(** ** itn/english/inverse_normalizer.py:50-96 *)
Definition rules : list rule_spec :=
  [ RuleSpec Date.rule (Some 10900%Z) true;
    RuleSpec Time.rule (Some 11000%Z) true;
    RuleSpec Measure.rule (Some 11000%Z) true;
    RuleSpec Money.rule (Some 10800%Z) true;
    RuleSpec Whitelist.rule (Some 10100%Z) true;
    RuleSpec Telephone.rule (Some 11000%Z) true;
    RuleSpec Electronic.rule (Some 11000%Z) true;
    RuleSpec Ordinal.rule (Some 10900%Z) true;
    RuleSpec Decimal.rule (Some 11000%Z) true;
    RuleSpec Cardinal.rule (Some 11000%Z) true;
    RuleSpec Word.rule (Some 500000%Z) true;
    RuleSpec Char.rule (Some 1000000%Z) true ].
Definition punct : fst := Weight 11000 (r_tagger Punctuation.rule).
Definition token (classify : fst) : fst := Star (punct + ques ds) + classify + Star (ques ds + punct).
Definition sentence (classify : fst) : fst :=
  let graph := token classify + Star (DELETE_EXTRA_SPACE + token classify) in
  Star ds + graph + Star ds.
Definition tagger : option fst :=
  match tagger_union rules with Some classify => Some (sentence classify) | None => None end.
Definition verbalizer_rules : list rule_spec := rules ++ [RuleSpec Punctuation.rule None true].
Definition verbalizer : option fst :=
  match verbalizer_union verbalizer_rules with
  | Some v => Some (Star (v + insert (u " ")) @ build_rule DELETE_EXTRA_SPACE Anywhere Anywhere
                    @ build_rule ds Anywhere Edge)
  | None => None
  end.
