(** Transcription of the English normalisation grammar: /repo/tn/english/rules and
    /repo/tn/english/normalizer.py.  [x |= y] is [x = x | y]; a union of strings or of
    crosses is kept as the table of its pairs.  Weights are integers in hundred-thousandths
    here, the smallest weight of this grammar being 0.00001.  Every rule but Telephone is
    built with deterministic=False.  Model only. *)
From Coq Require Import List NArith ZArith Bool String.
From Verif Require Import Text Fst GrammarModel DataEnTn.
From Verif Require EnItnModel.
Import EnItnModel(strings, swap, inverted, NOT_SPACE, DELETE_SPACE, DELETE_EXTRA_SPACE, labels, ends_with,
                  range, dec).
Import ListNotations.
Local Open Scope list_scope.
Local Open Scope fst_scope.

(** ** Graph operations the other grammars do not use *)
(** Processor.__init__, tn/processor.py:128-141 *)
Definition LOWER : fst := Class (in_range 97 122).
Definition UPPER : fst := Class (in_range 65 90).
Definition NOT_QUOTE : fst := Class (fun c => vchar c && negb (c =? 34)%N).
Definition INSERT_SPACE : fst := insert (u " ").
Definition DELETE_ZERO_OR_ONE_SPACE : fst := Erase (ques SPACE).
Definition TO_LOWER : fst := Table (map (fun n => ([N.of_nat (65 + n)], [N.of_nat (97 + n)])) (seq 0 26)).
Definition TO_UPPER : fst := Table (map (fun n => ([N.of_nat (97 + n)], [N.of_nat (65 + n)])) (seq 0 26)).
(** delete(" ") *)
Definition ds : fst := delete (u " ").
(** DIGIT - "0", DIGIT - "1" and the like *)
Definition digit_but (l : list N) : fst := Class (fun c => is_digit c && negb (existsb (N.eqb c) l)).
Definition nonzero : fst := digit_but [48%N].
(** closure(a, 0, n) *)
Fixpoint upto (a : fst) (n : nat) : fst :=
  match n with O => Cross [] [] | S m => ques (a + upto a m) end.
(** closure(a, n) and a ** (n, ...): at least [n] times *)
Definition at_least (a : fst) (n : nat) : fst := a ** n + Star a.
(** pynini.examples.plurals._priority_union(q, r, VCHAR.star): [q], and [r] on the inputs that
    [q] does not have. *)
Definition priority_union (q r : fst) : fst := q ∪ Except q @ r.
(** cdrewrite(tau, "", "[EOS]", VSIGMA) where [tau] is a table or the insertion of [rest]: an
    obligatory rule applied at the end.  No key of the tables used is the end of another: the
    key that ends the text is replaced, and where none does [rest] is added. *)
Definition at_end (keys : fst) (rest : text) : fst :=
  VSIGMA + keys ∪ Except (VSIGMA + keys) + insert rest.
(** cdrewrite(insert(" "), l, r, VSIGMA) for sets of characters *)
Definition space_between (l r : N -> bool) : fst := Rewrite (INSERT_SPACE + Class r) (Next l) Anywhere.
(** augment_labels_with_punct_at_end, tn/utils.py:52-68 *)
Definition augment (l : list (text * text)) : list (text * text) :=
  flat_map (fun e : text * text =>
              if ends_with (Datatypes.fst e) (u ".") && negb (ends_with (snd e) (u "."))
              then [(Datatypes.fst e, snd e ++ u ".")] else []) l.
(** x[0].upper() + x[1:]; the words it is used for start with an ASCII letter *)
Definition upper (c : N) : N := if in_range 97 122 c then (c - 32)%N else c.
Definition capital (t : text) : text := match t with [] => [] | c :: r => upper c :: r end.
(** get_formats, tn/utils.py:71-92 *)
Definition formats (l : list (text * text)) : list (text * text) :=
  l ++ flat_map (fun e : text * text =>
                   [(Datatypes.fst e ++ u ".", snd e); (capital (Datatypes.fst e), capital (snd e));
                    (capital (Datatypes.fst e) ++ u ".", capital (snd e))]) l.
(** f"{y[0]}.{y[1:]}" *)
Definition dotted (t : text) : text := match t with [] => u "." | c :: r => c :: u "." ++ r end.
(** delete("name:") + DELETE_SPACE + delete('"') + graph + delete('"') *)
Definition raw_field (name : string) (graph : fst) : fst :=
  delete (u name ++ u ":") + DELETE_SPACE + delete (u """") + graph + delete (u """").
(** delete('name: "') + graph + delete('"') *)
Definition plain_field (name : string) (graph : fst) : fst :=
  delete (u name ++ u ": """) + graph + delete (u """").

(** ** english/data/number/cardinal_number_name.far
    The graph stored in the file, on the texts of digits (the only ones it is used on).  It is
    written here from the names; tools/check_far.py compares it with the file.  The numbers
    have no zeros in front and at most fifteen digits. *)
Definition graph_digit : fst := inverted en_tn_number_digit.
Definition graph_zero : fst := inverted en_tn_number_zero.
Definition graph_teen : fst := inverted en_tn_number_teen.
Definition ties_graph : fst := inverted en_tn_number_ty.
Module Names.
Definition tens : fst := graph_teen ∪ ties_graph + delete (u "0") ∪ ties_graph + INSERT_SPACE + graph_digit.
(** 1 to 9 or 10 to 99 after zeros, or nothing for zeros *)
Definition after_hundred : fst :=
  delete (u "00") ∪ INSERT_SPACE + delete (u "0") + graph_digit ∪ INSERT_SPACE + tens.
Definition hundreds : fst := graph_digit + insert (u " hundred") + after_hundred.
Definition up_to_999 : fst := graph_digit ∪ tens ∪ hundreds.
(** a group of three digits inside a number *)
Definition group (name : string) : fst :=
  delete (u "000")
  ∪ INSERT_SPACE + (delete (u "00") + graph_digit ∪ delete (u "0") + tens ∪ hundreds) + insert (u name).
Definition first (name : string) : fst := up_to_999 + insert (u name).
Definition graph : fst :=
  graph_zero ∪ up_to_999
  ∪ first " thousand" + group ""
  ∪ first " million" + group " thousand" + group ""
  ∪ first " billion" + group " million" + group " thousand" + group ""
  ∪ first " trillion" + group " billion" + group " million" + group " thousand" + group "".
End Names.

(** ** tn/english/rules/cardinal.py:37-149 *)
Module Cardinal.
(** :45-46 *)
Definition graph_hundred_component_at_least_one_none_zero_digit : fst :=
  (DIGIT + DIGIT + ques DIGIT ∪ nonzero) @ Names.graph.
(** :51, the local single_digits_graph; :57-58 *)
Definition single_digit : fst := graph_digit ∪ graph_zero.
Definition single_digit_oh : fst := graph_digit ∪ Cross (u "0") (u "oh").
(** :60-62 *)
Definition single_digits_graph : fst :=
  Weight 100000 (single_digit + Star (INSERT_SPACE + single_digit))
  ∪ single_digit_oh + Star (INSERT_SPACE + single_digit_oh).
(** :64-68 *)
Definition three_single : fst :=
  delete (u ",") + single_digit + INSERT_SPACE + single_digit + INSERT_SPACE + single_digit.
Definition single_digits_graph_with_commas : fst :=
  (single_digits_graph + INSERT_SPACE + upto (single_digits_graph + INSERT_SPACE) 2)
  + (three_single + Star (INSERT_SPACE + three_single)).
(** :70-73 *)
Definition graph : fst :=
  (DIGIT + upto DIGIT 2 + (Star (delete (u ",") + DIGIT ** 3) ∪ Star (DIGIT ** 3))) @ Names.graph.
(** :109-131, add_optional_and(graph) *)
Definition not_quote : fst := Star NOT_QUOTE.
Definition no_thousand_million : fst :=
  not_quote @ Except (not_quote + strings (map u ["thousand"; "million"]%string) + not_quote).
Definition no_hundred : fst := Except (not_quote + accep (u "hundred") + not_quote).
Definition integer_and : fst :=
  not_quote + Weight (-10) (Cross (u "hundred ") (u "hundred and ") + no_thousand_million)
  ∪ not_quote + Weight (-10) (Cross (u "thousand ") (u "thousand and ") + no_hundred).
Definition optional_hundred : fst :=
  (nonzero ** 3 @ graph) @ (VSIGMA + Cross (u " hundred") [] + VSIGMA).
Definition graph_with_and : fst := Weight 1 graph ∪ graph @ integer_and ∪ optional_hundred.
(** :84-92 *)
Definition leading_zeros : fst := plus (accep (u "0")) @ single_digits_graph.
Definition cardinal_with_leading_zeros : fst := leading_zeros + INSERT_SPACE + Star DIGIT @ graph_with_and.
Definition long_numbers : fst := graph_with_and ∪ Weight 10 single_digits_graph.
Definition final0 : fst :=
  long_numbers ∪ Weight 10 single_digits_graph_with_commas ∪ cardinal_with_leading_zeros.
(** :94-103 *)
Definition one_to_a : fst :=
  Weight 10 (Cross (u "one hundred") (u "a hundred"))
  ∪ Weight (-10) (Cross (u "one thousand") (u "thousand"))
  ∪ Weight 10 (Cross (u "one million") (u "a million")).
Definition final1 : fst := final0 ∪ final0 @ (one_to_a + VSIGMA).
Definition four_digit_comma : fst := nonzero + delete (u ",") + DIGIT ** 3.
Definition final_graph : fst := final1 ∪ four_digit_comma @ final1.
(** :104-107 *)
Definition optional_minus : fst := ques (tag_field (u "negative") (Cross (u "-") (u "true")) + INSERT_SPACE).
(** :133-149 *)
Definition optional_sign : fst :=
  ques ((Cross (u "negative: ""-""") (u "minus ")
         ∪ Weight (-10) (Cross (u "negative: ""-""") (u "negative "))
         ∪ Cross (u "negative: ""-""") (u "dash ")) + DELETE_SPACE).
Definition integer : fst := DELETE_SPACE + delete (u """") + final_graph + delete (u """").
Definition name : text := u "cardinal".
Definition rule : rule :=
  Rule (add_tokens name (optional_minus + tag_field (u "integer") final_graph))
       (delete_tokens name (optional_sign + (delete (u "integer:") + integer))).
End Cardinal.

(** ** tn/english/rules/ordinal.py:33-75 *)
Module Ordinal.
(** :39-49 *)
Definition cardinal_format : fst := Star (Class (fun c => is_digit c || (c =? 44)%N)).
Definition not_after_one : fst := ques (cardinal_format + digit_but [49%N]).
Definition st_format : fst :=
  not_after_one + accep (u "1") + Erase (strings (map u ["st"; "ST"; "ˢᵗ"]%string)).
Definition nd_format : fst :=
  not_after_one + accep (u "2") + Erase (strings (map u ["nd"; "ND"; "ⁿᵈ"]%string)).
Definition rd_format : fst :=
  not_after_one + accep (u "3") + Erase (strings (map u ["rd"; "RD"; "ʳᵈ"]%string)).
Definition th_format : fst :=
  plus (digit_but [49; 50; 51]%N
        ∪ cardinal_format + accep (u "1") + DIGIT
        ∪ cardinal_format + digit_but [49%N] + digit_but [49; 50; 51]%N)
  + Erase (strings (map u ["th"; "TH"; "ᵗʰ"]%string)).
(** :50 *)
Definition graph : fst := (st_format ∪ nd_format ∪ rd_format ∪ th_format) @ Cardinal.graph.
(** :60-73 *)
Definition suffix : fst :=
  at_end (inverted en_tn_ordinal_digit ∪ inverted en_tn_ordinal_teen ∪ Cross (u "ty") (u "tieth")) (u "th").
Definition graph_v : fst := raw_field "integer" graph @ suffix.
Definition name : text := u "ordinal".
Definition rule : rule :=
  Rule (add_tokens name (tag_field (u "integer") graph)) (delete_tokens name graph_v).
End Ordinal.

(** ** tn/english/rules/decimal.py:23-145 *)
Module Decimal.
(** :24-26 *)
Definition quantities : fst := string_file en_tn_number_thousand.
Definition quantities_abbr : fst :=
  string_file en_tn_number_quantity_abbr ∪ TO_UPPER @ string_file en_tn_number_quantity_abbr.
(** :29-54, get_quantity; k, K and thousand are left out of the inputs *)
Definition not_thousand (g : fst) : fst := Except (strings (map u ["k"; "K"; "thousand"]%string)) @ Input g.
Definition quantity_wo_thousand (include_abbr : bool) : fst :=
  if include_abbr then not_thousand quantities ∪ not_thousand quantities_abbr else not_thousand quantities.
Definition quantity_of (include_abbr : bool) : fst :=
  if include_abbr then quantities ∪ quantities_abbr else quantities.
Definition get_quantity (decimal cardinal_up_to_hundred : fst) (include_abbr : bool) : fst :=
  (tag_field (u "integer_part") cardinal_up_to_hundred + ques ds + INSERT_SPACE
   + tag_field (u "quantity") (quantity_wo_thousand include_abbr @ (quantities ∪ quantities_abbr)))
  ∪ (decimal + ques ds + INSERT_SPACE + tag_field (u "quantity") (quantity_of include_abbr)).
(** :77-80 *)
Definition graph : fst := Cardinal.single_digits_graph ∪ Weight 10000 Cardinal.graph_with_and.
(** :82-88 *)
Definition optional_graph_negative : fst := Cardinal.optional_minus.
Definition graph_fractional : fst := tag_field (u "fractional_part") graph.
Definition graph_integer : fst := tag_field (u "integer_part") Cardinal.graph_with_and.
Definition final_graph_wo_sign : fst :=
  ques (graph_integer + INSERT_SPACE) + delete (u ".") + INSERT_SPACE + graph_fractional.
(** :90-102 *)
Definition with_quantity (include_abbr : bool) : fst :=
  get_quantity final_graph_wo_sign Cardinal.graph_hundred_component_at_least_one_none_zero_digit include_abbr.
Definition final_graph_wo_negative_w_abbr : fst := final_graph_wo_sign ∪ with_quantity true.
Definition final_graph_wo_negative : fst := final_graph_wo_sign ∪ with_quantity false.
Definition quantity_graph : fst := quantities ∪ quantities_abbr.
(** :114-134 *)
Definition optional_sign : fst :=
  ques ((Cross (u "negative: ""-""") (u "minus ")
         ∪ Weight 10000 (Cross (u "negative: ""-""") (u "negative "))) + DELETE_SPACE).
Definition integer : fst := delete (u "integer_part:") + Cardinal.integer.
Definition optional_integer : fst := ques (integer + DELETE_SPACE + INSERT_SPACE).
Definition fractional : fst := insert (u "point ") + raw_field "fractional_part" graph.
Definition quantity : fst := DELETE_SPACE + INSERT_SPACE + raw_field "quantity" quantity_graph.
Definition optional_quantity : fst := ques quantity.
Definition numbers : fst :=
  optional_sign + (integer ∪ integer + quantity ∪ optional_integer + fractional + optional_quantity).
(** :136-144; measure.py:265-273 has the same alternatives *)
Definition colloquial : fst :=
  VSIGMA + (Cross (u " point five") (u " and a half") ∪ Cross (u "zero point five") (u "half")
            ∪ Cross (u " point two five") (u " and a quarter") ∪ Cross (u "zero point two five") (u "quarter")).
Definition name : text := u "decimal".
Definition verbalizer : fst :=
  delete_tokens name numbers ∪ Weight 10 (delete_tokens name numbers @ colloquial).
Definition rule : rule :=
  Rule (add_tokens name (optional_graph_negative + final_graph_wo_negative)) verbalizer.
End Decimal.

(** The endings of an ordinal, in fraction.py:49-50 and date.py:185-187 *)
Definition endings : fst := strings (map u ["rd"; "th"; "st"; "nd"; "RD"; "TH"; "ST"; "ND"]%string).

(** ** tn/english/rules/fraction.py:36-132 *)
Module Fraction.
(** :44-59 *)
Definition integer_graph : fst := Cardinal.graph.
Definition integer_tag : fst := tag_field (u "integer_part") integer_graph.
Definition slash (out : string) : fst := Cross (u "/") (u out) ∪ Cross (u " / ") (u out).
Definition numerator_graph : fst := Cardinal.graph.
Definition denominator_graph : fst := Cardinal.graph + ques (Erase endings).
Definition symbol_graph : fst := string_file en_tn_number_fraction.
Definition graph : fst :=
  ques (integer_tag + accep (u " "))
    + ((tag_field (u "numerator") numerator_graph + slash " ") + tag_field (u "denominator") denominator_graph)
  ∪ ques (integer_tag + accep (u " ")) + tag_field (u "value") symbol_graph.
(** :73-93 *)
Definition denominator_value : fst := plain_field "denominator" denominator_graph.
Definition denominators : fst :=
  priority_union (denominator_value @ Cross (u "one") (u "over one"))
    (priority_union (denominator_value @ Cross (u "two") (u "half"))
       (priority_union (denominator_value @ Cross (u "four") (u "quarter"))
          (Weight 10 (denominator_value @ Ordinal.suffix))))
  ∪ Weight 10 (denominator_value @ (accep (u "four") @ Ordinal.suffix)).
(** :95-105 *)
Definition numerator_value : fst := delete (u "numerator: """) + numerator_graph + delete (u """ ").
Definition numerator_one : fst := numerator_value @ accep (u "one") + INSERT_SPACE + denominators.
Definition numerator_rest : fst :=
  (numerator_value @ (Star NOT_QUOTE @ Except (accep (u "one"))) + INSERT_SPACE + denominators)
  @ at_end (Cross (u "half") (u "halves")) (u "s").
(** :107-119 *)
Definition integer : fst :=
  ques (delete (u "integer_part: """) + integer_graph + delete (u """ ") + INSERT_SPACE + insert (u "and ")).
Definition graph0 : fst :=
  (integer + (numerator_one ∪ numerator_rest))
  @ Rewrite (Cross (u "and one half") (u "and a half") ∪ Cross (u "over ones") (u "over one")) Anywhere Edge.
(** :121-130 *)
Definition raw_numerator : fst :=
  insert (u "numerator: """) + input_projection numerator_graph + slash """ ".
Definition raw_denominator : fst :=
  insert (u "denominator: """) + input_projection denominator_graph + insert (u """").
Definition raw_integer : fst :=
  accep (u "integer_part: """) + input_projection integer_graph + accep (u """ ").
Definition symbol_body : fst :=
  ques raw_integer + (delete (u "value: """) + symbol_graph @ (raw_numerator + raw_denominator) + delete (u """")).
Definition graph_v : fst := graph0 ∪ symbol_body @ graph0.
Definition name : text := u "fraction".
Definition rule : rule := Rule (add_tokens name graph) (delete_tokens name graph_v).
End Fraction.

(** ** tn/english/rules/date.py:25-274
    [ys] stands for cdrewrite(cross("y", "ies") | insert("s"), "", "[EOS]", VCHAR).star of
    :66-71, whose alphabet is not closed under concatenation as pynini's cdrewrite requires:
    what it does is not defined, and everything here is stated for every graph [ys]. *)
Module Date.
(** :28-30 *)
Definition year_suffix : fst :=
  Table (labels en_tn_date_year_suffix ++ augment (labels en_tn_date_year_suffix)).
(** :33-47 *)
Definition get_ties_graph (deterministic : bool) : fst :=
  (graph_teen ∪ ties_graph + delete (u "0") ∪ ties_graph + INSERT_SPACE + graph_digit)
  ∪ (if deterministic then Cross (u "0") (u "oh") else Cross (u "0") (u "oh") ∪ Cross (u "0") (u "zero"))
    + INSERT_SPACE + graph_digit.
(** :50-86 *)
Definition graph_with_s (ys : fst) (deterministic : bool) : fst :=
  let ties := get_ties_graph deterministic in
  (((ties + INSERT_SPACE + ties ∪ graph_teen + INSERT_SPACE + (ties_graph ∪ Cross (u "1") (u "ten")))
    + delete (u "0s"))
   ∪ (graph_teen ∪ ties) + INSERT_SPACE + Cross (u "00") (u "hundred") + delete (u "s")) @ ys.
Definition thousand_graph : fst :=
  graph_digit + INSERT_SPACE + Cross (u "00") (u "thousand") + (delete (u "0") ∪ INSERT_SPACE + graph_digit)
  ∪ graph_digit + INSERT_SPACE + Cross (u "000") (u "thousand") + ques ds + accep (u "s").
Definition get_four_digit_year_graph (ys : fst) (deterministic : bool) : fst :=
  let ties := get_ties_graph deterministic in
  let graph := ties + INSERT_SPACE + ties
               ∪ (graph_teen ∪ ties) + INSERT_SPACE + Cross (u "00") (u "hundred")
               ∪ graph_with_s ys deterministic in
  if deterministic then priority_union thousand_graph graph else graph ∪ thousand_graph.
(** :89-96 *)
Definition two_digit_year_with_s : fst :=
  ques (delete (u "'"))
  + (ties_graph + delete (u "0s")) @ Rewrite (Cross (u "y") (u "ies")) Anywhere Edge.
(** :99-120 *)
Definition get_year_graph (ys cardinal_graph : fst) : fst :=
  (strings [u "1"; u "2"] + DIGIT ** 3 + ques (Cross (u " s") (u "s") ∪ accep (u "s")))
    @ get_four_digit_year_graph ys false
  ∪ two_digit_year_with_s
  ∪ (get_four_digit_year_graph ys true ∪ (DIGIT @ cardinal_graph) + INSERT_SPACE + DIGIT ** 2 @ cardinal_graph)
    + DELETE_SPACE + INSERT_SPACE + year_suffix.
(** :123-126 *)
Definition get_two_digit_year (cardinal_graph single_digits_graph : fst) : fst :=
  DIGIT ** 2 @ priority_union cardinal_graph single_digits_graph.
(** :129-140 *)
Definition h_ordinals : fst := Cross (u "1") (u "first") ∪ Cross (u "2") (u "second").
Definition q_ordinals : fst := h_ordinals ∪ Cross (u "3") (u "third") ∪ Cross (u "4") (u "fourth").
Definition period_graph : fst :=
  h_ordinals + Cross (u "H") (u " half") ∪ q_ordinals + Cross (u "Q") (u " quarter").
(** :166-175 *)
Definition month_graph : fst :=
  (string_file en_tn_date_month_name ∪ string_file en_tn_date_month_abbr) + ques (Erase PUNCT).
Definition month_numbers_graph : fst := string_file en_tn_date_month_number.
Definition cardinal_graph : fst := Cardinal.graph_hundred_component_at_least_one_none_zero_digit.
Definition year_graph (ys : fst) : fst := get_year_graph ys cardinal_graph.
(** :189-199 *)
Definition day_number : fst :=
  strings [u "1"; u "2"] + DIGIT ∪ DIGIT ∪ accep (u "3") + strings [u "0"; u "1"].
Definition day_graph : fst :=
  ques (delete (u "the "))
  + (ques (delete (u "0")) + day_number + ques (Erase endings)) @ cardinal_graph.
Definition two_digit_year_graph : fst :=
  get_two_digit_year cardinal_graph Cardinal.single_digits_graph + ques (delete (u ",")).
(** :201-207 *)
Definition year_after_graph (ys : fst) : fst :=
  ds + year_graph ys + ques (delete (u ","))
  ∪ Cross (u ",") (u ", ") + ques ds + year_graph ys + ques (delete (u ",")).
Definition month_tag : fst := tag_field (u "month") month_graph.
Definition month_numbers_tag : fst := tag_field (u "month") month_numbers_graph.
Definition day_tag : fst := tag_field (u "day") day_graph.
Definition graph_year (ys : fst) : fst := INSERT_SPACE + tag_field (u "year") (year_after_graph ys).
Definition year_tag (ys : fst) : fst := tag_field (u "year") (year_graph ys).
Definition day_ex_month : fst := (DIGIT ** 2 @ Except month_numbers_tag) @ day_tag.
(** :209-218; [for x in ["-", "/", "."]] is a union over the three separators *)
Definition separators (f : fst -> fst) : fst :=
  f (delete (u "-")) ∪ f (delete (u "/")) ∪ f (delete (u ".")).
Definition graph_mdy (ys : fst) : fst :=
  month_tag + ((DELETE_EXTRA_SPACE + day_tag) ∪ (accep (u " ") + day_tag) ∪ graph_year ys
               ∪ (DELETE_EXTRA_SPACE + day_tag + graph_year ys))
  ∪ (month_tag + Cross (u "-") (u " ") + day_tag
     + ques ((Cross (u "-") (u " ") + VSIGMA) @ graph_year ys))
  ∪ separators (fun delete_sep =>
       month_numbers_tag + delete_sep + INSERT_SPACE + day_tag + delete_sep + INSERT_SPACE
       + Weight (-100000) (year_tag ys)).
(** :220-225 *)
Definition graph_dmy (ys : fst) : fst :=
  day_tag + DELETE_EXTRA_SPACE + INSERT_SPACE + month_tag + ques (graph_year ys)
  ∪ separators (fun delete_sep =>
       day_ex_month + delete_sep + INSERT_SPACE + month_numbers_tag + delete_sep + INSERT_SPACE
       + Weight (-100000) (year_tag ys)).
(** :227-232 *)
Definition graph_ymd (ys : fst) : fst :=
  year_tag ys + DELETE_EXTRA_SPACE + INSERT_SPACE + month_tag + DELETE_EXTRA_SPACE + INSERT_SPACE + day_tag
  ∪ separators (fun delete_sep =>
       Weight (-100000) (year_tag ys) + delete_sep + INSERT_SPACE + month_numbers_tag + delete_sep
       + INSERT_SPACE + day_tag).
(** :234-243 *)
Definition graph_fy : fst :=
  tag_field (u "text") period_graph + INSERT_SPACE + tag_field (u "year") two_digit_year_graph.
Definition structured_graph (ys : fst) : fst :=
  Weight (-10000) (graph_mdy ys ∪ graph_dmy ys ∪ graph_ymd ys) ∪ year_tag ys ∪ graph_fy.
(** :251-273 *)
Definition day : fst := raw_field "day" day_graph @ Ordinal.suffix.
Definition period : fst := raw_field "text" period_graph.
Definition month : fst := raw_field "month" (month_graph ∪ month_numbers_graph).
Definition year (ys : fst) : fst :=
  delete (u "year:") + DELETE_SPACE + delete (u """")
  + (year_graph ys ∪ year_after_graph ys ∪ two_digit_year_graph) + DELETE_SPACE + delete (u """").
Definition verbalize_fy (ys : fst) : fst :=
  insert (u "the ") + period + insert (u " of") + ques (DELETE_EXTRA_SPACE + year ys).
Definition verbalize_dmy (ys : fst) : fst :=
  ques (insert (u "the ") + day + DELETE_EXTRA_SPACE + insert (u "of ")) + month
  + ques (DELETE_EXTRA_SPACE + year ys).
Definition verbalizer_graph (ys : fst) : fst :=
  ((verbalize_dmy ys ∪ year ys ∪ verbalize_fy ys) + DELETE_SPACE)
  @ build_rule (Cross (u " ,") (u ",")) Anywhere Anywhere.
Definition graph (ys : fst) : fst := structured_graph ys @ verbalizer_graph ys.
Definition name : text := u "date".
Definition rule (ys : fst) : rule :=
  Rule (add_tokens name (structured_graph ys)) (delete_tokens name (verbalizer_graph ys)).
End Date.

(** ** tn/english/rules/time.py:33-140 *)
Module Time.
(** :45-69 *)
Definition suffix_graph : fst := Table (labels en_tn_time_suffix ++ augment (labels en_tn_time_suffix)).
Definition zone_graph : fst := string_file en_tn_time_zone.
Definition hour_graph : fst :=
  ((DIGIT + DIGIT ∪ ques (delete (u "0")) + DIGIT) @ strings (map dec (range 0 24))) @ Cardinal.graph.
Definition minute_single : fst := strings (map dec (range 1 10)) @ Cardinal.graph.
Definition minute_double : fst := strings (map dec (range 10 60)) @ Cardinal.graph.
Definition minute_graph : fst := Cross (u "0") (u "o") + INSERT_SPACE + minute_single ∪ minute_double.
Definition minute_zero_graph : fst := Cross (u "00") (u "zero").
(** :71-76 *)
Definition hours : fst := tag_field (u "hours") hour_graph.
Definition minutes : fst := tag_field (u "minutes") minute_graph.
Definition minutes_zero : fst := tag_field (u "minutes") minute_zero_graph.
Definition seconds : fst := tag_field (u "seconds") minute_graph.
Definition seconds_zero : fst := tag_field (u "seconds") minute_zero_graph.
Definition suffix_tag : fst := tag_field (u "suffix") suffix_graph.
Definition suffix_optional : fst := ques (DELETE_SPACE + INSERT_SPACE + suffix_tag).
Definition zone_optional : fst := ques (DELETE_SPACE + INSERT_SPACE + tag_field (u "zone") zone_graph).
(** :79-96 *)
Definition graph_hm : fst :=
  hours + delete (u ":") + INSERT_SPACE + (minutes_zero ∪ minutes) + suffix_optional + zone_optional.
Definition graph_hms : fst :=
  hours + delete (u ":") + (INSERT_SPACE + minutes_zero ∪ INSERT_SPACE + minutes) + delete (u ":")
  + (INSERT_SPACE + seconds_zero ∪ INSERT_SPACE + seconds) + suffix_optional + zone_optional.
Definition graph_hm2 : fst :=
  hours + delete (u ".") + INSERT_SPACE + (minutes_zero ∪ minutes) + DELETE_SPACE + INSERT_SPACE + suffix_tag
  + zone_optional.
Definition graph_h : fst := hours + DELETE_SPACE + INSERT_SPACE + suffix_tag + zone_optional.
Definition structured_graph : fst := graph_hm ∪ graph_h ∪ graph_hm2 ∪ graph_hms.
(** :107-120 *)
Definition hour : fst := raw_field "hours" hour_graph.
Definition minute_nonzero : fst := raw_field "minutes" minute_graph.
Definition minute : fst := raw_field "minutes" (minute_graph ∪ minute_zero_graph).
Definition zero_minute : fst := raw_field "minutes" (delete (u "00")).
Definition suffix : fst := raw_field "suffix" suffix_graph.
Definition optional_suffix : fst := ques (DELETE_SPACE + INSERT_SPACE + suffix).
Definition zone : fst := raw_field "zone" zone_graph.
Definition optional_zone : fst := ques (DELETE_SPACE + INSERT_SPACE + zone).
Definition second : fst := raw_field "seconds" (minute_graph ∪ minute_zero_graph).
(** :121-131.  The rule's left context is a space or the beginning: a space is put before the
    text and taken away again, so that the context is always a space. *)
Definition singular_hms : fst :=
  (insert (u " ") + VSIGMA)
  @ Rewrite (delete (u "o ") ∪ Cross (u "one minutes") (u "one minute")
             ∪ Cross (u "one seconds") (u "one second") ∪ Cross (u "one hours") (u "one hour"))
      (Next (N.eqb 32)) Anywhere
  @ (delete (u " ") + VSIGMA).
Definition verbalize_hms : fst :=
  (hour + insert (u " hours ") + DELETE_SPACE + minute + insert (u " minutes and ") + DELETE_SPACE + second
   + insert (u " seconds") + optional_suffix + optional_zone) @ singular_hms.
(** :132-140 *)
Definition verbalizer_graph : fst :=
  hour + DELETE_SPACE + INSERT_SPACE + minute_nonzero + optional_suffix + optional_zone
  ∪ hour + DELETE_SPACE + zero_minute + INSERT_SPACE + insert (u "o'clock") + optional_zone
  ∪ hour + DELETE_SPACE + zero_minute + DELETE_SPACE + INSERT_SPACE + suffix + optional_zone
  ∪ hour + DELETE_SPACE + INSERT_SPACE + suffix + optional_zone
  ∪ verbalize_hms.
Definition graph : fst := structured_graph @ verbalizer_graph.
Definition name : text := u "time".
Definition rule : rule := Rule (add_tokens name structured_graph) (delete_tokens name verbalizer_graph).
End Time.

(** ** tn/english/rules/measure.py:27-313 *)
Module Measure.
(** :27-66 *)
Definition consonant : fst := Class (fun c => existsb (N.eqb c) (u "bcdfghjklmnpqrstvwxyz")).
Definition plural_ies : fst := VSIGMA + consonant + Cross (u "y") (u "ies").
Definition plural_es : fst := VSIGMA + strings (map u ["s"; "sh"; "ch"; "x"; "z"]%string) + insert (u "es").
Definition plural_s : fst := VSIGMA + insert (u "s").
Definition SINGULAR_TO_PLURAL : fst :=
  priority_union (string_file en_tn_data_suppletive)
    (priority_union plural_ies (priority_union plural_es plural_s)).
(** :179-195, get_range *)
Definition get_range (cardinal : fst) : fst :=
  cardinal + (Cross (u "-") (u " to ") ∪ Cross (u " - ") (u " to ")) + cardinal
  ∪ cardinal + Cross (u " x ") (u " by ") + cardinal
  ∪ cardinal + Cross (u " x ") (u " times ") + ques cardinal
  ∪ cardinal + Cross (u "x") (u " by ") + cardinal
  ∪ cardinal + Cross (u "x") (u " times ") + ques cardinal
  ∪ cardinal + Cross (u "*") (u " times ") + cardinal
  ∪ cardinal + Cross (u " * ") (u " times ") + cardinal.
(** :88-113 *)
Definition cardinal_graph : fst := Cardinal.graph_with_and ∪ get_range Cardinal.graph_with_and.
Definition unit0 : fst := string_file en_tn_measure_unit ∪ string_file en_tn_measure_unit_alternatives.
Definition graph_unit : fst :=
  unit0 ∪ (plus TO_LOWER + (ALPHA ∪ TO_LOWER) + Star (ALPHA ∪ TO_LOWER)) @ unit0.
Definition graph_unit_plural : fst := graph_unit @ SINGULAR_TO_PLURAL.
Definition optional_graph_negative : fst := Cardinal.optional_minus.
Definition graph_unit2 : fst := Cross (u "/") (u "per") + DELETE_ZERO_OR_ONE_SPACE + INSERT_SPACE + graph_unit.
Definition optional_graph_unit2 : fst := ques (DELETE_ZERO_OR_ONE_SPACE + INSERT_SPACE + graph_unit2).
Definition unit_plural_graph : fst := graph_unit_plural + optional_graph_unit2 ∪ graph_unit2.
Definition unit_singular_graph : fst := graph_unit + optional_graph_unit2 ∪ graph_unit2.
Definition unit_plural_tag : fst := tag_field (u "units") unit_plural_graph.
Definition unit_singular_tag : fst := tag_field (u "units") unit_singular_graph.
(** :115-129 *)
Definition radio : fst := strings [u "AM"; u "FM"].
Definition subgraph_decimal : fst :=
  optional_graph_negative + Decimal.final_graph_wo_negative + ques ds + INSERT_SPACE + unit_plural_tag
  ∪ Decimal.final_graph_wo_negative + ques ds + INSERT_SPACE + tag_field (u "units") radio.
Definition cardinal_other_graph : fst := Except (accep (u "1")) @ cardinal_graph.
Definition cardinal_one_graph : fst := Cross (u "1") (u "one").
Definition subgraph_cardinal : fst :=
  optional_graph_negative + tag_field (u "integer") cardinal_other_graph + ques ds + INSERT_SPACE + unit_plural_tag
  ∪ optional_graph_negative + tag_field (u "integer") cardinal_one_graph + ques ds + INSERT_SPACE
    + unit_singular_tag.
(** :131-134 *)
Definition unit_only_graph : fst :=
  (Cross (u "/") (u "per") + DELETE_ZERO_OR_ONE_SPACE ∪ accep (u "per") + ds) + INSERT_SPACE + graph_unit.
Definition unit_graph : fst :=
  insert (u "integer: ""-"" units: """) + input_projection unit_only_graph + insert (u """").
(** :136-150 *)
Definition alpha_unit_graph : fst := plus ALPHA.
Definition dash_separator_graph : fst := delete (u "-").
Definition decimal_dash_alpha : fst :=
  Decimal.final_graph_wo_negative + INSERT_SPACE + tag_field (u "separator") dash_separator_graph + INSERT_SPACE
  + tag_field (u "units") alpha_unit_graph.
Definition times_unit_graph : fst :=
  Table [(u "x", u "x"); (u "X", u "x")] ∪ Table [(u "x", u " times"); (u "X", u " times")].
Definition decimal_times : fst :=
  Decimal.final_graph_wo_negative + INSERT_SPACE + tag_field (u "units") times_unit_graph.
Definition alpha_dash_unit_graph : fst := plus ALPHA + accep (u "-").
Definition alpha_dash_decimal : fst :=
  tag_field (u "units") alpha_dash_unit_graph + INSERT_SPACE + Decimal.final_graph_wo_negative.
Definition subgraph_fraction : fst := Fraction.graph + ques ds + INSERT_SPACE + unit_plural_tag.
(** :197-250, get_address_graph *)
Definition hundred_component : fst := Cardinal.graph_hundred_component_at_least_one_none_zero_digit.
Definition ordinal_num : fst :=
  (insert (u "integer: """) + Ordinal.graph + insert (u """")) @ Ordinal.graph_v.
Definition address_num0 : fst :=
  (DIGIT + ques DIGIT) @ hundred_component + INSERT_SPACE
  + DIGIT ** 2 @ (ques (Cross (u "0") (u "zero ")) + hundred_component).
Definition address_num : fst :=
  priority_union ((DIGIT ** 3 ∪ DIGIT ** 4) @ address_num0) Cardinal.graph.
Definition direction : fst :=
  ques (accep (u " ")
        + (Table [(u "E", u "East"); (u "S", u "South"); (u "W", u "West"); (u "N", u "North")]
           + ques (delete (u ".")))).
Definition address_words : fst :=
  accep (u " ") + (ques ordinal_num ∪ UPPER + plus ALPHA) + accep (u " ")
  + Star (UPPER + Star ALPHA + accep (u " ")) + Table (formats (labels en_tn_address_address_word)).
Definition city : fst := ques (accep (u ", ") + plus (ALPHA ∪ accep (u " "))).
Definition states : list (text * text) :=
  labels en_tn_address_state
  ++ map (fun e : text * text => (Datatypes.fst e, dotted (snd e))) (labels en_tn_address_state).
Definition state : fst := ques (accep (u ",") + accep (u " ") + Table (map swap states)).
Definition zip_code : fst :=
  ques (accep (u ",")) + accep (u " ") + DIGIT ** 5 @ Cardinal.single_digits_graph.
Definition address_graph : fst :=
  address_num + direction + address_words + ques (city + state + zip_code)
  ∪ address_num + direction + address_words + ques (delete (u ".")).
(** :152-175 *)
Definition address_tag : fst := insert (u "units: ""address"" ") + tag_field (u "integer") address_graph.
Definition math_operations : fst := string_file en_tn_measure_math_operation.
Definition delimiter : fst := accep (u " ") ∪ insert (u " ").
Definition operand : fst := cardinal_graph ∪ ALPHA.
Definition equals : fst := Cross (u "=") (u "equals").
Definition math_graph : fst :=
  operand + delimiter + math_operations + (delimiter ∪ ALPHA) + cardinal_graph + delimiter + equals + delimiter
    + operand
  ∪ operand + delimiter + equals + delimiter + operand + delimiter + math_operations + delimiter + cardinal_graph.
Definition math_tag : fst := insert (u "units: ""math"" ") + tag_field (u "integer") math_graph.
Definition final_graph : fst :=
  subgraph_decimal ∪ subgraph_cardinal ∪ unit_graph ∪ decimal_dash_alpha ∪ decimal_times ∪ alpha_dash_decimal
  ∪ subgraph_fraction ∪ address_tag ∪ math_tag.
(** :258-313 *)
Definition units (graph : fst) : fst := plain_field "units" graph + DELETE_SPACE.
Definition graph_decimal : fst := Decimal.numbers ∪ Weight 10 (Decimal.numbers @ Decimal.colloquial).
Definition integer_one : fst := raw_field "integer" cardinal_one_graph.
Definition integer_other : fst := raw_field "integer" cardinal_other_graph.
Definition graph_v : fst :=
  (Cardinal.optional_sign + integer_one) + accep (u " ") + units unit_singular_graph
  ∪ (Cardinal.optional_sign + integer_other) + accep (u " ") + units unit_plural_graph
  ∪ graph_decimal + accep (u " ") + units unit_plural_graph
  ∪ Fraction.graph_v + accep (u " ") + units unit_plural_graph
  ∪ graph_decimal + accep (u " ") + plain_field "units" radio
  ∪ graph_decimal + (DELETE_SPACE + plain_field "separator" dash_separator_graph + DELETE_SPACE) + INSERT_SPACE
    + units alpha_unit_graph
  ∪ graph_decimal + accep (u " ") + units times_unit_graph
  ∪ units alpha_dash_unit_graph + INSERT_SPACE + graph_decimal + DELETE_SPACE
  ∪ delete (u "integer: ""-""") + DELETE_SPACE + units unit_only_graph
  ∪ (delete (u "units: ""address"" ") + DELETE_SPACE + plain_field "integer" address_graph + DELETE_SPACE
     ∪ delete (u "units: ""math"" ") + DELETE_SPACE + plain_field "integer" math_graph + DELETE_SPACE).
Definition name : text := u "measure".
Definition rule : rule := Rule (add_tokens name final_graph) (delete_tokens name graph_v).
End Measure.

(** ** tn/english/rules/money.py:25-118 *)
Module Money.
(** :25, :56-62 *)
Definition maj_unit_singular : fst := string_file en_tn_money_currency_major.
Definition maj_unit_plural : fst := maj_unit_singular @ Measure.SINGULAR_TO_PLURAL.
Definition graph_maj_singular : fst := tag_field (u "currency_maj") maj_unit_singular.
Definition graph_maj_plural : fst := tag_field (u "currency_maj") maj_unit_plural.
(** :64-85 *)
Definition integer_one_graph : fst := Cross (u "1") (u "one").
Definition decimal_nonzero : fst :=
  Star (Class (fun c => is_digit c || (c =? 44)%N)) + accep (u ".") + Star DIGIT + nonzero + Star DIGIT.
Definition decimal_with_quantity : fst := VSIGMA + ALPHA.
Definition graph_decimal : fst :=
  graph_maj_plural + INSERT_SPACE
  + (decimal_nonzero ∪ decimal_with_quantity) @ Decimal.final_graph_wo_negative_w_abbr.
Definition integer_other_graph : fst := Except (accep (u "1")) @ Cardinal.graph_with_and.
Definition graph_integer_only : fst :=
  graph_maj_singular + INSERT_SPACE + tag_field (u "integer_part") integer_one_graph
  ∪ graph_maj_plural + INSERT_SPACE + tag_field (u "integer_part") integer_other_graph.
Definition zero_fraction_graph : fst := plus (delete (u "0")).
Definition optional_zero_fraction : fst :=
  ques (delete (u ".") + INSERT_SPACE + tag_field (u "fractional_part") zero_fraction_graph).
Definition final_graph : fst := (graph_integer_only + optional_zero_fraction) ∪ graph_decimal.
(** :92-118 *)
Definition keep_space : fst := accep (u " ").
Definition maj_singular : fst := plain_field "currency_maj" maj_unit_singular.
Definition maj_plural : fst := plain_field "currency_maj" maj_unit_plural.
Definition zero_fraction : fst := DELETE_SPACE + plain_field "fractional_part" zero_fraction_graph.
Definition verbalize_integer : fst :=
  raw_field "integer_part" integer_one_graph + ques zero_fraction + keep_space + maj_singular
  ∪ raw_field "integer_part" integer_other_graph + ques zero_fraction + keep_space + maj_plural.
Definition trimmed_fraction : fst := (Star DIGIT + nonzero + Star (delete (u "0"))) @ Decimal.graph.
Definition fractional : fst := insert (u "point ") + raw_field "fractional_part" trimmed_fraction.
Definition optional_integer : fst := ques (Decimal.integer + DELETE_SPACE + INSERT_SPACE).
Definition money_decimal : fst :=
  Decimal.integer ∪ Decimal.integer + Decimal.quantity ∪ optional_integer + fractional + Decimal.optional_quantity.
Definition graph : fst := verbalize_integer ∪ money_decimal + keep_space + maj_plural.
Definition name : text := u "money".
Definition rule : rule := Rule (add_tokens name final_graph) (delete_tokens name graph).
End Money.

(** ** tn/english/rules/telephone.py:37-129, built with deterministic=True *)
Module Telephone.
(** :47-59 *)
Definition digit : fst := graph_digit ∪ Cross (u "0") (u "zero").
Definition telephone_prompts : fst := string_file en_tn_telephone_telephone_prompt.
Definition country_code_graph0 : fst :=
  ques (telephone_prompts + DELETE_EXTRA_SPACE) + ques (Cross (u "+") (u "plus "))
    + upto (digit + INSERT_SPACE) 2 + digit + insert (u ",")
  ∪ telephone_prompts.
Definition country_code : fst :=
  tag_field (u "country_code") country_code_graph0 + ques (delete (u "-")) + DELETE_SPACE + INSERT_SPACE.
(** :61-67 *)
Definition area_part0 : fst :=
  Cross (u "800") (u "eight hundred")
  ∪ Except (accep (u "800")) @ ((digit + INSERT_SPACE) ** 2 + digit).
Definition area_part : fst :=
  (area_part0 + (delete (u "-") ∪ delete (u "."))
   ∪ delete (u "(") + area_part0 + (delete (u ")") + ques ds ∪ delete (u ")-")))
  + insert (u ", ").
(** :69-82 *)
Definition del_separator : fst := ques (strings (map u ["-"; " "; "."]%string)).
Definition number_length : fst := (DIGIT + del_separator ∪ ALPHA + del_separator) ** 7.
Definition number_words0 (sep : string) : fst :=
  Star ((DIGIT @ digit) + (INSERT_SPACE ∪ Cross (u sep) (u ", ")) ∪ ALPHA ∪ ALPHA + Cross (u sep) (u " ")).
Definition number_words : fst := number_length @ (number_words0 "-" ∪ number_words0 ".").
Definition phone_number_graph : fst := area_part + number_words.
Definition number_part : fst := tag_field (u "number_part") phone_number_graph.
Definition extension_graph : fst := upto (digit + INSERT_SPACE) 3 + digit.
Definition extension : fst := ques (INSERT_SPACE + tag_field (u "extension") extension_graph).
(** :84-86 *)
Definition graph0 : fst :=
  priority_union (number_part + extension)
    (priority_union (country_code + number_part + extension)
       (priority_union (country_code + number_part) number_part)).
(** :89-106 *)
Definition ip_prompts : fst := string_file en_tn_telephone_ip_prompt.
Definition digit_to_str : fst := digit + upto (INSERT_SPACE + digit) 2.
Definition ip_graph : fst := digit_to_str + (Cross (u ".") (u " dot ") + digit_to_str) ** 3.
Definition ssn_prompts : fst := string_file en_tn_telephone_ssn_prompt.
Definition three_digit_part : fst := digit + (INSERT_SPACE + digit) ** 2.
Definition two_digit_part : fst := digit + INSERT_SPACE + digit.
Definition four_digit_part : fst := digit + (INSERT_SPACE + digit) ** 3.
Definition ssn_graph : fst :=
  three_digit_part + Cross (u "-") (u ", ") + two_digit_part + Cross (u "-") (u ", ") + four_digit_part.
Definition graph : fst :=
  graph0
  ∪ ques (tag_field (u "country_code") ip_prompts + DELETE_EXTRA_SPACE) + tag_field (u "number_part") ip_graph
  ∪ ques (tag_field (u "country_code") ssn_prompts + DELETE_EXTRA_SPACE) + tag_field (u "number_part") ssn_graph.
Definition country_code_graph : fst := country_code_graph0 ∪ ip_prompts ∪ ssn_prompts.
Definition number_part_graph : fst := phone_number_graph ∪ ip_graph ∪ ssn_graph.
(** :117-129 *)
Definition graph_v : fst :=
  ques (plain_field "country_code" country_code_graph + DELETE_SPACE + INSERT_SPACE)
  + (delete (u "number_part: """) + number_part_graph @ build_rule ds Anywhere Edge
     + ques (Weight (-10) ds) + delete (u """"))
  + ques (DELETE_SPACE + INSERT_SPACE + plain_field "extension" extension_graph).
Definition name : text := u "telephone".
Definition rule : rule := Rule (add_tokens name graph) (delete_tokens name graph_v).
End Telephone.

(** ** tn/english/rules/electronic.py:34-189 *)
Module Electronic.
(** :39-60 *)
Definition numbers : fst := INSERT_SPACE + Cardinal.long_numbers + INSERT_SPACE.
Definition graph_symbols : fst := string_file en_tn_electronic_symbol.
Definition accepted_symbols : fst := Input graph_symbols.
Definition domain_common : fst := string_file en_tn_electronic_domain.
Definition accepted_common_domains : fst := Input domain_common.
Definition dict_words : fst := Weight (-10) (string_file en_tn_electronic_words).
Definition dict_words_graph : fst :=
  dict_words + plus (Weight (-10) (INSERT_SPACE + dict_words)) ∪ dict_words.
(** :62-73.  In all_accepted_symbols_end the ALPHA.star of :64 is written ALPHA: it occurs
    under a star only, where both give the same relation. *)
Definition all_accepted_symbols_start : fst := dict_words_graph ∪ Star ALPHA ∪ accepted_symbols.
Definition all_accepted_symbols_end : fst := dict_words_graph ∪ numbers ∪ ALPHA ∪ accepted_symbols.
Definition username_graph : fst :=
  (ALPHA ∪ dict_words_graph) + Star (ALPHA ∪ numbers ∪ accepted_symbols ∪ dict_words_graph).
Definition username : fst := tag_field (u "username") username_graph + Cross (u "@") (u " ").
Definition domain_graph0 : fst :=
  all_accepted_symbols_start + Star (all_accepted_symbols_end ∪ Weight (-10) accepted_common_domains).
(** :75-83 *)
Definition protocol_symbols : fst := Star ((graph_symbols ∪ Cross (u ":") (u "colon")) + INSERT_SPACE).
Definition protocol_start : fst :=
  (Cross (u "https") (u "HTTPS ") ∪ Cross (u "http") (u "HTTP ")) + accep (u "://") @ protocol_symbols.
Definition protocol_file_start : fst := accep (u "file") + INSERT_SPACE + accep (u ":///") @ protocol_symbols.
Definition protocol_end : fst := Cross (u "www") (u "WWW ") + accep (u ".") @ protocol_symbols.
Definition protocol_start_only : fst := protocol_file_start ∪ protocol_start.
Definition protocol_start_and_end : fst := protocol_start + protocol_end.
Definition protocol_graph : fst := protocol_start_only ∪ protocol_end ∪ protocol_start_and_end.
(** :85-117 *)
Definition domain_graph : fst :=
  (ALPHA + Star NOT_SPACE + (ALPHA ∪ DIGIT ∪ accep (u "/"))) @ domain_graph0.
Definition domain_tag : fst := tag_field (u "domain") domain_graph.
Definition protocol_tag : fst :=
  Weight (-10) (tag_field (u "protocol") protocol_start_only)
  ∪ Weight (-100000010) (tag_field (u "protocol") protocol_end)
  ∪ Weight (-100000010) (tag_field (u "protocol") protocol_start_and_end).
Definition graph : fst :=
  (VSIGMA + accep (u "@") + VSIGMA + accep (u ".") + VSIGMA) @ (username + domain_tag)
  ∪ tag_field (u "domain")
      ((ALPHA + Star NOT_SPACE + accepted_common_domains + Star NOT_SPACE) @ domain_graph0)
  ∪ protocol_tag + INSERT_SPACE + domain_tag.
(** :124-151 *)
Definition graph_zero_v : fst := Cross (u "0") (u "zero") ∪ (Cross (u "0") (u "o") ∪ Cross (u "0") (u "oh")).
Definition long_numbers_v : fst := Weight (-10) (graph_digit + Cross (u "000") (u " thousand")).
Definition not_bracket : fst := Class (fun c => vchar c && negb (c =? 123)%N && negb (c =? 125)%N).
Definition dict_words_v : fst := strings (map snd (labels en_tn_electronic_words)).
Definition default_chars_symbols : fst :=
  Star not_bracket
  @ Rewrite (INSERT_SPACE + (graph_symbols ∪ (graph_digit ∪ graph_zero_v) ∪ long_numbers_v) + INSERT_SPACE)
      Anywhere Anywhere.
Definition alpha_or_space : fst := ALPHA ∪ accep (u " ").
Definition space_separated_dict_words : fst :=
  Weight (-10) (ALPHA + Star alpha_or_space + accep (u " ") + Star alpha_or_space).
(** :153-189 *)
Definition user_name : fst :=
  raw_field "username" (username_graph @ (default_chars_symbols ∪ space_separated_dict_words)).
Definition domain_all : fst :=
  default_chars_symbols @ Star (ALPHA ∪ accep (u " ") ∪ Weight (-10) dict_words_v).
Definition domain_v : fst :=
  domain_all + INSERT_SPACE
  + priority_union domain_common (Weight 10 (Cross (u ".") (u "dot")))
  + ques (INSERT_SPACE + default_chars_symbols).
Definition domain_value : fst := domain_graph @ (domain_v ∪ Weight 10000000 domain_all).
Definition domain : fst :=
  delete (u "domain:") + DELETE_SPACE + delete (u """") + domain_value + DELETE_SPACE + delete (u """").
Definition normalize_whitespace : fst :=
  DELETE_SPACE + plus NOT_SPACE + Star (Erase (plus SPACE) + INSERT_SPACE + plus NOT_SPACE) + DELETE_SPACE.
Definition graph_v : fst :=
  (ques (plain_field "protocol" protocol_graph + DELETE_SPACE)
   + ques (user_name + DELETE_SPACE + insert (u " at ") + DELETE_SPACE) + domain + DELETE_SPACE)
  @ normalize_whitespace.
Definition name : text := u "electronic".
Definition rule : rule := Rule (add_tokens name graph) (delete_tokens name graph_v).
End Electronic.

(** ** tn/english/rules/serial.py:34-89 *)
Module Serial.
(** :37-47 *)
Definition symbols_graph : fst := string_file en_tn_whitelist_symbol ∪ Cross (u "#") (u "hash").
Definition num_graph : fst :=
  at_least DIGIT 6 @ Cardinal.single_digits_graph
  ∪ (DIGIT + upto DIGIT 4) @ Cardinal.graph
  ∪ (accep (u "0") + Star DIGIT) @ Cardinal.single_digits_graph
  ∪ symbols_graph.
(** each symbol of the file is one character (checked: PropsEnTn.v) *)
Definition symbol_chars : list N :=
  flat_map (fun e : text * text => match Datatypes.fst e with [c] => [c] | _ => [] end)
    (labels en_tn_whitelist_symbol).
Definition is_symbol (c : N) : bool := existsb (N.eqb c) symbol_chars.
Definition digit_symbol (c : N) : bool := is_digit c || is_symbol c.
Definition alpha_symbol (c : N) : bool := is_alpha c || is_symbol c.
(** :49-63 *)
Definition graph_with_space : fst :=
  space_between alpha_symbol digit_symbol @ space_between digit_symbol alpha_symbol.
Definition delimiter : fst := strings (map u ["-"; "/"; " "]%string).
Definition alphas : fst := plus ALPHA.
Definition next_alpha_or_num : fst := Star (delimiter + (alphas ∪ num_graph)).
Definition serial0 : fst :=
  (alphas + delimiter + num_graph) + next_alpha_or_num
  ∪ (plus (num_graph + delimiter) + alphas) + next_alpha_or_num
  ∪ num_graph + delimiter + num_graph + delimiter + num_graph + Star (delimiter + num_graph).
(** :65-69 *)
Definition serial1 : fst :=
  Except Ordinal.graph @ serial0
  ∪ plus NOT_SPACE + (Cross (u "^2") (u " squared") ∪ Cross (u "^3") (u " cubed")).
(** :71-83 *)
Definition serial2 : fst :=
  Star ((serial1 ∪ num_graph ∪ alphas) + delimiter) + serial1 + Star (delimiter + (serial1 ∪ num_graph ∪ alphas)).
Definition serial3 : fst := serial2 ∪ graph_with_space @ serial2.
Definition graph : fst := Except (plus ALPHA + accep (u "/") + plus ALPHA) @ (at_least NOT_SPACE 2 @ serial3).
Definition name : text := u "serial".
Definition rule : rule :=
  Rule (add_tokens name (tag_field (u "name") graph)) (delete_tokens name (raw_field "name" graph)).
End Serial.

(** ** tn/english/rules/range.py:36-117 *)
Module Range.
(** :41-61.  Cardinal(deterministic=True).graph_with_and is Cardinal().graph_with_and. *)
Definition cardinal : fst := Cardinal.graph_with_and.
Definition week : fst := string_file en_tn_date_week.
Definition delete_space : fst := ques ds.
Definition approx : fst := Cross (u "~") (u "approximately").
Definition to : fst := Cross (u "-") (u " to ").
Definition week_graph : fst := week + delete_space + (to ∪ approx) + delete_space + week.
Definition time_graph : fst := Time.graph + delete_space + to + delete_space + Time.graph.
Definition year_four (ys : fst) : fst := (DIGIT ** 4 + ques (accep (u "s"))) @ Date.graph ys.
Definition year_two (ys : fst) : fst := (DIGIT ** 2 + ques (accep (u "s"))) @ Date.graph ys.
Definition year_to_year (ys : fst) : fst :=
  year_four ys + delete_space + to + delete_space + (year_four ys ∪ year_two ys ∪ DIGIT ** 2 @ cardinal).
Definition mid_year (ys : fst) : fst :=
  accep (u "mid") + Cross (u "-") (u " ") + (year_four ys ∪ year_two ys).
(** :66-75 *)
Definition repeated (op spoken : string) : fst := cardinal + plus (Cross (u op) (u spoken) + cardinal).
Definition joined (op : fst) : fst := cardinal + delete_space + op + delete_space + cardinal.
(** " to ", "-" or " - " *)
Definition between : fst := strings (map u [" to "; "-"; " - "]%string).
Definition by_times (x : string) : fst :=
  cardinal + (Cross (u x) (u " by ") ∪ Cross (u x) (u " times ")) + cardinal.
Definition times (x : string) : fst :=
  cardinal + Cross (u x) (u " times")
  ∪ cardinal + delete (u x) + between + cardinal + (Cross (u x) (u " x") ∪ Cross (u x) (u " times")).
Definition numero : fst :=
  (Table [(u "NO", u "Number"); (u "No", u "Number")] ∪ Cross (u "no") (u "number"))
  + ques (strings [u ". "; u " "]) + cardinal.
Definition percent : fst := Cross (u "%") (u " percent").
Definition percents : fst :=
  cardinal + ques (percent ∪ delete (u "%")) + between + cardinal + percent.
Definition range_graph : fst :=
  repeated "+" " plus " ∪ repeated " + " " plus " ∪ approx + cardinal
  ∪ cardinal + (Cross (u "...") (u " ... ") ∪ accep (u " ... ")) + cardinal
  ∪ joined to ∪ Weight 10 (joined (Cross (u "-") (u " minus "))) ∪ joined (Cross (u ":") (u " to "))
  ∪ by_times " x " ∪ by_times "x" ∪ times " x" ∪ times "x"
  ∪ repeated "*" " times " ∪ repeated " * " " times " ∪ numero
  ∪ repeated "/" " divided by " ∪ repeated " / " " divided by " ∪ percents.
Definition graph (ys : fst) : fst :=
  time_graph ∪ approx + Time.graph ∪ week_graph ∪ year_to_year ys ∪ mid_year ys ∪ range_graph.
Definition name : text := u "range".
Definition rule (ys : fst) : rule :=
  Rule (add_tokens name (tag_field (u "value") (graph ys))) (delete_tokens name (plain_field "value" (graph ys))).
End Range.

(** ** tn/english/rules/whitelist.py:41-109 *)
Module WhiteList.
(** :65-86 *)
Definition initials (x : string) : fst :=
  UPPER + at_least (delete (u x) + UPPER) 2 + ques (delete (u ".")).
(** :88-99 *)
Definition states : list (text * text) :=
  labels en_tn_address_state
  ++ flat_map (fun e : text * text => [(Datatypes.fst e, dotted (snd e)); (Datatypes.fst e, dotted (snd e) ++ u ".")])
       (labels en_tn_address_state).
Definition graph : fst :=
  string_file en_tn_whitelist_tts
  ∪ Except (accep (u "/")) @ string_file en_tn_whitelist_symbol
  ∪ Table (labels en_tn_whitelist_alternatives ++ augment (labels en_tn_whitelist_alternatives))
  ∪ initials "." ∪ initials ". "
  ∪ plus ALPHA + strings [u ", "; u ","] + Table (map swap states).
Definition name : text := u "whitelist".
Definition rule : rule :=
  Rule (add_tokens name (tag_field (u "name") graph)) (delete_tokens name (raw_field "name" graph)).
End WhiteList.

(** ** tn/english/rules/punctuation.py:39-78 *)
Module Punctuation.
(** :44-56 *)
Definition ascii_marks : text := u "!#%&'()*+,-./:;<=>?@^_`{|}~".
Definition unicode_mark (c : N) : bool :=
  existsb (fun r : N * N => in_range (Datatypes.fst r) (snd r) c) unicode_punct
  && negb (existsb (N.eqb c) [91; 93; 34; 92]%N).
Definition punct_mark (c : N) : bool :=
  (unicode_mark c || existsb (N.eqb c) ascii_marks)
  && negb (existsb (N.eqb c) Serial.symbol_chars).
Definition punct : fst := Class punct_mark.
(** :57-70 *)
Definition marks : fst := plus (punct ∪ Cross [92%N] [92; 92]%N ∪ Cross [34%N] [92; 34]%N).
Definition tag_char : fst := Class (fun c => vchar c && negb (is_space c) && negb (c =? 60)%N && negb (c =? 62)%N).
Definition emphasis : fst :=
  accep (u "<") + (plus tag_char + ques (accep (u "/")) ∪ accep (u "/") + plus tag_char) + accep (u ">").
Definition graph : fst := priority_union emphasis marks.
Definition tagger_punct : fst := graph ∪ Weight (-10) (at_least VCHAR 2 @ graph).
Definition spaces : fst := Star (Weight (-100000) (accep (u " "))).
Definition name : text := u "p".
(** :70-78 *)
Definition rule : rule :=
  Rule (add_tokens name (insert (u "v: """) + spaces + tagger_punct + spaces + insert (u """")))
       (delete_tokens name
          (delete (u "v: """) + spaces
           + plus (punct ∪ emphasis ∪ Cross [92; 92]%N [92%N] ∪ Cross [92; 34]%N [34%N]) + spaces
           + delete (u """"))).
End Punctuation.

(** ** tn/english/rules/word.py:32-52.  The inputs of one character of Punctuation().graph are
    the punctuation marks, the backslash and the quote. *)
Module Word.
Definition word_char (c : N) : bool :=
  vchar c && negb (is_space c) && negb (Punctuation.punct_mark c) && negb (c =? 92)%N && negb (c =? 34)%N
  && negb (existsb (N.eqb c) (u "$€₩£¥#%")) && negb (is_digit c).
Definition char : fst := Class word_char.
Definition name : text := u "w".
Definition rule : rule :=
  Rule (add_tokens name (insert (u "v: """) + plus char + insert (u """")))
       (delete_tokens name (delete (u "v: ") + delete (u """") + plus char + delete (u """"))).
End Word.

(** ** tn/english/normalizer.py:33-101 *)
Definition token_orders : list (text * list text) :=
  [(u "date", map u ["preserve_order"; "text"; "day"; "month"; "year"]%string);
   (u "money", map u ["integer_part"; "fractional_part"; "quantity"; "currency_maj"]%string)].
Definition rules (ys : fst) : list rule_spec :=
  [RuleSpec Cardinal.rule (Some 100000%Z) true;
   RuleSpec Ordinal.rule (Some 100000%Z) true;
   RuleSpec Word.rule (Some 10000000%Z) true;
   RuleSpec (Date.rule ys) (Some 99000%Z) true;
   RuleSpec Decimal.rule (Some 100000%Z) true;
   RuleSpec Fraction.rule (Some 99000%Z) true;
   RuleSpec Time.rule (Some 100000%Z) true;
   RuleSpec Measure.rule (Some 100000%Z) true;
   RuleSpec Money.rule (Some 100000%Z) true;
   RuleSpec Telephone.rule (Some 100000%Z) true;
   RuleSpec Electronic.rule (Some 100000%Z) true;
   RuleSpec Serial.rule (Some 101000%Z) true;
   RuleSpec WhiteList.rule (Some 100000%Z) true;
   RuleSpec (Range.rule ys) (Some 100000%Z) true].
Definition punct_tagger : fst := Weight 200000 (r_tagger Punctuation.rule).
Definition tagger_of (classify : fst) : fst :=
  let token := Star punct_tagger + classify + Star punct_tagger in
  let separator := Erase SPACE ∪ punct_tagger in
  ((DELETE_SPACE + token + Star (separator + token) + DELETE_SPACE) ∪ punct_tagger)
  @ build_rule ds Anywhere Edge.
Definition verbalizer_of (classify : fst) : fst :=
  let punct := r_verbalizer Punctuation.rule in
  Star (classify + (plus punct ∪ Weight 10 INSERT_SPACE) ∪ punct + (plus punct ∪ DELETE_SPACE))
  @ build_rule ds Anywhere Edge.
Definition tagger (ys : fst) : option fst := option_map tagger_of (tagger_union (rules ys)).
Definition verbalizer (ys : fst) : option fst := option_map verbalizer_of (verbalizer_union (rules ys)).
