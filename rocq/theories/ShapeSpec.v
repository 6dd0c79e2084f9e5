(** The tokens of the shipped grammars: for each token name, the lists of keys it may
    have, in the order the tagger writes them.  Nothing here mentions a graph. *)
From Coq Require Import List NArith Bool String.
From Verif Require Import Text TokenModel TokenSpec.
Import ListNotations.
Local Open Scope list_scope.
Local Open Scope string_scope.

Definition token_table := list (string * list string).
Definition zh_tn_tokens : token_table :=
  [ ("date", ["year month day"; "day month year"; "year month"; "month year"; "month day"]);
    ("time", ["hour minute second noon"; "hour minute second"; "hour minute noon"; "hour minute"]);
    ("whitelist", ["value"; "erhua"]); ("sport", ["team score"]); ("fraction", ["numerator denominator"]);
    ("measure", ["value"; "numerator denominator"]); ("money", ["currency value"]);
    ("cardinal", ["value"]); ("math", ["value"]); ("range", ["value"]); ("char", ["value"]) ].
Definition ja_tn_tokens : token_table :=
  [ ("date", ["year month day"; "day month year"; "year month"; "month year"; "month day"]);
    ("time", ["hour minute second noon"; "hour minute second"; "hour minute noon"; "hour minute"; "hour noon"]);
    ("whitelist", ["value"]); ("sport", ["team score"; "score"]); ("fraction", ["numerator denominator"]);
    ("measure", ["value"]); ("money", ["currency value"]); ("transliteration", ["value"]);
    ("cardinal", ["value"]); ("math", ["value"]); ("range", ["value"]); ("char", ["value"]) ].
Definition zh_itn_tokens : token_table :=
  [ ("date", ["year month day"; "year month"; "month day"; "year preserve_order"]);
    ("time", ["noon hour minute second"; "noon hour minute"; "hour minute second"; "hour minute"]);
    ("whitelist", ["value"]); ("fraction", ["sign denominator numerator"]);
    ("measure", ["value"; "denominator numerator"]); ("money", ["value currency decimal"]);
    ("cardinal", ["value"]); ("math", ["value"]); ("licenseplate", ["value"]); ("trainnumber", ["value"]);
    ("char", ["value"]) ].
Definition ja_itn_tokens : token_table :=
  [ ("date", ["year month day"; "year month"; "month day"; "year"]);
    ("time", ["hour minute second"; "hour minute"; "minute second"; "hour"; "minute"; "second"]);
    ("whitelist", ["value"]); ("fraction", ["sign denominator numerator"; "denominator numerator"]);
    ("measure", ["value"]); ("money", ["value currency"]); ("ordinal", ["value"]);
    ("cardinal", ["value"]); ("math", ["value"]); ("char", ["value"]) ].
Definition en_itn_tokens : token_table :=
  [ ("date", ["month day year preserve_order"; "month day preserve_order"; "month year preserve_order";
              "day month year preserve_order"; "day month preserve_order"; "day year preserve_order";
              "year preserve_order"]);
    ("time", ["hour minute"; "hour minute zone"; "hour minute noon"; "hour minute noon zone"; "minute hour";
              "minute hour style"; "minute hour noon style"]);
    ("measure", ["value units"]);
    ("money", ["value currency"; "value quantity currency"; "value currency decimal"; "currency decimal"]);
    ("whitelist", ["value"]); ("telephone", ["country_code number_part kind"; "number_part kind"]);
    ("electronic", ["username domain"; "protocol"]); ("ordinal", ["integer"]);
    ("decimal", ["negative integer_part fractional_part"; "integer_part fractional_part";
                 "negative fractional_part"; "fractional_part";
                 "negative integer_part fractional_part quantity"; "integer_part fractional_part quantity";
                 "negative integer_part quantity"; "integer_part quantity"]);
    ("cardinal", ["negative integer"; "integer"]);
    ("word", ["value"]); ("char", ["value"]); ("punctuation", ["value"]) ].

(** English normalisation *)
Definition en_tn_tokens : token_table :=
  [ ("cardinal", ["negative integer"; "integer"]); ("ordinal", ["integer"]); ("w", ["v"]); ("p", ["v"]);
    ("date", ["month day"; "month year"; "month day year"; "day month"; "day month year"; "year month day";
              "year"; "text year"]);
    ("decimal", ["negative integer_part fractional_part"; "integer_part fractional_part";
                 "negative fractional_part"; "fractional_part";
                 "negative integer_part quantity"; "integer_part quantity";
                 "negative integer_part fractional_part quantity"; "integer_part fractional_part quantity";
                 "negative fractional_part quantity"; "fractional_part quantity"]);
    ("fraction", ["integer_part numerator denominator"; "numerator denominator"; "integer_part value"; "value"]);
    ("time", ["hours minutes"; "hours minutes suffix"; "hours minutes zone"; "hours minutes suffix zone";
              "hours suffix"; "hours suffix zone"; "hours minutes seconds"; "hours minutes seconds suffix";
              "hours minutes seconds zone"; "hours minutes seconds suffix zone"]);
    ("measure", ["negative integer_part fractional_part units"; "integer_part fractional_part units";
                 "negative fractional_part units"; "fractional_part units";
                 "negative integer_part quantity units"; "integer_part quantity units";
                 "negative integer_part fractional_part quantity units";
                 "integer_part fractional_part quantity units";
                 "negative fractional_part quantity units"; "fractional_part quantity units";
                 "negative integer units"; "integer units"; "units integer";
                 "integer_part fractional_part separator units"; "fractional_part separator units";
                 "integer_part quantity separator units";
                 "integer_part fractional_part quantity separator units";
                 "fractional_part quantity separator units";
                 "units integer_part fractional_part"; "units fractional_part"; "units integer_part quantity";
                 "units integer_part fractional_part quantity"; "units fractional_part quantity";
                 "integer_part numerator denominator units"; "numerator denominator units";
                 "integer_part value units"; "value units"]);
    ("money", ["currency_maj integer_part"; "currency_maj integer_part fractional_part";
               "currency_maj fractional_part"; "currency_maj integer_part quantity";
               "currency_maj integer_part fractional_part quantity"; "currency_maj fractional_part quantity"]);
    ("telephone", ["number_part"; "number_part extension"; "country_code number_part";
                   "country_code number_part extension"]);
    ("electronic", ["username domain"; "domain"; "protocol domain"]);
    ("serial", ["name"]); ("whitelist", ["name"]); ("range", ["value"]) ].

(** A token whose name and keys are in the table. *)
Definition known (table : token_table) (t : token) : Prop :=
  exists name rows keys, In (name, rows) table /\ In keys rows /\
    tk_name t = u name /\ tk_order t = words (u keys) /\ map fst (tk_members t) = words (u keys).

Local Open Scope list_scope.
(** [within vs x]: the texts [vs] occur in [x] in this order, without overlap. *)
Inductive within : list text -> text -> Prop :=
| within_nil x : within [] x
| within_cons gap v vs rest : within vs rest -> within (v :: vs) (gap ++ v ++ rest).
(** The values a token has from the input: all but those of the marks a rule adds. *)
Definition marks : list text := map u ["preserve_order"; "kind"; "style"]%string.
Definition constants : list (text * text) :=
  map (fun p => (u (fst p), u (snd p))) [("integer", "-"); ("units", "address"); ("units", "math")]%string.
Definition added (kv : text * text) : bool :=
  existsb (text_eqb (fst kv)) marks
  || existsb (fun c => text_eqb (fst kv) (fst c) && text_eqb (snd kv) (snd c)) constants.
Definition from_input (fs : list (text * text)) : list text :=
  map snd (filter (fun kv => negb (added kv)) fs).
(** A piece of the input with the tokens it became: at least one token; their values are
    parts of the piece, in order; and a character token stands alone, for one character,
    which is its value. *)
Definition piece (p : text * list token) : Prop :=
  snd p <> [] /\ within (flat_map (fun t => from_input (tk_members t)) (snd p)) (fst p) /\
  forall t, In t (snd p) -> tk_name t = u "char" ->
    exists c, fst p = [c] /\ snd p = [t] /\ tk_members t = [(u "value", [c])].
(** The tokens [toks] are those of successive pieces of [x]. *)
Definition pieces (x : text) (toks : list token) : Prop :=
  exists ps, Forall piece ps /\ x = List.concat (map fst ps) /\ toks = List.concat (map snd ps).

(** White space: the ASCII kinds and the no-break space. *)
Definition white (c : N) : Prop := (9 <= c <= 13 \/ c = 32 \/ c = 160)%N.
(** Tokens that take their piece of the text as it is, with the key they have it under. *)
Definition verbatim : list (text * text) :=
  map (fun p => (u (fst p), u (snd p)))
    [("word", "value"); ("char", "value"); ("punctuation", "value"); ("w", "v"); ("p", "v")]%string.
(** The tokens, given by name and members, are those of successive pieces of the text, one
    token for each piece, with only white space between, before and after the pieces; the
    values of a token are parts of its piece, and a word, a character or a punctuation mark
    is its piece.  A rule may read a character [c] of its piece as [d] if [alike c d]. *)
Inductive spaced (alike : N -> N -> Prop) : text -> list (text * list (text * text)) -> Prop :=
| spaced_end gap : Forall white gap -> spaced alike gap []
| spaced_cons gap part as_read name fs rest ts :
    Forall white gap -> Forall2 alike part as_read -> within (from_input fs) as_read ->
    (forall key, In (name, key) verbatim -> fs = [(key, part)]) ->
    spaced alike rest ts -> spaced alike (gap ++ part ++ rest) ((name, fs) :: ts).
Definition token_content (t : token) : text * list (text * text) := (tk_name t, tk_members t).
