(** The six production pipelines: the token schema each gives its TokenParser. *)
From Coq Require Import List NArith String.
From Verif Require Import Text TokenModel.
Import ListNotations.
Local Open Scope list_scope.

(** tn/chinese/normalizer.py:31-37, tn/english/normalizer.py:36-39,
    tn/japanese/normalizer.py:33-39, itn/chinese/inverse_normalizer.py:31-39,
    itn/english/inverse_normalizer.py:33-41, itn/japanese/inverse_normalizer.py:30-38. *)
Definition zh_tn_token_orders : orders :=
  [ (u "date", [u "year"; u "month"; u "day"]);
    (u "fraction", [u "denominator"; u "numerator"]);
    (u "measure", [u "denominator"; u "numerator"; u "value"]);
    (u "money", [u "value"; u "currency"]);
    (u "time", [u "noon"; u "hour"; u "minute"; u "second"]) ].
Definition en_tn_token_orders : orders :=
  [ (u "date", [u "preserve_order"; u "text"; u "day"; u "month"; u "year"]);
    (u "money", [u "integer_part"; u "fractional_part"; u "quantity"; u "currency_maj"]) ].
Definition ja_tn_token_orders : orders :=
  [ (u "date", [u "year"; u "month"; u "day"]);
    (u "fraction", [u "denominator"; u "numerator"]);
    (u "measure", [u "denominator"; u "numerator"; u "value"]);
    (u "money", [u "value"; u "currency"]);
    (u "time", [u "noon"; u "hour"; u "minute"; u "second"]) ].
Definition zh_itn_token_orders : orders :=
  [ (u "date", [u "year"; u "month"; u "day"; u "preserve_order"]);
    (u "fraction", [u "sign"; u "numerator"; u "denominator"]);
    (u "measure", [u "numerator"; u "denominator"; u "value"; u "units"]);
    (u "money", [u "currency"; u "value"; u "decimal"; u "quantity"]);
    (u "time", [u "hour"; u "minute"; u "second"; u "noon"; u "zone"]);
    (u "telephone", [u "country_code"; u "number_part"]);
    (u "electronic", [u "username"; u "domain"; u "protocol"]) ].
Definition en_itn_token_orders : orders :=
  [ (u "date", [u "year"; u "month"; u "day"; u "preserve_order"]);
    (u "fraction", [u "sign"; u "numerator"; u "denominator"]);
    (u "measure", [u "numerator"; u "denominator"; u "value"; u "units"]);
    (u "money", [u "currency"; u "value"; u "decimal"; u "quantity"]);
    (u "time", [u "hour"; u "minute"; u "second"; u "noon"; u "zone"]);
    (u "telephone", [u "country_code"; u "number_part"]);
    (u "electronic", [u "username"; u "domain"; u "protocol"]) ].
Definition ja_itn_token_orders : orders :=
  [ (u "date", [u "year"; u "month"; u "day"; u "preserve_order"]);
    (u "fraction", [u "sign"; u "numerator"; u "denominator"]);
    (u "measure", [u "numerator"; u "denominator"; u "value"; u "units"]);
    (u "money", [u "currency"; u "value"; u "decimal"; u "quantity"]);
    (u "time", [u "hour"; u "minute"; u "second"; u "noon"; u "zone"]);
    (u "telephone", [u "country_code"; u "number_part"]);
    (u "electronic", [u "username"; u "domain"; u "protocol"]) ].

(** A pipeline: a language and a direction. *)
Inductive language := Zh | En | Ja.
Inductive operator := Tn | Itn.
(** The [ordertype] and [token_orders] arguments of [super().__init__] in the six
    constructors: tn/chinese/normalizer.py:53, tn/english/normalizer.py:45,
    tn/japanese/normalizer.py:54, itn/chinese/inverse_normalizer.py:53,
    itn/english/inverse_normalizer.py:47, itn/japanese/inverse_normalizer.py:52. *)
Definition constructor_args (l : language) (o : operator) : text * option orders :=
  match l, o with
  | Zh, Tn => (u "tn", Some zh_tn_token_orders)
  | En, Tn => (u "en_tn", Some en_tn_token_orders)
  | Ja, Tn => (u "tn", Some ja_tn_token_orders)
  | Zh, Itn => (u "itn", Some zh_itn_token_orders)
  | En, Itn => (u "itn", Some en_itn_token_orders)
  | Ja, Itn => (u "itn", Some ja_itn_token_orders)
  end.
(** Processor.token_parser, tn/processor.py:168-171. *)
Definition token_parser_orders (args : text * option orders) : option orders :=
  parser_orders (match snd args with Some m => OMapping m | None => OName (fst args) end).
