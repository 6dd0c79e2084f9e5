(** Written fractions, amounts of money and times of day, and what a Japanese speaker says for them
    (C73, C74, C75).  Nothing here mentions a grammar; the only data are the names of the currencies
    (tn/japanese/data/money). *)
From Coq Require Import List NArith ZArith Bool String.
From Verif Require Import Text Fst NumeralSpec ZhTnEndSpec ZhDateSpec JaNumeralSpec DataJaTn.
Import ListNotations.
Local Open Scope list_scope.

(** A date: year, month and day or day, month and year; or two of them, the month with a leading zero. *)
Definition ja_written_date (x : text) : Prop :=
  (exists t y s m s' d, year_of t y /\ month_text m /\ day_like d /\ date_sep s /\ date_sep s' /\
     (x = y ++ [s] ++ m ++ [s'] ++ d \/ x = d ++ [s] ++ m ++ [s'] ++ y)) \/
  (exists m s p, zero_month m /\ date_sep s /\
     ((exists t, year_of t p) /\ x = p ++ [s] ++ m \/ ((exists t, year_of t p) \/ day_like p) /\ x = m ++ [s] ++ p)).
(** A currency and its name. *)
Definition ja_currency_name (c m : text) : Prop := In (c, m) (map entry ja_tn_money_code ++ map entry ja_tn_money_symbol).
(** Hours have one or two digits; minutes and seconds two ([minute_text], ZhAmountSpec.v). *)
Definition ja_hour_text (p : text) : Prop := (List.length p = 1 \/ List.length p = 2) /\ Forall digit_char p /\ (decimal_value p <= 24)%N.
Definition ja_hour_words (p : text) : text :=
  let n := decimal_value p in (if (n =? 0)%N then u "〇" else small_words n) ++ u "時".
(** Nothing is said for no minutes and for no seconds. *)
Definition ja_minute_words (p : text) : text :=
  let n := decimal_value p in if (n =? 0)%N then [] else small_words n ++ u "分".
Definition ja_second_words (p : text) : text :=
  let n := decimal_value p in if (n =? 0)%N then [] else small_words n ++ u "秒".
Definition ja_noon_words (p : text) : option text :=
  if existsb (text_eqb p) (map u ["am"; "a m"; "a.m."; "AM"; "A M"]%string) then Some (u "午前")
  else if existsb (text_eqb p) (map u ["pm"; "p m"; "p.m."; "PM"; "P M"]%string) then Some (u "午後")
  else None.
