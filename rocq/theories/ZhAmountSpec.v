(** Written fractions, amounts of money and times of day, and what a Chinese speaker says for them
    (C68, C69, C70).  Nothing here mentions a grammar; the only data are the names of the currencies
    (tn/chinese/data/money). *)
From Coq Require Import List NArith ZArith Bool String.
From Verif Require Import Text Fst NumeralSpec ZhTnEndSpec ZhDateSpec DataZhTn.
Import ListNotations.
Local Open Scope list_scope.

(** At most one space. *)
Definition gap (g : text) : Prop := g = [] \/ g = u " ".
(** A date: year, month and day or day, month and year; or two of them, the month with two digits. *)
Definition written_date (x : text) : Prop :=
  (exists y s m s' d, year_like y /\ month_text m /\ day_like d /\ date_sep s /\ date_sep s' /\
     (x = y ++ [s] ++ m ++ [s'] ++ d \/ x = d ++ [s] ++ m ++ [s'] ++ y)) \/
  (exists m s p, month_like m /\ date_sep s /\ (year_like p /\ x = p ++ [s] ++ m \/ (year_like p \/ day_like p) /\ x = m ++ [s] ++ p)).
(** A currency and its name. *)
Definition currency_name (c m : text) : Prop := In (c, m) (map entry zh_tn_money_code ++ map entry zh_tn_money_symbol).
(** Hours have one or two digits, 0 two; minutes and seconds two. *)
Definition hour_text (p : text) : Prop := (List.length p = 1 /\ p <> u "0" \/ List.length p = 2) /\ Forall digit_char p /\ (decimal_value p <= 24)%N.
Definition minute_text (p : text) : Prop := List.length p = 2 /\ Forall digit_char p /\ (decimal_value p <= 59)%N.
Definition hour_words (p : text) : text :=
  let n := decimal_value p in (if (n =? 0)%N then u "零" else if (n =? 2)%N then u "两" else small_words n) ++ u "点".
(** Nothing is said for no minutes and for no seconds. *)
Definition minute_words (p : text) : text :=
  let n := decimal_value p in if (n =? 0)%N then [] else (if (n <? 10)%N then u "零" else []) ++ small_words n ++ u "分".
Definition second_words (p : text) : text :=
  let n := decimal_value p in if (n =? 0)%N then [] else small_words n ++ u "秒".
Definition noon_words (p : text) : option text :=
  if existsb (text_eqb p) (map u ["am"; "a m"; "a.m."; "AM"; "A M"]%string) then Some (u "上午")
  else if existsb (text_eqb p) (map u ["pm"; "p m"; "p.m."; "PM"; "P M"]%string) then Some (u "下午")
  else None.
Definition colon_char (c : N) : Prop := [c] = u ":" \/ [c] = u "：".
