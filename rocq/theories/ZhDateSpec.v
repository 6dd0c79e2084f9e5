(** Written dates and what a Chinese speaker says for them (C67).  Nothing here mentions a grammar. *)
From Coq Require Import List NArith ZArith Bool String.
From Verif Require Import Text NumeralSpec ZhTnEndSpec.
Import ListNotations.
Local Open Scope list_scope.

(** What stands between the year, the month and the day. *)
Definition date_sep (c : N) : Prop := (c = 47 \/ c = 45 \/ c = 46)%N.
(** A month with or without a leading zero. *)
Definition month_text (p : text) : Prop := (List.length p = 1 \/ List.length p = 2) /\ Forall digit_char p /\ (1 <= decimal_value p <= 12)%N.
(** The numbers below 100 as they are said: 五, 十, 十五, 二十, 二十五. *)
Definition small_words (n : N) : text :=
  (if (20 <=? n)%N then digit_word (48 + n / 10) else []) ++ (if (10 <=? n)%N then u "十" else []) ++ (if (n mod 10 =? 0)%N then [] else digit_word (48 + n mod 10)).
(** The year digit by digit, the month and the day as numbers. *)
Definition year_words (y : text) : text := flat_map digit_word y ++ u "年".
Definition month_words (p : text) : text := small_words (decimal_value p) ++ u "月".
Definition day_words (p : text) : text := small_words (decimal_value p) ++ u "日".
