(** Written numbers and what a Chinese speaker says for them (C65).  Nothing here mentions a grammar;
    the only data is the list of telephone numbers of cardinal/phone.tsv. *)
From Coq Require Import List NArith ZArith Bool String.
From Verif Require Import Text Fst NumeralSpec DataZhTn.
Import ListNotations.
Local Open Scope list_scope.

(** A sign, digits, and digits after a point (or none). *)
Definition sign_words (s : text) : option text :=
  if text_eqb s [] then Some []
  else if text_eqb s (u "+") then Some (u "正")
  else if text_eqb s (u "-") then Some (u "负")
  else if text_eqb s (u "±") then Some (u "正负")
  else None.
Definition numeral (s t f : text) : text := s ++ t ++ (match f with [] => [] | _ => u "." ++ f end).
(** Digits said one by one; on the telephone 1 is 幺. *)
Definition digit_word (c : N) : text := nth (N.to_nat (c - 48)) (map u ["零"; "一"; "二"; "三"; "四"; "五"; "六"; "七"; "八"; "九"]%string) [].
Definition phone_word (c : N) : text := if (c =? 49)%N then u "幺" else digit_word c.
Definition point_words (f : text) : text := match f with [] => [] | _ => u "点" ++ flat_map digit_word f end.

(** Telephone numbers: the listed ones, and any eleven digits. *)
Definition hotline (p : text) : Prop := In p (map (fun l => Datatypes.fst (entry l)) zh_tn_cardinal_phone) \/ (List.length p = 11 /\ Forall digit_char p).
(** Dates with a point: year.month, month.year, month.day; the month has two digits. *)
Definition year_like (p : text) : Prop := List.length p = 4 /\ Forall digit_char p /\ hd 0%N p <> 48%N.
Definition month_like (p : text) : Prop := List.length p = 2 /\ Forall digit_char p /\ (1 <= decimal_value p <= 12)%N.
Definition day_like (p : text) : Prop := (List.length p = 1 \/ List.length p = 2) /\ Forall digit_char p /\ (1 <= decimal_value p <= 31)%N.
Definition date_like (p : text) : Prop := exists a b, p = a ++ u "." ++ b /\
  (year_like a /\ month_like b \/ month_like a /\ year_like b \/ month_like a /\ day_like b).
(** A text that is telephone numbers and such dates one after another. *)
Definition taken_apart (x : text) : Prop := exists ps, x = List.concat ps /\ Forall (fun p => hotline p \/ date_like p) ps.
