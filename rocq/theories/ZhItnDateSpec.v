(** Dates as the Chinese inverse normaliser writes them (C84, C85). *)
From Coq Require Import List NArith Bool String.
From Verif Require Import Text NumeralSpec ZhTnEndSpec.
Import ListNotations.
Local Open Scope list_scope.
(** The digits of a year said digit by digit: two of them, or three or four without a leading zero. *)
Definition spoken_year (t : text) : Prop :=
  Forall digit_char t /\ (List.length t = 2 \/ (List.length t = 3 \/ List.length t = 4) /\ hd 0%N t <> 48%N).
(** A number below 100 with two digits: 05, 12. *)
Definition two_digits (n : N) : text := [48 + n / 10; 48 + n mod 10]%N.
