(** Vocabulary for the grammar properties.  Nothing here mentions a grammar. *)
From Coq Require Import List NArith ZArith.
From Verif Require Import Text.
Import ListNotations.

(** Unicode scalar values except U+0000. *)
Definition valid_char (c : N) : Prop := (1 <= c <= 55295 \/ 57344 <= c <= 1114111)%N.
Definition valid_text (t : text) : Prop := Forall valid_char t.

(** [w] is the least of the numbers satisfying [P]. *)
Definition least (P : Z -> Prop) (w : Z) : Prop := P w /\ forall v, P v -> (w <= v)%Z.
