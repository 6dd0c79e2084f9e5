(** The English texts the normaliser is promised to take (C44).  [Punctuation.punct_mark] and
    [Word.word_char] are the character classes of punctuation.py:44-56 and word.py:34-41
    (EnTnModel.v): Unicode punctuation and the marks of ASCII that are no symbol of
    whitelist/symbol.tsv, and what is neither white space, nor a mark, nor a quotation mark or
    backslash, nor a digit, nor one of $ € ₩ £ ¥ # %.  Definitions only. *)
From Coq Require Import List NArith Bool.
From Verif Require Import Text Fst ShapeSpec EnTnModel.
Import ListNotations.
Local Open Scope list_scope.

Definition mark (c : N) : Prop := Punctuation.punct_mark c = true \/ c = 34%N \/ c = 92%N.
Definition letter (c : N) : Prop := Word.word_char c = true.
Definition digit (c : N) : Prop := (48 <= c <= 57)%N.
(** A word of letters or a number of digits. *)
Definition core (w : text) : Prop := w <> [] /\ (Forall letter w \/ Forall digit w).
Definition marks (m : text) : Prop := m <> [] /\ Forall mark m.
(** Marks with any number of spaces before, between and after them, or nothing. *)
Definition loose (m : text) : Prop := m = [] \/ (Exists mark m /\ Forall (fun c => c = 32%N \/ mark c) m).
(** Marks and spaces, or one white-space character, perhaps with marks and spaces around it. *)
Inductive separator : text -> Prop :=
| sep_white m c m' : loose m -> white c -> loose m' -> separator (m ++ [c] ++ m')
| sep_marks m : loose m -> m <> [] -> separator m.
Inductive phrase : text -> Prop :=
| ph_core w : core w -> phrase w
| ph_more w s r : core w -> separator s -> phrase r -> phrase (w ++ s ++ r).
(** No "<", or no quotation mark and no backslash. *)
Definition tame (x : text) : Prop := ~ In 60%N x \/ (~ In 34%N x /\ ~ In 92%N x).
Definition english (x : text) : Prop :=
  tame x /\
  ((exists n m k, marks m /\ x = repeat 32%N n ++ m ++ repeat 32%N k) \/
   (exists a m p m' b, Forall white a /\ loose m /\ phrase p /\ loose m' /\ Forall white b /\
      x = a ++ m ++ p ++ m' ++ b)).
(** A hyphen in a date can be read as a space. *)
Definition hyphen_as_space (c d : N) : Prop := c = d \/ (c = 45 /\ d = 32)%N.
