(** What the C++ token parser is compared with: the token-stream language of
    TokenSpec.v read without decoding the values and without refusing repeated keys. *)
From Coq Require Import List NArith String.
From Verif Require Import Text TokenSpec.
Import ListNotations.
Local Open Scope list_scope.

(** Between two quotes: any text in which every backslash protects the next character. *)
Definition quotable (b : text) : Prop := exists v, decodes b v.

(** Fields with the text between their quotes. *)
Inductive fields_raw : text -> list (text * text) -> Prop :=
| fr_nil n : fields_raw (repeat 32%N n) []
| fr_cons n key b rest fs :
    is_name key -> quotable b -> fields_raw rest fs ->
    fields_raw (repeat 32%N n ++ key ++ u ": """ ++ b ++ u """" ++ rest) ((key, b) :: fs).

Inductive stream_raw : text -> list (text * list (text * text)) -> Prop :=
| sr_nil n : stream_raw (repeat 32%N n) []
| sr_cons n name body fs rest ts :
    is_name name -> fields_raw body fs -> stream_raw rest ts ->
    stream_raw (repeat 32%N n ++ (name ++ u " { " ++ body ++ u "}") ++ rest) ((name, fs) :: ts).

(** A token both parsers treat alike: no key twice, every backslash escapes a quote or a
    backslash, and, where fields are reordered, only fields the schema lists. *)
Definition plain (sc : schema) (t : text * list (text * text)) : Prop :=
  NoDup (map fst (snd t)) /\
  Forall (fun kb => exists v, escaped v (snd kb)) (snd t) /\
  (In (u "preserve_order", u "true") (snd t) \/
   forall keys, In (fst t, keys) sc -> incl (map fst (snd t)) keys).

(** Schemas of ASCII names, for which bytes and characters are the same. *)
Definition ascii (t : text) : Prop := Forall (fun c => c < 128)%N t.
Definition ascii_schema (sc : schema) : Prop :=
  Forall (fun e => ascii (fst e) /\ Forall ascii (snd e)) sc.

(** Leading and trailing blanks (space, \t, \n, \v, \f, \r), and pieces joined by a delimiter. *)
Definition blank (c : N) : Prop := (c = 32 \/ 9 <= c <= 13)%N.
Definition begins_blank (t : text) : Prop := exists c r, t = c :: r /\ blank c.
Definition ends_blank (t : text) : Prop := exists r c, t = r ++ [c] /\ blank c.
Definition occurs (d t : text) : Prop := exists a b, t = a ++ d ++ b.
