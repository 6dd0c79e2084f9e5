(** What happens to one character that no rule changes (C64): the options of the postprocessors,
    written from the tables of data alone. *)
From Coq Require Import List NArith Bool String.
From Verif Require Import Text Fst GrammarModel DataZhTn DataZhItn DataJaTn DataJaItn.
From Verif Require ZhTnModel ZhItnModel JaTnModel JaItnModel.
Import ListNotations.
Local Open Scope list_scope.

(** The character a table of pairs gives for [c]; [c] if it is not in the table. *)
Definition swapped (lines : list string) (c : N) : N :=
  match find (fun p : text * text => text_eqb (Datatypes.fst p) [c]) (map entry lines) with Some (_, [d]) => d | _ => c end.
(** [c] is a line of a file. *)
Definition listed (lines : list string) (c : N) : bool := existsb (fun p : text * text => text_eqb (Datatypes.fst p) [c]) (map entry lines).
Definition drop_if (b : bool) (c : N) : option N := if b then None else Some c.
Definition then_ (a : option N) (f : N -> option N) : option N := match a with Some c => f c | None => None end.
Definition mark_if (b : bool) (c : N) : text := if b then u "<oov>" ++ [c] ++ u "</oov>" else [c].
Definition written (a : option N) (f : N -> text) : text := match a with Some c => f c | None => [] end.

(** Chinese: simplify, drop interjections, drop punctuation, narrow, mark what is not in the charset. *)
Definition zh_tn_clean (o : ZhTnModel.options) (c : N) : text :=
  written
    (then_ (then_ (then_ (Some (if ZhTnModel.traditional_to_simple o then swapped zh_tn_char_traditional_to_simple c else c))
      (fun c => drop_if (ZhTnModel.remove_interjections o && listed zh_tn_default_blacklist c) c))
      (fun c => drop_if (ZhTnModel.remove_puncts o && (listed zh_tn_char_punctuations_zh c || is_punct c)) c))
      (fun c => Some (if ZhTnModel.full_to_half o then swapped zh_tn_char_fullwidth_to_halfwidth c else c)))
    (fun c => mark_if (ZhTnModel.tag_oov o && negb (ZhTnModel.charset c)) c).
(** Chinese, inverse: drop interjections. *)
Definition zh_itn_clean (o : ZhItnModel.options) (c : N) : text :=
  written (drop_if (ZhItnModel.remove_interjections o && listed zh_itn_default_blacklist c) c) (fun c => [c]).
(** Japanese: narrow, drop interjections, drop punctuation, mark what is not in the charset. *)
Definition ja_tn_clean (o : JaTnModel.options) (c : N) : text :=
  written
    (then_ (then_ (Some (if JaTnModel.full_to_half o then swapped ja_tn_char_fullwidth_to_halfwidth c else c))
      (fun c => drop_if (JaTnModel.remove_interjections o && listed ja_tn_default_blacklist c) c))
      (fun c => drop_if (JaTnModel.remove_puncts o && (listed ja_tn_char_punctuations_ja c || is_punct c)) c))
    (fun c => mark_if (JaTnModel.tag_oov o && negb (JaTnModel.charset c)) c).
(** Japanese, inverse: narrow. *)
Definition ja_itn_clean (o : JaItnModel.options) (c : N) : text :=
  [if JaItnModel.full_to_half o then swapped ja_itn_char_fullwidth_to_halfwidth c else c].
