(** Transcription of the grammar-building part of /repo/tn/processor.py.  Model only. *)
From Coq Require Import List NArith ZArith Bool String.
From Verif Require Import Text Fst.
Import ListNotations.
Local Open Scope list_scope.

(** pynini.lib.byte and utf8; Processor.__init__, tn/processor.py:122-127. *)
Definition in_range (a b c : N) : bool := ((a <=? c) && (c <=? b))%N%bool.
Definition is_digit (c : N) : bool := in_range 48 57 c.
Definition is_alpha (c : N) : bool := in_range 65 90 c || in_range 97 122 c.
Definition is_punct (c : N) : bool :=
  in_range 33 47 c || in_range 58 64 c || in_range 91 96 c || in_range 123 126 c.
Definition is_space (c : N) : bool := in_range 9 13 c || (c =? 32)%N || (c =? 160)%N.
Definition ALPHA : fst := Class is_alpha.
Definition DIGIT : fst := Class is_digit.
Definition PUNCT : fst := Class is_punct.
Definition SPACE : fst := Class is_space.
Definition VCHAR : fst := Class vchar.
Definition VSIGMA : fst := Star VCHAR.

(** tn/processor.py:131-133.  In a pynini string a backslash followed by a backslash or
    a bracket stands for the latter and any other backslash for itself: the Python string
    of three backslashes is the text of two. *)
Definition plain (c : N) : bool := (vchar c && negb (c =? 92) && negb (c =? 34))%N%bool.
Definition CHAR : fst := (Class plain ∪ Cross [92%N] [92; 92]%N ∪ Cross [34%N] [92; 34]%N)%fst.
Definition SIGMA : fst := Star (Class plain ∪ Cross [92; 92]%N [92%N] ∪ Cross [92; 34]%N [34%N])%fst.

(** RuleSpec, tn/processor.py:36-42, of a rule with its two graphs. *)
Record rule := Rule { r_tagger : fst; r_verbalizer : fst }.
Record rule_spec := RuleSpec { s_rule : rule; s_weight : option Z; s_verbalize : bool }.
(** union of the graphs; [None] for an empty list. *)
Fixpoint union_of (l : list fst) : option fst :=
  match l with
  | [] => None
  | a :: r => match union_of r with None => Some a | Some b => Some (Union a b) end
  end.
(** tagger_union and verbalizer_union, tn/processor.py:150-166; [None]: ValueError. *)
Definition taggers (rules : list rule_spec) : list fst :=
  flat_map (fun s => match s_weight s with
                     | Some w => [Weight w (r_tagger (s_rule s))]
                     | None => []
                     end) rules.
Definition tagger_union (rules : list rule_spec) : option fst := union_of (taggers rules).
Definition verbalizers (rules : list rule_spec) : list fst :=
  flat_map (fun s => if s_verbalize s then [r_verbalizer (s_rule s)] else []) rules.
Definition verbalizer_union (rules : list rule_spec) : option fst := union_of (verbalizers rules).

(** build_rule, tn/processor.py:173-175. *)
Definition build_rule (tau : fst) (l r : context) : fst := Rewrite tau l r.
(** add_tokens and delete_tokens, tn/processor.py:177-183. *)
Definition add_tokens (name : text) (tagger : fst) : fst :=
  (insert (name ++ u " { ") + tagger + insert (u " } "))%fst.
Definition delete_tokens (name : text) (verbalizer : fst) : fst :=
  (delete name + delete (u " { ") + verbalizer + delete (u " }") + ques (delete (u " ")))%fst.
(** input_projection, tn/processor.py:185-195. *)
Definition input_projection (graph : fst) : fst := Input graph.
(** tag_field, tn/processor.py:197-201. *)
Definition tag_field (name : text) (graph : fst) : fst :=
  (insert (name ++ u ": """) + input_projection graph @ Star CHAR + insert (u """"))%fst.
(** verbalize_field, tn/processor.py:203-208. *)
Definition verbalize_field (name : text) (graph : option fst) (leading_space : bool) : fst :=
  let decoded := match graph with None => SIGMA | Some g => (SIGMA @ g)%fst end in
  (delete ((if leading_space then u " " else []) ++ name ++ u ": """) + decoded + delete (u """"))%fst.
(** apply_input_processor, tn/processor.py:210-216. *)
Definition apply_input_processor (graph : fst) (input_processor : option fst) : fst :=
  match input_processor with None => graph | Some p => (p @ graph)%fst end.
(** build_verbalizer, tn/processor.py:218-219. *)
Definition build_verbalizer (name : text) : fst := delete_tokens name (verbalize_field (u "value") None false).
(** pynini.lib.tagger.Tagger(tag, graph, VSIGMA)._tagger *)
Definition oov_tagger (tag : text) (graph : fst) : fst :=
  Rewrite (insert (u "<" ++ tag ++ u ">") + graph + insert (u "</" ++ tag ++ u ">"))%fst Anywhere Anywhere.
(** The end of every build_tagger_and_verbalizer: the tagger's star composed with
    build_rule(delete(" "), r="[EOS]"). *)
Definition trim_end (tagger : fst) : fst := (Star tagger @ build_rule (delete (u " ")) Anywhere Edge)%fst.
(** The characters of a file of one character per line (checked for the files used:
    PropsShape.v). *)
Definition characters (lines : list string) : list N :=
  flat_map (fun l => match u l with [c] => [c] | _ => [] end) lines.
Definition in_lines (lines : list string) (c : N) : bool := existsb (N.eqb c) (characters lines).
(** [if b: processor @= step] *)
Definition when (b : bool) (processor step : fst) : fst := if b then Compose processor step else processor.
