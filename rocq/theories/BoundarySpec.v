(** Where a text can be cut (C63).  Nothing here mentions a grammar. *)
From Coq Require Import List NArith ZArith.
From Verif Require Import Text TokenModel Fst GrammarModel.
Import ListNotations.
Local Open Scope list_scope.

(** [y] is one of the cheapest outputs of a graph for [x]. *)
Definition best_output (r : rel) (x y : text) : Prop := exists w, r x y w /\ forall z v, r x z v -> (w <= v)%Z.
(** What normalize may answer: a cheapest tagging, put in order, and a cheapest verbalisation of it. *)
Definition best_answer (os : orders) (t v : fst) (x d : text) : Prop :=
  exists y r, best_output (denote t) x y /\ reorder os y = Ok r /\ best_output (denote v) r d.
(** The only such answer. *)
Definition only_answer (os : orders) (t v : fst) (x d : text) : Prop := forall d', best_answer os t v x d' <-> d' = d.

(** No rule reads across the place between [a] and [b]: it reads no end of [a] together with a beginning of [b]. *)
Definition uncrossed (rules : list rule_spec) (a b : text) : Prop :=
  forall a' p q b' s y w, a = a' ++ p -> b = q ++ b' -> p <> [] -> q <> [] -> In s rules ->
    ~ denote (r_tagger (s_rule s)) (p ++ q) y w.
(** A character no rule reads together with another one. *)
Definition ordinary (rules : list rule_spec) (c : N) : Prop :=
  forall s x y w, In s rules -> denote (r_tagger (s_rule s)) x y w -> In c x -> x = [c].
(** A character only the rule [char] reads, the rule of single characters. *)
Definition plain_for (rules : list rule_spec) (char : rule) (c : N) : Prop :=
  forall s x y w, In s rules -> denote (r_tagger (s_rule s)) x y w -> In c x -> s_rule s = char.
