(** The statements of C63 and C64 for any grammar. *)
From Coq Require Import List NArith ZArith Bool String.
From Verif Require Import Text TokenModel Fst GrammarModel GrammarSpec BoundarySpec PlainSpec.
From Verif Require Import NbestModel NbestSpec EngineSpec DataZhTn DataZhItn DataJaTn DataJaItn.
From Verif Require ZhTnModel ZhItnModel JaTnModel JaItnModel PipelineModel.
Import ListNotations.
Local Open Scope list_scope.

(** A normaliser: its token orders, its rules, its two graphs, its rule of single characters. *)
Record grammar := Grammar { g_orders : orders; g_rules : list rule_spec; g_tagger : option fst; g_verbalizer : option fst; g_char : rule }.
Definition zh_tn (o : ZhTnModel.options) : grammar :=
  Grammar PipelineModel.zh_tn_token_orders (ZhTnModel.rules o) (ZhTnModel.tagger o) (ZhTnModel.verbalizer o) ZhTnModel.Char.rule.
Definition zh_itn (o : ZhItnModel.options) : grammar :=
  Grammar PipelineModel.zh_itn_token_orders (ZhItnModel.rules o) (ZhItnModel.tagger o) (ZhItnModel.verbalizer o) ZhItnModel.Char.rule.
Definition ja_tn (o : JaTnModel.options) : grammar :=
  Grammar PipelineModel.ja_tn_token_orders (JaTnModel.rules o) (JaTnModel.tagger o) (JaTnModel.verbalizer o) JaTnModel.Char.rule.
Definition ja_itn (o : JaItnModel.options) : grammar :=
  Grammar PipelineModel.ja_itn_token_orders (JaItnModel.rules o) (JaItnModel.tagger o) (JaItnModel.verbalizer o) (JaItnModel.Char.rule o).

(** What normalize may answer for [x] ... *)
Definition answers (G : grammar) (x d : text) : Prop :=
  exists t v, g_tagger G = Some t /\ g_verbalizer G = Some v /\ best_answer (g_orders G) t v x d.
(** ... and when there is nothing else it may answer. *)
Definition sole_answer (G : grammar) (x d : text) : Prop := forall d', answers G x d' <-> d' = d.
(** An engine that searches the two graphs. *)
Definition engine_for (G : grammar) (en : engine) : Prop :=
  engine_orders en = g_orders G /\ exists t v, g_tagger G = Some t /\ g_verbalizer G = Some v /\ search_oracle en (outcomes t) (outcomes v).
(** normalize answers [d], given enough rounds of the search. *)
Definition normalizes_to (en : engine) (x d : text) : Prop :=
  exists least, forall fuel, least <= fuel -> normalize fuel en x (PyInt 1) = POk (One d).

(** Where no rule reads across, the answers for the whole are those for the parts, one after the other. *)
Definition cut_law (G : grammar) : Prop := forall a b, a <> [] -> b <> [] -> uncrossed (g_rules G) a b ->
  forall d, answers G (a ++ b) d <-> exists d1 d2, d = d1 ++ d2 /\ answers G a d1 /\ answers G b d2.
Definition cut_normalize_law (G : grammar) : Prop := forall en a b d1 d2, engine_for G en -> valid_text a -> valid_text b -> a <> [] -> b <> [] ->
  uncrossed (g_rules G) a b -> sole_answer G a d1 -> sole_answer G b d2 ->
  normalizes_to en a d1 /\ normalizes_to en b d2 /\ normalizes_to en (a ++ b) (d1 ++ d2).
(** normalize always answers, and only what it may. *)
Definition answer_law (G : grammar) : Prop := forall en x, engine_for G en -> valid_text x -> x <> [] ->
  (exists d, answers G x d) /\ (exists least, forall fuel, least <= fuel -> exists d, normalize fuel en x (PyInt 1) = POk (One d)) /\
  forall fuel d, normalize fuel en x (PyInt 1) = POk (One d) -> answers G x d.
(** Characters only the rule of single characters reads are treated one by one. *)
Definition plain (G : grammar) (x : text) : Prop := Forall (plain_for (g_rules G) (g_char G)) x.
Definition plain_law (G : grammar) (clean : N -> text) : Prop := forall en x, engine_for G en -> valid_text x -> x <> [] -> plain G x ->
  normalizes_to en x (flat_map clean x).
(** Around a text they do not change its answer. *)
Definition around_law (G : grammar) (clean : N -> text) : Prop := forall en p x q d, engine_for G en -> valid_text p -> valid_text x -> valid_text q ->
  plain G p -> plain G q -> x <> [] -> sole_answer G x d ->
  normalizes_to en x d /\ normalizes_to en (p ++ x ++ q) (flat_map clean p ++ d ++ flat_map clean q).
