(** A text one rule reads whole (C66). *)
From Coq Require Import List NArith ZArith Bool String.
From Verif Require Import Text TokenModel Fst GrammarModel GrammarSpec BoundarySpec BoundaryLaw.
Import ListNotations.
Local Open Scope list_scope.

(** One rule reads the whole of [x] as the single token [y], at the cost of that reading plus the weight of the rule. *)
Definition whole_reading (rs : list rule_spec) : rel := fun x y w =>
  valid_text y /\ exists s k v, In s rs /\ s_weight s = Some k /\ denote (r_tagger (s_rule s)) x (y ++ u " ") v /\ w = (k + v)%Z.

(** Unless the text is exempt, if some rule reads it whole for less than the limit, then it is never cut in
    two: its cheapest taggings are the cheapest of the readings of the whole text by one rule. *)
Definition whole_law (G : grammar) (limit : Z) (exempt : text -> Prop) : Prop := forall x y w, x <> [] -> ~ exempt x ->
  whole_reading (g_rules G) x y w -> (w < limit)%Z ->
  exists t, g_tagger G = Some t /\ (exists z, best_output (denote t) x z) /\
    (forall z, best_output (denote t) x z <-> best_output (whole_reading (g_rules G)) x z) /\
    (forall d, answers G x d <-> exists v z r, g_verbalizer G = Some v /\
       best_output (whole_reading (g_rules G)) x z /\ reorder (g_orders G) z = Ok r /\ best_output (denote v) r d).

(** The characters of the telephone numbers of the Chinese rules (tn/chinese/rules/cardinal.py:86-103): digits, and 尾号是为. *)
Definition phone_char (c : N) : bool :=
  ((48 <=? c) && (c <=? 57) || (65296 <=? c) && (c <=? 65305) || existsb (N.eqb c) (u "尾号是为"))%N.
Definition phone_text (x : text) : Prop := Forall (fun c => phone_char c = true) x.
