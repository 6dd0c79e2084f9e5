(** What an engine knows about a graph: the connection between the grammars (Fst.v) and the
    search (NbestSpec.v). *)
From Coq Require Import ZArith List.
From Verif Require Import Text AlignModel AlignSpec NbestModel NbestSpec Fst.

(** The weighted set of the outputs of a graph for a text, each with its least cost. *)
Definition outcomes (e : fst) (x : text) : wset := fun y w =>
  denote e x y w /\ forall w', denote e x y w' -> (w <= w')%Z.

(** What is asked of [tag] for a text and of [verbalize] for a stream of tokens: a cheapest
    answer if there is one ([best_oracle], for one text). *)
Definition best_tag (en : engine) (T : text -> wset) (x : text) : Prop :=
  match tag_string en x with
  | Some t => exists w, T x t w /\ least (T x) w
  | None => forall t w, ~ T x t w
  end.
Definition best_verb (en : engine) (V : text -> wset) (r : text) : Prop :=
  (start_state (verb_machine en r None) = None /\ linear_arcs (verb_machine en r None) = Some (AErr (AlignmentError NoPath)) /\ forall o w, ~ V r o w) \/
  exists o w arcs, V r o w /\ least (V r) w /\ verb_string en r None = o /\
    start_state (verb_machine en r None) <> None /\
    linear_arcs (verb_machine en r None) = Some (AOk arcs) /\ spells r o arcs.
(** The same for the texts in [D]. *)
Definition best_on (D : text -> Prop) (en : engine) (T V : text -> wset) : Prop :=
  (forall x, D x -> best_tag en T x) /\ (forall r, D r -> best_verb en V r).
