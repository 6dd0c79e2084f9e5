(** What normalize answers is a best answer of the two graphs. *)
From Coq Require Import List NArith ZArith Bool String Lia Arith.
From Verif Require Import Text TokenModel Fst GrammarModel BoundarySpec.
From Verif Require Import NbestModel NbestSpec NbestProofs NbestMap EngineSpec FstEval GrammarEngine.
Import ListNotations.
Local Open Scope list_scope.

Lemma normalize_answers en t v x d fuel : loopfree t = true -> loopfree v = true -> search_oracle en (outcomes t) (outcomes v) -> x <> [] ->
  (forall y w, denote t x y w -> exists r, reorder (engine_orders en) y = Ok r /\ exists z w', denote v r z w') ->
  normalize fuel en x (PyInt 1) = POk (One d) -> best_answer (engine_orders en) t v x d.
Proof.
  intros Lt Lv O Nx Total E. destruct (normalize_best en _ _ O fuel x d Nx (outcomes_finite t x Lt) E) as (y & r & w & b & T & R & V & (_ & L) & Best).
  exists y, r. split; [|split; [exact R|]].
  - exists w. split; [exact (proj1 T)|]. intros z k H. destruct (outcomes_exist t x z k Lt H) as (k' & T').
    destruct (Total _ _ H) as (r' & R' & d' & j & V'). destruct (outcomes_exist v r' d' j Lv V') as (j' & V2).
    pose proof (Best _ _ _ _ _ T' R' V2). pose proof (proj2 T' _ H). lia.
  - exists b. split; [exact (proj1 V)|]. intros z k H. destruct (outcomes_exist v r z k Lv H) as (k' & V'). pose proof (L _ _ V'). pose proof (proj2 V' _ H). lia.
Qed.
Lemma normalize_one en fuel x ans : normalize fuel en x (PyInt 1) = POk ans -> exists d, ans = One d.
Proof. intro E. pose proof (normalize_shape _ _ _ _ _ E) as (z & [= <-] & _ & S). destruct ans as [a|l]; [eauto|destruct S as (S & _); congruence]. Qed.
