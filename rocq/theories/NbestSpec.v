(** What "the n best" means, independently of the search. *)
From Coq Require Import List NArith ZArith Bool Arith Sorted.
From Verif Require Import Text TokenModel AlignModel AlignSpec NbestModel.
Import ListNotations.

(** A weighted set of strings: [S t w] says that [t] can be produced and that [w]
    is the cheapest way to do so. *)
Definition wset := text -> Z -> Prop.
Definition functional (S : wset) : Prop := forall t w w', S t w -> S t w' -> w = w'.
Definition lighter (a b : weighted) : Prop := (snd a <= snd b)%Z.

(** [r] is a list of the [k] cheapest members of [S]: members, no string twice,
    cheapest first, nothing outside is cheaper than anything inside, and shorter
    than [k] only if it has everything.  Ties may be broken in any way. *)
Definition kbest (S : wset) (k : nat) (r : list weighted) : Prop :=
  (forall t w, In (t, w) r -> S t w) /\
  NoDup (map fst r) /\
  StronglySorted lighter r /\
  (forall t w x, S t w -> ~ In (t, w) r -> In x r -> (snd x <= w)%Z) /\
  length r <= k /\
  (length r < k -> forall t w, S t w -> In (t, w) r).

(** [E 0], [E 1], ... lists the members of [S], cheapest first, without repetition;
    if it ends, it has listed them all. *)
Definition enumerates (S : wset) (E : nat -> option weighted) : Prop :=
  (forall i t w, E i = Some (t, w) -> S t w) /\
  (forall i j t w w', E i = Some (t, w) -> E j = Some (t, w') -> i = j) /\
  (forall i j x y, i <= j -> E i = Some x -> E j = Some y -> lighter x y) /\
  (forall i j, i <= j -> E i = None -> E j = None) /\
  (forall i x t w, E i = Some x -> S t w -> (forall j, j < i -> E j <> Some (t, w)) -> (snd x <= w)%Z) /\
  (forall i t w, E i = None -> S t w -> exists j, j < i /\ E j = Some (t, w)).

(** What is assumed of pynini: n-shortest-paths of the two lattices. [T x] is the
    weighted set of taggings of [x], [V r] that of the verbalisations of [r]. *)
Definition search_oracle (en : engine) (T V : text -> wset) : Prop :=
  (forall x, functional (T x)) /\ (forall r, functional (V r)) /\
  (forall x k, kbest (T x) k (tag_paths en x k)) /\
  (forall r k, kbest (V r) k (verb_paths en r k)).

(** A joint candidate: tagging [t], reordered to [r], verbalised as [o]; its cost is
    the tagging's cost plus what the verbalisation costs above the best one of [r]. *)
Definition least (S : wset) (b : Z) : Prop := (exists t, S t b) /\ forall t w, S t w -> (b <= w)%Z.
Definition joint (en : engine) (T V : text -> wset) (x t o : text) (w : Z) : Prop :=
  exists r tw vw b, T x t tw /\ reorder (engine_orders en) t = Ok r /\ V r o vw /\ least (V r) b /\
    w = (tw + (vw - b))%Z.
(** The weighted set of final outputs: each with its cheapest joint cost. *)
Definition outputs (en : engine) (T V : text -> wset) (x : text) : wset := fun o w =>
  (exists t, joint en T V x t o w) /\ (forall t w', joint en T V x t o w' -> (w <= w')%Z).

(** The same, with ties resolved: joint candidates numbered by the position [i] of
    the tagging and the position [j] of the verbalisation. *)
Definition ranked (en : engine) (ET : nat -> option weighted) (EV : text -> nat -> option weighted)
  (i j : nat) (t o : text) (w : Z) : Prop :=
  exists r tw vw o0 b, ET i = Some (t, tw) /\ reorder (engine_orders en) t = Ok r /\
    EV r j = Some (o, vw) /\ EV r 0 = Some (o0, b) /\ w = (tw + (vw - b))%Z.
Definition before (a b : Z * nat * nat) : Prop :=
  let '(w1, i1, j1) := a in let '(w2, i2, j2) := b in
  (w1 < w2)%Z \/ (w1 = w2 /\ (i1 < i2 \/ (i1 = i2 /\ j1 < j2))).
(** [cs] is the list of the first [n] different outputs in the order [before]. *)
Definition first_distinct (n : nat) (J : nat -> nat -> text -> text -> Z -> Prop) (cs : list candidate) : Prop :=
  (forall c, In c cs -> J (c_trank c) (c_vrank c) (c_tagged c) (c_output c) (c_weight c)) /\
  StronglySorted (fun a b => before (c_weight a, c_trank a, c_vrank a) (c_weight b, c_trank b, c_vrank b)) cs /\
  NoDup (map c_output cs) /\
  length cs <= n /\
  (forall i j t o w, J i j t o w ->
     (exists c, In c cs /\ c_output c = o /\
        ((c_weight c, c_trank c, c_vrank c) = (w, i, j) \/ before (c_weight c, c_trank c, c_vrank c) (w, i, j))) \/
     (length cs = n /\ forall c, In c cs -> before (c_weight c, c_trank c, c_vrank c) (w, i, j))).

(** A finite weighted set. *)
Definition finite (S : wset) : Prop := exists l, forall t w, S t w -> In t l.

(** What is assumed of pynini for mappings: the constrained shortest path is a
    single path reading and writing exactly the two strings. *)
Definition path_oracle (en : engine) (T V : text -> wset) : Prop :=
  (forall x t w, T x t w -> exists arcs,
     start_state (trace_machine en x t) <> None /\
     linear_arcs (trace_machine en x t) = Some (AOk arcs) /\ spells x t arcs) /\
  (forall r o w, V r o w -> exists arcs,
     start_state (verb_machine en r (Some o)) <> None /\
     linear_arcs (verb_machine en r (Some o)) = Some (AOk arcs) /\ spells r o arcs /\
     verb_string en r (Some o) = o).
(** ... and for tag and verbalize: a cheapest string, if there is one. *)
Definition best_oracle (en : engine) (T V : text -> wset) : Prop :=
  (forall x, match tag_string en x with
             | Some t => exists w, T x t w /\ least (T x) w
             | None => forall t w, ~ T x t w
             end) /\
  (forall r, (start_state (verb_machine en r None) = None /\ linear_arcs (verb_machine en r None) = Some (AErr (AlignmentError NoPath)) /\ forall o w, ~ V r o w) \/
     exists o w arcs, V r o w /\ least (V r) w /\ verb_string en r None = o /\
       start_state (verb_machine en r None) <> None /\
       linear_arcs (verb_machine en r None) = Some (AOk arcs) /\ spells r o arcs).

(** The stream after [k] calls of pop, and what the next call returns. *)
Fixpoint after (p : nat -> list weighted) (k : nat) : stream :=
  match k with
  | O => new_stream p
  | S k' => match pop (after p k') with Some (_, s) => s | None => after p k' end
  end.
Definition popped (p : nat -> list weighted) (k : nat) : option weighted :=
  match pop (after p k) with Some (Some it, _) => Some (i_text it, i_weight it) | _ => None end.

(** What a sequence of calls returns ([true] pop, [false] peek; [None]: no fuel), and
    what it should: the next member of the enumeration, popped or not. *)
Fixpoint play (ops : list bool) (s : stream) : option (list (option item)) :=
  match ops with
  | [] => Some []
  | b :: r =>
      match (if b then pop s else peek s) with
      | None => None
      | Some (it, s') => match play r s' with Some l => Some (it :: l) | None => None end
      end
  end.
Fixpoint expected (E : nat -> option weighted) (k : nat) (ops : list bool) : list (option item) :=
  match ops with
  | [] => []
  | b :: r =>
      match E k with
      | Some (t, w) => Some (Item t w k) :: expected E (if b then S k else k) r
      | None => None :: expected E k r
      end
  end.

(** The results as a list, whether one or many were asked for. *)
Definition listed {A} (a : answer A) : list A := match a with One x => [x] | Many l => l end.

(** A mapping that is right about the two texts. *)
Definition mapping_ok (input output : text) (m : mapping) : Prop :=
  m_in_start m < m_in_end m /\ m_in_end m <= length input /\
  m_out_start m <= m_out_end m /\ m_out_end m <= length output /\
  m_in_text m = slice input (m_in_start m) (m_in_end m) /\
  m_out_text m = slice output (m_out_start m) (m_out_end m) /\
  (m_kind m = Equal <-> m_in_text m = m_out_text m) /\
  (m_kind m = Delete <-> m_out_text m = []) /\
  (m_kind m = Replace <-> m_in_text m <> m_out_text m /\ m_out_text m <> []).
Definition in_span (m : mapping) := (m_in_start m, m_in_end m).
Definition out_span (m : mapping) := (m_out_start m, m_out_end m).
Definition not_equal (m : mapping) : bool := match m_kind m with Equal => false | _ => true end.

(** With [include_identity], row [k] is token [k] of the tagging, at the input bytes
    its path took and at the output bytes its path wrote. *)
Definition faithful (en : engine) (T V : text -> wset) (x : text) (res : result) : Prop :=
  exists t tw r vw toks tspans arcs1 arcs2,
    T x t tw /\ reorder_with_spans (engine_orders en) t = Ok (r, tspans) /\ V r (r_output res) vw /\
    parse t = Ok toks /\ spells x t arcs1 /\ spells r (r_output res) arcs2 /\
    map m_type (r_mappings res) = map tk_name toks /\
    each_span (input_span_ok x t arcs1 (map (fun k => (tk_start k, tk_end k)) toks))
      (map (fun k => (tk_start k, tk_end k)) toks) (map in_span (r_mappings res)) /\
    each_span (output_span_ok r (r_output res) arcs2 tspans) tspans (map out_span (r_mappings res)).
