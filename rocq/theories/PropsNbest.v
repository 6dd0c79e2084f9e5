(** Properties C16, C17 and C19-C25: tn/processor.py's tag, verbalize, normalize
    and normalize_with_mapping.

    Vocabulary (NbestSpec.v): [T x] is the weighted set of taggings of [x], [V r] the
    weighted set of verbalisations of [r]; [kbest], [enumerates] say what "the n
    best" is; [joint] is the cost of a (tagging, verbalisation) pair and [outputs] the
    weighted set of final texts.  [search_oracle], [path_oracle] and [best_oracle]
    are what is assumed of pynini; NbestWitness.v has an engine that meets them. *)
From Coq Require Import List NArith ZArith Bool Arith Lia Reals String Sorted.
From Coq Require Import Floats.SpecFloat.
From Verif Require Import Text TextFacts TokenModel AlignModel AlignSpec.
From Verif Require Import NbestModel NbestSpec NbestStream NbestSearch NbestProofs NbestMap NbestFloat NbestWitness.
Import ListNotations.
Local Open Scope list_scope.

(** The engine of the examples meets the three assumptions. *)
Example oracle_witness : search_oracle engine_w T_w V_w /\ path_oracle engine_w T_w V_w /\ best_oracle engine_w T_w V_w /\
  (forall x, finite (T_w x)) /\ (forall r, finite (V_w r)).
Proof.
  exact (conj (table_search_oracle _ _ _ tags_w_ok verbs_w_ok)
        (conj (table_path_oracle _ _ _ tags_w_ok verbs_w_ok)
        (conj (table_best_oracle _ _ _ tags_w_ok verbs_w_ok)
        (conj (table_finite _) (table_finite _))))).
Qed.

(** C16: every reported row is right about the two texts, in order, not overlapping. *)
Theorem C16_mappings_consistent : forall en T V, search_oracle en T V -> path_oracle en T V ->
  forall fuel x v b ans, x <> [] -> normalize_with_mapping fuel en x v b = POk ans ->
  Forall (fun res => r_input res = x /\
     Forall (mapping_ok x (r_output res)) (r_mappings res) /\
     increasing_from 0 (map in_span (r_mappings res)) (List.length x) /\
     increasing_from 0 (map out_span (r_mappings res)) (List.length (r_output res))) (listed ans).
Proof. exact mapping_consistent. Qed.
Print Assumptions C16_mappings_consistent.

(** With include_identity there is one row per token, and each row's spans are those
    the alignment properties C13 and C15 define. *)
Theorem C16_mappings_faithful : forall en T V, search_oracle en T V -> path_oracle en T V ->
  forall fuel x v ans, x <> [] -> normalize_with_mapping fuel en x v true = POk ans ->
  Forall (faithful en T V x) (listed ans).
Proof. exact mapping_faithful. Qed.
Print Assumptions C16_mappings_faithful.

(** Without it, exactly the rows that are not [equal]. *)
Theorem C16_identity_rows : forall en T V, search_oracle en T V -> path_oracle en T V ->
  forall fuel x v ans, x <> [] -> normalize_with_mapping fuel en x v true = POk ans ->
  exists ans', normalize_with_mapping fuel en x v false = POk ans' /\
    listed ans' = map (fun res => Result (r_input res) (r_output res) (filter not_equal (r_mappings res))) (listed ans).
Proof. exact (fun en T V O _ => mapping_complete en T V O). Qed.
Print Assumptions C16_identity_rows.

Example C16_witness : normalize_with_mapping 40 engine_w (u "3") (PyInt 3) true =
  POk (Many [Result (u "3") (u "三") [Mapping Replace (u "cardinal") 0 1 0 1 (u "3") (u "三")];
             Result (u "3") (u "叁") [Mapping Replace (u "cardinal") 0 1 0 1 (u "3") (u "叁")];
             Result (u "3") (u "3") [Mapping Equal (u "char") 0 1 0 1 (u "3") (u "3")]]).
Proof. vm_compute; reflexivity. Qed.
Example C16_witness_false : normalize_with_mapping 40 engine_w (u "3") (PyInt 3) false =
  POk (Many [Result (u "3") (u "三") [Mapping Replace (u "cardinal") 0 1 0 1 (u "3") (u "三")];
             Result (u "3") (u "叁") [Mapping Replace (u "cardinal") 0 1 0 1 (u "3") (u "叁")];
             Result (u "3") (u "3") []]).
Proof. vm_compute; reflexivity. Qed.

(** C17: same outputs, same order, same shape. *)
Theorem C17_mapping_agrees : forall en T V, search_oracle en T V -> path_oracle en T V ->
  forall fuel x v b ans, normalize_with_mapping fuel en x v b = POk ans ->
  exists ans', normalize fuel en x v = POk ans' /\
    match ans, ans' with
    | One res, One o => r_output res = o
    | Many rs, Many os => map r_output rs = os
    | _, _ => False
    end.
Proof. exact mapping_agrees. Qed.
Print Assumptions C17_mapping_agrees.

(** The only further errors are the two alignment errors. *)
Theorem C17_mapping_errors : forall en T V, search_oracle en T V -> path_oracle en T V ->
  forall fuel x v b e, x <> [] -> normalize_with_mapping fuel en x v b = PErr e ->
  normalize fuel en x v = PErr e \/
  (e = PAlign (AlignmentError SplitCodePoint) \/ e = PAlign (AlignmentError NothingConsumed)).
Proof. exact mapping_errors. Qed.
Print Assumptions C17_mapping_errors.

(** Such an error does happen: a tagging may contain a token that consumed no input. *)
Definition tags_e : table :=
  [ (u "3", [(tok "cardinal" "三", 1%Z, map (fun y => Arc 0%N y 0) (bytes (tok "cardinal" "三")) ++ [Arc 51%N 0%N 0])]) ].
Definition engine_e : engine := table_engine TN_ORDERS tags_e verbs_w.
Theorem C17_mapping_can_fail_refuted : exists en T V fuel x, search_oracle en T V /\ path_oracle en T V /\
  (exists o, normalize fuel en x (PyInt 1) = POk (One o)) /\
  normalize_with_mapping fuel en x (PyInt 1) true = PErr (PAlign (AlignmentError NothingConsumed)).
Proof.
  exists engine_e, (table_set tags_e), V_w, 40, (u "3").
  split; [apply table_search_oracle; vm_compute; reflexivity|].
  split; [apply table_path_oracle; vm_compute; reflexivity|].
  split; [exists (u "三")|]; vm_compute; reflexivity.
Qed.
Print Assumptions C17_mapping_can_fail_refuted.

(** C19: normalize returns the first n distinct outputs of all (tagging,
    verbalisation) pairs in the order of (joint weight, tag rank, verbalisation rank). *)
Theorem C19_first_n_distinct : forall en T V, search_oracle en T V ->
  forall fuel x z ans, x <> [] -> normalize fuel en x (PyInt z) = POk ans ->
  exists ET EV cs, enumerates (T x) ET /\ (forall r, enumerates (V r) (EV r)) /\
    first_distinct (Z.to_nat z) (ranked en ET EV) cs /\ cs <> [] /\ listed ans = map c_output cs.
Proof. exact normalize_exact. Qed.
Print Assumptions C19_first_n_distinct.

Example C19_witness : normalize 40 engine_w (u "3") (PyInt 10) = POk (Many [u "三"; u "叁"; u "3"; u "三三"]).
Proof. vm_compute; reflexivity. Qed.

(** Weights: the integers of the model are binary64 floats in the program.  On a
    grid of 2^-e with sums up to 2^53 units the float computation is exact and has
    the same order ... *)
Theorem C19_float_weights_exact : forall e tw vw best, (e <= 1074)%Z ->
  (Z.abs (tw + vw) <= 2 ^ 53)%Z -> (Z.abs (tw + vw - best) <= 2 ^ 53)%Z ->
  float_weight (units e tw) (units e vw) (units e best) = units e (tw + vw - best) /\
  forall a b, (units e a <= units e b)%R <-> (a <= b)%Z.
Proof. exact (fun e tw vw best He H1 H2 => conj (float_weight_exact e tw vw best He H1 H2) (units_order e)). Qed.
Print Assumptions C19_float_weights_exact.
(** ... and off it, the cost of a tagging's best verbalisation can come out below
    the tagging's own cost, which the search takes for its lower bound. *)
Theorem C19_float_bound_refuted : exists tw b : spec_float,
  SFltb (SFsub 53 1024 (SFadd 53 1024 tw b) b) tw = true.
Proof. exact (ex_intro _ f_one (ex_intro _ f_big float_weight_rounds)). Qed.
Print Assumptions C19_float_bound_refuted.

(** C20: they are the n cheapest outputs: distinct, cheapest first, at most n, and
    fewer than n only if they are all. *)
Theorem C20_n_cheapest : forall en T V, search_oracle en T V ->
  forall fuel x z ans, x <> [] -> finite (T x) -> (forall r, finite (V r)) ->
  normalize fuel en x (PyInt z) = POk ans ->
  exists best, kbest (outputs en T V x) (Z.to_nat z) best /\ best <> [] /\ listed ans = map fst best.
Proof. exact normalize_kbest. Qed.
Print Assumptions C20_n_cheapest.

(** The same for tag. *)
Theorem C20_tag_n_cheapest : forall en T V, search_oracle en T V -> best_oracle en T V ->
  forall x z, x <> [] -> (1 <= z)%Z ->
  match tag en x (PyInt z) with
  | POk (One t) => z = 1%Z /\ exists w, T x t w /\ least (T x) w
  | POk (Many l) => z <> 1%Z /\ exists best, kbest (T x) (Z.to_nat z) best /\ l = map fst best
  | PErr e => e = PFst /\ z = 1%Z /\ forall t w, ~ T x t w
  end.
Proof. exact tag_spec. Qed.
Print Assumptions C20_tag_n_cheapest.

(** C21: a shorter list is a prefix of a longer one. *)
Theorem C21_prefix_stable : forall en x f g n m a b, (1 <= n <= m)%Z ->
  normalize f en x (PyInt n) = POk a -> normalize g en x (PyInt m) = POk b ->
  listed a = firstn (Z.to_nat n) (listed b).
Proof. exact normalize_prefix. Qed.
Print Assumptions C21_prefix_stable.
Theorem C21_shape : forall fuel en x v ans, normalize fuel en x v = POk ans ->
  exists z, v = PyInt z /\ (1 <= z)%Z /\ match ans with One _ => z = 1%Z | Many l => z <> 1%Z /\ List.length l <= Z.to_nat z end.
Proof. exact normalize_shape. Qed.
Print Assumptions C21_shape.
Example C21_witness : normalize 40 engine_w (u "3") (PyInt 3) = POk (Many [u "三"; u "叁"; u "3"]) /\
  normalize 40 engine_w (u "3") (PyInt 1) = POk (One (u "三")).
Proof. vm_compute; tauto. Qed.

(** C22: whatever sequence of peeks and pops is made on a stream, it lists the
    weighted set, cheapest first, each member once, and says "none" only when every
    member has been popped. *)
Theorem C22_stream_enumerates : forall S p, functional S -> (forall k, kbest S k (p k)) ->
  exists E, enumerates S E /\ forall ops, play ops (new_stream p) = Some (expected E 0 ops).
Proof. exact stream_plays. Qed.
Print Assumptions C22_stream_enumerates.
(** Ties broken differently on each call. *)
Definition moody (k : nat) : list weighted :=
  firstn k (if Nat.even k then [(u "a", 1%Z); (u "b", 1%Z); (u "c", 2%Z)] else [(u "b", 1%Z); (u "a", 1%Z); (u "c", 2%Z)]).
Example C22_witness : play [true; false; true; true; true] (new_stream moody) =
  Some [Some (Item (u "b") 1 0); Some (Item (u "a") 1 1); Some (Item (u "a") 1 1); Some (Item (u "c") 2 2); None].
Proof. vm_compute; reflexivity. Qed.
Example C22_witness_oracle : forall k, kbest (fun t w => In (t, w) [(u "a", 1%Z); (u "b", 1%Z); (u "c", 2%Z)]) k (moody k).
Proof.
  assert (Hperm : forall l k, (forall t w, In (t, w) l <-> In (t, w) [(u "a", 1%Z); (u "b", 1%Z); (u "c", 2%Z)]) ->
    sortedb l = true -> nodupb (map fst l) = true ->
    kbest (fun t w => In (t, w) [(u "a", 1%Z); (u "b", 1%Z); (u "c", 2%Z)]) k (firstn k l)).
  { intros l k Hi Hs Hd. pose proof (table_kbest l k (sortedb_ok l Hs) (nodupb_ok _ Hd)) as (A & B & C & D & E & F).
    split; [intros t w H; apply Hi, (A t w H)|]. split; [exact B|]. split; [exact C|].
    split; [intros t w y H; apply D, Hi, H|]. split; [exact E|]. intros L t w H. apply (F L), Hi, H. }
  intros k. unfold moody. destruct (Nat.even k); apply Hperm; try reflexivity; cbn [In]; intros t w; tauto.
Qed.

(** C23: normalize returns a best verbalisation of a cheapest verbalisable tagging ... *)
Theorem C23_best_verbalisable : forall en T V, search_oracle en T V ->
  forall fuel x o, x <> [] -> finite (T x) ->
  normalize fuel en x (PyInt 1) = POk (One o) ->
  exists t r tw b, T x t tw /\ reorder (engine_orders en) t = Ok r /\ V r o b /\ least (V r) b /\
    forall t' r' tw' o' v', T x t' tw' -> reorder (engine_orders en) t' = Ok r' -> V r' o' v' -> (tw <= tw')%Z.
Proof. exact normalize_best. Qed.
Print Assumptions C23_best_verbalisable.
(** ... which is verbalize(tag(x)) when the cheapest tagging and its cheapest
    verbalisation are the only ones of their cost. *)
Theorem C23_tag_then_verbalize : forall en T V, search_oracle en T V -> best_oracle en T V ->
  forall x t tw r o vw, x <> [] -> finite (T x) ->
  T x t tw -> (forall t' w', T x t' w' -> t' <> t -> (tw < w')%Z) ->
  reorder (engine_orders en) t = Ok r ->
  V r o vw -> (forall o' w', V r o' w' -> o' <> o -> (vw < w')%Z) ->
  tag en x (PyInt 1) = POk (One t) /\ verbalize en t = POk o /\
  forall fuel ans, normalize fuel en x (PyInt 1) = POk ans -> ans = One o.
Proof. exact tag_then_verbalize. Qed.
Print Assumptions C23_tag_then_verbalize.
(** verbalize returns a cheapest verbalisation, and raises if there is none. *)
Theorem C23_verbalize_best : forall en T V, best_oracle en T V ->
  forall t r, reorder (engine_orders en) t = Ok r ->
  ((exists o w, V r o w) -> exists o w, verbalize en t = POk o /\ V r o w /\ least (V r) w) /\
  (encodable r -> (forall o w, ~ V r o w) -> verbalize en t = PErr (PAlign (AlignmentError NoPath))).
Proof. exact (fun en T V B t r H => conj (verbalize_best en T V B t r H) (verbalize_none en T V B t r H)). Qed.
Print Assumptions C23_verbalize_best.
Example C23_witness : tag engine_w (u "4") (PyInt 1) = POk (One (tok "cardinal" "四")) /\
  verbalize engine_w (tok "cardinal" "四") = POk (u "四") /\ normalize 40 engine_w (u "4") (PyInt 1) = POk (One (u "四")).
Proof. vm_compute; tauto. Qed.
Example C23_witness_fallback : tag engine_w (u "3") (PyInt 1) = POk (One (tok "bad" "x")) /\
  verbalize engine_w (tok "bad" "x") = PErr (PAlign (AlignmentError NoPath)) /\
  normalize 40 engine_w (u "3") (PyInt 1) = POk (One (u "三")).
Proof. vm_compute; tauto. Qed.

(** C24: the search ends (within a known number of steps) and fails only if nothing
    can be verbalised, or if a tagging is not well-formed. *)
Theorem C24_terminates : forall en T V, search_oracle en T V ->
  forall x z l, x <> [] -> (1 <= z)%Z -> (forall t w, T x t w -> In t l) ->
  forall fuel, List.length l * S (Z.to_nat z) < fuel ->
  match normalize fuel en x (PyInt z) with
  | POk ans => exists t o w, joint en T V x t o w
  | PErr PNoPath => forall t o w, ~ joint en T V x t o w
  | PErr (PParse e) => exists t w, T x t w /\ reorder (engine_orders en) t = Err e
  | PErr _ => False
  end.
Proof. exact normalize_terminates. Qed.
Print Assumptions C24_terminates.
Theorem C24_more_fuel : forall en x v f g r, normalize f en x v = r -> r <> PErr PFuel -> f <= g -> normalize g en x v = r.
Proof. exact normalize_more_fuel. Qed.
Print Assumptions C24_more_fuel.
Example C24_witness : normalize 40 engine_w (u "5") (PyInt 3) = PErr PNoPath.
Proof. vm_compute; reflexivity. Qed.

(** C25: arguments. *)
Theorem C25_rejected : forall v, (forall z, v = PyInt z -> (z < 1)%Z) -> forall fuel en x b,
  tag en x v = PErr PBadNbest /\ normalize fuel en x v = PErr PBadNbest /\
  normalize_with_mapping fuel en x v b = PErr PBadNbest.
Proof. exact rejected_args. Qed.
Print Assumptions C25_rejected.
Theorem C25_accepted : forall z, (1 <= z)%Z -> forall fuel en x b,
  tag en x (PyInt z) <> PErr PBadNbest /\ normalize fuel en x (PyInt z) <> PErr PBadNbest /\
  normalize_with_mapping fuel en x (PyInt z) b <> PErr PBadNbest.
Proof. exact accepted_args. Qed.
Print Assumptions C25_accepted.
Theorem C25_empty_text : forall fuel en z b, (1 <= z)%Z ->
  tag en [] (PyInt z) = POk (if (z =? 1)%Z then One [] else Many [[]]) /\
  normalize fuel en [] (PyInt z) = POk (if (z =? 1)%Z then One [] else Many [[]]) /\
  normalize_with_mapping fuel en [] (PyInt z) b =
    POk (if (z =? 1)%Z then One (Result [] [] []) else Many [Result [] [] []]) /\
  verbalize en [] = POk [].
Proof. exact empty_text. Qed.
Print Assumptions C25_empty_text.
Example C25_witness : normalize 9 engine_w (u "3") (PyBool true) = PErr PBadNbest /\
  normalize 9 engine_w (u "3") (PyInt 0) = PErr PBadNbest.
Proof. split; reflexivity. Qed.
