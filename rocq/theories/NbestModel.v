(** Transcription of the search part of /repo/tn/processor.py (lines 37-116 and
    294-488).  Model only.

    pynini is external.  Everything the code asks of it is a field of [engine];
    NbestSpec.v states what is assumed of the answers.  Weights are exact
    integers here (Python: floats; PropsNbest.v shows what rounding can break).
    heapq is modelled by its contract: a list kept in key order. *)
From Coq Require Import List NArith ZArith Bool Arith.
From Verif Require Import Text TokenModel AlignModel.
Import ListNotations.
Local Open Scope list_scope.

Notation weighted := (text * Z)%type.
(** _WeightedOutput, processor.py:46-50. *)
Record item := Item { i_text : text; i_weight : Z; i_rank : nat }.

(** ** _UniqueOutputPathStream, processor.py:68-116.
    [paths k] is what iterating over
    shortestpath(lattice, nshortest=k, unique=True).paths() gives. *)
Record stream := Stream {
  paths : nat -> list weighted;
  s_items : list weighted;
  s_yielded : list text;
  s_rank : nat;
  s_limit : nat;
  s_exhausted : bool }.

(** __init__, processor.py:71-78. *)
Definition new_stream (p : nat -> list weighted) : stream := Stream p [] [] 0 0 false.

(** The loop of _expand, processor.py:89-96. *)
Fixpoint collect (yielded seen : list text) (l : list weighted) : list weighted :=
  match l with
  | [] => []
  | (o, w) :: r =>
      if negb (text_mem o seen) && negb (text_mem o yielded) then (o, w) :: collect yielded (o :: seen) r
      else collect yielded seen r
  end.

(** _expand, processor.py:80-100. *)
Definition expand (s : stream) : stream :=
  if s_exhausted s then s
  else
    let limit := if s_limit s =? 0 then 1 else s_limit s * 2 in
    let found := paths s limit in
    Stream (paths s) (collect (s_yielded s) [] found) (s_yielded s) (s_rank s) limit
           (length found <? limit).

(** peek, processor.py:102-108; [None] at the top is out of fuel. *)
Fixpoint fill (fuel : nat) (s : stream) : option stream :=
  match s_items s with
  | _ :: _ => Some s
  | [] =>
      if s_exhausted s then Some s
      else match fuel with O => None | S f => fill f (expand s) end
  end.
Definition fill_fuel (s : stream) : nat := S (S (length (s_yielded s))).
Definition peek (s : stream) : option (option item * stream) :=
  match fill (fill_fuel s) s with
  | None => None
  | Some s' =>
      match s_items s' with
      | [] => Some (None, s')
      | (o, w) :: _ => Some (Some (Item o w (s_rank s')), s')
      end
  end.
(** pop, processor.py:110-116. *)
Definition pop (s : stream) : option (option item * stream) :=
  match peek s with
  | None => None
  | Some (None, s') => Some (None, s')
  | Some (Some it, s') =>
      Some (Some it, Stream (paths s') (tl (s_items s')) (i_text it :: s_yielded s') (S (s_rank s')) (s_limit s') (s_exhausted s'))
  end.

(** ** _NormalizationCandidate, processor.py:53-65. *)
Record candidate := Cand {
  c_tagged : text; c_output : text;
  c_tw : Z; c_vw : Z; c_best : Z;
  c_trank : nat; c_vrank : nat }.
Definition c_weight (c : candidate) : Z := (c_tw c + c_vw c - c_best c)%Z.

(** Tuples compare lexicographically: (weight, tagger_rank, verbalizer_rank, serial). *)
Definition key := (Z * nat * nat)%type.
Definition key_ltb (a b : key) : bool :=
  let '(w1, t1, v1) := a in let '(w2, t2, v2) := b in
  (w1 <? w2)%Z || ((w1 =? w2)%Z && ((t1 <? t2) || ((t1 =? t2) && (v1 <? v2)))).
Definition c_key (c : candidate) : key := (c_weight c, c_trank c, c_vrank c).
Record entry := Entry { e_key : key; e_serial : nat; e_cand : candidate; e_stream : stream }.
Definition entry_ltb (a b : entry) : bool :=
  key_ltb (e_key a) (e_key b) ||
  (negb (key_ltb (e_key b) (e_key a)) && (e_serial a <? e_serial b)).
(** heapq by contract: the list is in increasing order, so heappop takes the
    head.  If two entries agree on all four leading components Python goes on to
    compare the candidates, which raises TypeError (they define no order); here
    any such pair in the heap counts as that error. *)
Fixpoint insert_entry (e : entry) (h : list entry) : list entry :=
  match h with
  | [] => [e]
  | x :: r => if entry_ltb e x then e :: h else x :: insert_entry e r
  end.
Definition entry_same (a b : entry) : bool := negb (entry_ltb a b) && negb (entry_ltb b a).

(** What the processor gets from pynini and the compiled graphs. *)
Record engine := Engine {
  tag_paths : text -> nat -> list weighted;       (* :357, :84, :307: input @ tagger *)
  verb_paths : text -> nat -> list weighted;      (* :370, :84: stream @ verbalizer *)
  tag_string : text -> option text;               (* :306 *)
  trace_machine : text -> text -> machine;        (* alignment.py:120-121 *)
  verb_machine : text -> option text -> machine;  (* alignment.py:188-191 *)
  verb_string : text -> option text -> text;      (* alignment.py:194 *)
  engine_orders : orders }.

Inductive perr :=
| PParse (e : err)          (* raised by the token parser *)
| PAlign (e : aerr)         (* raised by alignment.py *)
| PNoPath                   (* RuntimeError, :447 *)
| PBadNbest                 (* ValueError, :297 *)
| PFst                      (* FstOpError from [string()] on an empty FST, :306 *)
| PTypeError                (* two candidates compared by heapq *)
| PFuel.
Inductive pres (A : Type) := POk (a : A) | PErr (e : perr).
Arguments POk {A} a.
Arguments PErr {A} e.
Definition pbind {A B} (r : pres A) (f : A -> pres B) : pres B :=
  match r with POk a => f a | PErr e => PErr e end.
Notation "x <~ r ;; k" := (pbind r (fun x => k)) (at level 61, r at next level, right associativity).
Notation "' p <~ r ;; k" := (pbind r (fun x => let p := x in k))
  (at level 61, p pattern, r at next level, right associativity).
Definition of_fuel {A} (o : option A) : pres A := match o with Some a => POk a | None => PErr PFuel end.
Definition of_parse {A} (r : res A) : pres A := match r with Ok a => POk a | Err e => PErr (PParse e) end.
Definition heappush (e : entry) (h : list entry) : pres (list entry) :=
  if existsb (entry_same e) h then PErr PTypeError else POk (insert_entry e h).
Definition of_align {A} (r : ares A) : pres A := match r with AOk a => POk a | AErr e => PErr (PAlign e) end.

(** The nonlocal variables of _normalization_candidates, processor.py:357-361. *)
Record search := Search {
  q_tags : stream; q_frontier : list entry; q_activated : nat;
  q_cands : list candidate; q_seen : list text }.

(** activate_next_tag, processor.py:363-396. *)
Definition activate (en : engine) (q : search) : pres (bool * search) :=
  '(it, tags) <~ of_fuel (pop (q_tags q)) ;;
  match it with
  | None => POk (false, Search tags (q_frontier q) (q_activated q) (q_cands q) (q_seen q))
  | Some tagged =>
      reordered <~ of_parse (reorder (engine_orders en) (i_text tagged)) ;;
      '(v, vs) <~ of_fuel (pop (new_stream (verb_paths en reordered))) ;;
      let activated := S (q_activated q) in
      match v with
      | None => POk (true, Search tags (q_frontier q) activated (q_cands q) (q_seen q))
      | Some verbalized =>
          let c := Cand (i_text tagged) (i_text verbalized) (i_weight tagged) (i_weight verbalized)
                        (i_weight verbalized) (i_rank tagged) (i_rank verbalized) in
          frontier <~ heappush (Entry (c_key c) activated c vs) (q_frontier q) ;;
          POk (true, Search tags frontier activated (q_cands q) (q_seen q))
      end
  end.

(** The loop body, processor.py:399-444: [inr] is break. *)
Definition search_step (en : engine) (q0 : search) : pres (search + search) :=
  '(next_tag, tags) <~ of_fuel (peek (q_tags q0)) ;;
  let q := Search tags (q_frontier q0) (q_activated q0) (q_cands q0) (q_seen q0) in
  match q_frontier q with
  | [] =>
      '(more, q') <~ activate en q ;;
      if more then POk (inl q') else POk (inr q')
  | top :: rest =>
      let unseen_first :=
        match next_tag with
        | None => false
        | Some t => key_ltb (i_weight t, i_rank t, 0) (e_key top)
        end in
      if unseen_first then
        '(_, q') <~ activate en q ;; POk (inl q')
      else
        let c := e_cand top in
        '(v, vs) <~ of_fuel (pop (e_stream top)) ;;
        frontier <~
          match v with
          | None => POk rest
          | Some nv =>
              let c' := Cand (c_tagged c) (i_text nv) (c_tw c) (i_weight nv) (c_best c) (c_trank c) (i_rank nv) in
              heappush (Entry (c_key c') (e_serial top) c' vs) rest
          end ;;
        if text_mem (c_output c) (q_seen q) then
          POk (inl (Search (q_tags q) frontier (q_activated q) (q_cands q) (q_seen q)))
        else
          POk (inl (Search (q_tags q) frontier (q_activated q) (q_cands q ++ [c]) (c_output c :: q_seen q)))
  end.

(** while len(candidates) < nbest, processor.py:398. *)
Fixpoint search_loop (fuel : nat) (en : engine) (nbest : nat) (q : search) : pres search :=
  if length (q_cands q) <? nbest then
    match fuel with
    | O => PErr PFuel
    | S f =>
        r <~ search_step en q ;;
        match r with inl q' => search_loop f en nbest q' | inr q' => POk q' end
    end
  else POk q.

(** _normalization_candidates, processor.py:356-448. *)
Definition normalization_candidates (fuel : nat) (en : engine) (input : text) (nbest : nat) : pres (list candidate) :=
  q <~ search_loop fuel en nbest (Search (new_stream (tag_paths en input)) [] 0 [] []) ;;
  match q_cands q with [] => PErr PNoPath | cs => POk cs end.

(** ** Entry points.  An argument [nbest] as Python sees it. *)
Inductive pyval := PyBool (b : bool) | PyInt (z : Z) | PyOther.
(** _validate_nbest, processor.py:294-297. *)
Definition validate_nbest (v : pyval) : pres nat :=
  match v with
  | PyInt z => if (z <? 1)%Z then PErr PBadNbest else POk (Z.to_nat z)
  | _ => PErr PBadNbest
  end.
Inductive answer (A : Type) := One (a : A) | Many (l : list A).
Arguments One {A} a.
Arguments Many {A} l.
(** x[0] if nbest == 1 else x (the list is never empty: see :446). *)
Definition answer_of {A} (n : nat) (l : list A) (d : A) : answer A :=
  if n =? 1 then One (hd d l) else Many l.

(** tag, processor.py:299-313. *)
Definition tag (en : engine) (input : text) (nbest : pyval) : pres (answer text) :=
  n <~ validate_nbest nbest ;;
  match input with
  | [] => POk (if n =? 1 then One [] else Many [[]])
  | _ :: _ =>
      if n =? 1 then
        match tag_string en input with Some t => POk (One t) | None => PErr PFst end
      else POk (Many (map fst (tag_paths en input n)))
  end.

(** _verbalize_tagged, processor.py:321-330: also [parser.tokens]. *)
Definition verbalize_tagged (en : engine) (tagged : text) (trace_tokens : bool) (output_text : option text)
  : pres (text * list token * list (nat * nat)) :=
  toks <~ of_parse (parse tagged) ;;
  '(reordered, token_spans) <~ of_parse (reorder_with_spans (engine_orders en) tagged) ;;
  let m := verb_machine en reordered output_text in
  arcs <~ of_fuel (linear_arcs m) ;;
  '(output, output_spans) <~ of_align (transduce_with_spans reordered (if trace_tokens then token_spans else [])
                                m arcs (verb_string en reordered output_text)) ;;
  POk (output, toks, output_spans).

(** verbalize, processor.py:315-319. *)
Definition verbalize (en : engine) (input : text) : pres text :=
  match input with
  | [] => POk []
  | _ :: _ => '(output, _, _) <~ verbalize_tagged en input false None ;; POk output
  end.

(** normalize, processor.py:332-338. *)
Definition normalize (fuel : nat) (en : engine) (input : text) (nbest : pyval) : pres (answer text) :=
  n <~ validate_nbest nbest ;;
  match input with
  | [] => POk (if n =? 1 then One [] else Many [[]])
  | _ :: _ =>
      cands <~ normalization_candidates fuel en input n ;;
      POk (answer_of n (map c_output cands) [])
  end.

(** NormalizationMapping and NormalizationResult, alignment.py:25-68. *)
Inductive kind := Equal | Delete | Replace.
Record mapping := Mapping {
  m_kind : kind; m_type : text;
  m_in_start : nat; m_in_end : nat; m_out_start : nat; m_out_end : nat;
  m_in_text : text; m_out_text : text }.
Record result := Result { r_input : text; r_output : text; r_mappings : list mapping }.

(** The loop of _normalize_candidate_with_mapping, processor.py:465-486. *)
Fixpoint mapping_loop (input output : text) (include_identity : bool)
  (rows : list (token * ((nat * nat) * (nat * nat)))) : list mapping :=
  match rows with
  | [] => []
  | (tok, ((is_, ie), (os_, oe))) :: r =>
      let source := slice input is_ ie in
      let spoken := slice output os_ oe in
      let k := if text_eqb source spoken then Equal
               else match spoken with [] => Delete | _ :: _ => Replace end in
      let rest := mapping_loop input output include_identity r in
      if include_identity || negb (match k with Equal => true | _ => false end) then
        Mapping k (tk_name tok) is_ ie os_ oe source spoken :: rest
      else rest
  end.

(** _normalize_candidate_with_mapping, processor.py:450-488. *)
Definition candidate_mapping (en : engine) (input : text) (c : candidate) (include_identity : bool) : pres result :=
  let tagged := c_tagged c in
  '(output, toks, output_spans) <~ verbalize_tagged en tagged true (Some (c_output c)) ;;
  arcs <~ of_fuel (linear_arcs (trace_machine en input tagged)) ;;
  input_spans <~ of_align (trace_input_spans input tagged arcs (map (fun t => (tk_start t, tk_end t)) toks)) ;;
  POk (Result input output
         (mapping_loop input output include_identity (combine toks (combine input_spans output_spans)))).

Fixpoint map_pres {A B} (f : A -> pres B) (l : list A) : pres (list B) :=
  match l with
  | [] => POk []
  | x :: r => y <~ f x ;; ys <~ map_pres f r ;; POk (y :: ys)
  end.

(** normalize_with_mapping, processor.py:340-354. *)
Definition normalize_with_mapping (fuel : nat) (en : engine) (input : text) (nbest : pyval) (include_identity : bool)
  : pres (answer result) :=
  n <~ validate_nbest nbest ;;
  match input with
  | [] => let result := Result [] [] [] in POk (if n =? 1 then One result else Many [result])
  | _ :: _ =>
      cands <~ normalization_candidates fuel en input n ;;
      results <~ map_pres (fun c => candidate_mapping en input c include_identity) cands ;;
      POk (answer_of n results (Result [] [] []))
  end.
