(** Transcription of /repo/tn/alignment.py.  Model only.

    pynini is external: [accep], [escape], composition and [shortestpath] are not
    modelled; both entry points take the machine that shortestpath returned. *)
From Coq Require Import List NArith Bool Arith.
From Verif Require Import Text.
Import ListNotations.
Local Open Scope list_scope.

(** Exceptions of this module (alignment.py:21-22, 92) and the built-in ones its
    code could raise. *)
Inductive align_fault :=
| NoPath             (* :101, :193 *)
| NotLinear          (* :110 *)
| Cyclic             (* :114 *)
| BadSpans           (* :90 *)
| NothingConsumed    (* :155 *)
| SplitCodePoint     (* :159, :249 *)
| OffsetMismatch     (* :234 *)
| Overlap.           (* :243 *)
Inductive aerr :=
| AlignmentError (f : align_fault)
| ValueError          (* :92 *)
| AIndexError
| UnicodeEncodeError.
Inductive ares (A : Type) := AOk (a : A) | AErr (e : aerr).
Arguments AOk {A} a.
Arguments AErr {A} e.
Definition abind {A B} (r : ares A) (f : A -> ares B) : ares B :=
  match r with AOk a => f a | AErr e => AErr e end.
Notation "x <-- r ;; k" := (abind r (fun x => k))
  (at level 61, r at next level, right associativity).
Notation "' p <-- r ;; k" := (abind r (fun x => let p := x in k))
  (at level 61, p pattern, r at next level, right associativity).

(** [char.encode("utf-8")]: [None] for surrogates and non-characters of [str]. *)
Definition utf8_char (c : N) : option (list N) :=
  (if c <? 128 then Some [c]
   else if c <? 2048 then Some [192 + c / 64; 128 + c mod 64]
   else if (55296 <=? c) && (c <? 57344) then None
   else if c <? 65536 then Some [224 + c / 4096; 128 + (c / 64) mod 64; 128 + c mod 64]
   else if c <? 1114112 then
     Some [240 + c / 262144; 128 + (c / 4096) mod 64; 128 + (c / 64) mod 64; 128 + c mod 64]
   else None)%N.

(** [str.isspace] of one character (Unicode White_Space as CPython has it). *)
Definition py_isspace (c : N) : bool :=
  (((9 <=? c) && (c <=? 13)) || ((28 <=? c) && (c <=? 32)) || (c =? 133) || (c =? 160)
   || (c =? 5760) || ((8192 <=? c) && (c <=? 8202)) || (c =? 8232) || (c =? 8233)
   || (c =? 8239) || (c =? 8287) || (c =? 12288))%N%bool.

(** _text_boundaries, alignment.py:71-82.  [byte_to_character] is the dict as
    the list of its insertions, newest last; the keys are distinct. *)
Fixpoint text_boundaries_loop (t : text) (index : nat) (c2b : list nat)
  (b2c : list (nat * nat)) (bws : list bool) (offset : nat)
  : ares (list nat * list (nat * nat) * list bool) :=
  match t with
  | [] => AOk (c2b, b2c, bws)
  | c :: r =>
      match utf8_char c with
      | None => AErr UnicodeEncodeError
      | Some bs =>
          let encoded_length := length bs in
          let bws' := bws ++ repeat (py_isspace c) encoded_length in
          let offset' := offset + encoded_length in
          text_boundaries_loop r (S index) (c2b ++ [offset']) (b2c ++ [(offset', index)]) bws' offset'
      end
  end.
Definition text_boundaries (t : text) : ares (list nat * list (nat * nat) * list bool) :=
  text_boundaries_loop t 1 [0] [(0, 0)] [] 0.

(** [d[k]] for a dict with integer keys: the last insertion wins. *)
Fixpoint nat_get (k : nat) (d : list (nat * nat)) : option nat :=
  match d with
  | [] => None
  | (k', v) :: r => match nat_get k r with
                    | Some w => Some w
                    | None => if k =? k' then Some v else None
                    end
  end.

(** _character_spans_to_byte_spans, alignment.py:85-95. *)
Fixpoint spans_loop (len : nat) (c2b : list nat) (reject_empty : bool)
  (previous_end : nat) (spans : list (nat * nat)) (acc : list (nat * nat))
  : ares (list (nat * nat)) :=
  match spans with
  | [] => AOk acc
  | (start, end_) :: r =>
      if (start <? previous_end) || (end_ <? start) || (len <? end_) then
        AErr (AlignmentError BadSpans)
      else if reject_empty && (start =? end_) then AErr ValueError
      else match nth_error c2b start, nth_error c2b end_ with
           | Some a, Some b => spans_loop len c2b reject_empty end_ r (acc ++ [(a, b)])
           | _, _ => AErr AIndexError
           end
  end.
Definition character_spans_to_byte_spans (t : text) (c2b : list nat)
  (spans : list (nat * nat)) (reject_empty : bool) : ares (list (nat * nat)) :=
  spans_loop (length t) c2b reject_empty 0 spans [].

(** The machine returned by shortestpath: states are 0 .. n-1; start [None] is -1. *)
Record arc := Arc { ilabel : N; olabel : N; nextstate : nat }.
Record machine := Machine { start_state : option nat; state_arcs : list (list arc) }.

(** _linear_arcs, alignment.py:98-114.  The generator's items are collected into
    a list; an exception it raises is the result of the whole loop. *)
Fixpoint linear_loop (fuel : nat) (m : machine) (visited : list nat) (state : nat) (acc : list arc)
  : option (ares (list arc)) :=
  match fuel with
  | O => None
  | S f =>
      if existsb (Nat.eqb state) visited then Some (AErr (AlignmentError Cyclic))
      else
        match nth_error (state_arcs m) state with
        | None => Some (AErr AIndexError)
        | Some [] => Some (AOk acc)
        | Some [a] => linear_loop f m (state :: visited) (nextstate a) (acc ++ [a])
        | Some _ => Some (AErr (AlignmentError NotLinear))
        end
  end.
Definition linear_arcs (m : machine) : option (ares (list arc)) :=
  match start_state m with
  | None => Some (AErr (AlignmentError NoPath))
  | Some s => linear_loop (S (S (length (state_arcs m)))) m [] s []
  end.

(** [xs[i] = v] on a Python list. *)
Fixpoint set_nth {A} (i : nat) (v : A) (l : list A) : list A :=
  match l, i with
  | [], _ => []
  | _ :: r, O => v :: r
  | x :: r, S j => x :: set_nth j v r
  end.

(** while token_index < len(spans) and offset >= spans[token_index][1]
    (alignment.py:133-134, 205-206). *)
Fixpoint advance (fuel : nat) (spans : list (nat * nat)) (offset ti : nat) : nat :=
  match fuel with
  | O => ti
  | S f =>
      match nth_error spans ti with
      | Some (_, e) => if e <=? offset then advance f spans offset (S ti) else ti
      | None => ti
      end
  end.

Definition lab (l : N) : bool := negb (l =? 0)%N.
Definition is_none {A} (o : option A) : bool := match o with None => true | Some _ => false end.

Record tstate := TState {
  t_in : nat; t_out : nat; t_idx : nat;
  t_starts : list (option nat); t_ends : list (option nat) }.

(** One iteration of the loop of trace_input_spans, alignment.py:131-150. *)
Definition trace_step (spans : list (nat * nat)) (ws : list bool) (st : tstate) (a : arc) : ares tstate :=
  let input_offset := t_in st in
  let output_offset := t_out st in
  let next_input_offset := input_offset + (if lab (ilabel a) then 1 else 0) in
  let token_index := advance (S (length spans)) spans output_offset (t_idx st) in
  owner <-- match nth_error spans token_index with
    | None => AOk None
    | Some (start, end_) =>
        if lab (ilabel a) && ((start <=? output_offset) && (output_offset <? end_))
             && (negb (output_offset =? start) || lab (olabel a)) then
          if lab (olabel a) then AOk (Some token_index)
          else match nth_error ws input_offset with
               | None => AErr AIndexError
               | Some w =>
                   if w && is_none (nth token_index (t_starts st) None) then AOk None
                   else AOk (Some token_index)
               end
        else if lab (ilabel a) && lab (olabel a) && (output_offset + 1 =? start) then
          match nth_error ws input_offset with
          | None => AErr AIndexError
          | Some w => if negb w then AOk (Some token_index) else AOk None
          end
        else AOk None
    end ;;
  let '(starts, ends) :=
    match owner with
    | None => (t_starts st, t_ends st)
    | Some k =>
        (if is_none (nth k (t_starts st) None) then set_nth k (Some input_offset) (t_starts st) else t_starts st,
         set_nth k (Some next_input_offset) (t_ends st))
    end in
  AOk (TState next_input_offset (output_offset + (if lab (olabel a) then 1 else 0)) token_index starts ends).

Fixpoint trace_loop (spans : list (nat * nat)) (ws : list bool) (arcs : list arc) (st : tstate) : ares tstate :=
  match arcs with
  | [] => AOk st
  | a :: r => st' <-- trace_step spans ws st a ;; trace_loop spans ws r st'
  end.

(** alignment.py:152-160. *)
Fixpoint trace_finish (b2c : list (nat * nat)) (pairs : list (option nat * option nat))
  (acc : list (nat * nat)) : ares (list (nat * nat)) :=
  match pairs with
  | [] => AOk acc
  | (Some s, Some e) :: r =>
      match nat_get s b2c, nat_get e b2c with
      | Some a, Some b => trace_finish b2c r (acc ++ [(a, b)])
      | _, _ => AErr (AlignmentError SplitCodePoint)
      end
  | (None, _) :: _ => AErr (AlignmentError NothingConsumed)
  | (Some _, None) :: _ => AErr (AlignmentError SplitCodePoint)
  end.

(** trace_input_spans, alignment.py:117-160, from the arcs of the path. *)
Definition trace_input_spans (input_text output_text : text) (arcs : ares (list arc))
  (output_spans : list (nat * nat)) : ares (list (nat * nat)) :=
  '(_, input_b2c, input_ws) <-- text_boundaries input_text ;;
  '(output_c2b, _, _) <-- text_boundaries output_text ;;
  byte_spans <-- character_spans_to_byte_spans output_text output_c2b output_spans false ;;
  path <-- arcs ;;
  let none := repeat (@None nat) (length byte_spans) in
  st <-- trace_loop byte_spans input_ws path (TState 0 0 0 none none) ;;
  trace_finish input_b2c (combine (t_starts st) (t_ends st)) [].

Record ostate := OState {
  o_in : nat; o_out : nat; o_idx : nat;
  o_starts : list (option nat); o_ends : list (option nat);
  o_bounds : list (nat * nat) }.

(** One iteration of the loop of transduce_with_spans, alignment.py:203-228. *)
Definition emit_step (spans : list (nat * nat)) (ws : list bool) (st : ostate) (a : arc) : ares ostate :=
  let input_offset := o_in st in
  let output_offset := o_out st in
  let bounds := o_bounds st ++ [(input_offset, output_offset)] in
  let token_index := advance (S (length spans)) spans input_offset (o_idx st) in
  owner <-- (if lab (ilabel a) then
      match nth_error spans token_index with
      | None => AOk None
      | Some (start, end_) =>
          AOk (if (start <=? input_offset) && (input_offset <? end_) then Some token_index else None)
      end
    else
      let owner :=
        match nth_error spans token_index with
        | None => None
        | Some (start, end_) =>
            if ((start <? input_offset) && (input_offset <? end_))
               || ((token_index =? 0) && (input_offset =? start)) then Some token_index else None
        end in
      if lab (olabel a) then
        match nth_error ws output_offset with
        | None => AErr AIndexError
        | Some is_boundary_whitespace =>
            if is_none owner && negb is_boundary_whitespace then
              match token_index with
              | O => AOk owner
              | S previous_index =>
                  match nth_error spans previous_index with
                  | None => AErr AIndexError
                  | Some (_, e) => AOk (if e <=? input_offset then Some previous_index else owner)
                  end
              end
            else AOk owner
        end
      else AOk owner) ;;
  let '(starts, ends) :=
    match owner with
    | Some k =>
        if lab (olabel a) then
          (if is_none (nth k (o_starts st) None) then set_nth k (Some output_offset) (o_starts st) else o_starts st,
           set_nth k (Some (output_offset + 1)) (o_ends st))
        else (o_starts st, o_ends st)
    | None => (o_starts st, o_ends st)
    end in
  AOk (OState (input_offset + (if lab (ilabel a) then 1 else 0))
              (output_offset + (if lab (olabel a) then 1 else 0)) token_index starts ends bounds).

Fixpoint emit_loop (spans : list (nat * nat)) (ws : list bool) (arcs : list arc) (st : ostate) : ares ostate :=
  match arcs with
  | [] => AOk st
  | a :: r => st' <-- emit_step spans ws st a ;; emit_loop spans ws r st'
  end.

(** alignment.py:236-250. *)
Fixpoint emit_finish (b2c bounds : list (nat * nat)) (total : nat)
  (rows : list ((nat * nat) * (option nat * option nat))) (previous_end : nat) (acc : list (nat * nat))
  : ares (list (nat * nat)) :=
  match rows with
  | [] => AOk acc
  | ((input_start, _), (emitted_start, emitted_end)) :: r =>
      '(output_start, output_end) <--
        match emitted_start, emitted_end with
        | Some s, Some e => if s <? previous_end then AErr (AlignmentError Overlap) else AOk (s, e)
        | Some s, None => AErr (AlignmentError SplitCodePoint)   (* never: the two lists are set together *)
        | None, _ =>
            let b := match nat_get input_start bounds with Some v => v | None => total end in
            AOk (Nat.max b previous_end, Nat.max b previous_end)
        end ;;
      match nat_get output_start b2c, nat_get output_end b2c with
      | Some x, Some y => emit_finish b2c bounds total r output_end (acc ++ [(x, y)])
      | _, _ => AErr (AlignmentError SplitCodePoint)
      end
  end.

(** transduce_with_spans, alignment.py:163-251; [selected] is [path.string()]. *)
Definition transduce_with_spans (input_text : text) (input_spans : list (nat * nat))
  (path : machine) (arcs : ares (list arc)) (selected : text) : ares (text * list (nat * nat)) :=
  '(input_c2b, _, _) <-- text_boundaries input_text ;;
  byte_spans <-- character_spans_to_byte_spans input_text input_c2b input_spans true ;;
  match start_state path with
  | None => AErr (AlignmentError NoPath)
  | Some _ =>
      '(output_c2b, output_b2c, output_ws) <-- text_boundaries selected ;;
      arc_list <-- arcs ;;
      let none := repeat (@None nat) (length byte_spans) in
      st <-- emit_loop byte_spans output_ws arc_list (OState 0 0 0 none none []) ;;
      let bounds := o_bounds st ++ [(o_in st, o_out st)] in
      let expected_input_bytes := last input_c2b 0 in
      let expected_output_bytes := last output_c2b 0 in
      if negb (o_in st =? expected_input_bytes) || negb (o_out st =? expected_output_bytes) then
        AErr (AlignmentError OffsetMismatch)
      else
        spans <-- emit_finish output_b2c bounds (o_out st)
                    (combine byte_spans (combine (o_starts st) (o_ends st))) 0 [] ;;
        AOk (selected, spans)
  end.
