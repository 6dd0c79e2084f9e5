(** Properties C11-C15 and C18: tn/alignment.py.

    Vocabulary (AlignSpec.v): [encode] is UTF-8, [byte_pos t i] the byte offset of
    character boundary [i], [spells input output arcs] says the path's labels are
    the bytes of the two texts, [steps] numbers the path's steps, [owns]/[emits]
    say which token a step works for, [input_span_ok]/[output_span_ok] say what
    a token's span must be. *)
From Coq Require Import List NArith Bool Arith String Lia.
From Verif Require Import Text AlignModel AlignSpec AlignBytes AlignTrace AlignEmit AlignProofs.
Import ListNotations.
Local Open Scope list_scope.

(** C11: the tables are exactly the character boundaries. *)
Theorem C11_tables_exact : forall t c2b b2c ws, text_boundaries t = AOk (c2b, b2c, ws) ->
  (forall i, nth_error c2b i = if i <=? List.length t then Some (byte_pos t i) else None) /\
  (forall b i, nat_get b b2c = Some i <-> i <= List.length t /\ byte_pos t i = b) /\
  (forall b w, nth_error ws b = Some w -> (w = true <-> byte_is_space t b)) /\
  List.length ws = byte_len t.
Proof.
  intros t c2b b2c ws H. destruct (encode t) eqn:E.
  - assert (En : encodable t) by (unfold encodable; congruence). rewrite (text_boundaries_ok t En) in H.
    injection H as <- <- <-. split; [apply c2b_nth|]. split; [intros; now apply b2c_get|].
    split; [intros; now apply flags_spec|now apply flags_length].
  - rewrite (text_boundaries_err t) in H; [discriminate|]. unfold encodable. congruence.
Qed.
Print Assumptions C11_tables_exact.

Theorem C11_defined_iff_encodable : forall t,
  (encodable t -> exists r, text_boundaries t = AOk r) /\
  (~ encodable t -> text_boundaries t = AErr UnicodeEncodeError).
Proof. exact (fun t => conj (fun H => ex_intro _ _ (text_boundaries_ok t H)) (text_boundaries_err t)). Qed.
Print Assumptions C11_defined_iff_encodable.

Theorem C11_strictly_increasing : forall t i j, encodable t -> i < j -> j <= List.length t ->
  byte_pos t 0 = 0 /\ byte_pos t i < byte_pos t j /\ byte_pos t (List.length t) = byte_len t.
Proof. exact (fun t i j H L B => conj eq_refl (conj (byte_pos_mono t i j H L B) eq_refl)). Qed.
Print Assumptions C11_strictly_increasing.

(** A byte offset is a boundary iff it is the end or no continuation byte is there. *)
Theorem C11_boundary_iff_not_split : forall t bs b, encode t = Some bs ->
  (exists i, i <= List.length t /\ byte_pos t i = b) <->
  (b = List.length bs \/ exists x, nth_error bs b = Some x /\ ~ (128 <= x < 192)%N).
Proof. exact (fun t bs b E => boundary_bytes t bs b E). Qed.
Print Assumptions C11_boundary_iff_not_split.

(** The encoder is UTF-8: decoding gives the text back. *)
Theorem C11_encode_decodes : forall t bs, encode t = Some bs -> utf8_decode bs = t.
Proof. exact encode_decode. Qed.
Print Assumptions C11_encode_decodes.

Example C11_witness : text_boundaries (u "a 五") =
  AOk ([0; 1; 2; 5], [(0, 0); (1, 1); (2, 2); (5, 3)], [false; true; false; false; false]).
Proof. vm_compute; reflexivity. Qed.
Example C11_surrogate : text_boundaries [55296%N] = AErr UnicodeEncodeError.
Proof. reflexivity. Qed.

(** A path as a list of label pairs (0 is epsilon). *)
Definition path_of (l : list (N * N)) : list arc := map (fun '(i, o) => Arc i o 0) l.

(** C12: shape of the traced input spans. *)
Theorem C12_input_spans_shape : forall input output arcs spans res,
  spells input output arcs ->
  trace_input_spans input output (AOk arcs) spans = AOk res ->
  List.length res = List.length spans /\ nonempty_spans res /\ increasing_from 0 res (List.length input).
Proof. exact trace_shape. Qed.
Print Assumptions C12_input_spans_shape.

(** C13: which bytes; and exactly when it fails. *)
Theorem C13_input_spans_exact : forall input output arcs spans,
  spells input output arcs -> increasing_from 0 spans (List.length output) ->
  match trace_input_spans input output (AOk arcs) spans with
  | AOk res => each_span (input_span_ok input output arcs spans) spans res
  | AErr (AlignmentError NothingConsumed) =>
      exists k, k < List.length spans /\ forall i, ~ owns (byte_spans output spans) (byte_is_space input) (steps arcs) k i
  | AErr (AlignmentError SplitCodePoint) =>
      exists k lo hi, k < List.length spans /\
        input_hull (byte_spans output spans) (byte_is_space input) (steps arcs) k lo hi /\
        (~ (exists i, i <= List.length input /\ byte_pos input i = lo) \/
         ~ (exists i, i <= List.length input /\ byte_pos input i = hi))
  | AErr _ => False
  end.
Proof. exact trace_exact. Qed.
Print Assumptions C13_input_spans_exact.

Theorem C13_input_spans_complete : forall input output arcs spans res,
  spells input output arcs -> increasing_from 0 spans (List.length output) ->
  each_span (input_span_ok input output arcs spans) spans res ->
  trace_input_spans input output (AOk arcs) spans = AOk res.
Proof. exact trace_complete. Qed.
Print Assumptions C13_input_spans_complete.

Theorem C13_bad_spans_rejected : forall input output arcs spans, encodable input -> encodable output ->
  ~ increasing_from 0 spans (List.length output) ->
  trace_input_spans input output arcs spans = AErr (AlignmentError BadSpans).
Proof. exact trace_bad_spans. Qed.
Print Assumptions C13_bad_spans_rejected.

(** Whitespace is what str.isspace says it is. *)
Theorem C13_space_table : forall c, py_isspace c = true <-> In c unicode_spaces.
Proof. exact isspace_table. Qed.
Print Assumptions C13_space_table.

(** "1 月" tagged as "A 月", once with a byte of the last character deleted and
    written back late (the owned bytes then start inside the character). *)
Definition ex_arcs := path_of [(49,65); (32,32); (230,0); (0,230); (156,156); (136,136)]%N.
Example C13_witness :
  spells (u "1 月") (u "A 月") ex_arcs /\
  trace_input_spans (u "1 月") (u "A 月") (AOk ex_arcs) [(0, 1); (2, 3)] = AErr (AlignmentError SplitCodePoint) /\
  trace_input_spans (u "1 月") (u "A 月") (AOk (path_of [(49,65); (32,32); (230,230); (156,156); (136,136)]%N)) [(0, 1); (2, 3)]
    = AOk [(0, 1); (2, 3)].
Proof. vm_compute; repeat split. Qed.
(** Deleted leading whitespace stays outside, the separator step's byte goes in. *)
Example C13_witness_leading :
  trace_input_spans (u "ab cd") (u "X YZ") (AOk (path_of [(97,88); (98,32); (32,0); (99,89); (100,90)]%N)) [(0, 1); (2, 4)]
    = AOk [(0, 1); (1, 5)].
Proof. vm_compute; reflexivity. Qed.
(** Not every visible input character gets a token: "ab" -> "X" deleting "b". *)
Theorem C13_coverage_refuted : exists input output arcs spans res,
  spells input output arcs /\ trace_input_spans input output (AOk arcs) spans = AOk res /\
  exists i c, nth_error input i = Some c /\ py_isspace c = false /\ forall a b, In (a, b) res -> ~ (a <= i < b).
Proof.
  exists (u "ab"), (u "X"), (path_of [(97,88); (98,0)]%N), [(0, 1)], [(0, 1)]. repeat split.
  exists 1, 98%N. repeat split. intros a b [E|[]]. injection E as <- <-. lia.
Qed.
Print Assumptions C13_coverage_refuted.

(** C14: shape of the output spans; Overlap and every error but SplitCodePoint is unreachable. *)
Theorem C14_output_spans_shape : forall input output m arcs spans out res,
  spells input output arcs ->
  transduce_with_spans input spans m (AOk arcs) output = AOk (out, res) ->
  out = output /\ List.length res = List.length spans /\ increasing_from 0 res (List.length output).
Proof. exact transduce_shape. Qed.
Print Assumptions C14_output_spans_shape.

(** C14, C15: which bytes; and exactly when it fails. *)
Theorem C14_C15_output_spans_exact : forall input output m arcs spans,
  start_state m <> None -> spells input output arcs ->
  increasing_from 0 spans (List.length input) -> nonempty_spans spans ->
  match transduce_with_spans input spans m (AOk arcs) output with
  | AOk (out, res) => out = output /\ each_span (output_span_ok input output arcs spans) spans res
  | AErr (AlignmentError SplitCodePoint) =>
      exists k lo hi, k < List.length spans /\
        output_interval (byte_spans input spans) (byte_is_space output) (steps arcs) k lo hi /\
        (~ (exists i, i <= List.length output /\ byte_pos output i = lo) \/
         ~ (exists i, i <= List.length output /\ byte_pos output i = hi))
  | AErr _ => False
  end.
Proof. exact transduce_exact. Qed.
Print Assumptions C14_C15_output_spans_exact.

Theorem C15_output_spans_complete : forall input output m arcs spans res,
  start_state m <> None -> spells input output arcs ->
  increasing_from 0 spans (List.length input) -> nonempty_spans spans ->
  each_span (output_span_ok input output arcs spans) spans res ->
  transduce_with_spans input spans m (AOk arcs) output = AOk (output, res).
Proof. exact transduce_complete. Qed.
Print Assumptions C15_output_spans_complete.

Theorem C15_bad_spans_rejected : forall input m arcs spans output, encodable input ->
  ~ (increasing_from 0 spans (List.length input) /\ nonempty_spans spans) ->
  transduce_with_spans input spans m arcs output = AErr (AlignmentError BadSpans) /\ ~ increasing_from 0 spans (List.length input) \/
  transduce_with_spans input spans m arcs output = AErr ValueError /\ ~ nonempty_spans spans.
Proof. exact transduce_bad_spans. Qed.
Print Assumptions C15_bad_spans_rejected.

(** No output byte belongs to two tokens. *)
Theorem C15_one_owner : forall input spans space s j k, encodable input ->
  increasing_from 0 spans (List.length input) -> nonempty_spans spans ->
  emits (byte_spans input spans) space j s -> emits (byte_spans input spans) space k s -> j = k.
Proof. exact emits_one_owner. Qed.
Print Assumptions C15_one_owner.

(** Visible output always has an owner unless written while reading a byte between tokens. *)
Theorem C15_visible_output_owned : forall input spans space s, encodable input ->
  increasing_from 0 spans (List.length input) -> nonempty_spans spans -> spans <> [] ->
  (forall a b, nth_error spans 0 = Some (a, b) -> a = 0) ->
  s_writes s = true -> ~ space (s_out s) ->
  (s_reads s = true -> exists k a b, nth_error (byte_spans input spans) k = Some (a, b) /\ a <= s_in s < b) ->
  exists k, emits (byte_spans input spans) space k s.
Proof. exact emits_total. Qed.
Print Assumptions C15_visible_output_owned.

Definition ex_machine := Machine (Some 0) [[]].
(** Tokens "ab" and "c" and "d"; "x" is written after reading the separator and so
    belongs to the token before it, "d" is deleted and sits at the end. *)
Example C15_witness :
  let arcs := path_of [(97,65); (98,0); (0,66); (32,0); (0,120); (99,67); (32,32); (100,0)]%N in
  spells (u "ab c d") (u "ABxC ") arcs /\
  transduce_with_spans (u "ab c d") [(0, 2); (3, 4); (5, 6)] ex_machine (AOk arcs) (u "ABxC ")
    = AOk (u "ABxC ", [(0, 3); (3, 4); (5, 5)]).
Proof. vm_compute; repeat split. Qed.

(** C18: the walker ends on every machine; its result is the chain or a witness of why not. *)
Theorem C18_walker : forall m, closed_machine m ->
  match start_state m with
  | None => linear_arcs m = Some (AErr (AlignmentError NoPath))
  | Some s =>
      match linear_arcs m with
      | Some (AOk l) => chain m s l
      | Some (AErr (AlignmentError NotLinear)) => exists t x y l, walks m s t /\ nth_error (state_arcs m) t = Some (x :: y :: l)
      | Some (AErr (AlignmentError Cyclic)) =>
          exists t x, walks m s t /\ nth_error (state_arcs m) t = Some [x] /\ walks m (nextstate x) t
      | _ => False
      end
  end.
Proof. exact linear_arcs_spec. Qed.
Print Assumptions C18_walker.

Theorem C18_walker_complete : forall m s l, closed_machine m -> start_state m = Some s -> chain m s l ->
  linear_arcs m = Some (AOk l).
Proof. exact linear_arcs_complete. Qed.
Print Assumptions C18_walker_complete.

Example C18_witness :
  linear_arcs (Machine (Some 2) [[Arc 1 2 1]; []; [Arc 3 4 0]]) = Some (AOk [Arc 3 4 0; Arc 1 2 1]) /\
  linear_arcs (Machine (Some 0) [[Arc 1 2 1]; [Arc 1 2 0]]) = Some (AErr (AlignmentError Cyclic)) /\
  linear_arcs (Machine (Some 0) [[Arc 1 2 1; Arc 1 3 1]; []]) = Some (AErr (AlignmentError NotLinear)).
Proof. vm_compute; repeat split. Qed.
