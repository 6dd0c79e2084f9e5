(** What the alignment functions are meant to compute, stated without their
    loops: positions are counted along the path, tokens own sets of steps. *)
From Coq Require Import List NArith Bool Arith.
From Verif Require Import Text AlignModel.
Import ListNotations.
Local Open Scope list_scope.

(** UTF-8 bytes of a text ([None]: it contains a surrogate). *)
Fixpoint encode (t : text) : option (list N) :=
  match t with
  | [] => Some []
  | c :: r => match utf8_char c, encode r with
              | Some b, Some bs => Some (b ++ bs)
              | _, _ => None
              end
  end.
Definition encodable (t : text) : Prop := encode t <> None.

(** Byte offset of the [i]-th character boundary. *)
Definition byte_pos (t : text) (i : nat) : nat :=
  match encode (firstn i t) with Some bs => length bs | None => 0 end.
Definition byte_len (t : text) : nat := byte_pos t (length t).

(** The character whose encoding contains byte [b] is whitespace. *)
Definition byte_is_space (t : text) (b : nat) : Prop :=
  exists i c, nth_error t i = Some c /\ byte_pos t i <= b < byte_pos t (S i) /\ py_isspace c = true.

(** Bytes a path reads and writes. *)
Definition reads (arcs : list arc) : list N := filter lab (map ilabel arcs).
Definition writes (arcs : list arc) : list N := filter lab (map olabel arcs).

(** A path step with the number of bytes read and written before it. *)
Record step := Step { s_in : nat; s_out : nat; s_reads : bool; s_writes : bool }.
Fixpoint steps_from (i o : nat) (arcs : list arc) : list step :=
  match arcs with
  | [] => []
  | a :: r =>
      Step i o (lab (ilabel a)) (lab (olabel a))
        :: steps_from (i + (if lab (ilabel a) then 1 else 0)) (o + (if lab (olabel a) then 1 else 0)) r
  end.
Definition steps (arcs : list arc) : list step := steps_from 0 0 arcs.

(** Spans as the callers pass them: increasing, not overlapping, in range. *)
Fixpoint increasing_from (o : nat) (spans : list (nat * nat)) (limit : nat) : Prop :=
  match spans with
  | [] => True
  | (a, b) :: r => o <= a /\ a <= b <= limit /\ increasing_from b r limit
  end.
Fixpoint nonempty_spans (spans : list (nat * nat)) : Prop :=
  match spans with [] => True | (a, b) :: r => a < b /\ nonempty_spans r end.

(** ** Input side.  A step of the path takes its input byte for token [k] with
    text at output bytes [from, to) ... *)
Definition takes (spans : list (nat * nat)) (space : nat -> Prop) (k : nat) (s : step) : Prop :=
  s_reads s = true /\ exists from to, nth_error spans k = Some (from, to) /\
    ((from <= s_out s < to /\ (s_out s = from -> s_writes s = true))
     \/ (s_out s + 1 = from /\ s_writes s = true /\ ~ space (s_in s) /\
         forall j a b, j < k -> nth_error spans j = Some (a, b) -> b <= s_out s)).

(** ... except whitespace that is deleted before the token has taken anything. *)
Definition leading_space (space : nat -> Prop) (s : step) : Prop :=
  s_writes s = false /\ space (s_in s).

(** Step number [i] of the path is owned by token [k]. *)
Definition owns (spans : list (nat * nat)) (space : nat -> Prop) (path : list step) (k i : nat) : Prop :=
  exists s, nth_error path i = Some s /\ takes spans space k s /\
    (~ leading_space space s \/
     exists j s', j < i /\ nth_error path j = Some s' /\ takes spans space k s' /\ ~ leading_space space s').

(** [lo, hi) is the smallest interval of input bytes holding all bytes token [k]
    owns, and it owns at least one. *)
Definition input_hull spans space path k (lo hi : nat) : Prop :=
  (exists i s, owns spans space path k i /\ nth_error path i = Some s /\ s_in s = lo) /\
  (exists i s, owns spans space path k i /\ nth_error path i = Some s /\ s_in s + 1 = hi) /\
  (forall i s, owns spans space path k i -> nth_error path i = Some s -> lo <= s_in s < hi).

(** A path from [text] to [text]: its read labels spell the one's bytes, its
    written labels the other's. *)
Definition spells (input output : text) (arcs : list arc) : Prop :=
  encode input = Some (reads arcs) /\ encode output = Some (writes arcs).

Definition byte_spans (t : text) (spans : list (nat * nat)) : list (nat * nat) :=
  map (fun '(a, b) => (byte_pos t a, byte_pos t b)) spans.

(** What trace_input_spans has to return for token [k]. *)
Definition input_span_ok (input output : text) (arcs : list arc) (spans : list (nat * nat))
  (k : nat) (r : nat * nat) : Prop :=
  fst r <= length input /\ snd r <= length input /\
  input_hull (byte_spans output spans) (byte_is_space input) (steps arcs) k
    (byte_pos input (fst r)) (byte_pos input (snd r)).

(** ** Output side.  A step writes for token [k] whose serialised text is at
    input bytes [from, to): inside it, before the first token, or, if the byte
    written is not whitespace, between it and the next token. *)
Definition emits (spans : list (nat * nat)) (space : nat -> Prop) (k : nat) (s : step) : Prop :=
  s_writes s = true /\ exists from to, nth_error spans k = Some (from, to) /\
    ((s_reads s = true /\ from <= s_in s < to)
     \/ (s_reads s = false /\ from < s_in s < to)
     \/ (s_reads s = false /\ k = 0 /\ s_in s = from)
     \/ (s_reads s = false /\ ~ space (s_out s) /\ to <= s_in s /\
         forall a b, nth_error spans (S k) = Some (a, b) -> s_in s <= a)).

Definition output_hull spans space (path : list step) k (lo hi : nat) : Prop :=
  (exists s, In s path /\ emits spans space k s /\ s_out s = lo) /\
  (exists s, In s path /\ emits spans space k s /\ s_out s + 1 = hi) /\
  (forall s, In s path -> emits spans space k s -> lo <= s_out s < hi).

(** A token that writes nothing sits at the output position reached when the
    first byte of its serialised text is read. *)
Definition output_interval spans space (path : list step) k (lo hi : nat) : Prop :=
  output_hull spans space path k lo hi \/
  ((forall s, In s path -> ~ emits spans space k s) /\ lo = hi /\
   exists s from to, nth_error spans k = Some (from, to) /\ In s path /\
     s_reads s = true /\ s_in s = from /\ s_out s = lo).

Definition output_span_ok (input output : text) (arcs : list arc) (spans : list (nat * nat))
  (k : nat) (r : nat * nat) : Prop :=
  fst r <= length output /\ snd r <= length output /\
  output_interval (byte_spans input spans) (byte_is_space output) (steps arcs) k
    (byte_pos output (fst r)) (byte_pos output (snd r)).

(** One result per span, each as required. *)
Definition each_span (ok : nat -> nat * nat -> Prop) (spans res : list (nat * nat)) : Prop :=
  length res = length spans /\ forall k r, nth_error res k = Some r -> ok k r.

(** ** The path walker. *)
Inductive chain (m : machine) : nat -> list arc -> Prop :=
| chain_end s : nth_error (state_arcs m) s = Some [] -> chain m s []
| chain_step s a r : nth_error (state_arcs m) s = Some [a] -> chain m (nextstate a) r -> chain m s (a :: r).
(** States reached along single arcs. *)
Inductive walks (m : machine) : nat -> nat -> Prop :=
| walks_here s : walks m s s
| walks_step s a t : nth_error (state_arcs m) s = Some [a] -> walks m (nextstate a) t -> walks m s t.
(** Every [nextstate] exists, as in any FST. *)
Definition closed_machine (m : machine) : Prop :=
  (forall s, start_state m = Some s -> s < length (state_arcs m)) /\
  (forall s l a, nth_error (state_arcs m) s = Some l -> In a l -> nextstate a < length (state_arcs m)).

(** The characters Python's str.isspace accepts: the Unicode spaces and separators
    (classes Zs, Zl, Zp) and the controls with bidirectional type WS, B or S. *)
Definition unicode_spaces : list N :=
  [ 9; 10; 11; 12; 13;          (* tab, line feed, vertical tab, form feed, carriage return *)
    28; 29; 30; 31;             (* file, group, record and unit separator *)
    32; 133; 160;               (* space, next line, no-break space *)
    5760;                       (* ogham space mark *)
    8192; 8193; 8194; 8195; 8196; 8197; 8198; 8199; 8200; 8201; 8202;  (* en quad .. hair space *)
    8232; 8233;                 (* line and paragraph separator *)
    8239; 8287;                 (* narrow no-break and medium mathematical space *)
    12288 ]%N.                  (* ideographic space *)
