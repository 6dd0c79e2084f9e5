(** Vocabulary for C36 and C38. *)
From Coq Require Import List NArith ZArith QArith Bool Arith.
From Coq Require Import Floats.SpecFloat.
From Verif Require Import Text CacheModel LockModel.
Import ListNotations.
Local Open Scope list_scope.

(** ** Writing. *)
(** os.write never claims more bytes than it was given: [n] are left. *)
Fixpoint honest_writes (n : nat) (l : list answer) : Prop :=
  match l with
  | Wrote k :: r => (k <= Z.of_nat n)%Z /\ honest_writes (n - Z.to_nat k) r
  | _ => True
  end.
(** The file [c] with the bytes [b] written at [pos], the rest as it was. *)
Definition written_at (pos : nat) (b c c' : bytes) : Prop :=
  forall i, nth_error c' i = (if (pos <=? i) && (i <? pos + List.length b) then nth_error b (i - pos) else nth_error c i).
Definition progress (a : answer) : Prop := match a with Wrote k => (0 < k)%Z | Raised => False end.

(** ** Waiting. *)
(** The monotonic clock never goes back and a sleep of d seconds takes at least d. *)
Fixpoint honest_clock (t : Q) (l : list round) (naps : list Q) : Prop :=
  match l with
  | [] => True
  | r :: rest => t <= now1 r /\ now1 r <= now2 r /\
                 match naps with d :: ds => honest_clock (now2 r + d) rest ds | [] => True end
  end.
(** [l] is a sequence of rounds in which the lock was busy before the deadline, then [r]. *)
Definition after_waiting (deadline : Q) (l : list round) (r : round) : Prop :=
  exists before rest, l = before ++ r :: rest /\ Forall (fun x => tried x = Busy /\ now1 x < deadline) before.
(** A finite non-negative number. *)
Definition proper (f : spec_float) : Prop :=
  f <> S754_nan /\ (forall s, f <> S754_infinity s) /\ 0 <= value f.
