(** Vocabulary for C32 and C35: a program of CacheModel.v run while other processes do
    what they like, and the trace of its system calls. *)
From Coq Require Import List NArith ZArith Bool Arith.
From Verif Require Import Text CacheModel CacheSpec.
Import ListNotations.

(** The program runs from [s] to [s'] and returns [a]; before each of its calls, and at
    the end, other processes may change the state by [E].  [at_calls] lists the states
    its calls met, in order. *)
Fixpoint among (E : st -> st -> Prop) (w : world) (me : nat) {A : Type} (p : prog A) (s : st) (at_calls : list st) (a : A) (s' : st) : Prop :=
  match p with
  | Ret x => a = x /\ at_calls = [] /\ E s s'
  | Op c k => exists s1 r s2 rest, at_calls = s1 :: rest /\ E s s1 /\ step w me c s1 r s2 /\ among E w me (k r) s2 rest a s'
  end.

(** Other processes only append to file [f]. *)
Definition appends (f : nat) (s s' : st) : Prop := exists more, files s' f = files s f ++ more.

(** A trace: the calls made so far and their answers, whatever they were. *)
Inductive event := Event (c : call) (r : ret c).
(** After the answers [t] the program makes the call [c] next. *)
Fixpoint calls_next {A} (p : prog A) (t : list event) (c : call) : Prop :=
  match p, t with
  | Ret _, _ => False
  | Op c' _, [] => c' = c
  | Op c' k, e :: t' => exists r, e = Event c' r /\ calls_next (k r) t' c
  end.

(** A directory entry that may be removed: a link, or one of the three bundle files
    when it is a regular file. *)
Definition expendable (fn : fname) (k : kind) : Prop := k = KLink \/ (k = KReg /\ known fn = true).
(** ... as found in a state. *)
Definition flat (s : st) (d : nat) : Prop :=
  forall fn e, dirs s d fn = Some e -> expendable fn (fst (fentry_kind e)).
(** [s'] is [s] but for entries of directory [d], named [n], that are gone. *)
Record trimmed (n : name) (d : nat) (s s' : st) : Prop := {
  tr_par : forall m, m <> n -> par s' m = par s m;
  tr_self : par s' n = par s n \/ (par s' n = None /\ empty_dir s' d);
  tr_dirs : forall d' fn, d' <> d -> dirs s' d' fn = dirs s d' fn;
  tr_entries : forall fn, dirs s' d fn = dirs s d fn \/ dirs s' d fn = None;
  tr_files : files s' = files s;
  tr_rest : next s' = next s /\ lock s' = lock s }.
(** Calls that change nothing. *)
Definition looks (c : call) : Prop :=
  match c with CLstat _ | CScandir _ | CStatAt _ _ | COpenDir _ => True | _ => False end.
(** The size is within the limits and is the expected one, if any. *)
Definition fits (en : env) (es ms : option Z) (b : bytes) : Prop :=
  (size_of b <= maxsize en)%Z /\ (forall z, es = Some z -> z = size_of b) /\ (forall m, ms = Some m -> (size_of b <= m)%Z).
(** The answer when there is something else than a directory. *)
Definition refused (be : bool) : exn + bool := if be then inr false else inl XPath.
(** What the cleanup of [n] may do after the answers [t]: look; or, once it has seen that
    [n] is a directory, has listed it, has seen that every entry is expendable and has
    opened that very directory, unlink a listed entry of it or remove [n]. *)
Definition allowed (n : name) (t : list event) (c : call) : Prop :=
  looks c \/
  exists d l, In (Event (CLstat n) (inr (KDir, d))) t /\ In (Event (CScandir n) (inr l)) t /\ In (Event (COpenDir n) (inr d)) t /\
    (forall fn, In fn l -> exists k i, In (Event (CStatAt n fn) (inr (k, i))) t /\ expendable fn k) /\
    ((exists fn, c = CUnlinkAt d fn /\ In fn l) \/ c = CRmdir n).
