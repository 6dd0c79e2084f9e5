(** Specification for the bundle protocol (C26-C31): processes, schedules, crashes, and
    what it means for a directory to hold a complete publication.  Uses only the system
    calls and the client programs of CacheModel.v. *)
From Coq Require Import List NArith ZArith Bool Arith String.
From Verif Require Import Text CacheModel JsonSpec.
Import ListNotations.
Local Open Scope list_scope.

(** The bytes the three files of a publication hold. *)
Definition content (en : env) (p : pub) (fn : fname) : bytes :=
  match fn with FTag => fst p | FVerb => snd p | _ => dumps en (manifest_of en (fst p) (snd p)) end.
(** Directory [d] holds exactly the three files of publication [p]. *)
Definition holds (en : env) (s : st) (d : nat) (p : pub) : Prop :=
  (forall fn, known fn = true -> exists f, dirs s d fn = Some (FReg f) /\ files s f = content en p fn) /\
  (forall i, dirs s d (FOther i) = None).
(** The bundle path holds [p]. *)
Definition bundle_is (en : env) (s : st) (p : pub) : Prop :=
  exists d, par s NFinal = Some (EDir d) /\ holds en s d p.
(** The directory [d] passes every check for this key, with graphs [p]: exactly the
    three regular files; a manifest that is a dictionary with every identity entry and
    the size and digest of each graph file; and readable graphs within the size limit. *)
Definition genuine (en : env) (s : st) (d : nat) (p : pub) : Prop :=
  (forall i, dirs s d (FOther i) = None) /\
  exists ft fv fmn o fs,
    dirs s d FTag = Some (FReg ft) /\ dirs s d FVerb = Some (FReg fv) /\ dirs s d FMan = Some (FReg fmn) /\
    files s ft = fst p /\ files s fv = snd p /\
    loads en (files s fmn) = Some (JObj o) /\
    (forall k v, In (k, v) (identity en) -> exists x, obj_get k o = Some x /\ py_eq x v = true) /\
    obj_get (u "files") o = Some (JObj fs) /\
    (forall k v, In (k, v) fs -> k = u "tagger.fst" \/ k = u "verbalizer.fst") /\
    forall nm b, (nm = u "tagger.fst" /\ b = fst p) \/ (nm = u "verbalizer.fst" /\ b = snd p) ->
      (size_of b <= fst_max en)%Z /\ fst_ok en b = true /\
      exists md, obj_get nm fs = Some (JObj md) /\ obj_get (u "size") md = Some (JInt (size_of b)) /\
        obj_get (u "sha256") md = Some (JStr (sha en b)).
(** [p] has been moved to the bundle path at some time (history). *)
Definition published (s : st) (p : pub) : Prop := exists d, frozen s d = true /\ pub_of s d = Some p.

(** Directories have finitely many entries. *)
Definition finite (s : st) : Prop :=
  (exists l, forall n, par s n <> None -> In n l) /\ forall d, exists l, forall fn, dirs s d fn <> None -> In fn l.
(** A key nobody has used yet; other names in the same directory are arbitrary. *)
Definition fresh_key (s : st) : Prop :=
  (forall n, match n with NOther _ => True | _ => par s n = None end) /\
  finite s /\
  (forall i d, par s (NOther i) = Some (EDir d) -> d < next s) /\
  lock s = None /\ (forall d, pub_of s d = None /\ frozen s d = false) /\ (forall f, sealed s f = false) /\ built s = [].

(** Processes run concurrently, one system call at a time; a crash stops one for ever
    and releases its lock. *)
Record config := Config { cst : st; thr : nat -> option (io (option pub)) }.
Definition set_thr (t : nat -> option (io (option pub))) (i : nat) (p : option (io (option pub))) :=
  fun j => if Nat.eq_dec j i then p else t j.
Definition release (i : nat) (s : st) : st :=
  match lock s with Some o => if o =? i then upd_lock s None else s | None => s end.
Inductive sstep (w : world) (crashes : bool) : config -> config -> Prop :=
| SRun g i c k r s' :
    thr g i = Some (Op c k) -> step w i c (cst g) r s' ->
    sstep w crashes g (Config s' (set_thr (thr g) i (Some (k r))))
| SCrash g i p :
    crashes = true -> thr g i = Some p ->
    sstep w crashes g (Config (release i (cst g)) (set_thr (thr g) i None)).
Inductive reach (w : world) (crashes : bool) (g0 : config) : config -> Prop :=
| reach_refl : reach w crashes g0 g0
| reach_step g g' : reach w crashes g0 g -> sstep w crashes g g' -> reach w crashes g0 g'.
(** Process [i] runs client [cl i]; any number of processes. *)
Definition start (en : env) (cl : nat -> client) (s : st) : config :=
  Config s (fun i => Some (client_prog en (cl i))).
(** Process [i] has returned (or raised) [r]. *)
Definition finished (g : config) (i : nat) (r : exn + option pub) : Prop := thr g i = Some (Ret r).

(** One process alone. *)
Fixpoint runs (w : world) (me : nat) {A} (p : prog A) (s : st) (a : A) (s' : st) : Prop :=
  match p with
  | Ret b => a = b /\ s' = s
  | Op c k => exists r s1, step w me c s r s1 /\ runs w me (k r) s1 a s'
  end.

(** The file formats do what they should for publication [p]: a manifest that was
    written is read back, up to the order of dictionary keys (JsonProofs.v shows this of
    the JSON text the code writes), the files are within the limits and the graphs are
    readable. *)
Definition format_ok (en : env) (p : pub) : Prop :=
  (exists m, loads en (content en p FMan) = Some m /\ json_same m (manifest_of en (fst p) (snd p))) /\
  (size_of (content en p FMan) <= man_max en)%Z /\
  (size_of (content en p FMan) <= maxsize en)%Z /\
  (forall fn, fn = FTag \/ fn = FVerb ->
     fst_ok en (content en p fn) = true /\ (size_of (content en p fn) <= fst_max en)%Z /\ (size_of (content en p fn) <= maxsize en)%Z).
(** The identity is a Python dictionary without a "files" entry. *)
Definition identity_ok (en : env) : Prop :=
  NoDup (map fst (identity en)) /\ ~ In (u "files") (map fst (identity en)) /\
  (forall k v, In (k, v) (identity en) -> json_wf v).
Definition no_faults (w : world) : Prop := forall c, faulty w c = false.
