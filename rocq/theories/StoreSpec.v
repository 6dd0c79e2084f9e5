(** Independent vocabulary for the naming properties of the cache (C33, C34, C37, C39). *)
From Coq Require Import List NArith ZArith Bool Arith Permutation String.
From Verif Require Import Text AlignSpec CacheModel JsonSpec StoreModel.
Import ListNotations.
Local Open Scope list_scope.

(** ** Paths. *)
(** A name of one directory entry that is not a reference to another directory. *)
Definition plain (p : text) : Prop := p <> [] /\ ~ In 47%N p /\ p <> u "." /\ p <> u "..".
(** A resolved absolute path. *)
Definition resolved (p : path) : Prop := absolute p = true /\ Forall plain (parts p).
(** [p] is reached from [root] by the names [q], none of which leads elsewhere. *)
Definition reached (root : path) (q : list text) (p : path) : Prop :=
  absolute p = absolute root /\ parts p = parts root ++ q /\ Forall plain q.
Definition strictly_below (root p : path) : Prop := exists q, q <> [] /\ reached root q p.

(** The characters of a cache prefix. *)
Definition prefix_alphabet : text := u "ABCDEFGHIJKLMNOPQRSTUVWXYZabcdefghijklmnopqrstuvwxyz0123456789_.-".
Definition safe_prefix (p : text) : Prop :=
  p <> [] /\ (forall c, In c p -> In c prefix_alphabet) /\ p <> u "." /\ p <> u "..".

(** What a path means without touching the file system: ".." leaves a directory. *)
Inductive leads : list text -> list text -> list text -> Prop :=
| leads_end d : leads d [] d
| leads_in d p r e : p <> u ".." -> leads (d ++ [p]) r e -> leads d (p :: r) e
| leads_up d x r e : leads d r e -> leads (d ++ [x]) (u ".." :: r) e
| leads_top r e : leads [] r e -> leads [] (u ".." :: r) e.
(** The location of a path, from the working directory [cwd]. *)
Definition located (cwd : list text) (p : path) (e : list text) : Prop :=
  leads [] (if absolute p then parts p else cwd ++ parts p) e.

(** ** Keys. *)
(** A hexadecimal digest of the length of SHA-256. *)
Definition hex_digests (sha : bytes -> text) : Prop :=
  forall b, List.length (sha b) = 64 /\ Forall (fun c => In c (u "0123456789abcdef")) (sha b).
(** The same data, whatever the order of dictionary keys. *)
Definition same_key (a b : key) : Prop :=
  k_prefix a = k_prefix b /\ k_ordertype a = k_ordertype b /\ json_same (k_config a) (k_config b)
  /\ json_same (k_builder a) (k_builder b) /\ k_fingerprint a = k_fingerprint b.
Definition key_wf (k : key) : Prop := json_wf (k_config k) /\ json_wf (k_builder k).
Definition key_encodable (k : key) : Prop :=
  encodable (k_prefix k) /\ encodable (k_ordertype k) /\ json_encodable (k_config k) /\ json_encodable (k_builder k)
  /\ encodable (k_fingerprint k).
(** Two different byte strings with the same digest. *)
Definition clash (sha : bytes -> text) (x y : bytes) : Prop := x <> y /\ sha x = sha y.

(** ** Source trees: regular files by relative path, in any order. *)
Definition tree_ok (t : list source) : Prop :=
  NoDup (map fst t)
  /\ Forall (fun s => fst s <> [] /\ Forall plain (fst s) /\ exists b, encode (join [47%N] (fst s)) = Some b /\ (N.of_nat (List.length b) < 2 ^ 56)%N) t.
(** The files that take part: those of the packages tn and itn with one of the three
    suffixes, outside test and __pycache__, but for _version.py. *)
Definition ends_with (e n : text) : Prop := exists stem, stem <> [] /\ n = stem ++ e.
Definition takes_part (s : source) : Prop :=
  exists package dirs name,
    fst s = package :: dirs ++ [name]
    /\ (package = u "tn" \/ package = u "itn")
    /\ (ends_with (u ".py") name \/ ends_with (u ".tsv") name \/ ends_with (u ".far") name)
    /\ ~ In (u "test") dirs /\ ~ In (u "__pycache__") dirs
    /\ name <> u "_version.py".
(** The same files with the same contents take part. *)
Definition same_sources (a b : list source) : Prop := forall s, takes_part s -> In s a <-> In s b.

(** ** Home directories. *)
(** The home directory of the user as os.path.expanduser finds it. *)
Definition home_of (e : environ) : option text := match home_var e with Some h => Some h | None => own_home e end.
(** An absolute path as text, or nothing at all. *)
Definition absolute_text (h : text) : Prop := h = [] \/ exists r, h = 47%N :: r.

(** ** Pipelines. *)
Inductive language := Chinese | Japanese | English.
Definition kind (p : pipeline) : language * bool :=   (* the language; whether it is inverse *)
  match p with
  | ZhTn _ _ _ _ _ _ => (Chinese, false) | JaTn _ _ _ _ _ => (Japanese, false) | EnTn => (English, false)
  | ZhItn _ _ _ _ => (Chinese, true) | JaItn _ _ _ _ => (Japanese, true) | EnItn => (English, true)
  end.
(** The same grammar is built: the same pipeline reading the same option values. *)
Definition same_grammar (p q : pipeline) : Prop :=
  kind p = kind q /\ Forall2 (fun a b => fst a = fst b /\ json_same (snd a) (snd b)) (grammar_reads p) (grammar_reads q).
(** The constructor's option values. *)
Definition options (p : pipeline) : list json :=
  match p with
  | ZhTn a b c d e f => [a; b; c; d; e; f] | JaTn a b c d e => [a; b; c; d; e] | EnTn => []
  | ZhItn a b c d => [a; b; c; d] | JaItn a b c d => [a; b; c; d] | EnItn => []
  end.
