(** Transcription of the bundle protocol of /repo/tn/cache.py (POSIX branches) and
    of Processor.build_fst (/repo/tn/processor.py:226-292), as programs that make
    one system call at a time.  Model only.

    One cache key is modelled: [name] is a child of [self.parent].  The ancestors
    (cache_root/prefix/config_digest) are created by _ensure_parent and never
    removed by this code, so a call that walks them is one call here.  Descriptors
    are inode numbers; closing them has no effect and is left out.  Windows branches
    (os.name == "nt") are left out.  A crash of a process is modelled in
    CacheSpec.v; loss of power (what fsync is for) is not. *)
From Coq Require Import List NArith ZArith Bool Arith Permutation String.
From Verif Require Import Text.
Import ListNotations.
Local Open Scope list_scope.

(** ** JSON values, as json.loads returns them (no floats: none occurs here). *)
Inductive json :=
| JNull | JBool (b : bool) | JInt (z : Z) | JStr (t : text)
| JArr (l : list json) | JObj (l : list (text * json)).
(** dict.get *)
Fixpoint obj_get (k : text) (l : list (text * json)) : option json :=
  match l with [] => None | (k', v) :: r => if text_eqb k k' then Some v else obj_get k r end.
(** Python's == on such values: True == 1, dictionaries are unordered. *)
Fixpoint py_eq (a b : json) {struct a} : bool :=
  match a, b with
  | JNull, JNull => true
  | JBool x, JBool y => Bool.eqb x y
  | JBool x, JInt z | JInt z, JBool x => (z =? (if x then 1 else 0))%Z
  | JInt x, JInt y => (x =? y)%Z
  | JStr x, JStr y => text_eqb x y
  | JArr l, JArr m =>
      (fix go (l m : list json) : bool :=
         match l, m with
         | [], [] => true
         | x :: l', y :: m' => py_eq x y && go l' m'
         | _, _ => false
         end) l m
  | JObj l, JObj m =>
      (List.length l =? List.length m) &&
      (fix go (l : list (text * json)) : bool :=
         match l with
         | [] => true
         | (k, v) :: l' => match obj_get k m with Some w => py_eq v w | None => false end && go l'
         end) l
  | _, _ => false
  end.

(** ** The file system seen by one key. *)
Definition bytes := list N.
(** A publication: the two serialised graphs. *)
Definition pub := (bytes * bytes)%type.
(** Children of self.parent, cache.py:414-415, 707, 717-721, 766-768, 793: the
    bundle, ".{digest}.tmp-*", ".{digest}.previous-*", ".{digest}.corrupt-*" and
    anything else. *)
Inductive name := NFinal | NTmp (i : nat) | NPrev (i : nat) | NCorrupt (i : nat) | NOther (i : nat).
(** Entries of a bundle directory; _BUNDLE_FILENAMES, cache.py:42. *)
Inductive fname := FTag | FVerb | FMan | FOther (i : nat).
Definition name_eq_dec (a b : name) : {a = b} + {a <> b}.
Proof. decide equality; apply Nat.eq_dec. Defined.
Definition fname_eq_dec (a b : fname) : {a = b} + {a <> b}.
Proof. decide equality; apply Nat.eq_dec. Defined.
Global Arguments name_eq_dec : simpl never.
Global Arguments fname_eq_dec : simpl never.
Inductive kind := KDir | KReg | KLink | KOther.
Inductive entry := EDir (d : nat) | EReg | ELink | EOther.
Inductive fentry := FReg (f : nat) | FDir | FLink | FSpecial.
Definition entry_kind (e : entry) : kind * nat :=
  match e with EDir d => (KDir, d) | EReg => (KReg, 0) | ELink => (KLink, 0) | EOther => (KOther, 0) end.
Definition fentry_kind (e : fentry) : kind * nat :=
  match e with FReg f => (KReg, f) | FDir => (KDir, 0) | FLink => (KLink, 0) | FSpecial => (KOther, 0) end.

(** The state.  The last five fields are history only: nothing the programs do
    depends on them. *)
Record st := St {
  par : name -> option entry;               (* the parent directory *)
  dirs : nat -> fname -> option fentry;     (* directories by inode *)
  files : nat -> bytes;                     (* file contents by inode *)
  next : nat;                               (* inodes from here on are unused *)
  lock : option nat;                        (* process holding the advisory lock *)
  pub_of : nat -> option pub;               (* what the directory was made for *)
  frozen : nat -> bool;                     (* the directory has been the bundle *)
  sealed : nat -> bool;                     (* the file has been in the bundle *)
  built : list pub }.                       (* results of all builds *)

Inductive oserr := ENOENT | ELOOP | EIO.    (* ELOOP stands for ENOTDIR too *)
Inductive call :=
| CEnsureParent
| CLstat (n : name)
| CLexists (n : name)
| COpenDir (n : name)
| CListdir (d : nat)
| COpenAt (d : nat) (fn : fname)
| CSize (f : nat)
| CRead (f off max : nat)
| CScandir (n : name)
| CStatAt (n : name) (fn : fname)
| CUnlinkAt (d : nat) (fn : fname)
| CRmdir (n : name)
| CMkdtemp (p : pub)                        (* [p] is history *)
| CCreate (n : name) (fn : fname)
| CWrite (f : nat) (b : bytes)
| CFsync
| CRename (a b : name)
| CIterdir
| CMtimes (l : list name)
| CUuid
| CLock
| COwner
| CUnlock
| CBuild
| CFingerprint.

Definition ret (c : call) : Type :=
  match c with
  | CEnsureParent | CUnlinkAt _ _ | CRmdir _ | CFsync | CRename _ _ | COwner => oserr + unit
  | CLstat _ => oserr + (kind * nat)
  | CLexists _ => bool
  | COpenDir _ => oserr + nat
  | CListdir _ | CScandir _ => oserr + list fname
  | COpenAt _ _ => oserr + option nat       (* [None]: opened, but not a regular file *)
  | CSize _ => oserr + nat
  | CRead _ _ _ => oserr + bytes
  | CStatAt _ _ => oserr + (kind * nat)
  | CMkdtemp _ => oserr + nat
  | CCreate _ _ => oserr + nat
  | CWrite _ _ => oserr + nat
  | CIterdir | CMtimes _ => oserr + list name
  | CUuid => nat
  | CLock => bool
  | CUnlock => unit
  | CBuild => oserr + pub
  | CFingerprint => bool
  end.

Definition upd_par (s : st) (n : name) (e : option entry) : st :=
  St (fun m => if name_eq_dec m n then e else par s m) (dirs s) (files s) (next s) (lock s) (pub_of s) (frozen s) (sealed s) (built s).
Definition upd_dir (s : st) (d : nat) (fn : fname) (e : option fentry) : st :=
  St (par s) (fun d' fn' => if Nat.eq_dec d' d then if fname_eq_dec fn' fn then e else dirs s d' fn' else dirs s d' fn')
     (files s) (next s) (lock s) (pub_of s) (frozen s) (sealed s) (built s).
Definition upd_file (s : st) (f : nat) (b : bytes) : st :=
  St (par s) (dirs s) (fun f' => if Nat.eq_dec f' f then b else files s f') (next s) (lock s) (pub_of s) (frozen s) (sealed s) (built s).
Definition upd_lock (s : st) (l : option nat) : st :=
  St (par s) (dirs s) (files s) (next s) l (pub_of s) (frozen s) (sealed s) (built s).
Definition upd_next (s : st) : st :=
  St (par s) (dirs s) (files s) (S (next s)) (lock s) (pub_of s) (frozen s) (sealed s) (built s).
Definition upd_built (s : st) (p : pub) : st :=
  St (par s) (dirs s) (files s) (next s) (lock s) (pub_of s) (frozen s) (sealed s) (p :: built s).
(** A new directory made for [p]. *)
Definition new_dir (s : st) (n : name) (p : pub) : st :=
  St (fun m => if name_eq_dec m n then Some (EDir (next s)) else par s m)
     (fun d fn => if Nat.eq_dec d (next s) then None else dirs s d fn)
     (files s) (S (next s)) (lock s)
     (fun d => if Nat.eq_dec d (next s) then Some p else pub_of s d) (frozen s) (sealed s) (built s).
(** Renaming [a], which is [e], to [b]; history: a directory that becomes the bundle. *)
Definition holds_file (s : st) (d f : nat) : bool :=
  existsb (fun fn => match dirs s d fn with Some (FReg f') => f' =? f | _ => false end) [FTag; FVerb; FMan].
Definition moved (s : st) (a b : name) (e : entry) : st :=
  let par' := fun m => if name_eq_dec m b then Some e else if name_eq_dec m a then None else par s m in
  match b, e with
  | NFinal, EDir d =>
      St par' (dirs s) (files s) (next s) (lock s) (pub_of s)
         (fun d' => if Nat.eq_dec d' d then true else frozen s d')
         (fun f => sealed s f || holds_file s d f) (built s)
  | _, _ => St par' (dirs s) (files s) (next s) (lock s) (pub_of s) (frozen s) (sealed s) (built s)
  end.

(** What the operating system may answer.  [faulty c]: the call [c] may raise OSError
    at any time, leaving everything as it was. [sane]: what builds may return.
    [stable_sources]: the grammar sources are not edited during a build. *)
Record world := World { faulty : call -> bool; sane : pub -> Prop; stable_sources : bool }.
Definition fault {A} (w : world) (c : call) (s s' : st) (r : oserr + A) : Prop :=
  faulty w c = true /\ r = inl EIO /\ s' = s.
Definition lists {A} (l : list A) (present : A -> Prop) : Prop := NoDup l /\ forall x, In x l <-> present x.
Definition empty_dir (s : st) (d : nat) : Prop := forall fn, dirs s d fn = None.

Definition step (w : world) (me : nat) (c : call) (s : st) : ret c -> st -> Prop :=
  match c return ret c -> st -> Prop with
  | CEnsureParent | CFsync | COwner => fun r s' => fault w c s s' r \/ (r = inr tt /\ s' = s)
  | CLstat n => fun r s' => fault w c s s' r \/
      (s' = s /\ r = match par s n with None => inl ENOENT | Some e => inr (entry_kind e) end)
  | CLexists n => fun r s' => s' = s /\
      ((faulty w c = true /\ r = false) \/ r = match par s n with None => false | Some _ => true end)
  | COpenDir n => fun r s' => fault w c s s' r \/
      (s' = s /\ r = match par s n with None => inl ENOENT | Some (EDir d) => inr d | Some _ => inl ELOOP end)
  | CListdir d => fun r s' => fault w c s s' r \/
      (s' = s /\ exists l, r = inr l /\ lists l (fun fn => dirs s d fn <> None))
  | COpenAt d fn => fun r s' => fault w c s s' r \/
      (s' = s /\ r = match dirs s d fn with
                     | None => inl ENOENT
                     | Some FLink => inl ELOOP
                     | Some (FReg f) => inr (Some f)
                     | Some _ => inr None
                     end)
  | CSize f => fun r s' => fault w c s s' r \/ (s' = s /\ r = inr (List.length (files s f)))
  | CRead f off max => fun r s' => fault w c s s' r \/
      (s' = s /\ exists b rest, r = inr b /\ skipn off (files s f) = b ++ rest /\ List.length b <= max /\
         (b = [] -> rest = [] \/ max = 0))
  | CScandir n => fun r s' => fault w c s s' r \/
      (s' = s /\ match par s n with
                 | None => r = inl ENOENT
                 | Some (EDir d) => exists l, r = inr l /\ lists l (fun fn => dirs s d fn <> None)
                 | Some ELink => True
                 | Some _ => r = inl ELOOP
                 end)
  | CStatAt n fn => fun r s' => fault w c s s' r \/
      (s' = s /\ r = match par s n with
                     | Some (EDir d) => match dirs s d fn with None => inl ENOENT | Some e => inr (fentry_kind e) end
                     | _ => inl ENOENT
                     end)
  | CUnlinkAt d fn => fun r s' => fault w c s s' r \/
      match dirs s d fn with
      | None => r = inl ENOENT /\ s' = s
      | Some FDir => r = inl EIO /\ s' = s
      | Some _ => r = inr tt /\ s' = upd_dir s d fn None
      end
  | CRmdir n => fun r s' => fault w c s s' r \/
      match par s n with
      | None => r = inl ENOENT /\ s' = s
      | Some (EDir d) => (empty_dir s d /\ r = inr tt /\ s' = upd_par s n None) \/ (~ empty_dir s d /\ r = inl EIO /\ s' = s)
      | Some _ => r = inl ELOOP /\ s' = s
      end
  | CMkdtemp p => fun r s' => fault w c s s' r \/
      exists i, par s (NTmp i) = None /\ r = inr i /\ s' = new_dir s (NTmp i) p
  | CCreate n fn => fun r s' => fault w c s s' r \/
      match par s n with
      | Some (EDir d) =>
          match dirs s d fn with
          | None => r = inr (next s) /\ s' = upd_next (upd_file (upd_dir s d fn (Some (FReg (next s)))) (next s) [])
          | Some (FReg f) => r = inr f /\ s' = upd_file s f []
          | Some _ => r = inl EIO /\ s' = s
          end
      | _ => r = inl ENOENT /\ s' = s
      end
  | CWrite f b => fun r s' => fault w c s s' r \/
      exists k, 1 <= k <= List.length b /\ r = inr k /\ s' = upd_file s f (files s f ++ firstn k b)
  | CRename a b => fun r s' => fault w c s s' r \/
      match par s a with
      | None => r = inl ENOENT /\ s' = s
      | Some (EDir d) =>
          match par s b with
          | None => r = inr tt /\ s' = moved s a b (EDir d)
          | Some (EDir d') => (empty_dir s d' /\ r = inr tt /\ s' = moved s a b (EDir d)) \/ (~ empty_dir s d' /\ r = inl EIO /\ s' = s)
          | Some _ => r = inl ELOOP /\ s' = s
          end
      | Some e =>
          match par s b with
          | Some (EDir _) => r = inl EIO /\ s' = s
          | _ => r = inr tt /\ s' = moved s a b e
          end
      end
  | CIterdir => fun r s' => fault w c s s' r \/ (s' = s /\ exists l, r = inr l /\ lists l (fun n => par s n <> None))
  | CMtimes l => fun r s' => fault w c s s' r \/ (s' = s /\ exists l', r = inr l' /\ Permutation l l')
  | CUuid => fun r s' => s' = s /\ par s (NPrev r) = None /\ par s (NCorrupt r) = None
  | CLock => fun r s' => (lock s = None /\ r = true /\ s' = upd_lock s (Some me)) \/ (lock s <> None /\ r = false /\ s' = s)
  | CUnlock => fun r s' => s' = match lock s with
                                | Some o => if o =? me then upd_lock s None else s
                                | None => s
                                end
  | CBuild => fun r s' => fault w c s s' r \/ exists p, sane w p /\ r = inr p /\ s' = upd_built s p
  | CFingerprint => fun r s' => s' = s /\ (stable_sources w = true -> r = true)
  end.

(** ** Programs. *)
Inductive prog (A : Type) : Type :=
| Ret (a : A)
| Op (c : call) (k : ret c -> prog A).
Arguments Ret {A} a.
Arguments Op {A} c k.
Fixpoint bindp {A B} (p : prog A) (f : A -> prog B) : prog B :=
  match p with Ret a => f a | Op c k => Op c (fun r => bindp (k r) f) end.

(** Python exceptions: FileNotFoundError, another OSError, CachePathError,
    CacheIntegrityError, CacheError, CacheLockTimeout, RuntimeError; [XFuel] marks a
    loop that ran out of fuel. *)
Inductive exn := XNotFound | XOs | XPath | XIntegrity | XCache | XTimeout | XRuntime | XFuel.
Definition os_exn (e : oserr) : exn := match e with ENOENT => XNotFound | _ => XOs end.
Definition is_os (e : exn) : bool := match e with XNotFound | XOs => true | _ => false end.
Definition io (A : Type) := prog (exn + A).
Definition ok {A} (a : A) : io A := Ret (inr a).
Definition throw {A} (e : exn) : io A := Ret (inl e).
Definition bind {A B} (p : io A) (f : A -> io B) : io B :=
  bindp p (fun r => match r with inl e => throw e | inr a => f a end).
Definition catch {A} (p : io A) (h : exn -> io A) : io A :=
  bindp p (fun r => match r with inl e => h e | inr a => ok a end).
(** try: p finally: q (q raises nothing here) *)
Definition finally {A} (p : io A) (q : prog unit) : io A :=
  bindp p (fun r => bindp q (fun _ => Ret r)).
Notation "x <- p ;; k" := (bind p (fun x => k)) (at level 61, p at next level, right associativity).
Notation "p ;;; k" := (bind p (fun _ => k)) (at level 61, right associativity).
Definition lift {A} (r : oserr + A) : exn + A := match r with inl e => inl (os_exn e) | inr a => inr a end.
Notation sys c := (Op c (fun r => Ret (lift r))).
Notation ask c := (Op c (fun r => Ret (inr r))).

(** Everything the key's code takes from outside. *)
Record env := Env {
  sha : bytes -> text;                        (* hashlib.sha256(...).hexdigest() *)
  loads : bytes -> option json;               (* json.loads(bytes.decode("utf-8")); None: raises *)
  dumps : json -> bytes;                      (* _write_manifest's bytes, cache.py:817-820 *)
  fst_ok : bytes -> bool;                     (* Fst.read_from_string(bytes) succeeds *)
  identity : list (text * json);              (* _expected_manifest_identity(), cache.py:512-522 *)
  man_max : Z; fst_max : Z; maxsize : Z }.    (* cache.py:43-44, sys.maxsize *)
Definition size_of (b : bytes) : Z := Z.of_nat (List.length b).

(** The loop of _read_open_regular, cache.py:255-259. *)
Fixpoint read_loop (fuel f off size : nat) (acc : bytes) : io bytes :=
  if off <? size then
    match fuel with
    | O => throw XFuel
    | S fuel' =>
        b <- sys (CRead f off (size - off)) ;;
        match b with
        | [] => throw XIntegrity
        | _ :: _ => read_loop fuel' f (off + List.length b) size (acc ++ b)
        end
    end
  else ok acc.

(** _read_open_regular, cache.py:237-265; [f] = None: the descriptor is not a regular
    file. *)
Definition read_open_regular (en : env) (h : option nat) (expected_size max_size : option Z) : io bytes :=
  match h with
  | None => throw XPath
  | Some f =>
      size <- sys (CSize f) ;;
      if (maxsize en <? Z.of_nat size)%Z then throw XIntegrity
      else if match expected_size with Some e => negb (Z.of_nat size =? e)%Z | None => false end then throw XIntegrity
      else if match max_size with Some m => (m <? Z.of_nat size)%Z | None => false end then throw XIntegrity
      else
        contents <- read_loop size f 0 size [] ;;
        more <- sys (CRead f size 1) ;;
        match more with
        | _ :: _ => throw XIntegrity
        | [] =>
            after <- sys (CSize f) ;;
            if after =? size then ok contents else throw XIntegrity
        end
  end.

(** _read_regular_at, cache.py:290-306. *)
Definition read_regular_at (en : env) (d : nat) (fn : fname) (expected_size max_size : option Z) : io bytes :=
  Op (COpenAt d fn) (fun r =>
    match r with
    | inl ELOOP => throw XPath
    | inl e => throw (os_exn e)
    | inr h => read_open_regular en h expected_size max_size
    end).

(** _read_regular_file, cache.py:268-287: path is parent/n/fn.  expected_stat is the
    inode seen by lstat: the open must find the same one, else CachePathError. *)
Definition read_regular_file (en : env) (n : name) (fn : fname) : io bytes :=
  before <- sys (CStatAt n fn) ;;
  match before with
  | (KReg, ino) =>
      d <- sys (COpenDir n) ;;
      h <- sys (COpenAt d fn) ;;
      match h with
      | Some f => if f =? ino then read_open_regular en h None None else throw XPath
      | None => throw XPath
      end
  | _ => throw XPath
  end.

(** _open_directory_chain, cache.py:469-500. *)
Definition open_directory_chain (n : name) : io nat :=
  Op (COpenDir n) (fun r =>
    match r with
    | inl ELOOP => throw XPath
    | inl e => throw (os_exn e)
    | inr d => ok d
    end).

(** _validate_directory_chain / _check_bundle_directory, cache.py:451-467, 524-525. *)
Definition check_bundle_directory (n : name) : io unit :=
  k <- sys (CLstat n) ;;
  match fst k with KDir => ok tt | _ => throw XPath end.

Definition known (fn : fname) : bool := match fn with FOther _ => false | _ => true end.
Definition fn_mem (x : fname) (l : list fname) : bool := if in_dec fname_eq_dec x l then true else false.
(** entries == set(_BUNDLE_FILENAMES), cache.py:544. *)
Definition same_names (l : list fname) : bool :=
  forallb known l && fn_mem FTag l && fn_mem FVerb l && fn_mem FMan l.
Definition fname_text (fn : fname) : text :=
  match fn with FTag => u "tagger.fst" | FVerb => u "verbalizer.fst" | _ => u "manifest.json" end.

(** The checks on the manifest, cache.py:554-562: the "files" dictionary. *)
Definition manifest_files (en : env) (m : json) : option (list (text * json)) :=
  match m with
  | JObj o =>
      if forallb (fun kv => match obj_get (fst kv) o with Some v => py_eq v (snd kv) | None => false end) (identity en)
      then
        match obj_get (u "files") o with
        | Some (JObj fs) =>
            if forallb (fun kv => text_eqb (fst kv) (u "tagger.fst") || text_eqb (fst kv) (u "verbalizer.fst")) fs
               && match obj_get (u "tagger.fst") fs, obj_get (u "verbalizer.fst") fs with Some _, Some _ => true | _, _ => false end
            then Some fs else None
        | _ => None
        end
      else None
  | _ => None
  end.
(** cache.py:566-572: the recorded size and digest of one file. *)
Definition file_meta (en : env) (fs : list (text * json)) (fn : fname) : option (Z * option json) :=
  match obj_get (fname_text fn) fs with
  | Some (JObj md) =>
      match obj_get (u "size") md with
      | Some (JInt z) => if (z <? 0)%Z || (maxsize en <? z)%Z then None else Some (z, obj_get (u "sha256") md)
      | _ => None
      end
  | _ => None
  end.

(** One iteration of cache.py:565-592; [None]: return None from _load_path. *)
Definition load_file (en : env) (d : nat) (fs : list (text * json)) (fn : fname) : io (option bytes) :=
  match file_meta en fs fn with
  | None => ok None
  | Some (size, digest) =>
      r <- catch (b <- read_regular_at en d fn (Some size) (Some (fst_max en)) ;; ok (Some b))
                 (fun e => match e with
                           | XNotFound | XIntegrity | XOs => ok None
                           | _ => throw e
                           end) ;;
      match r with
      | None => ok None
      | Some b =>
          match digest with
          | Some (JStr h) => if text_eqb h (sha en b) && fst_ok en b then ok (Some b) else ok None
          | _ => ok None
          end
      end
  end.

(** _load_path, cache.py:527-598.  The result is the pair of byte strings the graphs
    are read from. *)
Definition load_path (en : env) (n : name) : io (option pub) :=
  catch
    (d <- open_directory_chain n ;;
     entries <- sys (CListdir d) ;;
     if same_names entries then
       m <- catch (b <- read_regular_at en d FMan None (Some (man_max en)) ;; ok (loads en b))
                  (fun e => match e with
                            | XNotFound | XOs | XIntegrity => ok None
                            | _ => throw e
                            end) ;;
       match m with
       | None => ok None
       | Some m =>
           match manifest_files en m with
           | None => ok None
           | Some fs =>
               t <- load_file en d fs FTag ;;
               match t with
               | None => ok None
               | Some t =>
                   v <- load_file en d fs FVerb ;;
                   match v with
                   | None => ok None
                   | Some v => ok (Some (t, v))
                   end
               end
           end
       end
     else ok None)
    (fun e => match e with XNotFound => ok None | _ => throw e end).
(** load, cache.py:600-603. *)
Definition load (en : env) : io (option pub) := load_path en NFinal.

(** The checks of _remove_flat_bundle_impl, cache.py:340-346: false: return False. *)
Fixpoint removable (n : name) (entries : list fname) : io bool :=
  match entries with
  | [] => ok true
  | fn :: r =>
      k <- sys (CStatAt n fn) ;;
      match fst k with
      | KDir => ok false
      | KLink => removable n r
      | KReg => if known fn then removable n r else ok false
      | KOther => ok false
      end
  end.
(** cache.py:362-369. *)
Fixpoint unlink_all (d : nat) (entries : list fname) : io unit :=
  match entries with
  | [] => ok tt
  | fn :: r =>
      catch (sys (CUnlinkAt d fn)) (fun e => match e with XNotFound => ok tt | _ => throw e end) ;;;
      unlink_all d r
  end.
(** _remove_flat_bundle_impl, cache.py:322-378. *)
Definition remove_flat_bundle_impl (n : name) (best_effort : bool) : io bool :=
  Op (CLstat n) (fun r =>
    match r with
    | inl ENOENT => ok true
    | inl e => throw (os_exn e)
    | inr (KLink, _) => if best_effort then ok false else throw XPath
    | inr (KDir, ino) =>
        entries <- sys (CScandir n) ;;
        good <- removable n entries ;;
        if good then
          fd <- catch (d <- sys (COpenDir n) ;; if d =? ino then ok (Some d) else throw XPath)
                      (fun e => if best_effort then ok None else throw e) ;;
          match fd with
          | None => ok false
          | Some d =>
              catch (unlink_all d entries ;;; sys (CRmdir n) ;;; ok true)
                    (fun e => if best_effort then ok false else throw e)
          end
        else ok false
    | inr _ => if best_effort then ok false else throw XPath
    end).
(** _remove_flat_bundle, cache.py:309-319. *)
Definition remove_flat_bundle (n : name) (best_effort : bool) : io bool :=
  catch (remove_flat_bundle_impl n best_effort)
        (fun e => match e with
                  | XNotFound | XOs | XPath => if best_effort then ok false else throw e
                  | _ => throw e
                  end).
(** With best_effort the result is not used: cache.py:709, 741, 805, 808. *)
Definition remove_residual (n : name) : io unit := remove_flat_bundle n true ;;; ok tt.

(** _replace_with_retry, cache.py:743-754: on POSIX one attempt; a PermissionError
    becomes CacheError, which no caller treats differently. *)
Definition replace (a b : name) : io unit := sys (CRename a b).

(** remove_invalid, cache.py:700-709. *)
Definition remove_invalid : io unit :=
  Op (CLstat NFinal) (fun r =>
    match r with
    | inl ENOENT => ok tt
    | inl e => throw (os_exn e)
    | inr (KDir, _) =>
        i <- ask CUuid ;;
        replace NFinal (NCorrupt i) ;;;
        remove_residual (NCorrupt i)
    | inr _ => throw XPath
    end).

(** recover_residuals, cache.py:711-741. *)
Definition is_residual (n : name) : bool := match n with NTmp _ | NPrev _ | NCorrupt _ => true | _ => false end.
Definition is_previous (n : name) : bool := match n with NPrev _ => true | _ => false end.
(** The scan, cache.py:723-728. *)
Fixpoint scan_residuals (l : list name) : io (list name) :=
  match l with
  | [] => ok []
  | n :: r =>
      if is_residual n then
        k <- sys (CLstat n) ;;
        rest <- scan_residuals r ;;
        match fst k with KDir => ok (n :: rest) | _ => ok rest end
      else scan_residuals r
  end.
(** The loop cache.py:733-738: the restored candidate. *)
Fixpoint restore_first (en : env) (l : list name) : io (option name) :=
  match l with
  | [] => ok None
  | n :: r =>
      g <- load_path en n ;;
      match g with
      | Some _ =>
          replace n NFinal ;;;
          ok (Some n)
      | None => restore_first en r
      end
  end.
Fixpoint remove_all (l : list name) : io unit :=
  match l with [] => ok tt | n :: r => remove_residual n ;;; remove_all r end.
Definition drop_name (o : option name) (l : list name) : list name :=
  match o with None => l | Some n => filter (fun m => if name_eq_dec m n then false else true) l end.
Definition recover_residuals (en : env) : io unit :=
  sys CEnsureParent ;;;
  children <- sys CIterdir ;;
  residuals <- scan_residuals children ;;
  here <- ask (CLexists NFinal) ;;
  restored <- (if here : bool then ok None
               else
                 previous <- sys (CMtimes (filter is_previous residuals)) ;;
                 restore_first en previous) ;;
  remove_all (drop_name restored residuals).

(** Writing a file: open for writing, then writes of any size until all is written
    (OpenFst's write and Python's buffered file), then fsync; cache.py:810-822. *)
Fixpoint write_loop (fuel f : nat) (b : bytes) : io unit :=
  match b with
  | [] => ok tt
  | _ :: _ =>
      match fuel with
      | O => throw XFuel
      | S fuel' =>
          k <- sys (CWrite f b) ;;
          write_loop fuel' f (skipn k b)
      end
  end.
Definition write_file (n : name) (fn : fname) (b : bytes) : io unit :=
  f <- sys (CCreate n fn) ;;
  write_loop (List.length b) f b ;;;
  sys CFsync.

Definition file_entry (en : env) (b : bytes) : json :=
  JObj [(u "sha256", JStr (sha en b)); (u "size", JInt (size_of b))].
(** manifest, cache.py:777-787. *)
Definition manifest_of (en : env) (t v : bytes) : json :=
  JObj (identity en ++ [(u "files", JObj [(u "tagger.fst", file_entry en t); (u "verbalizer.fst", file_entry en v)])]).

(** cache.py:799-803. *)
Definition restore_previous (previous : option name) (e : exn) : io unit :=
  match previous with
  | None => throw e
  | Some prev =>
      a <- ask (CLexists prev) ;;
      b <- (if a : bool then ask (CLexists NFinal) else ok true) ;;
      if b : bool then throw e else replace prev NFinal ;;; throw e
  end.
(** cache.py:771-794: everything before the new directory is moved in; returns
    [previous]. *)
Definition prepare (en : env) (p : pub) (tmp : name) : io (option name) :=
  write_file tmp FTag (fst p) ;;;
  write_file tmp FVerb (snd p) ;;;
  t <- read_regular_file en tmp FTag ;;
  (if fst_ok en t then ok tt else throw XRuntime) ;;;
  v <- read_regular_file en tmp FVerb ;;
  (if fst_ok en v then ok tt else throw XRuntime) ;;;
  write_file tmp FMan (dumps en (manifest_of en t v)) ;;;
  here <- ask (CLexists NFinal) ;;
  if here : bool then
    check_bundle_directory NFinal ;;;
    i <- ask CUuid ;;
    replace NFinal (NPrev i) ;;;
    ok (Some (NPrev i))
  else ok None.
(** cache.py:795-805; the boolean: [temporary] has been set to None.  _fsync_directory
    raises nothing (cache.py:138-148) and is left out. *)
Definition move_in (tmp : name) (previous : option name) : prog (bool * (exn + unit)) :=
  bindp (replace tmp NFinal) (fun r =>
    match r with
    | inl e => bindp (restore_previous previous e) (fun r' => Ret (false, r'))
    | inr _ =>
        bindp (match previous with None => ok tt | Some prev => remove_residual prev end)
              (fun r' => Ret (true, r'))
    end).
(** The outer finally, cache.py:806-808. *)
Definition cleanup_tmp (tmp : name) : io unit :=
  here <- ask (CLexists tmp) ;;
  if here : bool then remove_residual tmp else ok tt.
(** publish, cache.py:756-808. *)
Definition publish (en : env) (p : pub) : io unit :=
  sys CEnsureParent ;;;
  i <- sys (CMkdtemp p) ;;
  bindp (bindp (prepare en p (NTmp i)) (fun r =>
           match r with
           | inl e => Ret (false, inl e)
           | inr previous => move_in (NTmp i) previous
           end))
        (fun fr => if fst fr then Ret (snd fr)
                   else bindp (cleanup_tmp (NTmp i)) (fun c => match c with inl e => throw e | inr _ => Ret (snd fr) end)).

(** with bundle.lock(): body, cache.py:660-698: the anchor is opened (CEnsureParent
    stands for both), the lock is taken as soon as a try finds it free or the wait
    times out (the waiting loop itself: LockModel.v), the owner payload is written, and
    the lock is given up at the end in every case: explicitly or by closing the
    descriptor. *)
Definition with_lock {A} (body : io A) : io A :=
  sys CEnsureParent ;;;
  got <- ask CLock ;;
  if got : bool then finally (sys COwner ;;; body) (Op CUnlock (fun _ => Ret tt))
  else throw XTimeout.

(** The locked part of Processor.build_fst, processor.py:266-290. *)
Definition build_locked (en : env) (overwrite : bool) : io pub :=
  recover_residuals en ;;;
  again <- (if overwrite then ok None else load en) ;;
  match again with
  | Some p => ok p
  | None =>
      (if overwrite then ok tt else remove_invalid) ;;;
      p <- sys CBuild ;;
      same <- ask CFingerprint ;;
      if same : bool then
        publish en p ;;;
        g <- load en ;;
        match g with Some q => ok q | None => throw XRuntime end
      else throw XRuntime
  end.
(** Processor.build_fst with a cache directory, processor.py:248-292. *)
Definition build_fst (en : env) (overwrite : bool) : io pub :=
  first <- (if overwrite then ok None else load en) ;;
  match first with
  | Some p => ok p
  | None => with_lock (build_locked en overwrite)
  end.

(** What a client of one key does: read without the lock, build_fst, or use the other
    public methods of CacheBundle in any order under lock(), as their documentation
    asks (cache.py:701, 712, 757). *)
Inductive action := ALoad | ARecover | ARemoveInvalid | APublish.
Definition act (en : env) (a : action) : io unit :=
  match a with
  | ALoad => load en ;;; ok tt
  | ARecover => recover_residuals en
  | ARemoveInvalid => remove_invalid
  | APublish => p <- sys CBuild ;; publish en p
  end.
Fixpoint acts (en : env) (l : list action) : io unit :=
  match l with [] => ok tt | a :: r => act en a ;;; acts en r end.
Inductive client := Reader | Builder (overwrite : bool) | Session (l : list action).
Definition client_prog (en : env) (c : client) : io (option pub) :=
  match c with
  | Reader => load en
  | Builder o => p <- build_fst en o ;; ok (Some p)
  | Session l => with_lock (acts en l) ;;; ok None
  end.
