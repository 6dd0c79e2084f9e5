(** Transcription of the parts of /repo/tn/cache.py that name things: paths, cache keys,
    the source fingerprint, the default directory (POSIX branches).  Model only. *)
From Coq Require Import List NArith ZArith Bool Arith String.
From Verif Require Import Text AlignModel AlignSpec CacheModel JsonModel.
Import ListNotations.
Local Open Scope list_scope.

(** ** pathlib.PurePosixPath and posixpath, as far as the code uses them.
    Simplification: exactly two leading slashes are treated as one. *)
Definition SLASH : N := 47%N.
Fixpoint split_on (sep : N) (t : text) : list text :=
  match t with
  | [] => [[]]
  | c :: r =>
      if (c =? sep)%N then [] :: split_on sep r
      else match split_on sep r with p :: q => (c :: p) :: q | [] => [[c]] end
  end.
Definition dot : text := u ".".
Definition dotdot : text := u "..".
Definition real_part (p : text) : bool := negb (text_eqb p []) && negb (text_eqb p dot).
Record path := Path { absolute : bool; parts : list text }.
(** Path(text) *)
Definition parse_path (t : text) : path :=
  Path (match t with c :: _ => (c =? SLASH)%N | [] => false end) (filter real_part (split_on SLASH t)).
(** path / text *)
Definition path_div (p : path) (t : text) : path :=
  let q := parse_path t in if absolute q then q else Path (absolute p) (parts p ++ parts q).
(** path.name *)
Definition path_name (p : path) : text := last (parts p) [].
(** os.path.normpath on the parts of an absolute path. *)
Fixpoint normal (acc : list text) (ps : list text) : list text :=
  match ps with
  | [] => acc
  | p :: r => if text_eqb p dotdot then normal (removelast acc) r else normal (acc ++ [p]) r
  end.
(** os.path.abspath, from the directory [cwd]. *)
Definition abspath (cwd : list text) (p : path) : list text :=
  if absolute p then normal [] (parts p) else normal [] (cwd ++ parts p).
(** os.path.commonpath of two absolute normal paths. *)
Fixpoint common (a b : list text) : list text :=
  match a, b with
  | x :: a', y :: b' => if text_eqb x y then x :: common a' b' else []
  | _, _ => []
  end.
Fixpoint parts_eqb (a b : list text) : bool :=
  match a, b with
  | [], [] => true
  | x :: a', y :: b' => text_eqb x y && parts_eqb a' b'
  | _, _ => false
  end.
(** _assert_under_root, cache.py:431-439: true: does not raise. *)
Definition under_root (cwd : list text) (root p : path) : bool :=
  parts_eqb (common (abspath cwd root) (abspath cwd p)) (abspath cwd root).

(** ** CacheBundle.__init__, cache.py:389-417. *)
(** _SAFE_PREFIX, cache.py:41 *)
Definition safe_char (c : N) : bool :=
  ((65 <=? c) && (c <=? 90) || (97 <=? c) && (c <=? 122) || (48 <=? c) && (c <=? 57)
   || (c =? 95) || (c =? 46) || (c =? 45))%N%bool.
(** _SAFE_PREFIX.fullmatch(prefix) *)
Definition safe_match (p : text) : bool := negb (text_eqb p []) && forallb safe_char p.
(** cache.py:390-392 *)
Definition prefix_ok (p : text) : bool :=
  negb (text_eqb p dot) && negb (text_eqb p dotdot) && safe_match p && text_eqb (path_name (parse_path p)) p.
(** cache.py:402-408 *)
Definition config_identity (prefix ordertype : text) (config : json) : json :=
  JObj [(u "config", config); (u "ordertype", JStr ordertype); (u "prefix", JStr prefix)].
(** cache.py:409-414 *)
Definition bundle_identity (builder : json) (config_digest fingerprint : text) : json :=
  JObj [(u "builder", builder); (u "config_digest", JStr config_digest); (u "source_fingerprint", JStr fingerprint)].
(** What a bundle is made for. *)
Record key := Key { k_prefix : text; k_ordertype : text; k_config : json; k_builder : json; k_fingerprint : text }.
Inductive init_error := EValue | EEncode | EPath.
Record bundle := Bundle { b_parent : path; b_path : path; b_lock : path; b_config_digest : text; b_digest : text }.
Section Sha.
Variable sha : bytes -> text.         (* hashlib.sha256(...).hexdigest() *)
Definition config_digest (k : key) : option text :=
  match canonical_json (config_identity (k_prefix k) (k_ordertype k) (k_config k)) with Some b => Some (sha b) | None => None end.
Definition bundle_digest (k : key) : option text :=
  match config_digest k with
  | None => None
  | Some c => match canonical_json (bundle_identity (k_builder k) c (k_fingerprint k)) with Some b => Some (sha b) | None => None end
  end.
(** [root]: Path(cache_root).expanduser().resolve() *)
Definition make_bundle (cwd : list text) (root : path) (k : key) : init_error + bundle :=
  if prefix_ok (k_prefix k) then
    match config_digest k, bundle_digest k with
    | Some c, Some d =>
        let parent := path_div (path_div root (k_prefix k)) c in
        let path := path_div parent d in
        let lock := path_div parent (u "." ++ d ++ u ".lock") in
        if under_root cwd root parent && under_root cwd root path && under_root cwd root lock
        then inr (Bundle parent path lock c d) else inl EPath
    | _, _ => inl EEncode
    end
  else inl EValue.
End Sha.
(** The names of residuals, cache.py:707, 766-768, 793: [mid] is ".tmp-", ".previous-" or
    ".corrupt-", [x] a uuid4 in hexadecimal or the random part of tempfile.mkdtemp. *)
Definition residual_path (b : bundle) (mid x : text) : path := path_div (b_parent b) (u "." ++ b_digest b ++ mid ++ x).

(** ** production_source_fingerprint, cache.py:99-124. *)
(** A regular file below the project root: the parts of its relative path, its bytes. *)
Definition source := (list text * bytes)%type.
(** PurePath.suffix *)
Fixpoint after_dot (t : text) : option text :=   (* from the last dot on *)
  match t with
  | [] => None
  | c :: r => match after_dot r with Some s => Some s | None => if (c =? 46)%N then Some t else None end
  end.
Definition suffix (name : text) : text :=
  match after_dot name with
  | Some s => if (List.length s <? List.length name) && (1 <? List.length s) then s else []
  | None => []
  end.
(** cache.py:40, 107-115: of the files found below tn/ and itn/. *)
Definition included (s : source) : bool :=
  match fst s with
  | package :: rest =>
      (text_eqb package (u "tn") || text_eqb package (u "itn"))
      && negb (text_eqb (last rest []) [])
      && (let x := suffix (last rest []) in text_eqb x (u ".py") || text_eqb x (u ".tsv") || text_eqb x (u ".far"))
      && negb (text_mem (u "test") rest || text_mem (u "__pycache__") rest)
      && negb (text_eqb (last rest []) (u "_version.py"))
  | [] => false
  end.
(** sorted(sources): Path.__lt__ compares the lists of parts. *)
Fixpoint parts_ltb (a b : list text) : bool :=
  match a, b with
  | _, [] => false
  | [], _ :: _ => true
  | x :: a', y :: b' => text_ltb x y || (text_eqb x y && parts_ltb a' b')
  end.
Fixpoint insert_source (s : source) (l : list source) : list source :=
  match l with
  | [] => [s]
  | s' :: r => if parts_ltb (fst s') (fst s) then s' :: insert_source s r else s :: l
  end.
Definition sort_sources (l : list source) : list source := fold_right insert_source [] l.
(** len(relative_path).to_bytes(8, "big") *)
Definition len8 (n : nat) : bytes :=
  map (fun k => ((N.of_nat n / 256 ^ k) mod 256)%N) [7; 6; 5; 4; 3; 2; 1; 0]%N.
(** cache.py:118-123: what one file feeds into the digest. [None]: the name cannot be
    encoded.  The content is read in pieces, which the digest does not see. *)
Definition frame (s : source) : option bytes :=
  match encode (join [SLASH] (fst s)) with
  | Some b => Some (len8 (List.length b) ++ b ++ snd s)
  | None => None
  end.
Fixpoint frames (l : list source) : option bytes :=
  match l with
  | [] => Some []
  | s :: r => match frame s, frames r with Some a, Some b => Some (a ++ b) | _, _ => None end
  end.
(** Everything fed into the digest; the fingerprint is its SHA-256. *)
Definition fingerprint_stream (tree : list source) : option bytes := frames (sort_sources (filter included tree)).

(** ** default_cache_dir, cache.py:73-88 (os.name other than "nt"). *)
Record environ := Environ {
  xdg_cache_home : option text;          (* os.environ.get("XDG_CACHE_HOME") *)
  home_var : option text;                (* os.environ.get("HOME") *)
  own_home : option text;                (* pwd.getpwuid(os.getuid()).pw_dir; None: KeyError *)
  user_home : text -> option text;       (* pwd.getpwnam(name).pw_dir *)
  darwin : bool }.                       (* sys.platform == "darwin" *)
Fixpoint drop_slashes (t : text) : text := match t with c :: r => if (c =? SLASH)%N then drop_slashes r else t | [] => [] end.
Definition rstrip_slash (t : text) : text := rev (drop_slashes (rev t)).
(** (userhome.rstrip("/")) or "/" *)
Definition home_text (h : text) : text := match rstrip_slash h with [] => [SLASH] | h' => h' end.
(** os.path.expanduser of one component that starts with "~"; None: left unchanged. *)
Definition expand_tilde (e : environ) (first : text) : option text :=
  let home := match tl first with
              | [] => match home_var e with Some h => Some h | None => own_home e end
              | name => user_home e name
              end in
  match home with
  | None => None
  | Some h => Some (home_text h)
  end.
(** Path.expanduser; None: RuntimeError. *)
Definition tilde (t : text) : bool := match t with c :: _ => (c =? 126)%N | [] => false end.
Definition expanduser (e : environ) (p : path) : option path :=
  match parts p with
  | first :: rest =>
      if negb (absolute p) && tilde first
      then match expand_tilde e first with
           | Some h => if tilde h then None
                       else let q := parse_path h in Some (Path (absolute q) (parts q ++ rest))
           | None => None
           end
      else Some p
  | _ => Some p
  end.
(** Path.home() *)
Definition path_home (e : environ) : option path := expanduser e (parse_path (u "~")).
Definition home_cache (e : environ) : option path :=
  match path_home e with
  | None => None
  | Some h => Some (if darwin e then path_div (path_div h (u "Library")) (u "Caches") else path_div h (u ".cache"))
  end.
Definition default_cache_dir (e : environ) : option path :=
  let base :=
    match xdg_cache_home e with
    | Some ((_ :: _) as x) =>
        match expanduser e (parse_path x) with
        | None => None
        | Some p => if absolute p then Some p else home_cache e
        end
    | _ => home_cache e
    end in
  match base with Some b => Some (path_div b (u "wetextprocessing")) | None => None end.

(** ** The cache configuration of each pipeline: the six constructors.
    The options are any values json.dumps accepts (no floats). *)
Inductive pipeline :=
| ZhTn (remove_interjections remove_erhua traditional_to_simple remove_puncts full_to_half tag_oov : json)
| JaTn (transliterate remove_interjections remove_puncts full_to_half tag_oov : json)
| EnTn
| ZhItn (remove_interjections enable_standalone_number enable_0_to_9 enable_million : json)
| JaItn (full_to_half enable_standalone_number enable_0_to_9 enable_million : json)
| EnItn.
(** The arguments of build_fst and self.ordertype: tn/chinese/normalizer.py:53-72,
    tn/japanese/normalizer.py:54-71, tn/english/normalizer.py:45-46,
    itn/chinese/inverse_normalizer.py:53-68, itn/japanese/inverse_normalizer.py:52-67,
    itn/english/inverse_normalizer.py:47-48; Processor.__init__ sets ordertype "tn" by
    default (tn/processor.py:121). *)
Definition cache_arguments (p : pipeline) : text * text * json :=
  match p with
  | ZhTn ri re ts rp fh oov => (u "zh_tn", u "tn",
      JObj [(u "full_to_half", fh); (u "remove_erhua", re); (u "remove_interjections", ri);
            (u "remove_puncts", rp); (u "tag_oov", oov); (u "traditional_to_simple", ts)])
  | JaTn tr ri rp fh oov => (u "ja_tn", u "tn",
      JObj [(u "full_to_half", fh); (u "remove_interjections", ri); (u "remove_puncts", rp);
            (u "tag_oov", oov); (u "transliterate", tr)])
  | EnTn => (u "en_tn", u "en_tn", JObj [])
  | ZhItn ri sn z9 mi => (u "zh_itn", u "itn",
      JObj [(u "enable_0_to_9", z9); (u "enable_million", mi); (u "enable_standalone_number", sn);
            (u "remove_interjections", ri)])
  | JaItn fh sn z9 mi => (u "ja_itn", u "itn",
      JObj [(u "enable_0_to_9", z9); (u "enable_million", mi); (u "enable_standalone_number", sn);
            (u "full_to_half", fh)])
  | EnItn => (u "en_itn", u "itn", JObj [])
  end.
(** build_fst, tn/processor.py:249-255. *)
Definition pipeline_key (p : pipeline) (builder : json) (fingerprint : text) : key :=
  let '(prefix, ordertype, config) := cache_arguments p in Key prefix ordertype config builder fingerprint.
(** What build_tagger_and_verbalizer reads from self (tn/chinese/normalizer.py:74-112,
    tn/japanese/normalizer.py:73-114, itn/chinese/inverse_normalizer.py:70-104,
    itn/japanese/inverse_normalizer.py:69-111; the English ones read no option). *)
Inductive option_name := RemoveInterjections | RemoveErhua | TraditionalToSimple | RemovePuncts | FullToHalf | TagOov
| Transliterate | ConvertNumber | Enable0To9 | EnableMillion.
Definition grammar_reads (p : pipeline) : list (option_name * json) :=
  match p with
  | ZhTn ri re ts rp fh oov => [(RemoveErhua, re); (RemoveInterjections, ri); (RemovePuncts, rp); (FullToHalf, fh); (TagOov, oov); (TraditionalToSimple, ts)]
  | JaTn tr ri rp fh oov => [(FullToHalf, fh); (Transliterate, tr); (RemoveInterjections, ri); (RemovePuncts, rp); (TagOov, oov)]
  | EnTn => []
  | ZhItn ri sn z9 mi => [(ConvertNumber, sn); (Enable0To9, z9); (EnableMillion, mi); (RemoveInterjections, ri)]
  | JaItn fh sn z9 mi => [(FullToHalf, fh); (ConvertNumber, sn); (Enable0To9, z9); (EnableMillion, mi)]
  | EnItn => []
  end.
