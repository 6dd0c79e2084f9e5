(** Transcription of /repo/tn/cli.py and of the helpers of tn/utils.py and itn/utils.py.
    Model only. *)
From Coq Require Import List NArith Bool Arith String.
From Verif Require Import Text CacheModel StoreModel PipelineModel.
Import ListNotations.
Local Open Scope list_scope.

(** ** Booleans *)
(** [str.lower], for a result that is only compared with ASCII letters: of the
    characters above 127 only U+0130 and U+212A have an ASCII character in their
    lower-case form; the others are left as they are here. *)
Definition lower_char (c : N) : text :=
  if ((65 <=? c) && (c <=? 90))%N then [c + 32]%N
  else if (c =? 304)%N then [105; 775]%N
  else if (c =? 8490)%N then [107]%N
  else [c].
Definition lower (t : text) : text := flat_map lower_char t.
(** A value given to [type=_parse_bool]. *)
Inductive arg := ABool (b : bool) | AText (t : text).
(** _parse_bool, tn/cli.py:22-30; [None]: ArgumentTypeError. *)
Definition parse_bool (value : arg) : option bool :=
  match value with
  | ABool b => Some b
  | AText t =>
      let lowered := lower t in
      if text_eqb lowered (u "true") then Some true
      else if text_eqb lowered (u "false") then Some false
      else None
  end.
(** str2bool, tn/utils.py:87-94. *)
Definition str2bool (s : text) (default : bool) : bool :=
  let s := lower s in
  if text_eqb s (u "true") then true else if text_eqb s (u "false") then false else default.

(** ** Lines *)
Definition LF : N := 10%N.
Definition CR : N := 13%N.
Fixpoint ends_with (c : N) (t : text) : bool :=
  match t with [] => false | [x] => (x =? c)%N | _ :: r => ends_with c r end.
(** _without_line_ending, tn/cli.py:182-189. *)
Definition without_line_ending (line : text) : text :=
  if ends_with LF line then
    let line := removelast line in
    if ends_with CR line then removelast line else line
  else if ends_with CR line then removelast line
  else line.
(** Reading a text file: universal newlines, then one item per line with its line feed
    (the decoded text; io.TextIOWrapper with newline=None). *)
Fixpoint translate (t : text) : text :=
  match t with
  | [] => []
  | c :: r =>
      if (c =? CR)%N then
        LF :: match r with d :: r' => if (d =? LF)%N then translate r' else translate r | [] => [] end
      else c :: translate r
  end.
Fixpoint keep_lines (t : text) : list text :=
  match t with
  | [] => []
  | c :: r =>
      if (c =? LF)%N then [c] :: keep_lines r
      else match keep_lines r with
           | l :: ls => (c :: l) :: ls
           | [] => [[c]]
           end
  end.
Definition iterate_file (content : text) : list text := keep_lines (translate content).

(** ** Processing.  What the program asks of its surroundings, and the answers: a text
    or an exception.  The surroundings may answer by the whole history of calls. *)
Inductive call := Tag (t : text) | Verbalize (t : text) | Print (t : text).
Inductive exn := OSError | OtherError.
Definition world := list call -> call -> exn + text.
(** _process_line, tn/cli.py:192-195. *)
Definition process_line (w : world) (h : list call) (line : text) : list call * option exn :=
  match w h (Tag line) with
  | inl e => (h ++ [Tag line], Some e)
  | inr tagged =>
      let h := h ++ [Tag line] in
      match w h (Print tagged) with
      | inl e => (h ++ [Print tagged], Some e)
      | inr _ =>
          let h := h ++ [Print tagged] in
          match w h (Verbalize tagged) with
          | inl e => (h ++ [Verbalize tagged], Some e)
          | inr out =>
              let h := h ++ [Verbalize tagged] in
              match w h (Print out) with
              | inl e => (h ++ [Print out], Some e)
              | inr _ => (h ++ [Print out], None)
              end
          end
      end
  end.
(** The loops of run, tn/cli.py:213-214, 219-220: [fail] is an exception of the iterator
    after its last line. *)
Fixpoint process_lines (w : world) (h : list call) (lines : list text) (fail : option exn)
  : list call * option exn :=
  match lines with
  | [] => (h, fail)
  | line :: rest =>
      match process_line w h (without_line_ending line) with
      | (h, Some e) => (h, Some e)
      | (h, None) => process_lines w h rest fail
      end
  end.
(** Where the text comes from: --text, --file (its open may fail; its lines, and an
    exception after them), or the lines of the standard input. *)
Inductive source_text :=
| FromText (t : text)
| FromFile (f : exn + list text * option exn)
| FromStdin (lines : list text) (fail : option exn).
Inductive outcome := Finished | Raised (e : exn) | UsageError.
Definition as_outcome (r : option exn) : outcome := match r with None => Finished | Some e => Raised e end.
(** run, tn/cli.py:205-221, after the processor is made. *)
Definition run (w : world) (s : source_text) : list call * outcome :=
  match s with
  | FromText t => let '(h, r) := process_line w [] t in (h, as_outcome r)
  | FromFile f =>
      let '(h, r) := match f with inl e => ([], Some e) | inr (lines, fail) => process_lines w [] lines fail end in
      (h, match r with Some OSError => UsageError | _ => as_outcome r end)
  | FromStdin lines fail => let '(h, r) := process_lines w [] lines fail in (h, as_outcome r)
  end.

(** ** Options *)
(** _add_tn_arguments and _add_itn_arguments, tn/cli.py:75-99: names and defaults. *)
Definition tn_booleans (l : language) : list (text * bool) :=
  match l with
  | Zh => [(u "remove_interjections", true); (u "remove_erhua", true); (u "traditional_to_simple", true);
           (u "remove_puncts", false); (u "full_to_half", true); (u "tag_oov", false)]
  | Ja => [(u "transliterate", false); (u "remove_interjections", false); (u "remove_puncts", false);
           (u "full_to_half", true); (u "tag_oov", false)]
  | En => []
  end.
Definition itn_booleans (l : language) : list (text * bool) :=
  (match l with
   | Zh | Ja => [(u "enable_standalone_number", true); (u "enable_0_to_9", false); (u "enable_million", false)]
   | En => []
   end) ++
  match l with
  | Zh => [(u "remove_interjections", true)]
  | Ja => [(u "full_to_half", false)]
  | En => []
  end.
Definition booleans (d : operator) (l : language) : list (text * bool) :=
  match d with Tn => tn_booleans l | Itn => itn_booleans l end.

(** argparse, as far as whole option names go: abbreviated names, the word "--" and
    negative numbers as values are not modelled (the model refuses them), nor are the help
    output and the wording of errors. *)
Inductive opt := OText | OFile | OCacheDir | OOverwrite | OLanguage | OBool (name : text) | ONoBool (name : text).
(** name.replace("_", "-"), tn/cli.py:40. *)
Definition hyphenated (name : text) : text := map (fun c => if (c =? 95)%N then 45%N else c) name.
(** _add_common_arguments, tn/cli.py:61-72. *)
Definition common_options : list (text * opt) :=
  [ (u "--text", OText); (u "--file", OFile); (u "--cache_dir", OCacheDir); (u "--cache-dir", OCacheDir);
    (u "--overwrite_cache", OOverwrite); (u "--overwrite-cache", OOverwrite); (u "--language", OLanguage) ].
(** _add_boolean, tn/cli.py:33-58. *)
Definition boolean_options (name : text) : list (text * opt) :=
  [ (u "--" ++ name, OBool name); (u "--" ++ hyphenated name, OBool name);
    (u "--no-" ++ name, ONoBool name); (u "--no-" ++ hyphenated name, ONoBool name) ].
(** create_parser, tn/cli.py:102-116. *)
Definition option_table (d : operator) (l : language) : list (text * opt) :=
  common_options ++ flat_map (fun e => boolean_options (fst e)) (booleans d l).
Definition language_of (t : text) : option language :=
  if text_eqb t (u "zh") then Some Zh else if text_eqb t (u "en") then Some En
  else if text_eqb t (u "ja") then Some Ja else None.

(** A command-line word: an option, an option with "=value", or something else. *)
Fixpoint split_eq (t : text) : text * option text :=
  match t with
  | [] => ([], None)
  | c :: r => if (c =? 61)%N then ([], Some r) else let '(a, b) := split_eq r in (c :: a, b)
  end.
Definition dashed (t : text) : bool := match t with c :: _ :: _ => (c =? 45)%N | _ => false end.
Definition spaced (t : text) : bool := existsb (N.eqb 32) t.
Inductive word := WOpt (o : opt) (value : option text) | WUnknown | WValue (t : text).
Definition read_word (table : list (text * opt)) (t : text) : word :=
  if dashed t then
    match dict_get t table with
    | Some o => WOpt o None
    | None => match split_eq t with
              | (name, Some v) => match dict_get name table with Some o => WOpt o (Some v) | None => if spaced t then WValue t else WUnknown end
              | (_, None) => if spaced t then WValue t else WUnknown
              end
    end
  else WValue t.
Record args := Args {
  a_text : option text; a_file : option text; a_cache_dir : option text; a_overwrite : bool;
  a_language : language; a_bools : list (text * bool) }.
Definition set_bool (n : text) (b : bool) (a : args) : args :=
  Args (a_text a) (a_file a) (a_cache_dir a) (a_overwrite a) (a_language a) ((n, b) :: a_bools a).
(** One option; [None]: a usage error. *)
Definition apply_opt (o : opt) (value : option text) (a : args) : option args :=
  match o, value with
  | OText, Some v => Some (Args (Some v) (a_file a) (a_cache_dir a) (a_overwrite a) (a_language a) (a_bools a))
  | OFile, Some v => Some (Args (a_text a) (Some v) (a_cache_dir a) (a_overwrite a) (a_language a) (a_bools a))
  | OCacheDir, Some v => Some (Args (a_text a) (a_file a) (Some v) (a_overwrite a) (a_language a) (a_bools a))
  | OLanguage, Some v => match language_of v with
                         | Some l => Some (Args (a_text a) (a_file a) (a_cache_dir a) (a_overwrite a) l (a_bools a))
                         | None => None
                         end
  | OOverwrite, None => Some (Args (a_text a) (a_file a) (a_cache_dir a) true (a_language a) (a_bools a))
  | OBool n, None => Some (set_bool n true a)
  | OBool n, Some v => match parse_bool (AText v) with Some b => Some (set_bool n b a) | None => None end
  | ONoBool n, None => Some (set_bool n false a)
  | _, _ => None
  end.
(** Whether the option takes the following word, if that is a value. *)
Definition takes_value (o : opt) : bool := match o with OOverwrite | ONoBool _ => false | _ => true end.
(** parse_args; [None]: a usage error. *)
Fixpoint parse_words (table : list (text * opt)) (argv : list text) (pending : option opt) (a : args)
  : option args :=
  match argv with
  | [] => match pending with None => Some a | Some o => apply_opt o None a end
  | t :: rest =>
      match read_word table t, pending with
      | WValue v, Some o => match apply_opt o (Some v) a with Some a' => parse_words table rest None a' | None => None end
      | WValue _, None => None
      | WUnknown, _ => None
      | WOpt o value, _ =>
          match match pending with None => Some a | Some p => apply_opt p None a end with
          | None => None
          | Some a' =>
              match value with
              | Some v => match apply_opt o (Some v) a' with Some a'' => parse_words table rest None a'' | None => None end
              | None =>
                  if takes_value o then parse_words table rest (Some o) a'
                  else match apply_opt o None a' with Some a'' => parse_words table rest None a'' | None => None end
              end
          end
      end
  end.
(** _selected_language, tn/cli.py:119-123: parse_known_args with --language only. *)
Fixpoint select_words (argv : list text) (pending : bool) (l : language) : option language :=
  match argv with
  | [] => if pending then None else Some l
  | t :: rest =>
      match read_word [(u "--language", OLanguage)] t with
      | WValue v => if pending then match language_of v with Some l' => select_words rest false l' | None => None end
                    else select_words rest false l
      | WUnknown => if pending then None else select_words rest false l
      | WOpt _ value =>
          if pending then None
          else match value with
               | Some v => match language_of v with Some l' => select_words rest false l' | None => None end
               | None => select_words rest true l
               end
      end
  end.
(** parse_args, tn/cli.py:126-129. *)
Definition parse_args (d : operator) (argv : list text) : option args :=
  match select_words argv false Zh with
  | None => None
  | Some l =>
      match parse_words (option_table d l) argv None (Args None None None false Zh (booleans d l)) with
      | Some a => match a_text a, a_file a with Some _, Some _ => None | _, _ => Some a end
      | None => None
      end
  end.

(** create_processor, tn/cli.py:132-179; [None]: an attribute the parser did not set. *)
Definition attr (a : args) (n : text) : option json :=
  match dict_get n (a_bools a) with Some b => Some (JBool b) | None => None end.
Notation "x <? r ;; k" := (match r with Some x => k | None => None end)
  (at level 61, r at next level, right associativity).
Definition create_processor (d : operator) (a : args) : option pipeline :=
  match d, a_language a with
  | Tn, Zh =>
      ri <? attr a (u "remove_interjections") ;; re <? attr a (u "remove_erhua") ;;
      ts <? attr a (u "traditional_to_simple") ;; rp <? attr a (u "remove_puncts") ;;
      fh <? attr a (u "full_to_half") ;; oov <? attr a (u "tag_oov") ;;
      Some (ZhTn ri re ts rp fh oov)
  | Tn, Ja =>
      tr <? attr a (u "transliterate") ;; ri <? attr a (u "remove_interjections") ;;
      rp <? attr a (u "remove_puncts") ;; fh <? attr a (u "full_to_half") ;; oov <? attr a (u "tag_oov") ;;
      Some (JaTn tr ri rp fh oov)
  | Tn, En => Some EnTn
  | Itn, Zh =>
      ri <? attr a (u "remove_interjections") ;; sn <? attr a (u "enable_standalone_number") ;;
      z9 <? attr a (u "enable_0_to_9") ;; mi <? attr a (u "enable_million") ;;
      Some (ZhItn ri sn z9 mi)
  | Itn, Ja =>
      fh <? attr a (u "full_to_half") ;; sn <? attr a (u "enable_standalone_number") ;;
      z9 <? attr a (u "enable_0_to_9") ;; mi <? attr a (u "enable_million") ;;
      Some (JaItn fh sn z9 mi)
  | Itn, En => Some EnItn
  end.
(** run, tn/cli.py:198-221, from the words on the command line.  [files] answers open and the
    lines read, [stdin] is the standard input, [make] the constructors of the processors with
    what --cache_dir and --overwrite_cache pass to them. *)
Definition source_of (files : text -> exn + list text * option exn) (stdin : list text * option exn) (a : args)
  : source_text :=
  match a_text a with
  | Some t => FromText t
  | None => match a_file a with
            | Some f => FromFile (files f)
            | None => FromStdin (fst stdin) (snd stdin)
            end
  end.
Definition main (d : operator) (argv : list text) (make : pipeline -> option text -> bool -> exn + world)
  (files : text -> exn + list text * option exn) (stdin : list text * option exn) : list call * outcome :=
  match parse_args d argv with
  | None => ([], UsageError)
  | Some a =>
      match create_processor d a with
      | None => ([], Raised OtherError)
      | Some p => match make p (a_cache_dir a) (a_overwrite a) with
                  | inl e => ([], Raised e)
                  | inr w => run w (source_of files stdin a)
                  end
      end
  end.
(** The constructors' own defaults: tn/chinese/normalizer.py:42-52,
    tn/japanese/normalizer.py:44-53, itn/chinese/inverse_normalizer.py:44-52,
    itn/japanese/inverse_normalizer.py:43-51. *)
Definition default_pipeline (d : operator) (l : language) : pipeline :=
  match d, l with
  | Tn, Zh => ZhTn (JBool true) (JBool true) (JBool true) (JBool false) (JBool true) (JBool false)
  | Tn, Ja => JaTn (JBool false) (JBool false) (JBool false) (JBool true) (JBool false)
  | Tn, En => EnTn
  | Itn, Zh => ZhItn (JBool true) (JBool true) (JBool false) (JBool false)
  | Itn, Ja => JaItn (JBool false) (JBool true) (JBool false) (JBool false)
  | Itn, En => EnItn
  end.

(** ** itn/utils.py *)
(** Path.resolve on an absolute path: [links] gives the target of a symbolic link by its
    place; [None]: more than [fuel] steps (a loop of links, a RuntimeError). *)
Fixpoint resolve (links : list text -> option path) (fuel : nat) (acc ps : list text) : option (list text) :=
  match fuel with
  | O => None
  | S f =>
      match ps with
      | [] => Some acc
      | p :: r =>
          if text_eqb p dotdot then resolve links f (removelast acc) r
          else match links (acc ++ [p]) with
               | Some target =>
                   resolve links f (if absolute target then [] else acc) (parts target ++ r)
               | None => resolve links f (acc ++ [p]) r
               end
      end
  end.
Fixpoint relative_to (root p : list text) : option (list text) :=
  match root, p with
  | [], _ => Some p
  | x :: root', y :: p' => if text_eqb x y then relative_to root' p' else None
  | _ :: _, [] => None
  end.
(** get_abs_path, itn/utils.py:23-31; [root] is _PACKAGE_ROOT. *)
Inductive path_result := PathOk (p : list text) | Escapes | LinkLoop.
Definition get_abs_path (links : list text -> option path) (fuel : nat) (root : list text) (rel : text) : path_result :=
  match resolve links fuel [] (parts (path_div (Path true root) rel)) with
  | None => LinkLoop
  | Some p => match relative_to root p with Some _ => PathOk p | None => Escapes end
  end.
