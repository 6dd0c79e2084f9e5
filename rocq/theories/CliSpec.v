(** What the command line is held to, without the model's helpers. *)
From Coq Require Import List NArith Bool Arith String.
From Verif Require Import Text CliModel.
Import ListNotations.
Local Open Scope list_scope.

(** Equal but for the case of ASCII letters; [s] in lower case. *)
Definition ignoring_case (t s : text) : Prop :=
  Forall2 (fun c d => c = d \/ (65 <= c <= 90 /\ d = c + 32)%N) t s.

(** Lines of a text: "\n", "\r\n" and "\r" end a line; what follows the last of them is a
    line too unless it is empty. *)
Definition unbroken (t : text) : Prop := ~ In 10%N t /\ ~ In 13%N t.
Inductive line_end : text -> text -> Prop :=
| le_lf rest : line_end [10%N] rest
| le_crlf rest : line_end [13%N; 10%N] rest
| le_cr rest : hd_error rest <> Some 10%N -> line_end [13%N] rest.
Inductive lines_of : text -> list text -> Prop :=
| lo_nil : lines_of [] []
| lo_last l : l <> [] -> unbroken l -> lines_of l [l]
| lo_line l e rest ls : unbroken l -> line_end e rest -> lines_of rest ls ->
    lines_of (l ++ e ++ rest) (l :: ls).

(** [l] is [line] without one line ending. *)
Definition stripped (line l : text) : Prop :=
  (line = l /\ forall r, line <> r ++ [10%N] /\ line <> r ++ [13%N]) \/
  (line = l ++ [10%N] /\ forall r, l <> r ++ [13%N]) \/
  line = l ++ [13%N; 10%N] \/ line = l ++ [13%N].

(** [served w h lines h']: after the calls [h], each line in turn was tagged once, its
    tagging printed, the tagging verbalised once and the result printed; no other call. *)
Inductive served (w : world) : list call -> list text -> list call -> Prop :=
| sv_nil h : served w h [] h
| sv_cons h line tagged out x y rest h' :
    w h (Tag line) = inr tagged ->
    w (h ++ [Tag line]) (Print tagged) = inr x ->
    w (h ++ [Tag line; Print tagged]) (Verbalize tagged) = inr out ->
    w (h ++ [Tag line; Print tagged; Verbalize tagged]) (Print out) = inr y ->
    served w (h ++ [Tag line; Print tagged; Verbalize tagged; Print out]) rest h' ->
    served w h (line :: rest) h'.
(** [broken w h line h' e]: one of the four calls for the line failed, the last one made. *)
Definition broken (w : world) (h : list call) (line : text) (h' : list call) (e : exn) : Prop :=
  (h' = h ++ [Tag line] /\ w h (Tag line) = inl e) \/
  (exists tagged, w h (Tag line) = inr tagged /\
     ((h' = h ++ [Tag line; Print tagged] /\ w (h ++ [Tag line]) (Print tagged) = inl e) \/
      (h' = h ++ [Tag line; Print tagged; Verbalize tagged] /\
         w (h ++ [Tag line; Print tagged]) (Verbalize tagged) = inl e) \/
      (exists out, w (h ++ [Tag line; Print tagged]) (Verbalize tagged) = inr out /\
         h' = h ++ [Tag line; Print tagged; Verbalize tagged; Print out] /\
         w (h ++ [Tag line; Print tagged; Verbalize tagged]) (Print out) = inl e))).

(** Standard output: what was printed, each with a line feed. *)
Definition stdout (h : list call) : text :=
  flat_map (fun c => match c with Print t => t ++ [10%N] | _ => [] end) h.
Definition newlines (t : text) : nat := count_occ N.eq_dec t 10%N.
Definition printed (h : list call) : list text :=
  flat_map (fun c => match c with Print t => [t] | _ => [] end) h.

(** A place without symbolic links and "..": every part of the way is itself. *)
Definition real_place (links : list text -> option StoreModel.path) (p : list text) : Prop :=
  ~ In (u "..") p /\ forall a b, p = a ++ b -> a <> [] -> links a = None.

(** The boolean [n] set to [b], everything else as it was. *)
Definition with_bool (n : text) (b : bool) (a a' : args) : Prop :=
  a_text a' = a_text a /\ a_file a' = a_file a /\ a_cache_dir a' = a_cache_dir a /\
  a_overwrite a' = a_overwrite a /\ a_language a' = a_language a /\
  dict_get n (a_bools a') = Some b /\ forall m, m <> n -> dict_get m (a_bools a') = dict_get m (a_bools a).
(** The grammar option each command-line boolean is about. *)
Definition option_for (n : text) : option StoreModel.option_name :=
  dict_get n
    [ (u "remove_interjections", StoreModel.RemoveInterjections); (u "remove_erhua", StoreModel.RemoveErhua);
      (u "traditional_to_simple", StoreModel.TraditionalToSimple); (u "remove_puncts", StoreModel.RemovePuncts);
      (u "full_to_half", StoreModel.FullToHalf); (u "tag_oov", StoreModel.TagOov);
      (u "transliterate", StoreModel.Transliterate); (u "enable_standalone_number", StoreModel.ConvertNumber);
      (u "enable_0_to_9", StoreModel.Enable0To9); (u "enable_million", StoreModel.EnableMillion) ].

(** What "--text v", "--file v", "--cache_dir v" and "--overwrite_cache" do to the settings. *)
Definition same_rest (a a' : args) : Prop := a_language a' = a_language a /\ a_bools a' = a_bools a.
Definition with_text (v : text) (a a' : args) : Prop :=
  a_text a' = Some v /\ a_file a' = None /\ a_cache_dir a' = a_cache_dir a /\ a_overwrite a' = a_overwrite a /\ same_rest a a'.
Definition with_file (v : text) (a a' : args) : Prop :=
  a_text a' = None /\ a_file a' = Some v /\ a_cache_dir a' = a_cache_dir a /\ a_overwrite a' = a_overwrite a /\ same_rest a a'.
Definition with_cache_dir (v : text) (a a' : args) : Prop :=
  a_text a' = a_text a /\ a_file a' = a_file a /\ a_cache_dir a' = Some v /\ a_overwrite a' = a_overwrite a /\ same_rest a a'.
Definition with_overwrite (a a' : args) : Prop :=
  a_text a' = a_text a /\ a_file a' = a_file a /\ a_cache_dir a' = a_cache_dir a /\ a_overwrite a' = true /\ same_rest a a'.
(** An option with its value, as one word or as two. *)
Definition given (name v : text) (words : list text) : Prop :=
  words = [name ++ u "=" ++ v] \/ (words = [name; v] /\ hd_error v <> Some 45%N).
Definition starts (p t : text) : Prop := exists r, t = p ++ r.
