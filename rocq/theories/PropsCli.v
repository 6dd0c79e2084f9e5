(** C47, C48, C49 and C55: the command line and the package data paths. *)
From Coq Require Import List NArith Bool Arith Lia String.
From Verif Require Import Text TextFacts CacheModel StoreModel PipelineModel CliModel CliSpec CliProofs.
Import ListNotations.
Local Open Scope list_scope.

(** The lines a source of text holds, and the exception that ends it, if any. *)
Definition lines_in (s : source_text) : list text :=
  match s with
  | FromText t => [t]
  | FromFile (inl _) => []
  | FromFile (inr (lines, _)) | FromStdin lines _ => map without_line_ending lines
  end.
Definition ends_in (s : source_text) : option exn :=
  match s with
  | FromText _ => None
  | FromFile (inl e) => Some e
  | FromFile (inr (_, fail)) | FromStdin _ fail => fail
  end.
(** How an exception is reported: for a file an OSError becomes a usage error. *)
Definition reported (s : source_text) (r : option exn) : outcome :=
  match s, r with
  | FromFile _, Some OSError => UsageError
  | _, None => Finished
  | _, Some e => Raised e
  end.
(** C47: whatever the processor and the output do, each line in order is tagged once, its
    tagging printed, verbalised once and the result printed; a failing call is the last
    one and what was printed before stays. *)
Theorem C47_calls : forall w s h o, run w s = (h, o) ->
  (served w [] (lines_in s) h /\ o = reported s (ends_in s)) \/
  (exists a line b h1 e, lines_in s = a ++ line :: b /\ served w [] a h1 /\ broken w h1 line h e /\ o = reported s (Some e)).
Proof.
  intros w s h o. destruct s as [t|[e|[lines fail]]|lines fail]; cbn [run lines_in ends_in].
  - destruct (process_line w [] t) as [h1 r] eqn:P. intros [= -> <-]. apply one_line in P as [[-> P]|(e & -> & P)].
    + left. split; [exact P|reflexivity].
    + right. exists [], t, [], [], e. split; [reflexivity|]. split; [constructor|]. split; [exact P|reflexivity].
  - intros [= <- <-]. left. split; [constructor|reflexivity].
  - destruct (process_lines w [] lines fail) as [h1 r] eqn:P. intros [= -> <-].
    apply lines_processed in P as [[-> P]|(a & line & b & h2 & e & E & P & B & ->)].
    + left. split; [exact P|]. destruct fail as [[]|]; reflexivity.
    + right. exists a, line, b, h2, e. split; [exact E|]. split; [exact P|]. split; [exact B|]. destruct e; reflexivity.
  - destruct (process_lines w [] lines fail) as [h1 r] eqn:P. intros [= -> <-].
    apply lines_processed in P as [[-> P]|(a & line & b & h2 & e & E & P & B & ->)].
    + left. split; [exact P|]. destruct fail; reflexivity.
    + right. exists a, line, b, h2, e. split; [exact E|]. split; [exact P|]. split; [exact B|reflexivity].
Qed.
Print Assumptions C47_calls.
(** C47: so the output has two lines per input line, plus the line feeds inside the
    printed texts (none, unless the processor lets one through). *)
Theorem C47_two_lines : forall w lines h, served w [] lines h ->
  List.length (printed h) = 2 * List.length lines /\
  newlines (CliSpec.stdout h) = 2 * List.length lines + list_sum (map newlines (printed h)).
Proof. intros w lines h H. split; [exact (served_printed w [] lines h H)|exact (served_newlines w lines h H)]. Qed.
Print Assumptions C47_two_lines.
(** C47: the lines of a file are its text cut at "\n", "\r\n" and "\r". *)
Theorem C47_file_lines : forall content ls, lines_of content ls <-> map without_line_ending (iterate_file content) = ls.
Proof. exact file_lines. Qed.
Print Assumptions C47_file_lines.
(** C47: of a line just one line ending is removed. *)
Theorem C47_one_ending : forall line, stripped line (without_line_ending line).
Proof. exact stripped_spec. Qed.
Print Assumptions C47_one_ending.
(** C47: a usage error about a file need not be about the file: output to a closed pipe
    is reported the same way, after the first line was tagged. *)
Theorem C47_usage_error_refuted : exists w lines h, run w (FromFile (inr (lines, None))) = (h, UsageError) /\ h <> [].
Proof.
  exists (fun _ c => match c with Print _ => inl OSError | _ => inr [] end), [u "a"], [Tag (u "a"); Print []].
  split; [reflexivity|discriminate].
Qed.
Print Assumptions C47_usage_error_refuted.
(** C47: where the text comes from.  Whatever else is on the command line, "--text v" makes
    [v] the one line, "--file v" reads that file, and without both the standard input is
    read; the processor is the one [create_processor] chose, with the cache options. *)
Theorem C47_input : forall d argv a p make w files stdin, parse_args d argv = Some a ->
  create_processor d a = Some p -> make p (a_cache_dir a) (a_overwrite a) = inr w ->
  (forall v words, given (u "--text") v words -> a_file a = None ->
     main d (argv ++ words) make files stdin = run w (FromText v)) /\
  (forall v words, given (u "--file") v words -> a_text a = None ->
     main d (argv ++ words) make files stdin = run w (FromFile (files v))) /\
  (Forall (fun t => ~ starts (u "--text") t /\ ~ starts (u "--file") t) argv ->
     main d argv make files stdin = run w (FromStdin (fst stdin) (snd stdin))).
Proof.
  intros d argv a p make w files stdin H P M.
  assert (K : forall a', a_language a' = a_language a -> a_bools a' = a_bools a -> create_processor d a' = Some p).
  { intros a' L B. unfold create_processor, attr. rewrite L, B. exact P. }
  split; [|split].
  - intros v words G F. destruct (proj1 (text_words d argv a v words H G) F) as (a' & E & (T & _ & C & O & L & B)).
    unfold main, source_of. now rewrite E, (K a' L B), C, O, M, T.
  - intros v words G F. destruct (proj1 (file_words d argv a v words H G) F) as (a' & E & (T & T2 & C & O & L & B)).
    unfold main, source_of. now rewrite E, (K a' L B), C, O, M, T, T2.
  - intros F. destruct (no_input_words d argv a H F) as [T1 T2]. unfold main, source_of. now rewrite H, P, M, T1, T2.
Qed.
Print Assumptions C47_input.
(** A processor that marks what it tags, on three kinds of line ending. *)
Definition w_mark : world := fun _ c => match c with Tag t => inr (u "<" ++ t ++ u ">") | Verbalize t => inr (u "=" ++ t) | Print _ => inr [] end.
Definition content_w : text := u "a" ++ [13; 10]%N ++ [13]%N ++ u "b" ++ [10]%N ++ u "c".
Example C47_witness :
  lines_of content_w [u "a"; []; u "b"; u "c"] /\
  CliSpec.stdout (fst (run w_mark (FromFile (inr (iterate_file content_w, None)))))
    = u "<a>" ++ [10]%N ++ u "=<a>" ++ [10]%N ++ u "<>" ++ [10]%N ++ u "=<>" ++ [10]%N
      ++ u "<b>" ++ [10]%N ++ u "=<b>" ++ [10]%N ++ u "<c>" ++ [10]%N ++ u "=<c>" ++ [10]%N /\
  snd (run w_mark (FromText (u "x"))) = Finished /\
  served w_mark [] [u "x"] (fst (run w_mark (FromText (u "x")))) /\
  without_line_ending (u "a" ++ [13; 13; 10]%N) = u "a" ++ [13]%N.
Proof.
  split; [apply C47_file_lines; vm_compute; reflexivity|]. split; [vm_compute; reflexivity|]. split; [reflexivity|].
  split; [|vm_compute; reflexivity].
  destruct (C47_calls w_mark (FromText (u "x")) _ _ eq_refl) as [(H & _)|(a & l & b & h1 & e & _ & _ & B & _)]; [exact H|].
  exfalso. destruct B as [(_ & B)|(t & B1 & [(_ & B)|[(_ & B)|(o & B2 & _ & B)]])]; discriminate.
Qed.

(** C48: exactly the spellings of true and false, in any case, are accepted. *)
Theorem C48_parse_bool : forall t,
  (parse_bool (AText t) = Some true <-> ignoring_case t (u "true")) /\
  (parse_bool (AText t) = Some false <-> ignoring_case t (u "false")) /\
  (parse_bool (AText t) = None <-> ~ ignoring_case t (u "true") /\ ~ ignoring_case t (u "false")).
Proof. exact parse_bool_spec. Qed.
Print Assumptions C48_parse_bool.
Theorem C48_str2bool : forall t default,
  (ignoring_case t (u "true") -> str2bool t default = true) /\
  (ignoring_case t (u "false") -> str2bool t default = false) /\
  (~ ignoring_case t (u "true") -> ~ ignoring_case t (u "false") -> str2bool t default = default).
Proof. exact str2bool_spec. Qed.
Print Assumptions C48_str2bool.
(** C48: added to an accepted command line, "--name", "--name=V", "--name V" and
    "--no-name", with underscores or hyphens, set this option and nothing else; a value
    that is no boolean is refused. *)
Theorem C48_option_words : forall d argv a n def s, parse_args d argv = Some a ->
  In (n, def) (booleans d (a_language a)) -> s = n \/ s = hyphenated n ->
  chosen d (argv ++ [u "--" ++ s]) a n true /\ chosen d (argv ++ [u "--no-" ++ s]) a n false /\
  forall v words, words = [u "--" ++ s ++ u "=" ++ v] \/ (words = [u "--" ++ s; v] /\ hd_error v <> Some 45%N) ->
    (ignoring_case v (u "true") -> chosen d (argv ++ words) a n true) /\
    (ignoring_case v (u "false") -> chosen d (argv ++ words) a n false) /\
    (~ ignoring_case v (u "true") -> ~ ignoring_case v (u "false") -> parse_args d (argv ++ words) = None).
Proof. exact option_words. Qed.
Print Assumptions C48_option_words.
Example C48_witness : parse_bool (AText (u "TrUe")) = Some true /\ parse_bool (AText (u "no")) = None /\
  (exists a, parse_args Tn [u "--text"; u "hi"; u "--no-remove-erhua"] = Some a /\ a_text a = Some (u "hi") /\
     dict_get (u "remove_erhua") (a_bools a) = Some false /\ dict_get (u "full_to_half") (a_bools a) = Some true) /\
  parse_args Tn [u "--text"; u "hi"; u "--remove_erhua=maybe"] = None /\
  parse_args Itn [u "--remove_erhua"] = None.
Proof.
  split; [reflexivity|]. split; [reflexivity|]. split; [|split; vm_compute; reflexivity].
  eexists. split; [vm_compute; reflexivity|]. now vm_compute.
Qed.

(** C49: a path the helper returns lies below the package directory, and no symbolic link
    leads out of it on the way. *)
Theorem C49_inside : forall links fuel root rel p, get_abs_path links fuel root rel = PathOk p ->
  (exists q, p = root ++ q) /\ real_place links p.
Proof. exact abs_path_inside. Qed.
Print Assumptions C49_inside.
(** C49: and an ordinary relative path is found there. *)
Theorem C49_found : forall links fuel root rel, absolute (parse_path rel) = false ->
  real_place links (root ++ parts (parse_path rel)) -> List.length (root ++ parts (parse_path rel)) < fuel ->
  get_abs_path links fuel root rel = PathOk (root ++ parts (parse_path rel)).
Proof. exact abs_path_plain. Qed.
Print Assumptions C49_found.
Definition pkg : list text := [u "lib"; u "itn"].
Definition links_w (p : list text) : option path :=
  if parts_eqb p [u "lib"; u "itn"; u "out"] then Some (parse_path (u "/etc"))
  else if parts_eqb p [u "lib"; u "itn"; u "in"] then Some (parse_path (u "data/number")) else None.
Example C49_witness :
  get_abs_path links_w 20 pkg (u "chinese/data/x.tsv") = PathOk (pkg ++ [u "chinese"; u "data"; u "x.tsv"]) /\
  get_abs_path links_w 20 pkg (u "in/x.tsv") = PathOk (pkg ++ [u "data"; u "number"; u "x.tsv"]) /\
  get_abs_path links_w 20 pkg (u "out/passwd") = Escapes /\
  get_abs_path links_w 20 pkg (u "../tn/x.tsv") = Escapes /\
  get_abs_path links_w 20 pkg (u "/etc/passwd") = Escapes /\
  get_abs_path links_w 20 pkg (u "../itn/a/../x.tsv") = PathOk (pkg ++ [u "x.tsv"]).
Proof. repeat split; vm_compute; reflexivity. Qed.

(** C55: every accepted command line gives a processor of the selected language whose
    grammar reads, for each boolean of the parser, the value the command line gave it. *)
Theorem C55_wiring : forall d argv a, parse_args d argv = Some a -> exists p, create_processor d a = Some p /\
  List.length (grammar_reads p) = List.length (booleans d (a_language a)) /\
  forall n def, In (n, def) (booleans d (a_language a)) ->
    exists o b, option_for n = Some o /\ dict_get n (a_bools a) = Some b /\ In (o, JBool b) (grammar_reads p).
Proof. exact wiring. Qed.
Print Assumptions C55_wiring.
(** C55: the language found by the first scan of the command line, which decides which
    options exist, is the language of the final parse. *)
Theorem C55_language : forall d argv a, parse_args d argv = Some a ->
  select_words argv false Zh = Some (a_language a).
Proof. intros d argv a H. exact (proj1 (parse_args_language d argv a H)). Qed.
Print Assumptions C55_language.
(** C55: --text and --file exclude each other. *)
Theorem C55_one_source : forall d argv a, parse_args d argv = Some a -> a_text a = None \/ a_file a = None.
Proof. intros d argv a H. exact (proj2 (proj2 (parse_args_language d argv a H))). Qed.
Print Assumptions C55_one_source.
(** C55: "--text", "--file", "--cache_dir" and "--overwrite_cache" set just what they name. *)
Theorem C55_other_options : forall d argv a, parse_args d argv = Some a ->
  (forall v words, given (u "--text") v words ->
     (a_file a = None -> exists a', parse_args d (argv ++ words) = Some a' /\ with_text v a a') /\
     (a_file a <> None -> parse_args d (argv ++ words) = None)) /\
  (forall v words, given (u "--file") v words ->
     (a_text a = None -> exists a', parse_args d (argv ++ words) = Some a' /\ with_file v a a') /\
     (a_text a <> None -> parse_args d (argv ++ words) = None)) /\
  (forall v words name, name = u "--cache_dir" \/ name = u "--cache-dir" -> given name v words ->
     exists a', parse_args d (argv ++ words) = Some a' /\ with_cache_dir v a a') /\
  (forall name, name = u "--overwrite_cache" \/ name = u "--overwrite-cache" ->
     exists a', parse_args d (argv ++ [name]) = Some a' /\ with_overwrite a a').
Proof.
  intros d argv a H. split; [|split; [|split]].
  - intros v words. apply text_words. exact H.
  - intros v words. apply file_words. exact H.
  - intros v words name N. apply cache_dir_words; assumption.
  - intros name. apply overwrite_word. exact H.
Qed.
Print Assumptions C55_other_options.
(** C55: without options the command line behaves as the constructor does. *)
Theorem C55_defaults : forall d l, exists a,
  parse_args d [u "--language"; match l with Zh => u "zh" | En => u "en" | Ja => u "ja" end] = Some a /\
  create_processor d a = Some (default_pipeline d l).
Proof. intros [] []; eexists; (split; [vm_compute; reflexivity|vm_compute; reflexivity]). Qed.
Print Assumptions C55_defaults.
Example C55_witness : exists a, parse_args Itn [u "--enable-0-to-9"; u "--language=ja"; u "--no-enable_million"; u "--enable_million"; u "TRUE"] = Some a /\
  create_processor Itn a = Some (JaItn (JBool false) (JBool true) (JBool true) (JBool true)).
Proof. eexists. split; vm_compute; reflexivity. Qed.
(** The program on "--language=en --cache-dir /c --text=-5", with the processor above. *)
Example C55_main : given (u "--text") (u "-5") [u "--text=-5"] /\
  main Tn [u "--language=en"; u "--cache-dir"; u "/c"; u "--text=-5"]
    (fun p c o => match p, c, o with EnTn, Some _, false => inr w_mark | _, _, _ => inl OtherError end)
    (fun _ => inl OSError) ([], None) =
  ([Tag (u "-5"); Print (u "<-5>"); Verbalize (u "<-5>"); Print (u "=<-5>")], Finished).
Proof. split; [left; reflexivity|vm_compute; reflexivity]. Qed.
