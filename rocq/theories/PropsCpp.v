(** C50, C51, C53 and C54: the C++ runtime. *)
From Coq Require Import List NArith Bool Arith Lia String.
From Verif Require Import Text TextFacts AlignModel AlignSpec TokenModel TokenSpec CppModel CppSpec CppProofs CppString CppAgree PipelineModel.
Import ListNotations.
Local Open Scope list_scope.

(** C50: splitting any byte string either returns pieces of one to four bytes that
    concatenate to it, or, only if a byte is 0xF8 or more, ends the process. *)
Theorem C50_split_total : forall bs, Forall (fun b => b < 256)%N bs ->
  (exists ps, split_chars bs = Ret ps /\ List.concat ps = bs /\ Forall (fun p => 1 <= List.length p <= 4) ps) \/
  (split_chars bs = Fatal /\ Exists (fun b => 248 <= b)%N bs).
Proof. exact split_total. Qed.
Print Assumptions C50_split_total.
(** C50: on valid UTF-8 (the encoding of some text) the pieces are its characters. *)
Theorem C50_split_chars : forall t bs, encode t = Some bs ->
  exists ps, split_chars bs = Ret ps /\ Forall2 (fun c p => utf8_char c = Some p) t ps.
Proof. exact split_chars_utf8. Qed.
Print Assumptions C50_split_chars.
(** C50: the length reported is the number of pieces, so of characters. *)
Theorem C50_length : forall bs ps, split_chars bs = Ret ps -> utf8_string_length bs = Ret (List.length ps).
Proof. exact string_length_split. Qed.
Print Assumptions C50_length.
(** C50: the abort does happen: one byte 0xFF ends the process. *)
Theorem C50_never_aborts_refuted : exists bs, Forall (fun b => b < 256)%N bs /\ split_chars bs = Fatal /\
  forall os, reorder_cpp os bs = Fatal.
Proof. exists [255%N]. repeat split. repeat constructor. Qed.
Print Assumptions C50_never_aborts_refuted.
(** "a", an accented letter, a Chinese character and an emoji; a stray continuation
    byte and a character cut short are kept as pieces of their own. *)
Example C50_witness :
  encode [97; 233; 20013; 128512]%N = Some [97; 195; 169; 228; 184; 173; 240; 159; 152; 128]%N /\
  split_chars [97; 195; 169; 228; 184; 173; 240; 159; 152; 128]%N
    = Ret [[97]; [195; 169]; [228; 184; 173]; [240; 159; 152; 128]]%N /\
  split_chars [128; 228; 184]%N = Ret [[128]; [228; 184]]%N.
Proof. now vm_compute. Qed.

(** C51: on a non-empty stream whose tokens repeat no key, whose values are properly
    escaped and whose reordered tokens hold only schema keys, both reorderings succeed
    and return the same text (the C++ one in UTF-8), whatever the schema. *)
Theorem C51_agree : forall os t bs ts, encode t = Some bs -> t <> [] ->
  stream_raw t ts -> Forall (plain os) ts ->
  exists out bo, reorder os t = Ok out /\ encode out = Some bo /\ reorder_cpp os bs = Ret bo.
Proof. exact reorder_agrees. Qed.
Print Assumptions C51_agree.

(** The parse type of each pipeline (the one its FST file names select, see C54). *)
Definition type_of (l : language) (o : operator) : parse_type :=
  match l, o with
  | Zh, Tn => ZH_TN | Zh, Itn => ZH_ITN | En, Tn => EN_TN | En, Itn => EN_ITN | Ja, Tn => JA_TN | Ja, Itn => JA_ITN
  end.
(** C51: except for Japanese normalisation the runtime's table is the pipeline's. *)
Theorem C51_tables : forall l o, (l, o) <> (Ja, Tn) ->
  token_parser_orders (constructor_args l o) = Some (orders_of (type_of l o)).
Proof. intros [] []; intros H; try reflexivity; now elim H. Qed.
Print Assumptions C51_tables.
(** So the five pipelines reorder alike. *)
Theorem C51_pipelines : forall l o os t bs ts, (l, o) <> (Ja, Tn) ->
  token_parser_orders (constructor_args l o) = Some os ->
  encode t = Some bs -> t <> [] -> stream_raw t ts -> Forall (plain os) ts ->
  exists out bo, reorder os t = Ok out /\ encode out = Some bo /\ reorder_cpp (orders_of (type_of l o)) bs = Ret bo.
Proof.
  intros l o os t bs ts H E. rewrite (C51_tables l o H) in E. injection E as <-. apply C51_agree.
Qed.
Print Assumptions C51_pipelines.
(** C51: what Python accepts the runtime accepts; what the runtime accepts Python
    accepts or refuses for a repeated key only; what Python refuses for anything else the
    runtime refuses with an exception. *)
Theorem C51_accepts : forall os os' t bs, encode t = Some bs ->
  (forall out, reorder os t = Ok out -> exists bo, reorder_cpp os' bs = Ret bo) /\
  (forall bo, reorder_cpp os' bs = Ret bo ->
     (exists out, reorder os t = Ok out) \/ reorder os t = Err (TokenParseError DuplicateField)) /\
  (forall f, reorder os t = Err (TokenParseError f) -> f <> DuplicateField -> reorder_cpp os' bs = Throw).
Proof.
  intros os os' t bs E. split; [|split].
  - intros out H. exact (accept_py_cpp os os' t bs out E H).
  - intros bo H. exact (accept_cpp_py os os' t bs bo E H).
  - intros f H N. exact (reject_cpp os os' t bs f E H N).
Qed.
Print Assumptions C51_accepts.
(** C51: on any bytes the reordering returns, throws, or (a byte of 0xF8 or more) ends
    the process; no read is out of range and no loop runs on. *)
Theorem C51_total : forall os bs, Forall (fun b => b < 256)%N bs ->
  (exists out, reorder_cpp os bs = Ret out) \/ reorder_cpp os bs = Throw \/
  (reorder_cpp os bs = Fatal /\ Exists (fun b => 248 <= b)%N bs).
Proof. exact reorder_cpp_total. Qed.
Print Assumptions C51_total.

(** The restrictions are needed.  Fields outside the schema are dropped: *)
Theorem C51_extra_fields_refuted : exists t, reorder TN_ORDERS t = Ok t /\
  exists bo, reorder_cpp CPP_ZH_TN_ORDERS t = Ret bo /\ bo <> t.
Proof.
  exists (u "money { value: ""5"" currency: ""$"" note: ""x"" }"). split; [vm_compute; reflexivity|].
  exists (u "money { value: ""5"" currency: ""$"" }"). split; [vm_compute; reflexivity|discriminate].
Qed.
Print Assumptions C51_extra_fields_refuted.
(** a repeated key, an error in Python, is accepted and the first value lost: *)
Theorem C51_duplicates_refuted : exists t bo, reorder TN_ORDERS t = Err (TokenParseError DuplicateField) /\
  reorder_cpp CPP_ZH_TN_ORDERS t = Ret bo.
Proof.
  exists (u "money { value: ""5"" value: ""6"" }"), (u "money { value: ""6"" }"). now vm_compute.
Qed.
Print Assumptions C51_duplicates_refuted.
(** a backslash before any other character is kept by one and doubled by the other: *)
Theorem C51_escapes_refuted : exists t out, reorder TN_ORDERS t = Ok out /\ out <> t /\
  reorder_cpp CPP_ZH_TN_ORDERS t = Ret t.
Proof.
  exists (u "char { value: ""\d"" }"), (u "char { value: ""\\d"" }").
  split; [vm_compute; reflexivity|]. split; [discriminate|vm_compute; reflexivity].
Qed.
Print Assumptions C51_escapes_refuted.
(** and the Japanese normaliser's table lacks fraction, measure and time, so the two
    runtimes verbalise such tokens from differently ordered fields. *)
Ltac letters := match goal with |- Forall letter ?t => let l := eval vm_compute in t in change (Forall letter l) end;
  repeat (apply Forall_cons; [unfold letter; lia|]); apply Forall_nil.
Theorem C51_japanese_refuted : exists os t out, token_parser_orders (constructor_args Ja Tn) = Some os /\
  (exists ts, stream_raw t ts /\ Forall (plain os) ts) /\
  reorder os t = Ok out /\ out <> t /\ reorder_cpp (orders_of JA_TN) t = Ret t.
Proof.
  exists ja_tn_token_orders, (u "fraction { numerator: ""1"" denominator: ""2"" }"),
    (u "fraction { denominator: ""2"" numerator: ""1"" }").
  split; [reflexivity|]. split; [|now vm_compute].
  exists [(u "fraction", [(u "numerator", u "1"); (u "denominator", u "2")])]. split.
  - apply (sr_cons 0 (u "fraction") (u "numerator: ""1"" denominator: ""2"" ") _ [] []).
    + split; [discriminate|]. letters.
    + apply (fr_cons 0 (u "numerator") (u "1") (u " denominator: ""2"" ")).
      * split; [discriminate|]. letters.
      * exists [49%N]. apply dec_plain; [discriminate|discriminate|apply dec_nil].
      * apply (fr_cons 1 (u "denominator") (u "2") (u " ")).
        -- split; [discriminate|]. letters.
        -- exists [50%N]. apply dec_plain; [discriminate|discriminate|apply dec_nil].
        -- apply (fr_nil 1).
    + apply (sr_nil 0).
  - constructor; [|constructor]. split; [|split].
    + repeat constructor; cbn; intuition discriminate.
    + apply Forall_cons; [|apply Forall_cons; [|apply Forall_nil]]; cbn [snd].
      * exists [49%N]. apply esc_plain; [discriminate|discriminate|apply esc_nil].
      * exists [50%N]. apply esc_plain; [discriminate|discriminate|apply esc_nil].
    + right. intros keys H. cbn in H.
      repeat (destruct H as [H|H]; [try discriminate|]); try contradiction.
      injection H as <-. intros x. cbn. intuition.
Qed.
Print Assumptions C51_japanese_refuted.
(** Two tokens, one reordered, with an escaped quote and a Chinese character. *)
Example C51_witness :
  reorder TN_ORDERS (u "money { currency: """ ++ [20803%N] ++ u """ value: ""\""5"" } char { value: ""a"" }")
    = Ok (u "money { value: ""\""5"" currency: """ ++ [20803%N] ++ u """ } char { value: ""a"" }") /\
  reorder_cpp CPP_ZH_TN_ORDERS (u "money { currency: """ ++ [229; 133; 131]%N ++ u """ value: ""\""5"" } char { value: ""a"" }")
    = Ret (u "money { value: ""\""5"" currency: """ ++ [229; 133; 131]%N ++ u """ } char { value: ""a"" }").
Proof. now vm_compute. Qed.

(** C53: Trim removes exactly the blanks at both ends. *)
Theorem C53_trim : forall s, exists a b, s = a ++ trim s ++ b /\ Forall blank a /\ Forall blank b /\
  ~ begins_blank (trim s) /\ ~ ends_blank (trim s).
Proof. exact trim_spec. Qed.
Print Assumptions C53_trim.
(** C53: Split by a non-empty delimiter returns delimiter-free pieces that joined by it
    give the string back. *)
Theorem C53_split : forall s delim, delim <> [] ->
  exists ps, split_loop (S (List.length s)) s delim [] = Ret ps /\ join delim ps = s /\
    Forall (fun p => ~ occurs delim p) ps.
Proof. exact split_delim. Qed.
Print Assumptions C53_split.
(** C53: with an empty delimiter it never ends, whatever the string. *)
Theorem C53_empty_delimiter_refuted : forall s fuel out, split_loop fuel s [] out = Stuck.
Proof. intros s fuel out. exact (split_empty_delim_stuck fuel s out). Qed.
Print Assumptions C53_empty_delimiter_refuted.
Example C53_witness : trim (u "  a b ") = u "a b" /\
  split_loop 9 (u "a||b|||c") (u "||") [] = Ret [u "a"; u "b"; u "|c"].
Proof. now vm_compute. Qed.

(** C54: the file-name prefix of each parse type. *)
Definition file_prefix (y : parse_type) : text :=
  match y with
  | ZH_TN => u "zh_tn_" | ZH_ITN => u "zh_itn_" | EN_TN => u "en_tn_"
  | EN_ITN => u "en_itn_" | JA_TN => u "ja_tn_" | JA_ITN => u "ja_itn_"
  end.
Lemma has_spec p s : has s p = true <-> occurs p s.
Proof.
  unfold has. destruct (find_spec p s 0) as [(a & b & E & F & _)|(F & M)]; rewrite F.
  - split; [intros _; now exists a, b|reflexivity].
  - split; [discriminate|tauto].
Qed.
Lemma parse_type_some path y : parse_type_of path = Ret y -> occurs (file_prefix y) path.
Proof.
  unfold parse_type_of.
  repeat (match goal with |- (if has path ?p then _ else _) = _ -> _ => destruct (has path p) eqn:?Hp end;
          [intros [= <-]; now apply has_spec|]).
  discriminate.
Qed.
(** C54: the type is one whose prefix occurs in the tagger's path, so if only one
    prefix does, it is that one; without any the process ends. *)
Theorem C54_only_prefix : forall path y, occurs (file_prefix y) path ->
  (forall y', occurs (file_prefix y') path -> y' = y) -> parse_type_of path = Ret y.
Proof.
  intros path y O U.
  destruct (parse_type_of path) as [z| | | |] eqn:E.
  - now rewrite (U z (parse_type_some path z E)).
  - unfold parse_type_of in E. repeat (destruct (has path _); [discriminate|]). discriminate.
  - exfalso. unfold parse_type_of in E.
    repeat (match type of E with (if has path ?p then _ else _) = _ => destruct (has path p) eqn:?Hp end; [discriminate|]).
    apply has_spec in O. destruct y; cbn [file_prefix] in O; congruence.
  - unfold parse_type_of in E. repeat (destruct (has path _); [discriminate|]). discriminate.
  - unfold parse_type_of in E. repeat (destruct (has path _); [discriminate|]). discriminate.
Qed.
Print Assumptions C54_only_prefix.
Theorem C54_no_prefix : forall path, (forall y, ~ occurs (file_prefix y) path) -> parse_type_of path = Fatal.
Proof.
  intros path H. unfold parse_type_of.
  repeat (match goal with |- (if has path ?p then _ else _) = _ => destruct (has path p) eqn:?Hp end;
          [exfalso; match goal with Hq : has path ?p = true |- _ => apply has_spec in Hq;
             first [exact (H ZH_TN Hq)|exact (H ZH_ITN Hq)|exact (H EN_TN Hq)|exact (H EN_ITN Hq)|exact (H JA_TN Hq)|exact (H JA_ITN Hq)] end|]).
  reflexivity.
Qed.
Print Assumptions C54_no_prefix.
(** C54: the file name alone does not decide: a directory can. *)
Theorem C54_file_name_refuted : exists dir file, parse_type_of file = Ret EN_TN /\
  parse_type_of (dir ++ u "/" ++ file) = Ret ZH_TN.
Proof. exists (u "/models/zh_tn_and_en_tn_v2"), (u "en_tn_tagger.fst"). now vm_compute. Qed.
Print Assumptions C54_file_name_refuted.
Example C54_witness : parse_type_of (u "/models/ja_itn_tagger.fst") = Ret JA_ITN.
Proof. reflexivity. Qed.
