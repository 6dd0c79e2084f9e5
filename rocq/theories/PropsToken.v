(** Properties C01-C10: the token wire format (tn/token_parser.py).

    Vocabulary: [stream], [fields_text], [decodes], [reordered], [canonical_token]
    and [good_schema] are in TokenSpec.v; [denotes], [wf_token], [same_fields] and
    [tiles] are at the head of the sections of TokenProofs3.v that use them. *)
From Coq Require Import List NArith Permutation String.
From Verif Require Import Text TokenModel TokenSpec TokenProofs TokenProofs2 TokenProofs3.
Import ListNotations.
Local Open Scope list_scope.

(** C01: accepted exactly when the grammar reads it, with that reading; readings are unique. *)
Theorem C01_parse_exact : forall t toks,
  parse t = Ok toks <-> t <> [] /\ exists ts, stream 0 t ts /\ Forall2 denotes toks ts.
Proof. exact parse_exact. Qed.
Print Assumptions C01_parse_exact.

Theorem C01_reading_unique : forall t ts1 ts2,
  t <> [] -> stream 0 t ts1 -> stream 0 t ts2 -> ts1 = ts2.
Proof. exact stream_unique. Qed.
Print Assumptions C01_reading_unique.

Example C01_witness :

  parse (u "  date { year: ""a\""b\\c\d""  month: """"}x {  } ")
  = Ok [Token (u "date") 2 38 [u "year"; u "month"] [(u "year", u "a""b\c\d"); (u "month", [])];
        Token (u "x") 38 44 [] []].
Proof. vm_compute; reflexivity. Qed.

(** C02: no other outcome than tokens or TokenParseError. *)
Theorem C02_parse_total : forall t,
  (exists toks, parse t = Ok toks) \/ (exists f, parse t = Err (TokenParseError f)).
Proof. exact parse_total. Qed.
Print Assumptions C02_parse_total.

Example C02_witness : parse (u "a { b: ""\") = Err (TokenParseError UnterminatedEscape).
Proof. vm_compute; reflexivity. Qed.

(** C03: escaping is lossless and self-delimiting. *)
Theorem C03_escape_roundtrip : forall name key v, is_name name -> is_name key ->
  parse (name ++ u " { " ++ key ++ u ": """ ++ escape_value v ++ u """ }") =
  Ok [Token name 0 (List.length name + List.length key + List.length (escape_value v) + 9) [key] [(key, v)]].
Proof. exact escape_field. Qed.
Print Assumptions C03_escape_roundtrip.

Theorem C03_escape_self_delimiting : forall v rest b' v' rest',
  decodes b' v' -> escape_value v ++ 34%N :: rest = b' ++ 34%N :: rest' -> v' = v /\ rest' = rest.
Proof. exact escape_roundtrip. Qed.
Print Assumptions C03_escape_self_delimiting.

Theorem C03_escape_reads_back : forall v, decodes (escape_value v) v /\ escaped v (escape_value v).
Proof. exact (fun v => conj (escape_decodes v) (escape_escaped v)). Qed.
Print Assumptions C03_escape_reads_back.

(** C04: serialise, then parse. *)
Theorem C04_serialize_parse : forall os toks,
  good_schema os -> Forall wf_token toks -> toks <> [] ->
  exists toks', parse (join (u " ") (map (fun t => token_string t os) toks)) = Ok toks' /\
    Forall2 (same_fields os) toks toks'.
Proof. exact serialize_parse. Qed.
Print Assumptions C04_serialize_parse.

Theorem C04_serialized_text : forall os t, good_schema os -> wf_token t ->
  exists fs, Permutation (tk_members t) fs /\ reordered os (tk_name t) (tk_members t) fs /\
    canonical_token (tk_name t) fs (token_string t os).
Proof. exact token_string_canonical. Qed.
Print Assumptions C04_serialized_text.

Theorem C04_parsed_tokens_are_wf : forall t toks, parse t = Ok toks -> Forall wf_token toks.
Proof. exact parse_wf. Qed.
Print Assumptions C04_parsed_tokens_are_wf.

(** C05: a repeated key is always a duplicate-field error. *)
Theorem C05_duplicate_rejected : forall before ts name body fs rest,
  stream 0 before ts -> is_name name -> fields_text body fs -> ~ NoDup (map fst fs) ->
  parse (before ++ name ++ u " { " ++ body ++ u "}" ++ rest) = Err (TokenParseError DuplicateField).
Proof. exact parse_duplicate. Qed.
Print Assumptions C05_duplicate_rejected.

Example C05_witness :
  parse (u "x { } date { day: ""1"" month: ""2"" day: ""1"" } junk") = Err (TokenParseError DuplicateField).
Proof. vm_compute; reflexivity. Qed.

(** C06 and C07: reorder keeps the tokens and their fields, and orders the fields
    as documented ([same_fields]: same name, permuted fields, [reordered]). *)
Theorem C06_C07_reorder : forall os t out, good_schema os -> reorder os t = Ok out ->
  exists toks, parse t = Ok toks /\
    ((toks = [] /\ out = []) \/
     exists toks', parse out = Ok toks' /\ Forall2 (same_fields os) toks toks').
Proof. exact reorder_preserves. Qed.
Print Assumptions C06_C07_reorder.

(** The order [reordered] prescribes is unique, so nothing is left open. *)
Theorem C07_order_determined : forall os name fs a b, good_schema os -> NoDup (map fst fs) ->
  Permutation fs a -> Permutation fs b -> reordered os name fs a -> reordered os name fs b -> a = b.
Proof. exact reordered_fun. Qed.
Print Assumptions C07_order_determined.

Theorem C06_reorder_fails_only_if_parse_fails : forall os t,
  (exists out, reorder os t = Ok out) <-> exists toks, parse t = Ok toks.
Proof. exact reorder_fails_iff. Qed.
Print Assumptions C06_reorder_fails_only_if_parse_fails.

Theorem C07_shipped_schemas : forall o os, parser_orders (OName o) = Some os -> good_schema os.
Proof. exact shipped_schemas. Qed.
Print Assumptions C07_shipped_schemas.

Theorem C07_unknown_ordertype : forall o,
  parser_orders (OName o) = None <-> ~ In o [u "tn"; u "itn"; u "en_tn"].
Proof. exact unknown_ordertype. Qed.
Print Assumptions C07_unknown_ordertype.

(** The shipped schemas say, for each parser and token, exactly what TokenSpec.v lists. *)
Theorem C07_schema_table : forall parser name keys,
  has_order parser name keys <->
  exists os, parser_orders (OName parser) = Some os /\ In (name, keys) os.
Proof. exact schema_table. Qed.
Print Assumptions C07_schema_table.

Example C07_witness :
  reorder TN_ORDERS (u "date { day: ""1"" note: ""n"" year: ""2"" } date { day: ""1"" preserve_order: ""true"" year: ""2"" }")
  = Ok (u "date { year: ""2"" day: ""1"" note: ""n"" } date { day: ""1"" preserve_order: ""true"" year: ""2"" }").
Proof. vm_compute; reflexivity. Qed.

(** C08: idempotence; the only excluded case is a stream of spaces, whose output is empty. *)
Theorem C08_reorder_idempotent : forall os t out, good_schema os ->
  reorder os t = Ok out -> out <> [] -> reorder os out = Ok out.
Proof. exact reorder_idempotent. Qed.
Print Assumptions C08_reorder_idempotent.

Theorem C08_empty_output_only_from_spaces : forall os t out,
  reorder os t = Ok out -> (out = [] <-> exists n, t = repeat SP n).
Proof. exact reorder_output_empty. Qed.
Print Assumptions C08_empty_output_only_from_spaces.

(** C09: spans of the serialised tokens. *)
Theorem C09_serialized_spans : forall os t out spans,
  reorder_with_spans os t = Ok (out, spans) ->
  exists toks, parse t = Ok toks /\
    reorder os t = Ok out /\
    out = join (u " ") (map (fun tok => token_string tok os) toks) /\
    Forall2 (fun tok sp => slice out (fst sp) (snd sp) = token_string tok os) toks spans /\
    ((toks = [] /\ spans = [] /\ out = []) \/ tiles 0 spans (List.length out)).
Proof. exact reorder_spans. Qed.
Print Assumptions C09_serialized_spans.

Theorem C09_one_space_between : forall os t out spans i a b c d,
  reorder_with_spans os t = Ok (out, spans) ->
  nth_error spans i = Some (a, b) -> nth_error spans (S i) = Some (c, d) ->
  c = S b /\ nth_error out b = Some 32%N.
Proof. exact reorder_span_gap. Qed.
Print Assumptions C09_one_space_between.

Example C09_witness :
  reorder_with_spans TN_ORDERS (u "  a { }b { k: ""v"" }")
  = Ok (u "a { } b { k: ""v"" }", [(0, 5); (6, 18)]).
Proof. vm_compute; reflexivity. Qed.

(** C10: spans of the tokens in the source. *)
Theorem C10_source_spans : forall t toks, parse t = Ok toks ->
  Forall (fun tok => tk_start tok < tk_end tok <= List.length t /\
            parse (slice t (tk_start tok) (tk_end tok))
            = Ok [Token (tk_name tok) 0 (tk_end tok - tk_start tok) (tk_order tok) (tk_members tok)]) toks /\
  (forall i a b, nth_error toks i = Some a -> nth_error toks (S i) = Some b -> tk_end a <= tk_start b) /\
  (forall p c, nth_error t p = Some c -> c = 32%N \/ exists tok, In tok toks /\ tk_start tok <= p < tk_end tok).
Proof. exact parse_source_spans. Qed.
Print Assumptions C10_source_spans.
