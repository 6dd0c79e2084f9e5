(** API-level corollaries for the token wire format. *)
From Coq Require Import List NArith Bool Lia Arith ZifyBool ZifyNat ZifyN String Permutation.
From Verif Require Import Text TextFacts TokenModel TokenSpec TokenProofs TokenProofs2.
Import ListNotations.
Local Open Scope list_scope.

(** A parsed token record and the token of the grammar it represents. *)
Definition denotes (tok : token) (s : stoken) : Prop :=
  tk_name tok = st_name s /\ tk_start tok = st_from s /\ tk_end tok = st_to s /\
  tk_order tok = map fst (st_fields s) /\ tk_members tok = st_fields s.

Lemma denotes_to_token tok s : denotes tok s <-> tok = to_token s.
Proof.
  destruct tok, s; unfold denotes, to_token; cbn. split.
  - intros (-> & -> & -> & -> & ->). reflexivity.
  - intros [= -> -> -> -> ->]. auto.
Qed.
Lemma Forall2_denotes toks ts : Forall2 denotes toks ts <-> toks = map to_token ts.
Proof.
  split.
  - induction 1 as [|tok s toks ts H _ IH]; [reflexivity|]. apply denotes_to_token in H. cbn; congruence.
  - intros ->. induction ts; constructor; auto. now apply denotes_to_token.
Qed.

Theorem parse_exact t toks :
  parse t = Ok toks <-> t <> [] /\ exists ts, stream 0 t ts /\ Forall2 denotes toks ts.
Proof.
  split.
  - intros H. destruct (parse_sound t toks H) as (ts & Hne & Hs & ->). split; auto.
    exists ts. split; auto. now apply Forall2_denotes.
  - intros (Hne & ts & Hs & HF). apply Forall2_denotes in HF as ->. now apply parse_complete.
Qed.

Theorem parse_total t : (exists toks, parse t = Ok toks) \/ (exists f, parse t = Err (TokenParseError f)).
Proof. destruct (parse_cases t) as [(ts & _ & _ & E)|H]; eauto. Qed.

Theorem escape_roundtrip v rest b' v' rest' :
  decodes b' v' -> escape_value v ++ 34%N :: rest = b' ++ 34%N :: rest' -> v' = v /\ rest' = rest.
Proof.
  intros Hd E. destruct (decodes_prefix _ _ (escape_decodes v) _ _ _ _ Hd E) as (_ & -> & ->). auto.
Qed.

Theorem escape_field name key v : is_name name -> is_name key ->
  parse (name ++ u " { " ++ key ++ u ": """ ++ escape_value v ++ u """ }") =
  Ok [Token name 0 (List.length name + List.length key + List.length (escape_value v) + 9) [key] [(key, v)]].
Proof.
  intros Hn Hk.
  assert (Ht : token_text (name ++ u " { " ++ key ++ u ": """ ++ escape_value v ++ u """ }") name [(key, v)]).
  { exists (repeat 32%N 0 ++ key ++ u ": """ ++ escape_value v ++ u """" ++ repeat 32%N 1).
    split; [cbn [repeat app]; now rewrite <- !app_assoc|]. split; [assumption|]. split.
    - constructor; [assumption|apply escape_decodes|constructor].
    - constructor; [intros []|constructor]. }
  rewrite (token_text_parses _ _ _ Ht). do 4 f_equal. rewrite !app_length. cbn. lia.
Qed.

(** Well-formed tokens, as the parser builds them. *)
Definition wf_token (t : token) : Prop :=
  is_name (tk_name t) /\ tk_order t = map fst (tk_members t) /\
  Forall (fun kv => is_name (fst kv)) (tk_members t) /\ NoDup (map fst (tk_members t)).

Definition same_fields (sc : schema) (t t' : token) : Prop :=
  tk_name t' = tk_name t /\ tk_order t' = map fst (tk_members t') /\
  Permutation (tk_members t) (tk_members t') /\
  reordered sc (tk_name t) (tk_members t) (tk_members t').

Definition to_stoken (t : token) : stoken := SToken (tk_name t) (tk_start t) (tk_end t) (tk_members t).
Lemma to_token_stoken t : wf_token t -> to_token (to_stoken t) = t.
Proof. destruct t; unfold wf_token, to_stoken, to_token; cbn. intros (_ & -> & _). reflexivity. Qed.

Lemma map_to_token_stoken ts : Forall wf_token ts -> map to_token (map to_stoken ts) = ts.
Proof. induction 1; cbn; [reflexivity|]. rewrite to_token_stoken by assumption. congruence. Qed.

Lemma place_same os ts : good_schema os ->
  Forall (fun s => is_name (st_name s) /\ Forall (fun kv => is_name (fst kv)) (st_fields s)
                   /\ NoDup (map fst (st_fields s))) ts ->
  forall o, Forall2 (same_fields os) (map to_token ts) (map to_token (place o os ts)).
Proof.
  intros G F. induction F as [|s ts (Hn & Hk & ND) F IH]; intros o; cbn [place map]; constructor; auto.
  split; [reflexivity|]. split; [reflexivity|]. split; [now apply emitted_perm|]. now apply emitted_reordered.
Qed.

Theorem serialize_parse os toks : good_schema os -> Forall wf_token toks -> toks <> [] ->
  exists toks', parse (join (u " ") (map (fun t => token_string t os) toks)) = Ok toks' /\
    Forall2 (same_fields os) toks toks'.
Proof.
  intros G W Hne. pose (ts := map to_stoken toks).
  assert (F : Forall (fun s => is_name (st_name s) /\ Forall (fun kv => is_name (fst kv)) (st_fields s)
                   /\ NoDup (map fst (st_fields s))) ts).
  { unfold ts. clear -W. induction W as [|t l (A & B & C & D) W IH]; constructor; auto. }
  pose proof (stream_output os ts G F 0) as S.
  assert (Hts : ts <> []) by (unfold ts; destruct toks; [congruence|discriminate]).
  assert (E : output os ts = join (u " ") (map (fun t => token_string t os) toks)).
  { unfold output, ts. rewrite map_map. f_equal.
    clear -W. induction W as [|t l Ht W IH]; [reflexivity|]. cbn [map]. rewrite IH.
    now rewrite to_token_stoken. }
  rewrite <- E. exists (map to_token (place 0 os ts)). split.
  - apply parse_complete; [now apply output_nonempty|assumption].
  - replace toks with (map to_token ts) at 1 by (unfold ts; now apply map_to_token_stoken).
    now apply place_same.
Qed.

Theorem token_string_canonical os t : good_schema os -> wf_token t ->
  exists fs, Permutation (tk_members t) fs /\ reordered os (tk_name t) (tk_members t) fs /\
    canonical_token (tk_name t) fs (token_string t os).
Proof.
  intros G W. pose proof W as (A & B & C & D).
  exists (emitted os (tk_name t) (tk_members t)). split; [now apply emitted_perm|].
  split; [now apply emitted_reordered|].
  pose proof (canonical_token_string os (to_stoken t)) as H. cbn in H. now rewrite to_token_stoken in H.
Qed.

Lemma parse_wf t toks : parse t = Ok toks -> Forall wf_token toks.
Proof.
  intros H. destruct (parse_sound t toks H) as (ts & _ & Hs & ->). clear H. apply stream_facts in Hs.
  induction Hs as [|s l (A & B & C) _ IH]; constructor; auto. unfold wf_token; cbn. auto.
Qed.

Theorem reorder_preserves os t out : good_schema os -> reorder os t = Ok out ->
  exists toks, parse t = Ok toks /\
    ((toks = [] /\ out = []) \/
     exists toks', parse out = Ok toks' /\ Forall2 (same_fields os) toks toks').
Proof.
  intros G H. unfold reorder in H.
  destruct (parse_cases t) as [(ts & Hnt & Hs & E)|(f & E)].
  2:{ unfold reorder_with_spans in H. rewrite E in H. discriminate. }
  rewrite (reorder_with_spans_ok os t ts Hnt Hs) in H. cbn [bind] in H. injection H as <-.
  exists (map to_token ts). split; [assumption|]. pose proof (stream_facts _ _ _ Hs) as F.
  destruct ts as [|s ts]; [now left|right].
  exists (map to_token (place 0 os (s :: ts))). split.
  - apply parse_complete; [now apply output_nonempty|now apply stream_output].
  - now apply place_same.
Qed.

Theorem reorder_fails_iff os t : (exists out, reorder os t = Ok out) <-> exists toks, parse t = Ok toks.
Proof.
  unfold reorder, reorder_with_spans. destruct (parse t) as [toks|e]; cbn [bind].
  - destruct (serialize_loop os toks [] [] 0) as [a b]. cbn. split; eauto.
  - split; intros (x & H); discriminate.
Qed.

(** Spans that follow one another, one separator apart. *)
Inductive tiles : nat -> list (nat * nat) -> nat -> Prop :=
| tiles_one a b : tiles a [(a, b)] b
| tiles_cons a b r e : tiles (S b) r e -> tiles a ((a, b) :: r) e.

Lemma output_cons2 os t t2 ts :
  output os (t :: t2 :: ts) = token_string (to_token t) os ++ SP :: output os (t2 :: ts).
Proof. reflexivity. Qed.

Lemma place_tiles os ts : ts <> [] -> forall o,
  tiles o (map (fun s => (st_from s, st_to s)) (place o os ts)) (o + List.length (output os ts)).
Proof.
  induction ts as [|t ts IH]; [congruence|]. intros _ o. cbn [place map st_from st_to].
  destruct ts as [|t2 ts].
  - cbn. constructor.
  - rewrite output_cons2, app_length. cbn [List.length].
    replace (o + (List.length (token_string (to_token t) os) + S (List.length (output os (t2 :: ts)))))
     with (S (o + List.length (token_string (to_token t) os)) + List.length (output os (t2 :: ts))) by lia.
    constructor. apply IH. discriminate.
Qed.

Lemma place_slices os ts : forall pre post,
  Forall2 (fun t sp => slice (pre ++ output os ts ++ post) (fst sp) (snd sp) = token_string t os)
    (map to_token ts) (map (fun s => (st_from s, st_to s)) (place (List.length pre) os ts)).
Proof.
  induction ts as [|t ts IH]; intros pre post; cbn [map place]; constructor.
  - cbn [fst snd st_from st_to]. destruct ts as [|t2 ts].
    + unfold output. cbn [map join]. apply slice_app_mid.
    + rewrite output_cons2, <- app_assoc. apply slice_app_mid.
  - cbn [st_from st_to]. destruct ts as [|t2 ts]; [constructor|].
    specialize (IH (pre ++ token_string (to_token t) os ++ [SP]) post).
    rewrite !app_length in IH. cbn [List.length] in IH.
    replace (List.length pre + (List.length (token_string (to_token t) os) + 1))
      with (S (List.length pre + List.length (token_string (to_token t) os))) in IH by lia.
    rewrite output_cons2, <- !app_assoc. rewrite <- !app_assoc in IH. exact IH.
Qed.

Theorem reorder_spans os t out spans : reorder_with_spans os t = Ok (out, spans) ->
  exists toks, parse t = Ok toks /\
    reorder os t = Ok out /\
    out = join (u " ") (map (fun tok => token_string tok os) toks) /\
    Forall2 (fun tok sp => slice out (fst sp) (snd sp) = token_string tok os) toks spans /\
    ((toks = [] /\ spans = [] /\ out = []) \/ tiles 0 spans (List.length out)).
Proof.
  intros H. assert (Hr : reorder os t = Ok out) by (unfold reorder; now rewrite H).
  destruct (parse_cases t) as [(ts & Hnt & Hs & E)|(f & E)].
  2:{ unfold reorder_with_spans in H. rewrite E in H. discriminate. }
  rewrite (reorder_with_spans_ok os t ts Hnt Hs) in H. injection H as <- <-.
  exists (map to_token ts). split; [assumption|]. split; [assumption|].
  split; [unfold output; now rewrite map_map|]. split.
  - pose proof (place_slices os ts [] []) as P. cbn [app List.length] in P. now rewrite app_nil_r in P.
  - destruct ts as [|s ts]; [now left|right]. now apply (place_tiles os (s :: ts)).
Qed.

(** Between consecutive spans there is exactly one space. *)
Lemma tiles_gap os ts : forall pre post i a b c d,
  nth_error (map (fun s => (st_from s, st_to s)) (place (List.length pre) os ts)) i = Some (a, b) ->
  nth_error (map (fun s => (st_from s, st_to s)) (place (List.length pre) os ts)) (S i) = Some (c, d) ->
  c = S b /\ nth_error (pre ++ output os ts ++ post) b = Some SP.
Proof.
  induction ts as [|t ts IH]; intros pre post i a b c d H1 H2; [destruct i; discriminate|].
  destruct ts as [|t2 ts].
  { cbn in H2. destruct i; discriminate. }
  assert (EO : pre ++ output os (t :: t2 :: ts) ++ post
     = (pre ++ token_string (to_token t) os) ++ SP :: output os (t2 :: ts) ++ post).
  { rewrite output_cons2. now rewrite <- !app_assoc. }
  destruct i as [|i].
  - cbn [place map nth_error st_from st_to] in H1, H2. injection H1 as <- <-. injection H2 as <- _. split; [reflexivity|].
    rewrite EO. rewrite nth_error_app2; rewrite app_length; [|lia]. now rewrite Nat.sub_diag.
  - rewrite EO. replace ((pre ++ token_string (to_token t) os) ++ SP :: output os (t2 :: ts) ++ post)
      with ((pre ++ token_string (to_token t) os ++ [SP]) ++ output os (t2 :: ts) ++ post) by (now rewrite <- !app_assoc).
    cbn [place map nth_error] in H1, H2. apply (IH _ post i a b c d).
    + replace (List.length (pre ++ token_string (to_token t) os ++ [SP]))
        with (S (List.length pre + List.length (token_string (to_token t) os))) by (rewrite !app_length; cbn; lia).
      exact H1.
    + replace (List.length (pre ++ token_string (to_token t) os ++ [SP]))
        with (S (List.length pre + List.length (token_string (to_token t) os))) by (rewrite !app_length; cbn; lia).
      exact H2.
Qed.
Theorem reorder_span_gap os t out spans i a b c d : reorder_with_spans os t = Ok (out, spans) ->
  nth_error spans i = Some (a, b) -> nth_error spans (S i) = Some (c, d) ->
  c = S b /\ nth_error out b = Some 32%N.
Proof.
  intros H H1 H2.
  destruct (parse_cases t) as [(ts & Hnt & Hs & E)|(f & E)].
  2:{ unfold reorder_with_spans in H. rewrite E in H. discriminate. }
  rewrite (reorder_with_spans_ok os t ts Hnt Hs) in H. injection H as <- <-.
  pose proof (tiles_gap os ts [] [] i a b c d H1 H2) as P. cbn [app] in P. now rewrite app_nil_r in P.
Qed.

(** Source spans. *)
Theorem parse_source_spans t toks : parse t = Ok toks ->
  Forall (fun tok => tk_start tok < tk_end tok <= List.length t /\
            parse (slice t (tk_start tok) (tk_end tok))
            = Ok [Token (tk_name tok) 0 (tk_end tok - tk_start tok) (tk_order tok) (tk_members tok)]) toks /\
  (forall i a b, nth_error toks i = Some a -> nth_error toks (S i) = Some b -> tk_end a <= tk_start b) /\
  (forall p c, nth_error t p = Some c -> c = 32%N \/ exists tok, In tok toks /\ tk_start tok <= p < tk_end tok).
Proof.
  intros H. destruct (parse_sound t toks H) as (ts & Hne & Hs & ->). clear H.
  pose proof (stream_ordered _ _ _ Hs) as Ho. cbn in Ho.
  pose proof (stream_slices _ _ _ Hs [] eq_refl) as Hsl. cbn in Hsl.
  pose proof (stream_gaps _ _ _ Hs) as Hg. cbn in Hg. clear Hs Hne.
  assert (Ho2 : forall o lim, ordered_from o (map (fun s => (st_from s, st_to s)) ts) lim ->
     Forall (fun s => st_from s < st_to s <= lim) ts /\ o <= lim).
  { clear. induction ts as [|s ts IH]; cbn; intros o lim H; [split; [constructor|assumption]|].
    destruct H as (A & B & C). destruct (IH _ _ C) as [F D]. split; [|lia]. constructor; [lia|assumption]. }
  split; [|split].
  - destruct (Ho2 _ _ Ho) as [F _]. clear Ho2 Ho Hg.
    induction F as [|s ts Hr F IH]; cbn [map]; [constructor|]. inversion Hsl; subst. constructor; [|auto].
    cbn [to_token tk_start tk_end tk_name tk_order tk_members]. split; [lia|]. rewrite (token_text_parses _ _ _ H1).
    replace (List.length (slice t (st_from s) (st_to s))) with (st_to s - st_from s); [reflexivity|].
    unfold slice. rewrite firstn_length, skipn_length. lia.
  - clear Hsl Hg. revert Ho. generalize 0. clear Ho2.
    induction ts as [|s ts IH]; intros o Ho i a b Ha Hb; [destruct i; discriminate|].
    cbn in Ho. destruct Ho as (A & B & C). destruct i as [|i].
    + cbn in Ha. injection Ha as <-. destruct ts as [|s2 ts]; [discriminate|]. cbn in Hb. injection Hb as <-.
      cbn in C |- *. lia.
    + cbn in Ha, Hb. eapply IH; eauto.
  - intros p c Hp. destruct (Hg p c Hp) as [(s & Hi & Hr)|]; [right|now left].
    exists (to_token s). split; [now apply in_map|exact Hr].
Qed.

(** Shipped schemas are usable ones. *)
Ltac nodup := repeat constructor; cbn; intuition discriminate.
Theorem shipped_schemas o os : parser_orders (OName o) = Some os -> good_schema os.
Proof.
  cbn [parser_orders].
  destruct (text_eqb o (u "tn")); [|destruct (text_eqb o (u "itn")); [|destruct (text_eqb o (u "en_tn"))]];
    intros H; try discriminate; injection H as <-; (split; [|repeat constructor]); nodup.
Qed.
Theorem unknown_ordertype o : parser_orders (OName o) = None <-> ~ In o [u "tn"; u "itn"; u "en_tn"].
Proof.
  cbn [parser_orders]. destruct (text_eqb_spec o (u "tn")) as [->|]; [split; [discriminate|cbn; tauto]|].
  destruct (text_eqb_spec o (u "itn")) as [->|]; [split; [discriminate|cbn; tauto]|].
  destruct (text_eqb_spec o (u "en_tn")) as [->|]; [split; [discriminate|cbn; tauto]|].
  split; auto. intros _ [H|[H|[H|[]]]]; congruence.
Qed.

(** ** The shipped schemas *)
Lemma schema_table : forall parser name keys,
  has_order parser name keys <->
  exists os, parser_orders (OName parser) = Some os /\ In (name, keys) os.
Proof.
  intros parser name keys.
  set (rows := map (fun '(p, n, fs) => (u p, (u n, words (u fs)))) shipped).
  set (tag := fun p (e : text * list text) => (u p, e)).
  assert (E : rows = map (tag "tn"%string) TN_ORDERS ++ map (tag "en_tn"%string) EN_TN_ORDERS ++ map (tag "itn"%string) ITN_ORDERS)
    by (vm_compute; reflexivity).
  assert (L : has_order parser name keys <-> In (parser, (name, keys)) rows).
  { unfold has_order, rows. rewrite in_map_iff. split.
    - intros (p & n & fs & I & -> & -> & ->). exists (p, n, fs). split; [reflexivity|exact I].
    - intros ([[p n] fs] & Eq & I). injection Eq as <- <- <-. exists p, n, fs. repeat split; assumption. }
  rewrite L, E, !in_app_iff, !in_map_iff. unfold tag. cbn [parser_orders]. split.
  - intros [(e & Eq & I)|[(e & Eq & I)|(e & Eq & I)]]; injection Eq as <- ->; eexists; (split; [vm_compute; reflexivity|exact I]).
  - intros (os & Eq & I).
    destruct (text_eqb_spec parser (u "tn")) as [->|_]; [injection Eq as <-; left; eexists; split; [reflexivity|exact I]|].
    destruct (text_eqb_spec parser (u "itn")) as [->|_]; [injection Eq as <-; right; right; eexists; split; [reflexivity|exact I]|].
    destruct (text_eqb_spec parser (u "en_tn")) as [->|_]; [injection Eq as <-; right; left; eexists; split; [reflexivity|exact I]|].
    discriminate.
Qed.
