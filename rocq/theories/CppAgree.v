(** The C++ and the Python token parser on the same stream. *)
From Coq Require Import List NArith Bool Lia Arith ZifyBool ZifyNat ZifyN String Permutation.
From Verif Require Import Text TextFacts AlignModel AlignSpec AlignBytes.
From Verif Require Import TokenModel TokenSpec TokenProofs TokenProofs2 TokenProofs3.
From Verif Require Import CppModel CppSpec CppProofs CppString.
Import ListNotations.
Local Open Scope list_scope.

(** * Raw and decoded readings *)
Definition field_of (kb kv : text * text) : Prop := fst kb = fst kv /\ decodes (snd kb) (snd kv).
Lemma raw_fields body fs : fields_raw body fs -> exists vs, fields_text body vs /\ Forall2 field_of fs vs.
Proof.
  induction 1 as [n|n key b rest fs Hk [v Hd] Hf (vs & H1 & H2)].
  - exists []. split; constructor.
  - exists ((key, v) :: vs). split; [now constructor|]. constructor; [split; auto|assumption].
Qed.
Lemma text_fields body vs : fields_text body vs -> exists fs, fields_raw body fs /\ Forall2 field_of fs vs.
Proof.
  induction 1 as [n|n key b v rest vs Hk Hd Hf (fs & H1 & H2)].
  - exists []. split; constructor.
  - exists ((key, b) :: fs). split; [constructor; auto; now exists v|]. constructor; [split; auto|assumption].
Qed.
Lemma field_of_keys fs vs : Forall2 field_of fs vs -> map fst fs = map fst vs.
Proof. induction 1 as [|a b fs vs [H _] _ IH]; cbn; congruence. Qed.

Definition token_of (r : text * list (text * text)) (s : stoken) : Prop :=
  fst r = st_name s /\ Forall2 field_of (snd r) (st_fields s).
Lemma raw_stream t ts : stream_raw t ts -> Forall (fun r => NoDup (map fst (snd r))) ts ->
  forall o, exists sts, stream o t sts /\ Forall2 token_of ts sts.
Proof.
  induction 1 as [n|n name body fs rest ts Hn Hf Hs IH]; intros ND o.
  - exists []. split; constructor.
  - inversion ND as [|? ? N1 N2]; subst. destruct (raw_fields body fs Hf) as (vs & V1 & V2).
    set (t := name ++ u " { " ++ body ++ u "}") in *.
    destruct (IH N2 (o + n + List.length t)) as (sts & S1 & S2).
    exists (SToken name (o + n) (o + n + List.length t) vs :: sts). split.
    + constructor; [|assumption]. exists body. repeat split; auto; try apply Hn.
      rewrite <- (field_of_keys _ _ V2). exact N1.
    + constructor; [split; auto|assumption].
Qed.
Lemma stream_to_raw o t sts : stream o t sts -> exists ts, stream_raw t ts /\ Forall2 token_of ts sts.
Proof.
  induction 1 as [o n|o n t name vs rest sts (body & -> & Hn & Hf & ND) Hs (ts & T1 & T2)].
  - exists []. split; constructor.
  - destruct (text_fields body vs Hf) as (fs & F1 & F2). exists ((name, fs) :: ts).
    split; [now constructor|]. constructor; [split; auto|assumption].
Qed.

Lemma stream_prepend n t name vs : token_text t name vs -> forall rest sts, stream 0 rest sts ->
  exists sts', stream 0 (repeat 32%N n ++ t ++ rest) sts'.
Proof.
  intros Ht rest sts Hs. eexists. apply stream_cons; [exact Ht|].
  pose proof (stream_shift 0 rest sts Hs (0 + n + List.length t)) as H. exact H.
Qed.
Lemma NoDup_text_dec (l : list text) : {NoDup l} + {~ NoDup l}.
Proof.
  induction l as [|x l IH]; [left; constructor|].
  destruct (in_dec text_eq_dec x l) as [I|I]; [right; intros H; now inversion H|].
  destruct IH as [IH|IH]; [left; now constructor|right; intros H; now inversion H].
Qed.
Lemma raw_duplicate t ts : stream_raw t ts -> ~ Forall (fun r => NoDup (map fst (snd r))) ts ->
  exists before sts name body vs rest, t = before ++ name ++ u " { " ++ body ++ u "}" ++ rest /\
    stream 0 before sts /\ is_name name /\ fields_text body vs /\ ~ NoDup (map fst vs).
Proof.
  induction 1 as [n|n name body fs rest ts Hn Hf Hs IH]; intros ND; [elim ND; constructor|].
  destruct (raw_fields body fs Hf) as (vs & V1 & V2).
  destruct (NoDup_text_dec (map fst vs)) as [D|D].
  - destruct IH as (before & sts & nm & bd & ws & rs & -> & B1 & B2 & B3 & B4).
    { intros H. apply ND. constructor; [|assumption]. cbn. now rewrite (field_of_keys _ _ V2). }
    assert (TT : token_text (name ++ u " { " ++ body ++ u "}") name vs).
    { exists body. repeat split; auto; apply Hn. }
    destruct (stream_prepend n _ name vs TT before sts B1) as (sts' & S').
    exists (repeat 32%N n ++ (name ++ u " { " ++ body ++ u "}") ++ before), sts', nm, bd, ws, rs.
    split; [now rewrite <- !app_assoc|]. auto.
  - exists (repeat 32%N n), [], name, body, vs, rest. split; [now rewrite <- !app_assoc|].
    split; [constructor|]. auto.
Qed.
Lemma stream_raw_parse t ts : t <> [] -> stream_raw t ts ->
  (exists sts, Forall2 token_of ts sts /\ stream 0 t sts) \/ parse t = Err (TokenParseError DuplicateField).
Proof.
  intros Hn Hs.
  destruct (Forall_dec (fun r => NoDup (map fst (snd r))) (fun r => NoDup_text_dec (map fst (snd r))) ts) as [D|D].
  - left. destruct (raw_stream t ts Hs D 0) as (sts & S1 & S2). eauto.
  - right. destruct (raw_duplicate t ts Hs D) as (b & sts & nm & bd & vs & rs & -> & B1 & B2 & B3 & B4).
    eapply parse_duplicate; eassumption.
Qed.

(** * Acceptance *)
Theorem accept_py_cpp os os' t bs out : encode t = Some bs -> reorder os t = Ok out ->
  exists bo, reorder_cpp os' bs = Ret bo.
Proof.
  intros E R.
  assert (P : exists toks, parse t = Ok toks) by (apply (reorder_fails_iff os); eauto). destruct P as (toks & P).
  apply parse_sound in P as (sts & Hn & Hs & _). destruct (stream_to_raw 0 t sts Hs) as (ts & T1 & _).
  unfold reorder_cpp. rewrite (proj1 (parse_cpp_utf8 t bs E) ts Hn T1). cbn [cbind]. eauto.
Qed.
Theorem accept_cpp_py os os' t bs bo : encode t = Some bs -> reorder_cpp os' bs = Ret bo ->
  (exists out, reorder os t = Ok out) \/ reorder os t = Err (TokenParseError DuplicateField).
Proof.
  intros E R. unfold reorder_cpp in R.
  destruct (proj2 (parse_cpp_utf8 t bs E)) as [(ts & Hn & Hs & P)|P]; [|rewrite P in R; discriminate].
  destruct (stream_raw_parse t ts Hn Hs) as [(sts & _ & S)|D].
  - left. apply reorder_fails_iff. rewrite (parse_complete t sts Hn S). eauto.
  - right. unfold reorder, reorder_with_spans. rewrite D. reflexivity.
Qed.
Theorem reject_cpp os os' t bs f : encode t = Some bs -> reorder os t = Err (TokenParseError f) ->
  f <> DuplicateField -> reorder_cpp os' bs = Throw.
Proof.
  intros E R Nf.
  destruct (proj2 (parse_cpp_utf8 t bs E)) as [(ts & Hn & Hs & P)|P].
  2:{ unfold reorder_cpp. now rewrite P. }
  assert (A : exists bo, reorder_cpp os' bs = Ret bo) by (unfold reorder_cpp; rewrite P; cbn; eauto).
  destruct A as (bo & A). destruct (accept_cpp_py os os' t bs bo E A) as [(out & B)|B]; congruence.
Qed.

(** * Bytes *)
Definition fine (c : N) : Prop := utf8_char c <> None.
Lemma encode_iff t bs : encode t = Some bs <-> Forall fine t /\ bs = flat_map enc8 t.
Proof.
  revert bs. induction t as [|c t IH]; intros bs.
  - cbn. split; [intros [= <-]; auto|intros [_ ->]; reflexivity].
  - split.
    + intros E. apply encode_cons in E as (b & bs' & E1 & E2 & ->). apply IH in E2 as [F ->]. split.
      * constructor; auto. unfold fine. congruence.
      * cbn. unfold enc8 at 2. now rewrite E1.
    + intros [F ->]. inversion F as [|? ? F1 F2]; subst. cbn [encode flat_map].
      rewrite (proj2 (IH (flat_map enc8 t))) by auto. unfold enc8 at 2.
      destruct (utf8_char c) eqn:E; [reflexivity|]. now elim F1.
Qed.
Lemma fine_ascii c : (c < 128)%N -> fine c.
Proof. intros H. unfold fine, utf8_char. now replace (c <? 128)%N with true by lia. Qed.
Lemma name_ascii k : is_name k -> ascii k.
Proof. intros [_ H]. revert H. apply Forall_impl. unfold letter. lia. Qed.
Lemma ascii_fine k : ascii k -> Forall fine k.
Proof. apply Forall_impl. apply fine_ascii. Qed.
Lemma bytes_ascii k : ascii k -> flat_map enc8 k = k.
Proof.
  induction 1 as [|c k Hc Hk IH]; [reflexivity|]. cbn. rewrite IH. unfold enc8, utf8_char.
  now replace (c <? 128)%N with true by lia.
Qed.

(** * One token *)
Lemma appended_fields enc tok fs :
  c_name (appended enc tok fs) = c_name tok /\
  c_order (appended enc tok fs) = c_order tok ++ map fst fs /\
  c_members (appended enc tok fs) = rev (map (fun kb => (fst kb, flat_map enc (snd kb))) fs) ++ c_members tok.
Proof.
  revert tok. induction fs as [|[k b] fs IH]; intros tok; cbn [appended fold_left map rev fst snd].
  - rewrite app_nil_r. auto.
  - destruct (IH (ctoken_append tok k (flat_map enc b))) as (H1 & H2 & H3). unfold appended in H1, H2, H3.
    rewrite H1, H2, H3. cbn [ctoken_append c_name c_order c_members]. rewrite <- !app_assoc. auto.
Qed.
Lemma dict_get_rev {A} k (d : list (text * A)) : NoDup (map fst d) -> dict_get k (rev d) = dict_get k d.
Proof.
  intros ND. destruct (dict_get k d) as [v|] eqn:E.
  - apply dict_get_NoDup; [|apply in_rev; rewrite rev_involutive; now apply dict_get_In].
    rewrite map_rev. now apply NoDup_rev.
  - apply dict_get_None. apply dict_get_None in E. intros H. apply E. rewrite map_rev in H. now apply in_rev.
Qed.
Lemma dict_get_map {A B} (g : A -> B) k (d : list (text * A)) :
  dict_get k (map (fun kb => (fst kb, g (snd kb))) d) = option_map g (dict_get k d).
Proof. induction d as [|[k' v] d IH]; [reflexivity|]. cbn. now destruct (text_eqb k k'). Qed.

Lemma ctok_get name fs k : NoDup (map fst fs) ->
  dict_get k (c_members (ctok enc8 (name, fs))) = option_map (flat_map enc8) (dict_get k fs).
Proof.
  intros ND. unfold ctok. destruct (appended_fields enc8 (CToken (fst (name, fs)) [] []) (snd (name, fs))) as (_ & _ & H).
  cbn [fst snd] in *. rewrite H. cbn [c_members]. rewrite app_nil_r, dict_get_rev.
  - apply dict_get_map.
  - rewrite map_map. exact ND.
Qed.
Lemma ctok_name name fs : c_name (ctok enc8 (name, fs)) = name.
Proof. unfold ctok. now destruct (appended_fields enc8 (CToken (fst (name, fs)) [] []) (snd (name, fs))) as (H & _). Qed.
Lemma ctok_order name fs : c_order (ctok enc8 (name, fs)) = map fst fs.
Proof. unfold ctok. now destruct (appended_fields enc8 (CToken (fst (name, fs)) [] []) (snd (name, fs))) as (_ & H & _). Qed.

Definition written (kb kv : text * text) : Prop := fst kb = fst kv /\ escaped (snd kv) (snd kb).
Lemma written_fields fs vs : Forall2 field_of fs vs -> Forall (fun kb => exists v, escaped v (snd kb)) fs ->
  Forall2 written fs vs.
Proof.
  induction 1 as [|a b fs vs [H1 H2] _ IH]; intros F; [constructor|].
  inversion F as [|? ? (v & Hv) F2]; subst. constructor; [|auto]. split; [assumption|].
  pose proof (escaped_decodes _ _ Hv) as D.
  destruct (decodes_prefix _ _ D _ _ [] [] H2 eq_refl) as (_ & <- & _). exact Hv.
Qed.
Lemma written_get fs vs k : Forall2 written fs vs ->
  match dict_get k fs, dict_get k vs with
  | Some b, Some v => escaped v b
  | None, None => True
  | _, _ => False
  end.
Proof.
  induction 1 as [|[k1 b] [k2 v] fs vs [H1 H2] _ IH]; [exact I|]. cbn [fst snd] in *. subst k2. cbn [dict_get].
  now destruct (text_eqb k k1).
Qed.
Lemma fine_bytes_inj a b : Forall fine a -> Forall fine b -> flat_map enc8 a = flat_map enc8 b -> a = b.
Proof.
  intros Fa Fb E.
  assert (A : encode a = Some (flat_map enc8 a)) by (apply encode_iff; auto).
  assert (B : encode b = Some (flat_map enc8 b)) by (apply encode_iff; auto).
  apply encode_decode in A, B. congruence.
Qed.
Lemma ascii_true : ascii (u "true").
Proof. repeat constructor. Qed.
Lemma true_bytes v b : Forall fine b -> escaped v b ->
  text_eqb (flat_map enc8 b) (u "true") = text_eqb v (u "true").
Proof.
  intros Fb He. destruct (text_eqb_spec v (u "true")) as [->|N].
  - apply escaped_fun in He as ->. reflexivity.
  - apply text_eqb_neq. intros E. apply N.
    assert (Eb : b = u "true").
    { apply fine_bytes_inj; [assumption|apply ascii_fine, ascii_true|]. rewrite E. symmetry. apply bytes_ascii, ascii_true. }
    subst b. apply escaped_decodes in He.
    assert (D : decodes (u "true") (u "true")) by (repeat constructor; discriminate).
    destruct (decodes_prefix _ _ He _ _ [] [] D eq_refl) as (_ & E' & _). exact E'.
Qed.

(** What both print for one token. *)
Lemma filter_none {A} (p : A -> bool) l : (forall x, In x l -> p x = false) -> filter p l = [].
Proof. induction l as [|x l IH]; intros H; [reflexivity|]. cbn. rewrite (H x) by (now left). apply IH. intros y I; apply H; now right. Qed.

Definition st_like (name : text) (fs : list (text * text)) : token := Token name 0 0 (map fst fs) fs.
Lemma order_agrees os name fs vs : Forall2 written fs vs -> plain os (name, fs) ->
  Forall (fun kb => Forall fine (snd kb)) fs ->
  ctoken_order (ctok enc8 (name, fs)) os = effective_order (st_like name vs) os.
Proof.
  intros W (ND & Esc & Sch) Fi. cbn [fst snd] in *.
  assert (K : map fst fs = map fst vs) by (clear -W; induction W as [|a b fs vs [H _] _ IH]; cbn; congruence).
  unfold ctoken_order, effective_order, st_like. rewrite ctok_name, ctok_order. cbn [tk_name tk_order tk_members].
  change (@dict_get (list (list N)) name os) with (@dict_get (list text) name os).
  destruct (dict_get name os) as [canonical|] eqn:Eo; [|exact K].
  rewrite ctok_get by assumption.
  pose proof (written_get fs vs (u "preserve_order") W) as P.
  assert (Same : match option_map (flat_map enc8) (dict_get (u "preserve_order") fs) with
                 | Some v => negb (text_eqb v (u "true")) | None => true end
               = match dict_get (u "preserve_order") vs with
                 | Some v => negb (text_eqb v (u "true")) | None => true end).
  { destruct (dict_get (u "preserve_order") fs) as [b|] eqn:Eb, (dict_get (u "preserve_order") vs) as [v|]; try tauto.
    cbn [option_map]. f_equal. apply true_bytes; [|assumption].
    apply dict_get_In in Eb. rewrite Forall_forall in Fi. exact (Fi _ Eb). }
  rewrite Same. clear Same.
  destruct (match dict_get (u "preserve_order") vs with Some v => negb (text_eqb v (u "true")) | None => true end) eqn:R;
    [|exact K].
  rewrite filter_none; [now rewrite app_nil_r|]. intros x Hx.
  destruct Sch as [I|I].
  - exfalso. apply dict_get_NoDup in I; [|assumption]. rewrite I in P.
    destruct (dict_get (u "preserve_order") vs) as [v|]; [|tauto].
    apply escaped_decodes in P. assert (D : decodes (u "true") (u "true")) by (repeat constructor; discriminate).
    destruct (decodes_prefix _ _ P _ _ [] [] D eq_refl) as (_ & -> & _). discriminate.
  - apply dict_get_In in Eo. specialize (I _ Eo). rewrite <- K in Hx. apply I in Hx.
    destruct (text_mem_spec x canonical); [reflexivity|tauto].
Qed.

Lemma token_bytes os name fs vs s : Forall2 written fs vs -> plain os (name, fs) ->
  is_name name -> Forall (fun kb => is_name (fst kb)) fs -> Forall (fun kb => Forall fine (snd kb)) fs ->
  st_name s = name -> st_fields s = vs ->
  ctoken_string (ctok enc8 (name, fs)) os = flat_map enc8 (token_string (to_token s) os) /\
  Forall fine (token_string (to_token s) os).
Proof.
  intros W Pl Hn Hk Fi En Ev.
  assert (Ord := order_agrees os name fs vs W Pl Fi).
  unfold ctoken_string, token_string. rewrite Ord.
  replace (effective_order (to_token s) os) with (effective_order (st_like name vs) os)
    by (unfold effective_order, st_like, to_token; cbn; now rewrite En, Ev).
  rewrite ctok_name. cbn [to_token tk_name tk_members]. rewrite En, Ev.
  set (o := effective_order (st_like name vs) os). clearbody o. clear Ord.
  rewrite !flat_map_app.
  assert (An := name_ascii name Hn). rewrite (bytes_ascii name An).
  assert (Fld : forall k b v, dict_get k fs = Some b -> dict_get k vs = Some v ->
    u " " ++ k ++ u ": """ ++ flat_map enc8 b ++ u """" = flat_map enc8 (format_field k v) /\
    Forall fine (format_field k v)).
  { intros k b v Eb Evv. pose proof (written_get fs vs k W) as P. rewrite Eb, Evv in P.
    assert (Ak : ascii k).
    { apply dict_get_In in Eb. rewrite Forall_forall in Hk. apply name_ascii. exact (Hk _ Eb). }
    assert (Fb : Forall fine b).
    { apply dict_get_In in Eb. rewrite Forall_forall in Fi. exact (Fi _ Eb). }
    apply escaped_fun in P. subst b. unfold format_field. rewrite !flat_map_app, (bytes_ascii k Ak).
    split; [reflexivity|]. rewrite !Forall_app.
    split; [apply ascii_fine; repeat constructor|]. split; [now apply ascii_fine|].
    split; [apply ascii_fine; repeat constructor|]. split; [exact Fb|apply ascii_fine; repeat constructor]. }
  assert (All : flat_map (fun key => match dict_get key (c_members (ctok enc8 (name, fs))) with
                  | Some v => u " " ++ key ++ u ": """ ++ v ++ u """" | None => [] end) o
              = flat_map enc8 (flat_map (fun key => match dict_get key vs with
                  | Some v => format_field key v | None => [] end) o) /\
              Forall fine (flat_map (fun key => match dict_get key vs with
                  | Some v => format_field key v | None => [] end) o)).
  { destruct Pl as (ND & _). cbn [snd] in ND.
    induction o as [|k o [IH1 IH2]]; [split; [reflexivity|constructor]|]. cbn [flat_map].
    rewrite flat_map_app, IH1. rewrite ctok_get by assumption.
    pose proof (written_get fs vs k W) as P.
    destruct (dict_get k fs) as [b|] eqn:Eb, (dict_get k vs) as [v|] eqn:Evv; try tauto; cbn [option_map].
    destruct (Fld k b v Eb Evv) as [F1 F2]. rewrite F1. split; [reflexivity|]. now apply Forall_app. }
  destruct All as [A1 A2]. rewrite A1. split; [now rewrite <- app_assoc|].
  rewrite !Forall_app.
  split; [now apply ascii_fine|]. split; [apply ascii_fine; repeat constructor|]. split; [exact A2|apply ascii_fine; repeat constructor].
Qed.

(** * The whole stream *)
Lemma raw_facts t ts : stream_raw t ts -> Forall fine t ->
  Forall (fun r => is_name (fst r) /\ Forall (fun kb => is_name (fst kb)) (snd r) /\
                   Forall (fun kb => Forall fine (snd kb)) (snd r)) ts.
Proof.
  induction 1 as [n|n name body fs rest ts Hn Hf Hs IH]; intros F; [constructor|].
  rewrite !Forall_app in F. destruct F as (_ & (_ & _ & Fb & _) & Fr). constructor; [|auto]. cbn [fst snd].
  split; [assumption|]. clear -Hf Fb.
  induction Hf as [m|m key b rest fs Hk Hb Hf IH]; [split; constructor|].
  rewrite !Forall_app in Fb. destruct Fb as (_ & _ & _ & Fb & _ & Fr). destruct (IH Fr). split; constructor; auto.
Qed.

Lemma trail_space (strs : list text) : strs <> [] ->
  flat_map (fun s => s ++ u " ") strs = join [SP] strs ++ [SP].
Proof.
  induction strs as [|s strs IH]; [congruence|]. intros _. cbn [flat_map join].
  destruct strs as [|s2 strs]; [cbn; now rewrite app_nil_r|]. rewrite IH by discriminate. now rewrite <- !app_assoc.
Qed.
Lemma join_bytes (strs : list text) : flat_map enc8 (join [SP] strs) = join [SP] (map (flat_map enc8) strs).
Proof.
  induction strs as [|s strs IH]; [reflexivity|]. cbn [join map]. destruct strs as [|s2 strs]; [reflexivity|].
  cbn [map] in *. rewrite !flat_map_app, IH. reflexivity.
Qed.
Lemma join_fine (strs : list text) : Forall (Forall fine) strs -> Forall fine (join [SP] strs).
Proof.
  induction 1 as [|s strs H Hs IH]; [constructor|]. cbn [join]. destruct strs; [assumption|].
  rewrite !Forall_app. repeat split; auto. repeat constructor. now apply fine_ascii.
Qed.
Definition closed (s : text) : Prop := ~ begins_blank s /\ ~ ends_blank s /\ s <> [].
Lemma join_closed (strs : list text) : strs <> [] -> Forall closed strs -> closed (join [SP] strs).
Proof.
  intros N. induction 1 as [|s strs (B & E & Ns) Hs IH]; [congruence|]. cbn [join].
  destruct strs as [|s2 strs]; [split; auto|]. destruct IH as (B' & E' & N'); [discriminate|].
  set (j := join [SP] (s2 :: strs)) in *. clearbody j. repeat split.
  - intros (c & r & X & Y). destruct s as [|z s]; [congruence|]. cbn in X. injection X as -> _. apply B. now exists c, s.
  - intros (r & c & X & Y). destruct (exists_last N') as (j' & z & ->). rewrite !app_assoc in X.
    apply app_inj_tail in X as [_ ->]. apply E'. now exists j', c.
  - intros X. apply app_eq_nil in X as [X _]. congruence.
Qed.
Lemma token_closed s os : is_name (st_name s) -> closed (token_string (to_token s) os).
Proof.
  intros [Hn Hl]. unfold token_string. cbn [to_token tk_name]. destruct (st_name s) as [|c k]; [congruence|].
  repeat split.
  - intros (x & r & X & Y). cbn in X. injection X as -> _. inversion Hl; subst. unfold letter, blank in *. lia.
  - intros (r & x & X & Y). rewrite !app_assoc in X.
    match type of X with ?a ++ [SP; RBRACE] = _ => replace (a ++ [SP; RBRACE]) with ((a ++ [SP]) ++ [RBRACE]) in X by (now rewrite <- app_assoc) end.
    apply app_inj_tail in X as [_ <-]. unfold blank, RBRACE in Y. lia.
  - discriminate.
Qed.
Lemma closed_bytes s : Forall fine s -> closed s -> closed (flat_map enc8 s).
Proof.
  intros F (B & E & N).
  assert (Hi : forall c, fine c -> (c < 128)%N /\ enc8 c = [c] \/ (128 <= c)%N /\ Forall (fun b => 128 <= b)%N (enc8 c) /\ enc8 c <> []).
  { intros c Fc. destruct (N.lt_ge_cases c 128) as [L|L].
    - left. split; auto. unfold enc8, utf8_char. now replace (c <? 128)%N with true by lia.
    - right. split; auto. unfold enc8. unfold fine in Fc. destruct (utf8_char c) as [b|] eqn:U; [|congruence].
      pose proof (utf8_char_pos c b U) as Lb. split; [|destruct b; cbn in Lb; [lia|discriminate]].
      revert U. unfold utf8_char. replace (c <? 128)%N with false by lia.
      destruct (c <? 2048)%N. { intros U. apply some_inj in U. subst b. repeat constructor; lia. }
      destruct (_ && _)%bool; [discriminate|].
      destruct (c <? 65536)%N. { intros U. apply some_inj in U. subst b. repeat constructor; lia. }
      destruct (c <? 1114112)%N; [|discriminate]. intros U. apply some_inj in U. subst b. repeat constructor; lia. }
  split; [|split].
  - destruct s as [|c s]; [congruence|]. inversion F as [|? ? Fc Fs]; subst. cbn [flat_map].
    intros (x & r & X & Y). destruct (Hi c Fc) as [(L & Ec)|(L & Fb & Ne)].
    + rewrite Ec in X. cbn in X. injection X as -> _. apply B. now exists x, s.
    + destruct (enc8 c) as [|y ys]; [congruence|]. cbn in X. injection X as -> _. inversion Fb; subst. unfold blank in Y. lia.
  - destruct (exists_last N) as (s' & c & ->). apply Forall_app in F as [_ Fc]. inversion Fc as [|? ? Fc' _]; subst.
    rewrite flat_map_app. cbn [flat_map]. rewrite app_nil_r. intros (r & x & X & Y).
    destruct (Hi c Fc') as [(L & Ec)|(L & Fb & Ne)].
    + rewrite Ec in X. apply app_inj_tail in X as [_ ->]. apply E. now exists s', x.
    + destruct (exists_last Ne) as (ys & y & Ey). rewrite Ey in X, Fb. rewrite app_assoc in X.
      apply app_inj_tail in X as [_ ->]. apply Forall_app in Fb as [_ Fb]. inversion Fb; subst. unfold blank in Y. lia.
  - destruct s as [|c s]; [congruence|]. inversion F as [|? ? Fc Fs]; subst. cbn [flat_map].
    destruct (Hi c Fc) as [(_ & ->)|(_ & _ & Ne)]; [discriminate|]. intros X. apply app_eq_nil in X as [X _]. congruence.
Qed.

Theorem reorder_agrees os t bs ts : encode t = Some bs -> t <> [] ->
  stream_raw t ts -> Forall (plain os) ts ->
  exists out bo, reorder os t = Ok out /\ encode out = Some bo /\ reorder_cpp os bs = Ret bo.
Proof.
  intros E Hn Hs Pl.
  assert (Ft : Forall fine t) by (now apply encode_iff in E).
  destruct (raw_stream t ts Hs (Forall_impl _ (fun r H => proj1 H) Pl) 0) as (sts & S1 & S2).
  pose proof (raw_facts t ts Hs Ft) as RF.
  set (strs := map (fun s => token_string (to_token s) os) sts).
  assert (TB : map (fun r => ctoken_string (ctok enc8 r) os) ts = map (flat_map enc8) strs /\
               Forall (Forall fine) strs /\ Forall closed strs).
  { unfold strs. clear E Hn Hs Ft S1 strs. induction S2 as [|[name fs] s ts sts [En F2] _ IH].
    - repeat split; constructor.
    - inversion Pl as [|? ? P1 P2]; subst. inversion RF as [|? ? (R1 & R2 & R3) R4]; subst.
      destruct (IH P2 R4) as (I1 & I2 & I3). cbn [fst snd] in *.
      destruct (token_bytes os name fs (st_fields s) s) as [T1 T2]; auto.
      { apply written_fields; [assumption|]. exact (proj1 (proj2 P1)). }
      cbn [map]. rewrite T1, I1. repeat split; auto. constructor; auto. apply token_closed. now rewrite <- En. }
  destruct TB as (T1 & T2 & T3).
  exists (output os sts), (flat_map enc8 (output os sts)). split.
  { unfold reorder. rewrite (reorder_with_spans_ok os t sts Hn S1). reflexivity. }
  assert (Fo : Forall fine (output os sts)) by (apply join_fine; exact T2).
  split; [apply encode_iff; auto|].
  unfold reorder_cpp. rewrite (proj1 (parse_cpp_utf8 t bs E) ts Hn Hs). cbn [cbind]. f_equal.
  rewrite (flat_map_concat_map _ (map (ctok enc8) ts)), map_map.
  replace (map (fun r => ctoken_string (ctok enc8 r) os ++ u " ") ts)
    with (map (fun s => s ++ u " ") (map (flat_map enc8) strs))
    by (rewrite <- T1, map_map; reflexivity).
  rewrite <- flat_map_concat_map.
  destruct strs as [|s0 strs0] eqn:Es.
  { unfold output. fold strs. rewrite Es. reflexivity. }
  rewrite <- Es in *. rewrite trail_space by (rewrite Es; discriminate).
  unfold output. fold strs. rewrite join_bytes.
  assert (C : closed (join [SP] (map (flat_map enc8) strs))).
  { rewrite <- join_bytes. apply closed_bytes; [exact Fo|]. apply join_closed; [rewrite Es; discriminate|exact T3]. }
  destruct C as (C1 & C2 & C3).
  apply (trim_is _ [] _ [SP]); auto. repeat constructor.
Qed.
