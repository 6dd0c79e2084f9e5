(** Serialisation, reordering and spans. *)
From Coq Require Import List NArith Bool Lia Arith ZifyBool ZifyNat ZifyN String Permutation.
From Verif Require Import Text TextFacts TokenModel TokenSpec TokenProofs.
Import ListNotations.
Local Open Scope list_scope.

(** * Escaping *)
Lemma escape_cons c v :
  escape_value (c :: v)
  = (if (c =? QUOTE)%N then [BSL; QUOTE] else if (c =? BSL)%N then [BSL; BSL] else [c]) ++ escape_value v.
Proof.
  unfold escape_value, replace_char. cbn [flat_map]. rewrite flat_map_app. f_equal.
  destruct (N.eqb_spec c BSL) as [->|H1].
  - reflexivity.
  - cbn [flat_map]. rewrite app_nil_r. destruct (c =? QUOTE)%N eqn:E; reflexivity.
Qed.

Lemma escape_escaped v : escaped v (escape_value v).
Proof.
  induction v as [|c v IH]; [constructor|]. rewrite escape_cons.
  destruct (N.eqb_spec c QUOTE) as [->|H1]; [now constructor|].
  destruct (N.eqb_spec c BSL) as [->|H2]; [now constructor|].
  now constructor.
Qed.
Lemma escaped_fun v b : escaped v b -> b = escape_value v.
Proof.
  induction 1 as [|c v b H1 H2 H IH|v b H IH|v b H IH]; [reflexivity| | |]; rewrite escape_cons; subst.
  - unfold QUOTE, BSL. replace (c =? 34)%N with false by lia. now replace (c =? 92)%N with false by lia.
  - reflexivity.
  - reflexivity.
Qed.
Lemma escaped_decodes v b : escaped v b -> decodes b v.
Proof. induction 1; auto using decodes. Qed.
Lemma escape_decodes v : decodes (escape_value v) v.
Proof. apply escaped_decodes, escape_escaped. Qed.

(** A quoted body is self-delimiting. *)
Lemma decodes_prefix b v : decodes b v -> forall b' v' r r',
  decodes b' v' -> b ++ 34%N :: r = b' ++ 34%N :: r' -> b = b' /\ v = v' /\ r = r'.
Proof.
  induction 1 as [|c b v Hq Hb Hd IH|c b v Hc Hd IH|c b v Hq Hb Hd IH]; intros b' v' r r' H' E;
    inversion H' as [|c' b1 v1 Hq' Hb' Hd' |c' b1 v1 Hc' Hd'|c' b1 v1 Hq' Hb' Hd']; subst;
    cbn in E; try congruence; try solve [repeat split; congruence]; try (exfalso; injection E; intros; subst; tauto);
    (assert (E' : b ++ 34%N :: r = b1 ++ 34%N :: r') by congruence);
    (destruct (IH _ _ _ _ Hd' E') as (-> & -> & ->)); repeat split; congruence.
Qed.

(** * The fields a token emits *)
Definition emit_fields (order : list text) (ms : list (text * text)) : list (text * text) :=
  flat_map (fun k => match dict_get k ms with None => [] | Some v => [(k, v)] end) order.

Definition emitted (os : orders) (name : text) (fs : list (text * text)) : list (text * text) :=
  emit_fields (effective_order (Token name 0 0 (map fst fs) fs) os) fs.

Lemma token_string_emitted os t :
  token_string (to_token t) os
  = st_name t ++ [SP; LBRACE]
      ++ flat_map (fun kv => format_field (fst kv) (snd kv)) (emitted os (st_name t) (st_fields t))
      ++ [SP; RBRACE].
Proof.
  unfold token_string, emitted, to_token; cbn. do 4 f_equal.
  set (o := effective_order _ _).
  change (effective_order {| tk_name := st_name t; tk_start := 0; tk_end := 0;
     tk_order := map fst (st_fields t); tk_members := st_fields t |} os) with o.
  induction o as [|k o IH]; [reflexivity|]. cbn [flat_map emit_fields].
  unfold emit_fields in *. cbn [flat_map]. rewrite flat_map_app, <- IH. f_equal.
  destruct (dict_get k (st_fields t)); [cbn; now rewrite app_nil_r|reflexivity].
Qed.

Lemma canonical_fields_iff fs t :
  canonical_fields fs t <-> t = flat_map (fun kv => format_field (fst kv) (snd kv)) fs.
Proof.
  split.
  - induction 1 as [|k v fs b t He Hc IH]; [reflexivity|]. cbn [flat_map fst snd]. rewrite <- IH.
    apply escaped_fun in He as ->. unfold format_field. rewrite <- !app_assoc. reflexivity.
  - intros ->. induction fs as [|[k v] fs IH]; [constructor|]. cbn [flat_map fst snd].
    unfold format_field. rewrite <- !app_assoc.
    change ([SP]) with (u " "). rewrite <- u_colon, <- u_quote.
    constructor; [apply escape_escaped|exact IH].
Qed.
Lemma canonical_token_string os t :
  canonical_token (st_name t) (emitted os (st_name t) (st_fields t)) (token_string (to_token t) os).
Proof.
  exists (flat_map (fun kv => format_field (fst kv) (snd kv)) (emitted os (st_name t) (st_fields t))).
  split; [now apply canonical_fields_iff|]. apply token_string_emitted.
Qed.
Lemma canonical_token_fun name fs t t' : canonical_token name fs t -> canonical_token name fs t' -> t = t'.
Proof.
  intros (b & Hb & ->) (b' & Hb' & ->). apply canonical_fields_iff in Hb, Hb'. congruence.
Qed.

(** * Dict facts about the emitted fields *)
Lemma emit_self (fs : list (text * text)) : NoDup (map fst fs) -> emit_fields (map fst fs) fs = fs.
Proof.
  intros ND. unfold emit_fields.
  assert (G : forall l, (forall kv, In kv l -> In kv fs) ->
    flat_map (fun k => match dict_get k fs with None => [] | Some v => [(k, v)] end) (map fst l) = l).
  { induction l as [|[k v] l IH]; intros Hin; [reflexivity|]. cbn [map flat_map fst].
    rewrite (dict_get_NoDup k v fs ND) by (apply Hin; now left). cbn.
    f_equal. apply IH. intros kv H. apply Hin. now right. }
  apply G; auto.
Qed.
Lemma emit_app a b ms : emit_fields (a ++ b) ms = emit_fields a ms ++ emit_fields b ms.
Proof. apply flat_map_app. Qed.

Lemma emit_filter (ms : list (text * text)) (p : text -> bool) :
  NoDup (map fst ms) ->
  emit_fields (filter p (map fst ms)) ms = filter (fun kv => p (fst kv)) ms.
Proof.
  intros ND. unfold emit_fields.
  assert (G : forall l, (forall kv, In kv l -> In kv ms) ->
    flat_map (fun k => match dict_get k ms with None => [] | Some v => [(k, v)] end) (filter p (map fst l))
    = filter (fun kv => p (fst kv)) l).
  { induction l as [|[k v] l IH]; intros Hin; [reflexivity|]. cbn [map filter fst].
    destruct (p k).
    - cbn [flat_map]. rewrite (dict_get_NoDup k v ms ND) by (apply Hin; now left). cbn.
      f_equal. apply IH. intros kv H. apply Hin. now right.
    - apply IH. intros kv H. apply Hin. now right. }
  apply G; auto.
Qed.

Lemma kept_filter {A} (p : A -> bool) (P : A -> Prop) l :
  (forall x, In x l -> (p x = true <-> P x)) -> kept P l (filter p l).
Proof.
  induction l as [|x l IH]; intros H; cbn; [constructor|].
  destruct (p x) eqn:E; constructor; try (apply IH; intros; apply H; now right).
  - apply H; [now left|assumption].
  - rewrite <- H by (now left). congruence.
Qed.
Lemma kept_fun {A} (P : A -> Prop) l a : kept P l a -> forall b, kept P l b -> a = b.
Proof.
  induction 1; intros b Hb; inversion Hb; subst; auto; try tauto.
  f_equal. auto.
Qed.

Lemma emit_keys keys ms : map fst (emit_fields keys ms)
  = filter (fun k => match dict_get k ms with None => false | _ => true end) keys.
Proof.
  induction keys as [|k keys IH]; [reflexivity|]. cbn. rewrite map_app.
  unfold emit_fields in IH. rewrite IH. destruct (dict_get k ms); reflexivity.
Qed.
Lemma emit_in keys ms k v : In (k, v) (emit_fields keys ms) <-> In k keys /\ dict_get k ms = Some v.
Proof.
  unfold emit_fields. rewrite in_flat_map. split.
  - intros (x & Hx & H). destruct (dict_get x ms) eqn:E; [|destruct H]. destruct H as [[= -> ->]|[]]. auto.
  - intros (Hk & E). exists k. rewrite E. split; auto. now left.
Qed.

Lemma dict_get_schema name (sc : schema) keys : NoDup (map fst sc) -> In (name, keys) sc ->
  dict_get name sc = Some keys.
Proof. apply dict_get_NoDup. Qed.

Lemma preserve_bool (fs : list (text * text)) : NoDup (map fst fs) ->
  match dict_get (u "preserve_order") fs with None => true | Some v => negb (text_eqb v (u "true")) end = false
  <-> In (u "preserve_order", u "true") fs.
Proof.
  intros ND. split.
  - destruct (dict_get (u "preserve_order") fs) as [v|] eqn:E; [|discriminate].
    destruct (text_eqb_spec v (u "true")); [|discriminate]. subst. intros _. now apply dict_get_In.
  - intros H. rewrite (dict_get_NoDup _ _ _ ND H). now rewrite text_eqb_refl.
Qed.

Lemma emitted_keeps os name fs : NoDup (map fst fs) -> keeps_order os name fs -> emitted os name fs = fs.
Proof.
  intros ND HK. unfold emitted, effective_order; cbn [tk_name tk_order tk_members].
  destruct (dict_get name os) as [keys|] eqn:E; [|now apply emit_self].
  destruct HK as [HP|HN].
  - apply preserve_bool in HP; [|assumption]. rewrite HP. now apply emit_self.
  - exfalso. apply HN. apply dict_get_In in E. apply in_map_iff. now exists (name, keys).
Qed.

Lemma emitted_reorders os name fs keys : good_schema os -> NoDup (map fst fs) ->
  ~ keeps_order os name fs -> In (name, keys) os ->
  emitted os name fs
  = emit_fields keys fs ++ filter (fun kv => negb (text_mem (fst kv) keys)) fs.
Proof.
  intros [ND1 _] ND HK HI. unfold emitted, effective_order; cbn [tk_name tk_order tk_members].
  rewrite (dict_get_schema _ _ _ ND1 HI).
  destruct (match dict_get (u "preserve_order") fs with None => true | Some v => negb (text_eqb v (u "true")) end) eqn:E.
  - rewrite emit_app. f_equal. now rewrite emit_filter.
  - exfalso. apply HK. left. now apply preserve_bool.
Qed.

Lemma emitted_reordered os name fs : good_schema os -> NoDup (map fst fs) ->
  reordered os name fs (emitted os name fs).
Proof.
  intros G ND. split; [now apply emitted_keeps|].
  intros HK keys HI. rewrite (emitted_reorders os name fs keys) by assumption.
  eexists _, _. split; [reflexivity|]. split.
  - rewrite emit_keys. apply kept_filter. intros k _. unfold mentions.
    destruct (dict_get k fs) eqn:E.
    + apply dict_get_In in E. split; auto. intros _. apply in_map_iff. now exists (k, t).
    + apply dict_get_None in E. split; [discriminate|tauto].
  - apply kept_filter. intros kv _. destruct (text_mem_spec (fst kv) keys); cbn; split; congruence || tauto.
Qed.

Lemma NoDup_pairs {A B} (l : list (A * B)) : NoDup (map fst l) -> NoDup l.
Proof. apply NoDup_map_inv. Qed.

Lemma pair_text_dec (a b : text * text) : {a = b} + {a <> b}.
Proof. decide equality; apply text_eq_dec. Qed.

Lemma keeps_order_dec os name fs : {keeps_order os name fs} + {~ keeps_order os name fs}.
Proof.
  unfold keeps_order.
  destruct (in_dec pair_text_dec (u "preserve_order", u "true") fs); [left; auto|].
  destruct (in_dec text_eq_dec name (map fst os)); [right; tauto|left; auto].
Qed.

Lemma emitted_perm os name fs : good_schema os -> NoDup (map fst fs) ->
  Permutation fs (emitted os name fs).
Proof.
  intros G ND. destruct (keeps_order_dec os name fs) as [HK|HK].
  { now rewrite emitted_keeps. }
  assert (HI : exists keys, In (name, keys) os).
  { destruct (in_dec text_eq_dec name (map fst os)) as [HI|HI]; [|exfalso; apply HK; now right].
    apply in_map_iff in HI as ((n, keys) & E & HI). cbn in E. subst. eauto. }
  destruct HI as (keys & HI).
  rewrite (emitted_reorders os name fs keys) by assumption.
  assert (NDk : NoDup keys).
  { destruct G as [_ G]. rewrite Forall_forall in G. exact (G _ HI). }
  apply NoDup_Permutation.
  - now apply NoDup_pairs.
  - apply NoDup_pairs. rewrite map_app, emit_keys.
    assert (NDf : NoDup (map fst (filter (fun kv => negb (text_mem (fst kv) keys)) fs))).
    { clear -ND. induction fs as [|[k v] fs IH]; [constructor|]. cbn in ND |- *. inversion ND; subst.
      destruct (negb (text_mem k keys)); [|auto]. cbn. constructor; auto.
      intros H. apply in_map_iff in H as ((k', v') & E & H). apply filter_In in H as [H _]. cbn in E; subst.
      apply H1. apply in_map_iff. now exists (k, v'). }
    assert (NDe : NoDup (filter (fun k => match dict_get k fs with None => false | _ => true end) keys))
      by (now apply NoDup_filter).
    clear -NDf NDe. revert NDe. set (l1 := filter _ keys).
    assert (S1 : forall k, In k l1 -> In k keys) by (intros k H; now apply filter_In in H).
    clearbody l1. induction l1 as [|k l1 IH]; intros NDe; [exact NDf|].
    inversion NDe; subst. cbn. constructor.
    + rewrite in_app_iff. intros [H|H]; [contradiction|].
      apply in_map_iff in H as ((k', v') & E & H). apply filter_In in H as [_ H]. cbn in E, H; subst.
      destruct (text_mem_spec k keys); [discriminate|]. apply n. apply S1. now left.
    + apply IH; auto. intros; apply S1; now right.
  - intros [k v]. rewrite in_app_iff, emit_in, filter_In. cbn [fst].
    split.
    + intros H. destruct (text_mem_spec k keys); [left|right; auto].
      split; auto. now apply dict_get_NoDup.
    + intros [[_ H]|[H _]]; [now apply dict_get_In|assumption].
Qed.

Lemma emitted_NoDup os name fs : good_schema os -> NoDup (map fst fs) ->
  NoDup (map fst (emitted os name fs)).
Proof.
  intros G ND. eapply Permutation_NoDup; [|exact ND]. apply Permutation_map. now apply emitted_perm.
Qed.

Lemma reordered_fun os name fs a b : good_schema os -> NoDup (map fst fs) ->
  Permutation fs a -> Permutation fs b -> reordered os name fs a -> reordered os name fs b -> a = b.
Proof.
  intros G ND Pa Pb [Ka Ra] [Kb Rb]. destruct (keeps_order_dec os name fs) as [HK|HK].
  { rewrite (Ka HK), (Kb HK). reflexivity. }
  assert (HI : exists keys, In (name, keys) os).
  { destruct (in_dec text_eq_dec name (map fst os)) as [HI|HI]; [|exfalso; apply HK; now right].
    apply in_map_iff in HI as ((n, keys) & E & HI). cbn in E. subst. eauto. }
  destruct HI as (keys & HI).
  destruct (Ra HK keys HI) as (fa & ba & -> & Fa & Ba).
  destruct (Rb HK keys HI) as (fb & bb & -> & Fb & Bb).
  rewrite (kept_fun _ _ _ Ba _ Bb). f_equal.
  pose proof (kept_fun _ _ _ Fa _ Fb) as E.
  assert (Sa : forall kv, In kv fa -> In kv fs).
  { intros kv H. eapply Permutation_in; [apply Permutation_sym; exact Pa|]. apply in_or_app; now left. }
  assert (Sb : forall kv, In kv fb -> In kv fs).
  { intros kv H. eapply Permutation_in; [apply Permutation_sym; exact Pb|]. apply in_or_app; now left. }
  clear -ND Sa Sb E. revert fb E Sb. induction fa as [|[k v] fa IH]; destruct fb as [|[k' v'] fb]; cbn; intros E Sb;
    try discriminate; auto.
  injection E as -> E. f_equal.
  - f_equal. pose proof (dict_get_NoDup k' v fs ND (Sa _ (or_introl eq_refl))).
    pose proof (dict_get_NoDup k' v' fs ND (Sb _ (or_introl eq_refl))). congruence.
  - apply IH; [intros kv H; apply Sa; now right|exact E|intros kv H; apply Sb; now right].
Qed.

(** Reordering is stable on what it emitted. *)
Lemma emitted_idem os name fs : good_schema os -> NoDup (map fst fs) ->
  emitted os name (emitted os name fs) = emitted os name fs.
Proof.
  intros G ND. pose proof (emitted_perm os name fs G ND) as P.
  pose proof (emitted_NoDup os name fs G ND) as ND'.
  destruct (keeps_order_dec os name fs) as [HK|HK].
  { now rewrite (emitted_keeps os name fs ND HK), (emitted_keeps os name fs ND HK). }
  assert (HK' : ~ keeps_order os name (emitted os name fs)).
  { intros [H|H]; apply HK; [left|now right]. eapply Permutation_in; [apply Permutation_sym, P|exact H]. }
  assert (HI : exists keys, In (name, keys) os).
  { destruct (in_dec text_eq_dec name (map fst os)) as [HI|HI]; [|exfalso; apply HK; now right].
    apply in_map_iff in HI as ((n, keys) & E & HI). cbn in E. subst. eauto. }
  destruct HI as (keys & HI).
  rewrite (emitted_reorders os name (emitted os name fs) keys) by assumption.
  assert (EG : forall k, dict_get k (emitted os name fs) = dict_get k fs).
  { intros k. destruct (dict_get k fs) as [v|] eqn:E.
    - apply dict_get_NoDup; [assumption|]. eapply Permutation_in; [exact P|]. now apply dict_get_In.
    - apply dict_get_None. apply dict_get_None in E. intros H. apply E.
      eapply Permutation_in; [|exact H]. apply Permutation_map. now apply Permutation_sym. }
  assert (EE : emit_fields keys (emitted os name fs) = emit_fields keys fs).
  { unfold emit_fields. apply flat_map_ext. intros k. now rewrite EG. }
  rewrite EE. rewrite (emitted_reorders os name fs keys) by assumption. f_equal.
  rewrite filter_app.
  assert (F0 : filter (fun kv => negb (text_mem (fst kv) keys)) (emit_fields keys fs) = []).
  { assert (S1 : forall kv, In kv (emit_fields keys fs) -> In (fst kv) keys).
    { intros [k v] H. now apply emit_in in H. }
    clear EE. induction (emit_fields keys fs) as [|kv l IH]; [reflexivity|]. cbn.
    destruct (text_mem_spec (fst kv) keys) as [|n]; cbn; [|exfalso; apply n, S1; now left].
    apply IH. intros; apply S1; now right. }
  rewrite F0. cbn. clear.
  induction fs as [|kv fs IH]; [reflexivity|]. cbn.
  destruct (negb (text_mem (fst kv) keys)) eqn:E; cbn; [rewrite E; congruence|assumption].
Qed.

(** * Serialised tokens are tokens of the grammar *)
Lemma fields_text_drop_space x fs : fields_text (32%N :: x) fs -> fields_text x fs.
Proof.
  intros H. inversion H as [n E|n key b v rest fs' Hk Hd Hf E]; subst.
  - destruct n; [discriminate|]. cbn in E. injection E as <-. constructor.
  - destruct n as [|n].
    + pose proof (name_not_space key Hk (u ": """ ++ b ++ u """" ++ rest)) as S.
      assert (E' : key ++ u ": """ ++ b ++ u """" ++ rest = 32%N :: x) by exact E.
      rewrite E' in S. cbn in S. unfold SP in S. congruence.
    + cbn [repeat app] in E. injection E as <-. now constructor.
Qed.

Lemma fields_text_canonical fs : Forall (fun kv => is_name (fst kv)) fs ->
  fields_text (flat_map (fun kv => format_field (fst kv) (snd kv)) fs ++ [32%N]) fs.
Proof.
  induction 1 as [|[k v] fs Hk Hf IH].
  - exact (ft_nil 1).
  - cbn [flat_map fst snd]. unfold format_field. rewrite <- !app_assoc.
    change [SP] with (repeat 32%N 1). rewrite <- u_colon, <- u_quote.
    constructor; auto. apply escape_decodes.
Qed.

Lemma token_text_canonical name fs t :
  is_name name -> Forall (fun kv => is_name (fst kv)) fs -> NoDup (map fst fs) ->
  canonical_token name fs t -> token_text t name fs.
Proof.
  intros Hn Hk ND (b & Hb & ->). apply canonical_fields_iff in Hb as ->.
  pose proof (fields_text_canonical fs Hk) as HF.
  set (b := flat_map _ fs) in *.
  assert (Hb : exists x, b ++ [32%N] = 32%N :: x).
  { unfold b. destruct fs as [|[k v] fs']; cbn; eauto. }
  destruct Hb as (x & Ex). rewrite Ex in HF. apply fields_text_drop_space in HF.
  exists x. repeat split; auto; try apply Hn.
  change (u " { ") with (u " {" ++ [32%N]). rewrite <- !app_assoc.
  change (u " }") with ([32%N] ++ u "}").
  rewrite (app_assoc b), Ex. reflexivity.
Qed.

Lemma stream_facts o t ts : stream o t ts ->
  Forall (fun s => is_name (st_name s) /\ Forall (fun kv => is_name (fst kv)) (st_fields s)
                   /\ NoDup (map fst (st_fields s))) ts.
Proof.
  induction 1 as [|o n t name fs rest ts (body & Et & Hn & Hf & ND) Hs IH]; constructor; auto.
  cbn. repeat split; auto; try apply Hn.
  clear -Hf. induction Hf; constructor; auto.
Qed.

(** * The serialisation loop *)
Fixpoint place (o : nat) (os : orders) (ts : list stoken) : list stoken :=
  match ts with
  | [] => []
  | t :: r =>
      let len := List.length (token_string (to_token t) os) in
      SToken (st_name t) o (o + len) (emitted os (st_name t) (st_fields t)) :: place (S (o + len)) os r
  end.

Lemma serialize_loop_spec os ts : forall ser spans off,
  ser <> [] ->
  serialize_loop os (map to_token ts) ser spans off
  = (ser ++ map (fun t => token_string (to_token t) os) ts,
     spans ++ map (fun s => (st_from s, st_to s)) (place (S off) os ts)).
Proof.
  induction ts as [|t ts IH]; intros ser spans off Hne; cbn [map serialize_loop place].
  - now rewrite !app_nil_r.
  - destruct ser as [|x y]; [congruence|]. rewrite IH by discriminate.
    rewrite <- !app_assoc. reflexivity.
Qed.
Lemma serialize_loop_top os ts :
  serialize_loop os (map to_token ts) [] [] 0
  = (map (fun t => token_string (to_token t) os) ts, map (fun s => (st_from s, st_to s)) (place 0 os ts)).
Proof.
  destruct ts as [|t ts]; [reflexivity|]. cbn [map serialize_loop place].
  rewrite serialize_loop_spec by discriminate. reflexivity.
Qed.

Definition output (os : orders) (ts : list stoken) : text :=
  join [SP] (map (fun t => token_string (to_token t) os) ts).

Lemma reorder_with_spans_ok os t ts : t <> [] -> stream 0 t ts ->
  reorder_with_spans os t = Ok (output os ts, map (fun s => (st_from s, st_to s)) (place 0 os ts)).
Proof.
  intros Hne Hs. unfold reorder_with_spans. rewrite (parse_complete t ts Hne Hs). cbn [bind].
  rewrite serialize_loop_top. reflexivity.
Qed.

Lemma stream_shift o t ts : stream o t ts -> forall k,
  stream (o + k) t (map (fun s => SToken (st_name s) (st_from s + k) (st_to s + k) (st_fields s)) ts).
Proof.
  induction 1 as [|o n t name fs rest ts Ht Hs IH]; intros k; [constructor|].
  cbn [map st_name st_from st_to st_fields].
  replace (o + n + List.length t + k) with (o + k + n + List.length t) by lia.
  replace (o + n + k) with (o + k + n) by lia.
  constructor; [assumption|].
  replace (o + k + n + List.length t) with (o + n + List.length t + k) by lia. apply IH.
Qed.

Lemma stream_space o t ts : stream (S o) t ts -> stream o (32%N :: t) ts.
Proof.
  intros H. inversion H as [o' n|o' n t' name fs rest ts' Ht Hs]; subst.
  - exact (stream_nil o (S n)).
  - change (32%N :: repeat 32%N n ++ t' ++ rest) with (repeat 32%N (S n) ++ t' ++ rest).
    replace (S o + n) with (o + S n) by lia. constructor; [assumption|].
    replace (o + S n + List.length t') with (S o + n + List.length t') by lia. assumption.
Qed.

Lemma stream_output os ts : good_schema os ->
  Forall (fun s => is_name (st_name s) /\ Forall (fun kv => is_name (fst kv)) (st_fields s)
                   /\ NoDup (map fst (st_fields s))) ts ->
  forall o, stream o (output os ts) (place o os ts).
Proof.
  intros G. unfold output. induction 1 as [|t ts (Hn & Hk & ND) Hf IH]; intros o.
  - exact (stream_nil o 0).
  - cbn [map place].
    assert (Ht : token_text (token_string (to_token t) os) (st_name t) (emitted os (st_name t) (st_fields t))).
    { apply token_text_canonical; auto.
      - rewrite Forall_forall in Hk |- *. intros kv H. apply Hk.
        eapply Permutation_in; [apply Permutation_sym, emitted_perm|exact H]; auto.
      - now apply emitted_NoDup.
      - apply canonical_token_string. }
    destruct ts as [|t2 ts].
    + cbn [map join place].
      pose proof (stream_cons o 0 _ _ _ [] [] Ht (stream_nil _ 0)) as S.
      cbn [repeat app] in S. rewrite app_nil_r, Nat.add_0_r in S. exact S.
    + change (join [SP] (token_string (to_token t) os :: map (fun t0 => token_string (to_token t0) os) (t2 :: ts)))
        with (repeat 32%N 0 ++ token_string (to_token t) os ++
              32%N :: join [SP] (map (fun t0 => token_string (to_token t0) os) (t2 :: ts))).
      replace (SToken (st_name t) o (o + List.length (token_string (to_token t) os)) (emitted os (st_name t) (st_fields t)))
        with (SToken (st_name t) (o + 0) (o + 0 + List.length (token_string (to_token t) os)) (emitted os (st_name t) (st_fields t)))
        by (now rewrite Nat.add_0_r).
      constructor; [assumption|]. rewrite Nat.add_0_r. apply stream_space. apply IH.
Qed.

Lemma output_nonempty os ts : ts <> [] -> output os ts <> [].
Proof.
  destruct ts as [|t ts]; [congruence|]. intros _. unfold output. cbn [map].
  assert (token_string (to_token t) os <> []).
  { rewrite token_string_emitted. destruct (st_name t); discriminate. }
  destruct (map _ ts); cbn [join]; [assumption|]. intros HH. apply app_eq_nil in HH as [HH _]. congruence.
Qed.

(** * Reordering theorem *)
Theorem reorder_spec os t out spans : good_schema os ->
  reorder_with_spans os t = Ok (out, spans) ->
  exists ts ts', stream 0 t ts /\ stream 0 out ts' /\ spans = map (fun s => (st_from s, st_to s)) ts' /\
    Forall2 (fun a b => st_name a = st_name b /\ Permutation (st_fields a) (st_fields b) /\
                        reordered os (st_name a) (st_fields a) (st_fields b)) ts ts'.
Proof.
  intros G H. destruct (parse_cases t) as [(ts & Hne & Hs & E)|(f & E)].
  2:{ unfold reorder_with_spans in H. rewrite E in H. discriminate. }
  rewrite (reorder_with_spans_ok os t ts Hne Hs) in H. injection H as <- <-.
  exists ts, (place 0 os ts). pose proof (stream_facts _ _ _ Hs) as F.
  repeat split; auto.
  - now apply stream_output.
  - clear -F G. generalize 0. induction F as [|s ts (Hn & Hk & ND) F IH]; intros o; cbn [place]; constructor; auto.
    cbn. repeat split; auto.
    + now apply emitted_perm.
    + now apply emitted_keeps.
    + intros HK keys HI. now apply (emitted_reordered os (st_name s) (st_fields s) G ND).
Qed.

Lemma place_emitted_idem os ts : good_schema os ->
  Forall (fun s => is_name (st_name s) /\ Forall (fun kv => is_name (fst kv)) (st_fields s)
                   /\ NoDup (map fst (st_fields s))) ts ->
  forall o, map (fun t => token_string (to_token t) os) (place o os ts)
          = map (fun t => token_string (to_token t) os) ts.
Proof.
  intros G F. induction F as [|s ts (Hn & Hk & ND) F IH]; intros o; [reflexivity|].
  cbn [place map]. f_equal; [|apply IH].
  rewrite !token_string_emitted. cbn [st_name st_fields]. now rewrite emitted_idem.
Qed.

Theorem reorder_idempotent os t out : good_schema os ->
  reorder os t = Ok out -> out <> [] -> reorder os out = Ok out.
Proof.
  intros G H Hne. unfold reorder in H.
  destruct (parse_cases t) as [(ts & Hnt & Hs & E)|(f & E)].
  2:{ unfold reorder_with_spans in H. rewrite E in H. discriminate. }
  rewrite (reorder_with_spans_ok os t ts Hnt Hs) in H. cbn [bind] in H. injection H as <-.
  pose proof (stream_facts _ _ _ Hs) as F.
  unfold reorder. rewrite (reorder_with_spans_ok os _ (place 0 os ts) Hne (stream_output os ts G F 0)).
  cbn [bind]. f_equal. unfold output. now rewrite place_emitted_idem.
Qed.

Theorem reorder_output_empty os t out :
  reorder os t = Ok out -> (out = [] <-> exists n, t = repeat SP n).
Proof.
  intros H. unfold reorder in H.
  destruct (parse_cases t) as [(ts & Hnt & Hs & E)|(f & E)].
  2:{ unfold reorder_with_spans in H. rewrite E in H. discriminate. }
  rewrite (reorder_with_spans_ok os t ts Hnt Hs) in H. cbn [bind] in H. injection H as <-.
  split.
  - intros Ho. destruct ts as [|s ts].
    + inversion Hs; subst. now exists n.
    + exfalso. now apply (output_nonempty os (s :: ts)).
  - intros (n & ->). destruct ts as [|s ts]; [reflexivity|].
    assert (stream 0 (repeat SP n) []) by constructor.
    pose proof (stream_unique _ _ _ Hnt Hs H). discriminate.
Qed.

(** * Spans of a stream *)
Fixpoint ordered_from (o : nat) (spans : list (nat * nat)) (limit : nat) : Prop :=
  match spans with
  | [] => o <= limit
  | (a, b) :: r => o <= a /\ a < b /\ ordered_from b r limit
  end.

Lemma stream_ordered o t ts : stream o t ts ->
  ordered_from o (map (fun s => (st_from s, st_to s)) ts) (o + List.length t).
Proof.
  induction 1 as [o n|o n t name fs rest ts Ht Hs IH]; cbn [map ordered_from st_from st_to].
  - lia.
  - apply token_text_nonempty in Ht as Hn.
    assert (0 < List.length t) by (destruct t; [congruence|cbn; lia]).
    repeat split; try lia. rewrite !app_length, repeat_length.
    replace (o + (n + (List.length t + List.length rest))) with (o + n + List.length t + List.length rest) by lia.
    exact IH.
Qed.

Lemma stream_slices o t ts : stream o t ts -> forall pre, List.length pre = o ->
  Forall (fun s => token_text (slice (pre ++ t) (st_from s) (st_to s)) (st_name s) (st_fields s)) ts.
Proof.
  induction 1 as [o n|o n t name fs rest ts Ht Hs IH]; intros pre <-; constructor.
  - cbn [st_from st_to st_name st_fields].
    replace (List.length pre + n) with (List.length (pre ++ repeat 32%N n)) by (rewrite app_length, repeat_length; lia).
    rewrite (app_assoc pre), slice_app_mid. exact Ht.
  - specialize (IH (pre ++ repeat 32%N n ++ t)). rewrite <- !app_assoc in IH. apply IH.
    rewrite !app_length, repeat_length. lia.
Qed.

Lemma stream_gaps o t ts : stream o t ts -> forall p c, nth_error t p = Some c ->
  (exists s, In s ts /\ st_from s <= o + p < st_to s) \/ c = 32%N.
Proof.
  induction 1 as [o n|o n t name fs rest ts Ht Hs IH]; intros p c Hp.
  - right. apply nth_error_In in Hp. now apply repeat_spec in Hp.
  - destruct (lt_dec p n) as [Hlt|Hge].
    { right. rewrite nth_error_app1 in Hp by (now rewrite repeat_length).
      apply nth_error_In in Hp. now apply repeat_spec in Hp. }
    rewrite nth_error_app2 in Hp by (rewrite repeat_length; lia). rewrite repeat_length in Hp.
    destruct (lt_dec (p - n) (List.length t)) as [Hlt|Hge2].
    { left. eexists. split; [now left|]. cbn. lia. }
    rewrite nth_error_app2 in Hp by lia. apply IH in Hp as [(s & Hi & Hr)| ->]; [left|now right].
    exists s. split; [now right|]. lia.
Qed.

Lemma token_text_parses t name fs : token_text t name fs ->
  parse t = Ok [Token name 0 (List.length t) (map fst fs) fs].
Proof.
  intros Ht. pose proof (stream_cons 0 0 t name fs [] [] Ht (stream_nil _ 0)) as S.
  cbn [repeat app] in S. rewrite app_nil_r in S.
  apply parse_complete in S; [exact S|]. now apply token_text_nonempty in Ht.
Qed.

(** * Duplicate fields *)
Lemma fields_loop_dup t fs : fields_text t fs -> forall fuel pre r order members,
  List.length fs < fuel -> NoDup (map fst members) ->
  ~ NoDup (map fst members ++ map fst fs) ->
  fields_loop fuel (pre ++ t ++ RBRACE :: r) order members (st_of pre (t ++ RBRACE :: r))
  = Err (TokenParseError DuplicateField).
Proof.
  induction 1 as [n|n key b v rest fs Hk Hd Hf IH]; intros fuel pre r order members Hfu NDm ND;
    (destruct fuel as [|fuel]; [cbn in Hfu; lia|]).
  - cbn in ND. rewrite app_nil_r in ND. contradiction.
  - change 32%N with SP. rewrite u_colon, u_quote.
    replace (pre ++ (repeat SP n ++ key ++ [COLON; SP; QUOTE] ++ b ++ [QUOTE] ++ rest) ++ RBRACE :: r)
      with (pre ++ repeat SP n ++ key ++ [COLON; SP; QUOTE] ++ b ++ [QUOTE] ++ (rest ++ RBRACE :: r))
      by (now rewrite <- !app_assoc).
    replace ((repeat SP n ++ key ++ [COLON; SP; QUOTE] ++ b ++ [QUOTE] ++ rest) ++ RBRACE :: r)
      with (repeat SP n ++ key ++ [COLON; SP; QUOTE] ++ b ++ [QUOTE] ++ (rest ++ RBRACE :: r))
      by (now rewrite <- !app_assoc).
    rewrite (fields_loop_step fuel pre n key b v _ order members Hk Hd).
    destruct (in_dec text_eq_dec key (map fst members)) as [HI|HI].
    { now rewrite token_append_dup. }
    rewrite token_append_ok by assumption. cbn [bind].
    replace (pre ++ repeat SP n ++ key ++ [COLON; SP; QUOTE] ++ b ++ [QUOTE] ++ rest ++ RBRACE :: r)
      with ((pre ++ repeat SP n ++ key ++ [COLON; SP; QUOTE] ++ b ++ [QUOTE]) ++ rest ++ RBRACE :: r)
      by (now rewrite <- !app_assoc).
    apply IH; [cbn in Hfu; lia| |].
    + rewrite map_app. cbn. apply (NoDup_Add (a := key) (l := map fst members)).
      * replace (map fst members) with (map fst members ++ []) at 1 by apply app_nil_r. apply Add_app.
      * split; assumption.
    + rewrite map_app. cbn in ND |- *. now rewrite <- app_assoc.
Qed.

Lemma tokens_loop_prefix o t ts : stream o t ts -> forall fuel pre acc rest,
  o = List.length pre -> List.length ts <= fuel ->
  exists t' n, t = t' ++ repeat SP n /\
  tokens_loop fuel (pre ++ t ++ rest) acc (st_of pre (t ++ rest))
  = tokens_loop (fuel - List.length ts) (pre ++ t ++ rest) (acc ++ map to_token ts)
      (st_of (pre ++ t') (repeat SP n ++ rest)).
Proof.
  induction 1 as [o n|o n t name fs rest ts Ht Hs IH]; intros fuel pre acc rest2 -> Hf.
  - exists [], n. split; [reflexivity|]. cbn [List.length map]. now rewrite !app_nil_r, Nat.sub_0_r.
  - destruct fuel as [|fuel]; [cbn in Hf; lia|].
    change 32%N with SP.
    replace ((repeat SP n ++ t ++ rest) ++ rest2) with (repeat SP n ++ t ++ (rest ++ rest2))
      by (now rewrite <- !app_assoc).
    rewrite (tokens_loop_step _ _ _ _ name fs) by assumption.
    edestruct (IH fuel (pre ++ repeat SP n ++ t)) as (t' & m & -> & E).
    { rewrite !app_length, repeat_length. lia. }
    { cbn in Hf. lia. }
    exists (repeat SP n ++ t ++ t'), m. split; [now rewrite <- !app_assoc|].
    replace (pre ++ repeat SP n ++ t ++ (t' ++ repeat SP m) ++ rest2)
      with ((pre ++ repeat SP n ++ t) ++ (t' ++ repeat SP m) ++ rest2) by (now rewrite <- !app_assoc).
    rewrite E. cbn [List.length Nat.sub]. cbn [map]. rewrite <- !app_assoc. reflexivity.
Qed.

Theorem parse_duplicate before ts name body fs rest :
  stream 0 before ts -> is_name name -> fields_text body fs -> ~ NoDup (map fst fs) ->
  parse (before ++ name ++ u " { " ++ body ++ u "}" ++ rest) = Err (TokenParseError DuplicateField).
Proof.
  intros Hs Hn Hf ND. rewrite u_open, u_close.
  set (R := name ++ [SP; LBRACE; SP] ++ body ++ [RBRACE] ++ rest).
  unfold parse, load.
  destruct (before ++ R) as [|c y] eqn:E.
  { exfalso. unfold R in E. apply app_eq_nil in E as [_ E]. destruct name; discriminate. }
  cbn [bind]. change (PState 0 (Some c)) with (st_of [] (c :: y)). rewrite <- E.
  change (before ++ R) with ([] ++ before ++ R) at 2.
  edestruct (tokens_loop_prefix 0 before ts Hs (loop_fuel (before ++ R)) [] [] R eq_refl) as (t' & n & -> & P).
  { unfold loop_fuel. apply stream_length in Hs. rewrite app_length. lia. }
  rewrite P. clear P c y E.
  assert (Hfu : exists f, loop_fuel ((t' ++ repeat SP n) ++ R) - List.length ts = S f).
  { apply stream_length in Hs. unfold loop_fuel. rewrite app_length.
    exists (S (List.length (t' ++ repeat SP n) + List.length R) - List.length ts). lia. }
  destruct Hfu as (f & ->). cbn [tokens_loop app].
  rewrite <- app_assoc. rewrite parse_ws_ok by (now apply name_not_space). cbn [bind].
  assert (HR : exists x y, R = x :: y).
  { unfold R. destruct Hn as [Hn _]. destruct name; [congruence|]. cbn. eauto. }
  destruct HR as (x & y & ER). rewrite ER. rewrite <- ER. clear x y ER. unfold R.
  rewrite app_assoc, parse_key_hit; [|assumption|cbn; unfold letter, SP; lia]. cbn [bind].
  rewrite (app_assoc _ name), expect_chars_hit. cbn [bind].
  rewrite (app_assoc _ [SP; LBRACE; SP]).
  change ([RBRACE] ++ rest) with (RBRACE :: rest).
  rewrite (fields_loop_dup body fs Hf); [reflexivity| |constructor|exact ND].
  unfold loop_fuel. pose proof (fields_text_length _ _ Hf). rewrite !app_length. lia.
Qed.
