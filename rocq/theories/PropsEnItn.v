(** Properties C42, C43 and C44 of the English inverse normaliser, and C56.

    [denote t x y w] (Fst.v): the graph [t] turns [x] into [y] at cost [w]; [parse] and
    [reorder] are the token parser's (TokenModel.v); [en_itn_tokens], [spaced] and [white]
    are in ShapeSpec.v.  The graphs have no options. *)
From Coq Require Import List NArith ZArith Bool String Lia.
From Verif Require Import Text TextFacts TokenModel PipelineModel NbestModel NbestSpec NbestProofs NbestWitness.
From Verif Require Import Fst GrammarModel GrammarSpec FstFacts ShapeSpec GrammarShape GrammarAccept SpacedShape.
From Verif Require Import EngineSpec FstEval GrammarEngine PropsShape PropsTotal.
From Verif Require EnItnModel EnItnShape EnItnAccept.
Import ListNotations.
Local Open Scope list_scope.

(** ** C42: every tagging is a list of tokens of the table *)
Theorem C42_en_itn : well_formed en_itn_tokens EnItnModel.tagger.
Proof.
  unfold EnItnModel.tagger. destruct (tagger_union EnItnModel.rules) as [e|] eqn:E; [|discriminate].
  eapply well_formed_i.
  - intros x y w H. right. eapply EnItnShape.en_itn_writes; [|exact H]. unfold EnItnModel.tagger. now rewrite E.
  - lazy; reflexivity.
Qed.
Print Assumptions C42_en_itn.

(** ** C43: the tokens are the words of the text *)
Definition faithful_spaced (tagger : option fst) : Prop :=
  exists t, tagger = Some t /\ forall x y w toks, denote t x y w -> parse y = Ok toks -> spaced eq x (map token_content toks).
Theorem C43_en_itn : faithful_spaced EnItnModel.tagger.
Proof.
  unfold faithful_spaced, EnItnModel.tagger. destruct (tagger_union EnItnModel.rules) as [e|] eqn:E; [|discriminate].
  eexists. split; [reflexivity|]. intros x y w toks. refine (lays_spaced _ _ _ _ _ _ _ _ _ (EnItnShape.en_itn_lays _ _) I). unfold EnItnModel.tagger. now rewrite E.
Qed.
Print Assumptions C43_en_itn.
(** So a tagging of words, characters and punctuation marks only has every character of the
    text but white space, in order. *)
Definition whiteb (c : N) : bool := ((9 <=? c) && (c <=? 13) || (c =? 32) || (c =? 160))%N%bool.
Definition solid (x : text) : text := filter (fun c => negb (whiteb c)) x.
Theorem C43_words_only : forall alike x toks, spaced alike x (map token_content toks) ->
  (forall t, In t toks -> In (tk_name t) (map Datatypes.fst verbatim)) ->
  Forall (fun t => exists key v, tk_members t = [(key, v)]) toks /\
  solid x = flat_map (fun t => solid (List.concat (map snd (tk_members t)))) toks.
Proof.
  intros alike x toks. remember (map token_content toks) as l eqn:El. intro S. revert toks El.
  assert (Gw : forall gap, Forall white gap -> solid gap = []).
  { induction 1 as [|c g W F IH]; [reflexivity|]. unfold solid in *. cbn [filter].
    replace (whiteb c) with true; [exact IH|]. symmetry. unfold whiteb. unfold white in W.
    destruct W as [W|[->| ->]]; [|reflexivity..]. destruct (N.leb_spec 9 c); [|lia]. destruct (N.leb_spec c 13); [reflexivity|lia]. }
  induction S as [gap G|gap part as_read name fs rest ts G Al Wi Ve S IH]; intros toks El A.
  - destruct toks; [|discriminate]. split; [constructor|]. now rewrite (Gw _ G).
  - destruct toks as [|t toks]; [discriminate|]. injection El as En Em El.
    destruct (IH toks El (fun t' I => A t' (or_intror I))) as (F & E).
    assert (Fs : exists key, fs = [(key, part)]).
    { specialize (A t (or_introl eq_refl)). apply in_map_iff in A as ((n & key) & E' & I). cbn in E'. subst.
      exists key. now apply Ve. }
    destruct Fs as (key & Fs). split; [constructor; [exists key, part; now rewrite <- Em|exact F]|].
    unfold solid in *. rewrite !filter_app. cbn [flat_map]. rewrite (Gw _ G), E, <- Em, Fs. cbn [map snd List.concat app]. now rewrite app_nil_r.
Qed.
Print Assumptions C43_words_only.

(** ** C44 *)
(** Valid, not empty, without quotation marks and backslashes, neither starting nor ending
    with white space other than the ASCII space. *)
Definition outer_ok (c : N) : Prop := c = 32%N \/ ~ white c.
Definition plain_english (x : text) : Prop :=
  valid_text x /\ ~ In 34%N x /\ ~ In 92%N x /\
  (exists c r, x = c :: r /\ outer_ok c) /\ (exists r c, x = r ++ [c] /\ outer_ok c).
Definition normalizes_on (D : text -> Prop) (os : orders) (tagger verbalizer : option fst) : Prop :=
  exists t v, tagger = Some t /\ verbalizer = Some v /\
    (forall x, D x -> exists y w, denote t x y w) /\
    (forall x y w, denote t x y w -> exists r, reorder os y = Ok r /\ exists z w', denote v r z w').
Lemma outer_space c : outer_ok c -> (EnItnAccept.blank c || negb (is_space c))%bool = true.
Proof.
  unfold EnItnAccept.blank. intros [->|W]; [reflexivity|]. destruct (is_space c) eqn:S; [|now rewrite orb_true_r].
  destruct W. now apply white_space.
Qed.
Theorem C44_en_itn : normalizes_on plain_english en_itn_token_orders EnItnModel.tagger EnItnModel.verbalizer.
Proof.
  destruct EnItnModel.tagger as [t|] eqn:Et; [|discriminate]. destruct EnItnModel.verbalizer as [v|] eqn:Ev; [|discriminate].
  exists t, v. split; [reflexivity|]. split; [reflexivity|]. split.
  - intros x (V & Q & B & (c & r & Ex & Oc) & (r' & c' & Ex' & Oc')).
    apply (EnItnAccept.en_itn_tags t x Et).
    + rewrite Ex. discriminate.
    + apply vtext_spec in V. rewrite forallb_forall in *. intros d I. unfold EnItnAccept.wordly. rewrite (V d I).
      destruct (N.eqb_spec d 34) as [->|]; [contradiction|]. destruct (N.eqb_spec d 92) as [->|]; [contradiction|]. reflexivity.
    + rewrite Ex'. apply outer_space in Oc'. clear -Oc'. induction r' as [|d r IH]; [cbn; exact Oc'|].
      cbn [app EnItnAccept.good_end]. destruct (r ++ [c']) eqn:E; [now destruct r|exact IH].
    + rewrite Ex. now apply outer_space.
  - intros x y w D. apply (EnItnAccept.en_itn_verbalizes v x y Ev). exact (EnItnShape.en_itn_writes t x y w Et D).
Qed.
Print Assumptions C44_en_itn.
(** So normalize returns, whatever engine answers for the two graphs. *)
Theorem C44_en_itn_normalize : exists t v, EnItnModel.tagger = Some t /\ EnItnModel.verbalizer = Some v /\
  (forall en, engine_orders en = en_itn_token_orders -> search_oracle en (outcomes t) (outcomes v) ->
    forall x z, plain_english x -> (1 <= z)%Z ->
    exists n, forall fuel, n <= fuel -> exists ans, normalize fuel en x (PyInt z) = POk ans) /\
  (exists en, engine_orders en = en_itn_token_orders /\ search_oracle en (outcomes t) (outcomes v)).
Proof.
  destruct C44_en_itn as (t & v & Et & Ev & T & V). exists t, v. split; [exact Et|]. split; [exact Ev|].
  pose proof en_itn_tagger_loopfree as Lt. pose proof en_itn_verbalizer_loopfree as Lv. rewrite Et in Lt. rewrite Ev in Lv.
  split.
  - intros en Eo O x z P Nz. apply (normalize_returns en t v Lt Lv O x z); auto.
    + destruct P as (_ & _ & _ & (c & r & -> & _) & _). discriminate.
    + rewrite Eo. intros y w. apply V.
  - exists (graph_engine en_itn_token_orders t v engine_w). split; [reflexivity|]. exact (graph_engine_oracle _ t v engine_w Lt Lv).
Qed.
Print Assumptions C44_en_itn_normalize.
Example plain_english_case : plain_english (u "it's 5 o'clock,  isn't it?").
Proof.
  assert (Nin : forall c x, forallb (fun d => negb (c =? d)%N) x = true -> ~ In c x).
  { intros c x F I. rewrite forallb_forall in F. apply F in I. now rewrite N.eqb_refl in I. }
  split; [apply vtext_spec; vm_compute; reflexivity|]. split; [apply Nin; vm_compute; reflexivity|].
  split; [apply Nin; vm_compute; reflexivity|]. split.
  - eexists. eexists. split; [vm_compute; reflexivity|]. right. unfold white. lia.
  - exists (u "it's 5 o'clock,  isn't it"), 63%N. split; [vm_compute; reflexivity|]. right. unfold white. lia.
Qed.
(** Outside the domain it need not: no tagging at all, so normalize raises, for a quotation
    mark or a backslash next to a word and for a line break at the end. *)
Definition untaggable (x : text) : Prop := exists t, EnItnModel.tagger = Some t /\ forall y w, ~ denote t x y w.
Lemma untaggable_i x : match EnItnModel.tagger with Some t => outputs_of t x | None => [([], 0%Z)] end = [] -> untaggable x.
Proof.
  pose proof en_itn_tagger_loopfree as L. unfold untaggable. destruct EnItnModel.tagger as [t|]; [|discriminate].
  intro E. exists t. split; [reflexivity|]. intros y w D. apply (outputs_of_spec t x y w L) in D. now rewrite E in D.
Qed.
Lemma untaggable_raises x : x <> [] -> untaggable x -> exists t v, EnItnModel.tagger = Some t /\ EnItnModel.verbalizer = Some v /\
  forall en, search_oracle en (outcomes t) (outcomes v) ->
  forall fuel z, 1 <= fuel -> (1 <= z)%Z -> normalize fuel en x (PyInt z) = PErr PNoPath.
Proof.
  intros Nx (t & Et & U). destruct EnItnModel.verbalizer as [v|] eqn:Ev; [|discriminate].
  exists t, v. split; [exact Et|]. split; [reflexivity|]. intros en O fuel z Lf Nz.
  assert (None : forall y w, ~ outcomes t x y w) by (intros y w (D & _); exact (U _ _ D)).
  pose proof (normalize_terminates en _ _ O x z [] Nx Nz (fun y w T => None y w T) fuel) as H. cbn [List.length Nat.mul] in H.
  specialize (H ltac:(lia)). destruct (normalize fuel en x (PyInt z)) as [ans|[]]; try contradiction; [|..].
  - destruct H as (y & o & w & r & tw & vw & b & T & _). destruct (None _ _ T).
  - destruct H as (y & w & T & _). destruct (None _ _ T).
  - reflexivity.
Qed.
Theorem C44_en_itn_refuted : exists t v, EnItnModel.tagger = Some t /\ EnItnModel.verbalizer = Some v /\
  forall x, In x [u """hi"""; u "a\b"; u "hi" ++ [10%N]] ->
  forall en, search_oracle en (outcomes t) (outcomes v) ->
  forall fuel z, 1 <= fuel -> (1 <= z)%Z -> normalize fuel en x (PyInt z) = PErr PNoPath.
Proof.
  destruct EnItnModel.tagger as [t|] eqn:Et; [|discriminate]. destruct EnItnModel.verbalizer as [v|] eqn:Ev; [|discriminate].
  exists t, v. split; [reflexivity|]. split; [reflexivity|]. intros x I.
  assert (U : x <> [] /\ untaggable x).
  { destruct I as [<-|[<-|[<-|[]]]]; (split; [discriminate|]); apply untaggable_i; vm_compute; reflexivity. }
  destruct U as (Nx & U). destruct (untaggable_raises x Nx U) as (t' & v' & Et' & Ev' & H).
  rewrite Et in Et'. rewrite Ev in Ev'. injection Et' as <-. injection Ev' as <-. exact H.
Qed.
Print Assumptions C44_en_itn_refuted.

(** ** C56: the answer depends on how the engine orders ties *)
(** Two engines that both answer for the shipped graphs read "one ten" as 01:10 and as
    01:50: the verbalizer's minute field also takes minutes to the hour. *)
Theorem C56_en_itn_refuted : exists t v en en', EnItnModel.tagger = Some t /\ EnItnModel.verbalizer = Some v /\
  engine_orders en = en_itn_token_orders /\ search_oracle en (outcomes t) (outcomes v) /\
  engine_orders en' = en_itn_token_orders /\ search_oracle en' (outcomes t) (outcomes v) /\
  exists fuel, normalize fuel en (u "one ten") (PyInt 1) = POk (One (u "01:10")) /\
               normalize fuel en' (u "one ten") (PyInt 1) = POk (One (u "01:50")).
Proof.
  assert (R : match EnItnModel.tagger, EnItnModel.verbalizer with
    | Some t, Some v => normalize 3 (graph_engine en_itn_token_orders t v engine_w) (u "one ten") (PyInt 1) = POk (One (u "01:10")) /\
        normalize 3 (graph_engine_back en_itn_token_orders t v engine_w) (u "one ten") (PyInt 1) = POk (One (u "01:50"))
    | _, _ => False end) by (vm_compute; split; reflexivity).
  pose proof en_itn_tagger_loopfree as Lt. pose proof en_itn_verbalizer_loopfree as Lv.
  destruct EnItnModel.tagger as [t|]; [|destruct R]. destruct EnItnModel.verbalizer as [v|]; [|destruct R].
  exists t, v, (graph_engine en_itn_token_orders t v engine_w), (graph_engine_back en_itn_token_orders t v engine_w).
  split; [reflexivity|]. split; [reflexivity|]. split; [reflexivity|]. split; [exact (graph_engine_oracle _ t v engine_w Lt Lv)|].
  split; [reflexivity|]. split; [exact (graph_engine_back_oracle _ t v engine_w Lt Lv)|]. exists 3. exact R.
Qed.
Print Assumptions C56_en_itn_refuted.
