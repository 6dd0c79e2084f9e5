(** Property C62: a spoken Chinese number through the whole inverse normaliser.

    Vocabulary: [spoken_number] (ZhSpokenSpec.v) is the value of a number as it is said;
    [decimal d n] that [d] are the digits of [n]; [tag], [verbalize] and [normalize] are the
    methods of the processor (NbestModel.v), for any engine whose answers are those of the
    grammar's two graphs ([search_oracle], [best_oracle], [outcomes]). *)
From Coq Require Import List NArith ZArith Bool String Lia.
From Verif Require Import Text TextFacts TokenModel Fst GrammarModel NumeralSpec EnglishNumeralSpec ZhSpokenSpec.
From Verif Require Import NbestModel NbestSpec EngineSpec NbestWitness PipelineModel.
From Verif Require Import ZhSpokenProofs5 ZhSpokenProofs6 ZhBack ZhBack2 TokenVerbal ZhItnModel ZhItnVerbal ZhItnTag ZhItnTag2 PropsTotal PropsZhSpoken.
From Verif Require GrammarSpec FstFacts FstEval GrammarEngine EndToEnd ZhTnModel ZhNumberProofs4.
Import ListNotations.
Local Open Scope list_scope.

(** 两 is also a unit of weight, so at the end of a text it may be one. *)
Definition may_be_weight (x : text) : Prop := exists a, x = a ++ u "两".
(** What the options allow to be written in digits. *)
Definition written_alone (o : options) (n : N) : Prop :=
  enable_standalone_number o = true /\ (enable_0_to_9 o = true \/ 10 <= n)%N /\ (enable_million o = true \/ n < 1000000)%N.
(** An engine that answers what the grammars of the options say. *)
Definition engine_of (o : options) (en : engine) : Prop :=
  engine_orders en = zh_itn_token_orders /\ exists t v, tagger o = Some t /\ verbalizer o = Some v /\ search_oracle en (outcomes t) (outcomes v).
Definition full_engine_of (o : options) (en : engine) : Prop :=
  engine_of o en /\ exists t v, tagger o = Some t /\ verbalizer o = Some v /\ best_oracle en (outcomes t) (outcomes v).

Lemma reordered x n : spoken_number x = Some n -> reorder zh_itn_token_orders (value_token (u "cardinal") x) = Ok (value_token (u "cardinal") x).
Proof.
  intro S. destruct (plain_facts x (spoken_plain x n S)) as (_ & Q & B). apply EndToEnd.value_reordered; [reflexivity|reflexivity|exact Q|exact B].
Qed.
Lemma spoken_nonempty x n : spoken_number x = Some n -> x <> [].
Proof. intros S ->. discriminate. Qed.
Lemma loopfree_tagger o t : tagger o = Some t -> FstEval.loopfree t = true.
Proof. intro E. pose proof (GrammarEngine.zh_itn_tagger_loopfree o) as L. rewrite E in L. exact L. Qed.

(** normalize answers the digits. *)
Theorem C62_normalize o en x n d : engine_of o en -> spoken_number x = Some n -> written_alone o n -> ~ may_be_weight x -> decimal d n ->
  exists least, forall fuel, least <= fuel -> normalize fuel en x (PyInt 1) = POk (One d).
Proof.
  intros (Os & t & v & Et & Ev & O) S (St & N9 & M) Nl D.
  assert (Ct : cheapest (denote t) x (value_token (u "cardinal") x)).
  { unfold tagger in Et. destruct (tagger_union (rules o)) as [e|] eqn:E; [|discriminate]. injection Et as <-. exact (spoken_tagging o e E x n St S N9 M Nl). }
  pose proof (C61_verbalized o v x n d Ev St S N9 M D) as Cv. pose proof (reordered x n S) as R.
  destruct (C44_zh_itn_normalize o) as (t' & v' & Et' & Ev' & Ret & _). assert (t' = t) as -> by congruence. assert (v' = v) as -> by congruence.
  destruct (plain_facts x (spoken_plain x n S)) as (V & _). apply FstFacts.vtext_spec in V.
  destruct (Ret en Os O x 1%Z V (spoken_nonempty x n S) ltac:(lia)) as (k & K). exists k. intros fuel L. destruct (K fuel L) as (ans & A). rewrite A. f_equal.
  rewrite <- Os in R. exact (EndToEnd.cheapest_answer en t v x _ _ d (loopfree_tagger o t Et) O (spoken_nonempty x n S) Ct R Cv fuel ans A).
Qed.
Print Assumptions C62_normalize.
(** So do tag, with one token that holds the words, and verbalize after it. *)
Theorem C62_steps o en x n d : full_engine_of o en -> spoken_number x = Some n -> written_alone o n -> ~ may_be_weight x -> decimal d n ->
  tag en x (PyInt 1) = POk (One (u "cardinal { value: """ ++ x ++ u """ }")) /\
  verbalize en (u "cardinal { value: """ ++ x ++ u """ }") = POk d.
Proof.
  intros ((Os & t & v & Et & Ev & O) & t' & v' & Et' & Ev' & B) S (St & N9 & M) Nl D.
  assert (t' = t) as -> by congruence. assert (v' = v) as -> by congruence.
  assert (Ct : cheapest (denote t) x (value_token (u "cardinal") x)).
  { unfold tagger in Et. destruct (tagger_union (rules o)) as [e|] eqn:E; [|discriminate]. injection Et as <-. exact (spoken_tagging o e E x n St S N9 M Nl). }
  pose proof (C61_verbalized o v x n d Ev St S N9 M D) as Cv. pose proof (reordered x n S) as R. rewrite <- Os in R.
  exact (EndToEnd.cheapest_steps en t v x _ _ d (loopfree_tagger o t Et) O B (spoken_nonempty x n S) Ct R Cv).
Qed.
Print Assumptions C62_steps.
(** What the Chinese normaliser says for a number below 10^8 is normalised back to its digits. *)
Theorem C62_back o en t n z w : engine_of o en -> decimal t n -> (n < 10 ^ 8)%N -> written_alone o n ->
  denote ZhTnModel.Cardinal.number t z w -> exists least, forall fuel, least <= fuel -> normalize fuel en z (PyInt 1) = POk (One t).
Proof.
  intros En D L W H. pose proof (fun a => number_ends t z w (proj1 (proj2 D)) H a) as Nl.
  destruct (number_spoken t n D L) as (y & S & J). apply J in H. destruct H as (-> & _).
  apply (C62_normalize o en y n t En S W); [|exact D]. intros (a & E). exact (Nl a E).
Qed.
Print Assumptions C62_back.
(** There is such an engine for all options. *)
Theorem C62_engine_exists o : exists en, engine_of o en.
Proof.
  destruct (C44_zh_itn_normalize o) as (t & v & Et & Ev & _ & en & Os & O). exists en. split; [exact Os|]. exists t, v. auto.
Qed.
Print Assumptions C62_engine_exists.

(** 十两 is 12, but the answer is ten units of weight. *)
Theorem C62_weight_refuted : exists o en x n d, engine_of o en /\ spoken_number x = Some n /\ written_alone o n /\ decimal d n /\
  normalize 100 en x (PyInt 1) <> POk (One d) /\ normalize 100 en x (PyInt 1) = POk (One (u "10两")).
Proof.
  set (o := Options true true false false).
  destruct (tagger o) as [t|] eqn:Et; [|discriminate]. destruct (verbalizer o) as [v|] eqn:Ev; [|discriminate].
  assert (E : normalize 100 (GrammarEngine.graph_engine zh_itn_token_orders t v engine_w) (u "十两") (PyInt 1) = POk (One (u "10两"))).
  { assert (G : match tagger o, verbalizer o with
      | Some t, Some v => normalize 100 (GrammarEngine.graph_engine zh_itn_token_orders t v engine_w) (u "十两") (PyInt 1)
      | _, _ => PErr PNoPath end = POk (One (u "10两"))) by (vm_compute; reflexivity).
    now rewrite Et, Ev in G. }
  exists o, (GrammarEngine.graph_engine zh_itn_token_orders t v engine_w), (u "十两"), 12%N, (u "12"). split.
  { split; [reflexivity|]. exists t, v. split; [exact Et|]. split; [exact Ev|]. apply GrammarEngine.graph_engine_oracle; [exact (loopfree_tagger o t Et)|].
    pose proof (GrammarEngine.zh_itn_verbalizer_loopfree o) as L. now rewrite Ev in L. }
  split; [reflexivity|]. split; [split; [reflexivity|split; right; [discriminate|reflexivity]]|].
  split; [split; [discriminate|split; [apply digits_of; reflexivity|split; [discriminate|reflexivity]]]|].
  rewrite E. split; [discriminate|reflexivity].
Qed.
Print Assumptions C62_weight_refuted.

Example C62_witness : exists o, spoken_number (u "三千二百万零五") = Some 32000005%N /\ written_alone o 32000005 /\
  ~ may_be_weight (u "三千二百万零五") /\ decimal (u "32000005") 32000005 /\ exists en, engine_of o en /\
  exists least, forall fuel, least <= fuel -> normalize fuel en (u "三千二百万零五") (PyInt 1) = POk (One (u "32000005")).
Proof.
  exists (Options false true true true).
  assert (D : decimal (u "32000005") 32000005).
  { split; [discriminate|]. split; [|split; [discriminate|reflexivity]]. apply digits_of; reflexivity. }
  assert (W : written_alone (Options false true true true) 32000005) by (split; [reflexivity|split; left; reflexivity]).
  assert (Nl : ~ may_be_weight (u "三千二百万零五")).
  { intros (a & E). apply (f_equal (fun t => hd 0%N (rev t))) in E. rewrite rev_app_distr in E. vm_compute in E. discriminate. }
  split; [reflexivity|]. split; [exact W|]. split; [exact Nl|]. split; [exact D|].
  destruct (C62_engine_exists (Options false true true true)) as (en & En). exists en. split; [exact En|].
  exact (C62_normalize _ en (u "三千二百万零五") 32000005 (u "32000005") En eq_refl W Nl D).
Qed.
