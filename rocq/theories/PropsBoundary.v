(** Properties C63 and C64: cutting a text where no rule reads across, and text no rule reads.

    Vocabulary (BoundarySpec.v, BoundaryLaw.v, PlainSpec.v): a normaliser is a [grammar], its
    rules and two graphs; [uncrossed rules a b] says no rule reads an end of [a] together with a
    beginning of [b]; [answers G x d] that [d] is a cheapest verbalisation of a cheapest tagging of
    [x], [sole_answer] that it is the only one; [plain G x] that only the rule of single characters
    reads the characters of [x]; [zh_tn_clean] and so on what the options do to one character.
    [normalizes_to en x d]: normalize answers [d], for an engine that searches the two graphs. *)
From Coq Require Import List NArith ZArith Bool String Lia.
From Verif Require Import Text TextFacts TokenModel Fst GrammarModel GrammarSpec NumeralSpec EnglishNumeralSpec ZhSpokenSpec BoundarySpec BoundaryLaw PlainSpec.
From Verif Require Import NbestModel NbestSpec EngineSpec NbestWitness PipelineModel PropsTotal.
From Verif Require Import BoundaryRules BoundaryChar PlainRules BoundaryLawProofs.
From Verif Require ZhTnShape ZhItnShape JaTnShape JaItnShape FstFacts GrammarEngine PropsZhEnd PropsZhSpoken ZhItnTag2 ZhItnTag ZhSpokenProofs6 ZhBack ZhBack2 EnNumberProofs4.
Import ListNotations.
Local Open Scope list_scope.

Lemma zh_tn_cuts o : cuts zh_tn_token_orders (ZhTnModel.rules o) (ZhTnModel.tagger o) (ZhTnModel.verbalizer o).
Proof. exact (cuts_post _ _ _ _ (zh_tn_rules o) (ZhTnShape.rules_emit o)). Qed.
Lemma zh_itn_cuts o : cuts zh_itn_token_orders (ZhItnModel.rules o) (ZhItnModel.tagger o) (ZhItnModel.verbalizer o).
Proof. exact (cuts_post _ _ _ _ (zh_itn_rules o) (ZhItnShape.rules_emit o)). Qed.
Lemma ja_tn_cuts o : cuts ja_tn_token_orders (JaTnModel.rules o) (JaTnModel.tagger o) (JaTnModel.verbalizer o).
Proof. exact (cuts_post _ _ _ _ (ja_tn_rules o) (JaTnShape.rules_emit o)). Qed.
Lemma ja_itn_cuts o : cuts ja_itn_token_orders (JaItnModel.rules o) (JaItnModel.tagger o) (JaItnModel.verbalizer o).
Proof. exact (cuts_bare _ _ _ (ja_itn_rules o) (JaItnShape.rules_emit o)). Qed.

(** ** C63: where no rule reads across, the answers for the whole are those for the parts *)
Theorem C63_zh_tn o : cut_law (zh_tn o).
Proof. exact (cut_law_i (zh_tn o) (C44_zh_tn o) (zh_tn_cuts o)). Qed.
Print Assumptions C63_zh_tn.
Theorem C63_zh_itn o : cut_law (zh_itn o).
Proof. exact (cut_law_i (zh_itn o) (C44_zh_itn o) (zh_itn_cuts o)). Qed.
Print Assumptions C63_zh_itn.
Theorem C63_ja_tn o : cut_law (ja_tn o).
Proof. exact (cut_law_i (ja_tn o) (C44_ja_tn o) (ja_tn_cuts o)). Qed.
Print Assumptions C63_ja_tn.
Theorem C63_ja_itn o : cut_law (ja_itn o).
Proof. exact (cut_law_i (ja_itn o) (C44_ja_itn o) (ja_itn_cuts o)). Qed.
Print Assumptions C63_ja_itn.
(** normalize always answers, and answers only what it may. *)
Theorem C63_answers o1 o2 o3 o4 : answer_law (zh_tn o1) /\ answer_law (zh_itn o2) /\ answer_law (ja_tn o3) /\ answer_law (ja_itn o4).
Proof.
  split; [|split; [|split]].
  - exact (answer_law_i (zh_tn o1) (C44_zh_tn o1) (GrammarEngine.zh_tn_tagger_loopfree o1) (GrammarEngine.zh_tn_verbalizer_loopfree o1)).
  - exact (answer_law_i (zh_itn o2) (C44_zh_itn o2) (GrammarEngine.zh_itn_tagger_loopfree o2) (GrammarEngine.zh_itn_verbalizer_loopfree o2)).
  - exact (answer_law_i (ja_tn o3) (C44_ja_tn o3) (GrammarEngine.ja_tn_tagger_loopfree o3) (GrammarEngine.ja_tn_verbalizer_loopfree o3)).
  - exact (answer_law_i (ja_itn o4) (C44_ja_itn o4) (GrammarEngine.ja_itn_tagger_loopfree o4) (GrammarEngine.ja_itn_verbalizer_loopfree o4)).
Qed.
Print Assumptions C63_answers.
(** So normalize of the whole is normalize of the parts put together, if the parts have one answer each. *)
Theorem C63_normalize o1 o2 o3 o4 : cut_normalize_law (zh_tn o1) /\ cut_normalize_law (zh_itn o2) /\ cut_normalize_law (ja_tn o3) /\ cut_normalize_law (ja_itn o4).
Proof.
  split; [|split; [|split]].
  - exact (cut_normalize_i (zh_tn o1) (C44_zh_tn o1) (GrammarEngine.zh_tn_tagger_loopfree o1) (GrammarEngine.zh_tn_verbalizer_loopfree o1) (zh_tn_cuts o1)).
  - exact (cut_normalize_i (zh_itn o2) (C44_zh_itn o2) (GrammarEngine.zh_itn_tagger_loopfree o2) (GrammarEngine.zh_itn_verbalizer_loopfree o2) (zh_itn_cuts o2)).
  - exact (cut_normalize_i (ja_tn o3) (C44_ja_tn o3) (GrammarEngine.ja_tn_tagger_loopfree o3) (GrammarEngine.ja_tn_verbalizer_loopfree o3) (ja_tn_cuts o3)).
  - exact (cut_normalize_i (ja_itn o4) (C44_ja_itn o4) (GrammarEngine.ja_itn_tagger_loopfree o4) (GrammarEngine.ja_itn_verbalizer_loopfree o4) (ja_itn_cuts o4)).
Qed.
Print Assumptions C63_normalize.

(** ** C64: text only the rule of single characters reads *)
Theorem C64_zh_tn o : plain_law (zh_tn o) (zh_tn_clean o).
Proof. exact (plain_law_i (zh_tn o) (C44_zh_tn o) (GrammarEngine.zh_tn_tagger_loopfree o) (GrammarEngine.zh_tn_verbalizer_loopfree o) (zh_tn_cuts o) _ char_reads (zh_tn_one o)). Qed.
Print Assumptions C64_zh_tn.
Theorem C64_zh_itn o : plain_law (zh_itn o) (zh_itn_clean o).
Proof. exact (plain_law_i (zh_itn o) (C44_zh_itn o) (GrammarEngine.zh_itn_tagger_loopfree o) (GrammarEngine.zh_itn_verbalizer_loopfree o) (zh_itn_cuts o) _ char_reads (zh_itn_one o)). Qed.
Print Assumptions C64_zh_itn.
Theorem C64_ja_tn o : plain_law (ja_tn o) (ja_tn_clean o).
Proof. exact (plain_law_i (ja_tn o) (C44_ja_tn o) (GrammarEngine.ja_tn_tagger_loopfree o) (GrammarEngine.ja_tn_verbalizer_loopfree o) (ja_tn_cuts o) _ char_reads (ja_tn_one o)). Qed.
Print Assumptions C64_ja_tn.
Theorem C64_ja_itn o : plain_law (ja_itn o) (ja_itn_clean o).
Proof. exact (plain_law_i (ja_itn o) (C44_ja_itn o) (GrammarEngine.ja_itn_tagger_loopfree o) (GrammarEngine.ja_itn_verbalizer_loopfree o) (ja_itn_cuts o) _ (ja_itn_reads o) (ja_itn_one o)). Qed.
Print Assumptions C64_ja_itn.
(** Around a text with one answer it does not change that answer. *)
Theorem C64_around_zh_tn o : around_law (zh_tn o) (zh_tn_clean o).
Proof. exact (around_law_i (zh_tn o) (C44_zh_tn o) (GrammarEngine.zh_tn_tagger_loopfree o) (GrammarEngine.zh_tn_verbalizer_loopfree o) (zh_tn_cuts o) _ char_reads (zh_tn_one o)). Qed.
Print Assumptions C64_around_zh_tn.
Theorem C64_around_zh_itn o : around_law (zh_itn o) (zh_itn_clean o).
Proof. exact (around_law_i (zh_itn o) (C44_zh_itn o) (GrammarEngine.zh_itn_tagger_loopfree o) (GrammarEngine.zh_itn_verbalizer_loopfree o) (zh_itn_cuts o) _ char_reads (zh_itn_one o)). Qed.
Print Assumptions C64_around_zh_itn.
Theorem C64_around_ja_tn o : around_law (ja_tn o) (ja_tn_clean o).
Proof. exact (around_law_i (ja_tn o) (C44_ja_tn o) (GrammarEngine.ja_tn_tagger_loopfree o) (GrammarEngine.ja_tn_verbalizer_loopfree o) (ja_tn_cuts o) _ char_reads (ja_tn_one o)). Qed.
Print Assumptions C64_around_ja_tn.
Theorem C64_around_ja_itn o : around_law (ja_itn o) (ja_itn_clean o).
Proof. exact (around_law_i (ja_itn o) (C44_ja_itn o) (GrammarEngine.ja_itn_tagger_loopfree o) (GrammarEngine.ja_itn_verbalizer_loopfree o) (ja_itn_cuts o) _ (ja_itn_reads o) (ja_itn_one o)). Qed.
Print Assumptions C64_around_ja_itn.

(** ** A spoken Chinese number in plain text *)
Lemma cheapest_only os t v x y r d : cheapest (denote t) x y -> reorder os y = Ok r -> cheapest (denote v) r d -> only_answer os t v x d.
Proof.
  intros (w & T & Mt) R (k & V & Mv) d'. split.
  - intros (y' & r' & (w' & T' & Bt) & R' & (k' & V' & Bv)). destruct (Mt _ _ T') as (L & U). pose proof (Bt _ _ T). rewrite (U ltac:(lia)) in R'.
    assert (r' = r) as -> by congruence. destruct (Mv _ _ V') as (L' & U'). pose proof (Bv _ _ V). apply U'. lia.
  - intros ->. exists y, r. split; [exists w; split; [exact T|]; intros z v' H; exact (proj1 (Mt _ _ H))|]. split; [exact R|].
    exists k. split; [exact V|]. intros z v' H. exact (proj1 (Mv _ _ H)).
Qed.
Lemma number_sole o x n d : spoken_number x = Some n -> PropsZhEnd.written_alone o n -> ~ PropsZhEnd.may_be_weight x -> decimal d n -> sole_answer (zh_itn o) x d.
Proof.
  intros S (St & N9 & M) Nl D. destruct (C44_zh_itn o) as (t & v & Et & Ev & _). apply (sole_only (zh_itn o) t v x d Et Ev).
  apply (cheapest_only _ t v x (TokenVerbal.value_token (u "cardinal") x) (TokenVerbal.value_token (u "cardinal") x) d).
  - unfold ZhItnModel.tagger in Et. destruct (tagger_union (ZhItnModel.rules o)) as [e|] eqn:E; [|discriminate]. injection Et as <-. exact (ZhItnTag2.spoken_tagging o e E x n St S N9 M Nl).
  - exact (PropsZhEnd.reordered x n S).
  - exact (PropsZhSpoken.C61_verbalized o v x n d Ev St S N9 M D).
Qed.
Theorem C64_number o en p x q n d : engine_for (zh_itn o) en -> valid_text p -> valid_text q -> plain (zh_itn o) p -> plain (zh_itn o) q ->
  spoken_number x = Some n -> PropsZhEnd.written_alone o n -> ~ PropsZhEnd.may_be_weight x -> decimal d n ->
  normalizes_to en (p ++ x ++ q) (flat_map (zh_itn_clean o) p ++ d ++ flat_map (zh_itn_clean o) q).
Proof.
  intros En Vp Vq P Q S W Nl D. destruct (ZhSpokenProofs6.plain_facts x (ZhSpokenProofs6.spoken_plain x n S)) as (V & _). apply FstFacts.vtext_spec in V.
  exact (proj2 (C64_around_zh_itn o en p x q d En Vp V Vq P Q (PropsZhEnd.spoken_nonempty x n S) (number_sole o x n d S W Nl D))).
Qed.
Print Assumptions C64_number.

(** ** The hypotheses are met *)
Lemma engine_zh_tn o : exists en, engine_for (zh_tn o) en.
Proof. destruct (C44_zh_tn_normalize o) as (t & v & E & E' & _ & en & Os & O). exists en. split; [exact Os|]. exists t, v. auto. Qed.
Lemma engine_zh_itn o : exists en, engine_for (zh_itn o) en.
Proof. destruct (C44_zh_itn_normalize o) as (t & v & E & E' & _ & en & Os & O). exists en. split; [exact Os|]. exists t, v. auto. Qed.
Lemma engine_ja_tn o : exists en, engine_for (ja_tn o) en.
Proof. destruct (C44_ja_tn_normalize o) as (t & v & E & E' & _ & en & Os & O). exists en. split; [exact Os|]. exists t, v. auto. Qed.
Lemma engine_ja_itn o : exists en, engine_for (ja_itn o) en.
Proof. destruct (C44_ja_itn_normalize o) as (t & v & E & E' & _ & en & Os & O). exists en. split; [exact Os|]. exists t, v. auto. Qed.
Lemma all_plain rs s x : char_only rs s -> forallb (plainb rs) x = true -> Forall (plain_for rs (s_rule s)) x.
Proof. intros C F. rewrite forallb_forall in F. apply Forall_forall. intros c I. exact (plainb_sound rs s c C (F c I)). Qed.
(** No rule of the Chinese normaliser reads 们 together with what follows it. *)
Example C63_witness : uncrossed (ZhTnModel.rules (ZhTnModel.Options true true true true true true)) (u "一百二十个你们") (u "3点半") /\
  exists en, engine_for (zh_tn (ZhTnModel.Options true true true true true true)) en.
Proof.
  set (o := ZhTnModel.Options true true true true true true). split; [|apply engine_zh_tn].
  change (u "一百二十个你们") with (u "一百二十个你" ++ [20204%N]). apply ordinary_last. refine (plain_ordinary _ _ _ (plainb_sound _ _ _ (zh_tn_only o) _) char_reads).
  vm_compute. reflexivity.
Qed.
(** Full width, traditional characters and punctuation. *)
Example C64_witness_zh_tn : exists en, engine_for (zh_tn (ZhTnModel.Options true true true true true true)) en /\
  normalizes_to en (u "我們說你好。") (u "我们说你好").
Proof.
  set (o := ZhTnModel.Options true true true true true true). destruct (engine_zh_tn o) as (en & En). exists en. split; [exact En|].
  assert (E : flat_map (zh_tn_clean o) (u "我們說你好。") = u "我们说你好") by (vm_compute; reflexivity). rewrite <- E.
  apply C64_zh_tn; [exact En|apply FstFacts.vtext_spec; vm_compute; reflexivity|discriminate|]. apply (all_plain _ _ _ (zh_tn_only o)). vm_compute. reflexivity.
Qed.
Example C64_witness_ja : exists en en', engine_for (ja_tn (JaTnModel.Options true true true true true)) en /\
  normalizes_to en (u "行きま、") (u "行きま") /\
  engine_for (ja_itn (JaItnModel.Options true true true true)) en' /\ normalizes_to en' (u "学校へ行きます") (u "学校へ行きます").
Proof.
  set (o := JaTnModel.Options true true true true true). set (o' := JaItnModel.Options true true true true).
  destruct (engine_ja_tn o) as (en & En). destruct (engine_ja_itn o') as (en' & En'). exists en, en'. split; [exact En|].
  assert (E : flat_map (ja_tn_clean o) (u "行きま、") = u "行きま") by (vm_compute; reflexivity).
  assert (E' : flat_map (ja_itn_clean o') (u "学校へ行きます") = u "学校へ行きます") by (vm_compute; reflexivity). rewrite <- E, <- E'. split; [|split; [exact En'|]].
  - apply C64_ja_tn; [exact En|apply FstFacts.vtext_spec; vm_compute; reflexivity|discriminate|]. apply (all_plain _ _ _ (ja_tn_only o)). vm_compute. reflexivity.
  - rewrite E'. rewrite <- E' at 2. apply C64_ja_itn; [exact En'|apply FstFacts.vtext_spec; vm_compute; reflexivity|discriminate|]. apply (all_plain _ _ _ (ja_itn_only o')). vm_compute. reflexivity.
Qed.
Example C64_witness_number : exists en, engine_for (zh_itn (ZhItnModel.Options true true true true)) en /\
  normalizes_to en (u "我爱他三百二十五啊很好。") (u "我爱他325很好。").
Proof.
  set (o := ZhItnModel.Options true true true true). destruct (engine_zh_itn o) as (en & En). exists en. split; [exact En|].
  assert (E : flat_map (zh_itn_clean o) (u "我爱他") ++ u "325" ++ flat_map (zh_itn_clean o) (u "啊很好。") = u "我爱他325很好。") by (vm_compute; reflexivity). rewrite <- E.
  apply (C64_number o en (u "我爱他") (u "三百二十五") (u "啊很好。") 325).
  - exact En.
  - apply FstFacts.vtext_spec. reflexivity.
  - apply FstFacts.vtext_spec. reflexivity.
  - apply (all_plain _ _ _ (zh_itn_only o)). vm_compute. reflexivity.
  - apply (all_plain _ _ _ (zh_itn_only o)). vm_compute. reflexivity.
  - reflexivity.
  - split; [reflexivity|split; left; reflexivity].
  - intros (a & F). apply (f_equal (fun t => hd 0%N (rev t))) in F. rewrite rev_app_distr in F. vm_compute in F. discriminate.
  - split; [discriminate|split; [apply PropsZhSpoken.digits_of; reflexivity|split; [discriminate|reflexivity]]].
Qed.
