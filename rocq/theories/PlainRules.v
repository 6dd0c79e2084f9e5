(** Text of plain characters (C64): the four grammars. *)
From Coq Require Import List NArith ZArith Bool String Lia Arith.
From Verif Require Import Text TextFacts TokenModel TokenSpec Fst FstFacts GrammarModel GrammarShape GrammarAccept.
From Verif Require Import BoundarySpec TokenRun Boundary BoundaryRules TokenVerbal BoundaryChar PlainSpec PlainChar.
From Verif Require Import DataZhTn DataZhItn DataJaTn DataJaItn.
From Verif Require TokenProofs2 TokenProofs3 ZhTnModel ZhItnModel JaTnModel JaItnModel ZhTnShape ZhItnShape JaTnShape JaItnShape FstEval GrammarEngine PipelineModel.
Import ListNotations.
Local Open Scope list_scope.

(** ** The rule of single characters *)
Lemma tokens_added name e x y w : denote (add_tokens name e) x y w <-> exists z, y = name ++ u " { " ++ z ++ u " } " /\ denote e x z w.
Proof.
  unfold add_tokens. split.
  - intro H. apply cat_inv in H as (x1 & y1 & w1 & x2 & y2 & w2 & -> & -> & -> & H & (-> & -> & ->)).
    apply cat_inv in H as (x3 & y3 & w3 & x4 & y4 & w4 & -> & -> & -> & (-> & -> & ->) & H). exists y4. rewrite <- !app_assoc. split; [reflexivity|].
    cbn [app]. now rewrite app_nil_r, Z.add_0_r, Z.add_0_l.
  - intros (z & -> & H). rewrite <- (app_nil_r x). replace w with (0 + w + 0)%Z by lia.
    replace (name ++ u " { " ++ z ++ u " } ") with (((name ++ u " { ") ++ z) ++ u " } ") by now rewrite <- !app_assoc.
    apply cat_i; [|now cbn]. change x with ([] ++ x). apply cat_i; [now cbn|exact H].
Qed.
Lemma value_shape z : u "char" ++ u " { " ++ ((u "value: """ ++ z) ++ u """") ++ u " } " = value_token (u "char") z ++ u " ".
Proof. unfold value_token. change (u " { value: """) with (u " { " ++ u "value: """). change (u """ }") with (u """" ++ u " }"). change (u " } ") with (u " }" ++ u " "). now rewrite <- !app_assoc. Qed.
Definition char_tagger : fst := add_tokens (u "char") (insert (u "value: """) + CHAR + insert (u """"))%fst.
Lemma char_tagged x y w : denote char_tagger x y w <-> exists c, x = [c] /\ vchar c = true /\ y = char_token c ++ u " " /\ w = 0%Z.
Proof.
  unfold char_tagger. rewrite tokens_added. split.
  - intros (z & -> & H). apply cat_inv in H as (x1 & y1 & w1 & x2 & y2 & w2 & -> & -> & -> & H & (-> & -> & ->)).
    apply cat_inv in H as (x3 & y3 & w3 & x4 & y4 & w4 & -> & -> & -> & (-> & -> & ->) & C). apply char_inv in C as (c & -> & V & -> & ->).
    exists c. split; [reflexivity|]. split; [exact V|]. split; [|reflexivity]. rewrite value_shape. unfold char_token. now rewrite escape_step, app_nil_r.
  - intros (c & -> & V & -> & ->). exists ((u "value: """ ++ escape_value [c]) ++ u """"). split; [symmetry; apply value_shape|].
    change [c] with (([] ++ [c]) ++ []) at 1. change 0%Z with ((0 + 0) + 0)%Z. apply cat_i; [|now cbn]. apply cat_i; [now cbn|].
    rewrite escape_step, app_nil_r. now apply char_i.
Qed.
Lemma value_inner z z' c : char_token z = u "char" ++ u " { " ++ (u "value" ++ u ": """ ++ escape_value z' ++ u """") ++ u " }" ++ c -> c = [] /\ z' = [z].
Proof.
  unfold char_token, value_token. change (u " { value: """) with (u " { " ++ u "value" ++ u ": """). change (u """ }") with (u """" ++ u " }").
  rewrite <- !app_assoc. intro E. do 4 apply app_inv_head in E. change (u """") with [34%N] in E. cbn [app] in E.
  destruct (TokenProofs3.escape_roundtrip [z] _ _ z' _ (TokenProofs2.escape_decodes z') E) as (-> & E2).
  split; [|reflexivity]. rewrite <- (app_nil_r (u " }")) in E2 at 2. now apply app_inv_head in E2.
Qed.
Lemma char_verbalized c d w : vchar c = true -> denote (build_verbalizer (u "char")) (char_token c) d w <-> d = [c] /\ w = 0%Z.
Proof.
  intro V. unfold build_verbalizer. rewrite tokens_denote. split.
  - intros (z & k & E & _ & H). apply verbalize_value_spec in H as (_ & -> & ->). cbn [app] in E. apply value_inner in E as (_ & ->). auto.
  - intros (-> & ->). exists (u "value" ++ u ": """ ++ escape_value [c] ++ u """"), []. split.
    + unfold char_token, value_token. change (u " { value: """) with (u " { " ++ u "value" ++ u ": """). change (u """ }") with (u """" ++ u " }"). rewrite app_nil_r. now rewrite <- !app_assoc.
    + split; [auto|]. apply verbalize_value_spec. cbn [forallb]. rewrite V. auto.
Qed.
Lemma char_mapped g c d w : vchar c = true -> denote (delete_tokens (u "char") (verbalize_field (u "value") (Some g) false)) (char_token c) d w <-> denote g [c] d w.
Proof.
  intro V. rewrite tokens_denote. split.
  - intros (z & k & E & _ & H). apply field_denote in H as (t & -> & _ & H). apply value_inner in E as (_ & ->). exact H.
  - intro H. exists (u "value" ++ u ": """ ++ escape_value [c] ++ u """"), []. split.
    + unfold char_token, value_token. change (u " { value: """) with (u " { " ++ u "value" ++ u ": """). change (u """ }") with (u """" ++ u " }"). rewrite app_nil_r. now rewrite <- !app_assoc.
    + split; [auto|]. apply field_denote. exists [c]. cbn [forallb]. rewrite V. auto.
Qed.

(** ** The other rules *)
Definition char_only (rs : list rule_spec) (s : rule_spec) : Prop :=
  In s rs /\ s_verbalize s = true /\ forall s', In s' rs -> s' = s \/ other_name (u "char") (r_verbalizer (s_rule s')) = true.
Lemma char_union rs s v : char_only rs s -> verbalizer_union rs = Some v -> forall z d w,
  denote v (value_token (u "char") z) d w <-> denote (r_verbalizer (s_rule s)) (value_token (u "char") z) d w.
Proof.
  intros (I & V & O) E z d w. rewrite (verbalizers_spec _ _ E). split.
  - intros (s' & I' & _ & H). destruct (O _ I') as [-> |N]; [exact H|]. exfalso.
    refine (other_name_sound _ _ N eq_refl _ (u "value: """ ++ z ++ u """ }") _ _ _ H). unfold value_token. reflexivity.
  - intro H. exists s. auto.
Qed.
Lemma char_weight rs s : char_only rs s -> other_name (u "char") (r_verbalizer (s_rule s)) = false -> forall s', In s' rs -> s_rule s' = s_rule s -> s' = s.
Proof. intros (_ & _ & O) F s' I E. destruct (O _ I) as [->|N]; [reflexivity|]. rewrite E in N. congruence. Qed.
Ltac only_tac := split; [unfold ZhTnModel.rules, ZhItnModel.rules, JaTnModel.rules, JaItnModel.rules; rewrite ?in_app_iff; cbn [In]; tauto|split; [reflexivity|]];
  intros s' I; cbn [ZhTnModel.rules ZhItnModel.rules JaTnModel.rules JaItnModel.rules app In] in I; repeat destruct I as [I|I]; [..|destruct I]; subst s';
  try (left; reflexivity); right; vm_compute; reflexivity.
Lemma zh_tn_only o : char_only (ZhTnModel.rules o) (RuleSpec ZhTnModel.Char.rule (Some 1000000%Z) true).
Proof. destruct o as [i [] t p f v]; only_tac. Qed.
Lemma zh_itn_only o : char_only (ZhItnModel.rules o) (RuleSpec ZhItnModel.Char.rule (Some 1000000%Z) true).
Proof. only_tac. Qed.
Lemma ja_tn_only o : char_only (JaTnModel.rules o) (RuleSpec JaTnModel.Char.rule (Some 1000000%Z) true).
Proof. destruct o as [[] i p f v]; only_tac. Qed.
Lemma ja_itn_only o : char_only (JaItnModel.rules o) (RuleSpec (JaItnModel.Char.rule o) (Some 1000000%Z) true).
Proof. only_tac. Qed.

(** ** One character in the four grammars *)
Lemma eats_union e : FstEval.loopfree (trim_end e) = true -> forall y w, ~ denote e [] y w.
Proof.
  intro Lf. unfold trim_end in Lf. cbn [FstEval.loopfree] in Lf. apply andb_true_iff in Lf as (L & _). apply andb_true_iff in L as (L & _).
  now apply FstEval.eats_sound.
Qed.
Section One.
Variables (rs : list rule_spec) (s : rule_spec) (k : Z) (e v : fst) (os : orders) (c : N) (f : text).
Hypothesis Only : char_only rs s.
Hypothesis Weight : s_weight s = Some k.
Hypothesis Mine : other_name (u "char") (r_verbalizer (s_rule s)) = false.
Hypothesis Checks : cut_rules rs = true.
Hypothesis Tu : tagger_union rs = Some e.
Hypothesis Vu : verbalizer_union rs = Some v.
Hypothesis Lf : FstEval.loopfree (trim_end e) = true.
Hypothesis Plain : plain_for rs (s_rule s) c.
Hypothesis Valid : vchar c = true.
Hypothesis Dict : dict_get (u "char") os = None.
Hypothesis Tag1 : forall y w, denote (r_tagger (s_rule s)) [c] y w <-> y = char_token c ++ u " " /\ w = 0%Z.
Lemma one_with (g : fst) : (forall x y w, denote g x y w -> closed (run Init x) = true) -> (forall d w, denote g (char_token c) d w <-> d = f /\ w = 0%Z) ->
  only_answer os (trim_end e) (Star g) [c] f.
Proof.
  intros C V. apply andb_true_iff in Checks as (C1 & C2).
  apply (single_answer rs (s_rule s) k e g os c f); try assumption.
  - destruct Only as (I & Vb & _). destruct s as [r w b]. cbn [s_rule s_weight s_verbalize] in *. now subst.
  - intros s' I E. now rewrite (char_weight rs s Only Mine s' I E).
  - exact (blank_union rs e C1 Tu).
  - exact (eats_union e Lf).
Qed.
Lemma one_bare : (forall d w, denote (r_verbalizer (s_rule s)) (char_token c) d w <-> d = f /\ w = 0%Z) -> only_answer os (trim_end e) (Star v) [c] f.
Proof.
  intro V. apply one_with; [exact (closed_union rs v (proj2 (proj1 (andb_true_iff _ _) Checks)) Vu)|].
  intros d w. rewrite <- V. unfold char_token. exact (char_union rs s v Only Vu _ d w).
Qed.
Lemma one_post post m : (forall d w, denote (r_verbalizer (s_rule s)) (char_token c) d w <-> d = m /\ w = 0%Z) ->
  (forall z w, denote post m z w <-> z = f /\ w = 0%Z) -> only_answer os (trim_end e) (Star (v @ post)%fst) [c] f.
Proof.
  intros V P. apply one_with.
  - intros x y w (m' & w1 & w2 & _ & H & _). exact (closed_union rs v (proj2 (proj1 (andb_true_iff _ _) Checks)) Vu _ _ _ H).
  - intros d w. split.
    + intros (m' & w1 & w2 & -> & H & K). unfold char_token in H. apply (char_union rs s v Only Vu) in H. apply V in H as (-> & ->). apply P in K as (-> & ->). auto.
    + intros (-> & ->). exists m, 0%Z, 0%Z. split; [reflexivity|]. split; [|now apply P]. unfold char_token. apply (char_union rs s v Only Vu). now apply V.
Qed.
End One.
Lemma char_reads x y w : denote char_tagger x y w -> exists a, x = [a].
Proof. intro H. apply char_tagged in H as (c & -> & _). eauto. Qed.
Lemma char_tags c y w : vchar c = true -> denote char_tagger [c] y w <-> y = char_token c ++ u " " /\ w = 0%Z.
Proof.
  intro V. rewrite char_tagged. split; [intros (a & [= <-] & _ & H); exact H|]. intros (-> & ->). exists c. auto.
Qed.
Theorem zh_tn_one o t v c : ZhTnModel.tagger o = Some t -> ZhTnModel.verbalizer o = Some v -> vchar c = true -> plain_for (ZhTnModel.rules o) ZhTnModel.Char.rule c ->
  only_answer PipelineModel.zh_tn_token_orders t v [c] (zh_tn_clean o c).
Proof.
  intros Et Ev V P. pose proof (GrammarEngine.zh_tn_tagger_loopfree o) as L. rewrite Et in L. unfold ZhTnModel.tagger, ZhTnModel.verbalizer in Et, Ev.
  destruct (tagger_union (ZhTnModel.rules o)) as [e|] eqn:E; [|discriminate]. injection Et as <-. destruct (verbalizer_union (ZhTnModel.rules o)) as [g|] eqn:G; [|discriminate]. injection Ev as <-.
  apply (one_post (ZhTnModel.rules o) (RuleSpec ZhTnModel.Char.rule (Some 1000000%Z) true) 1000000%Z e g _ c (zh_tn_clean o c)) with (m := [c]);
    [apply zh_tn_only|reflexivity|reflexivity|apply zh_tn_rules|exact E|exact G|exact L|exact P|exact V|reflexivity| | |].
  - intros y w. exact (char_tags c y w V).
  - intros d w. exact (char_verbalized c d w V).
  - intros z w. exact (zh_tn_post o c z w V).
Qed.
Theorem zh_itn_one o t v c : ZhItnModel.tagger o = Some t -> ZhItnModel.verbalizer o = Some v -> vchar c = true -> plain_for (ZhItnModel.rules o) ZhItnModel.Char.rule c ->
  only_answer PipelineModel.zh_itn_token_orders t v [c] (zh_itn_clean o c).
Proof.
  intros Et Ev V P. pose proof (GrammarEngine.zh_itn_tagger_loopfree o) as L. rewrite Et in L. unfold ZhItnModel.tagger, ZhItnModel.verbalizer in Et, Ev.
  destruct (tagger_union (ZhItnModel.rules o)) as [e|] eqn:E; [|discriminate]. injection Et as <-. destruct (verbalizer_union (ZhItnModel.rules o)) as [g|] eqn:G; [|discriminate]. injection Ev as <-.
  apply (one_post (ZhItnModel.rules o) (RuleSpec ZhItnModel.Char.rule (Some 1000000%Z) true) 1000000%Z e g _ c (zh_itn_clean o c)) with (m := [c]);
    [apply zh_itn_only|reflexivity|reflexivity|apply zh_itn_rules|exact E|exact G|exact L|exact P|exact V|reflexivity| | |].
  - intros y w. exact (char_tags c y w V).
  - intros d w. exact (char_verbalized c d w V).
  - intros z w. exact (zh_itn_post o c z w V).
Qed.
Theorem ja_tn_one o t v c : JaTnModel.tagger o = Some t -> JaTnModel.verbalizer o = Some v -> vchar c = true -> plain_for (JaTnModel.rules o) JaTnModel.Char.rule c ->
  only_answer PipelineModel.ja_tn_token_orders t v [c] (ja_tn_clean o c).
Proof.
  intros Et Ev V P. pose proof (GrammarEngine.ja_tn_tagger_loopfree o) as L. rewrite Et in L. unfold JaTnModel.tagger, JaTnModel.verbalizer in Et, Ev.
  destruct (tagger_union (JaTnModel.rules o)) as [e|] eqn:E; [|discriminate]. injection Et as <-. destruct (verbalizer_union (JaTnModel.rules o)) as [g|] eqn:G; [|discriminate]. injection Ev as <-.
  apply (one_post (JaTnModel.rules o) (RuleSpec JaTnModel.Char.rule (Some 1000000%Z) true) 1000000%Z e g _ c (ja_tn_clean o c)) with (m := [c]);
    [apply ja_tn_only|reflexivity|reflexivity|apply ja_tn_rules|exact E|exact G|exact L|exact P|exact V|reflexivity| | |].
  - intros y w. exact (char_tags c y w V).
  - intros d w. exact (char_verbalized c d w V).
  - intros z w. exact (ja_tn_post o c z w V).
Qed.
Lemma ja_itn_reads o x y w : denote (r_tagger (JaItnModel.Char.rule o)) x y w -> exists a, x = [a].
Proof.
  intro H. apply tokens_added in H as (z & _ & H). apply tag_field_spec in H as (_ & _ & z' & H). apply JaItnShape.pre_length in H as (m & k & L & c & -> & _).
  destruct x as [|a [|b x]]; try discriminate. eauto.
Qed.
Theorem ja_itn_one o t v c : JaItnModel.tagger o = Some t -> JaItnModel.verbalizer o = Some v -> vchar c = true -> plain_for (JaItnModel.rules o) (JaItnModel.Char.rule o) c ->
  only_answer PipelineModel.ja_itn_token_orders t v [c] (ja_itn_clean o c).
Proof.
  intros Et Ev V P. pose proof (GrammarEngine.ja_itn_tagger_loopfree o) as L. rewrite Et in L. unfold JaItnModel.tagger, JaItnModel.verbalizer in Et, Ev.
  destruct (tagger_union (JaItnModel.rules o)) as [e|] eqn:E; [|discriminate]. injection Et as <-. destruct (verbalizer_union (JaItnModel.rules o)) as [g|] eqn:G; [|discriminate]. injection Ev as <-.
  apply (one_bare (JaItnModel.rules o) (RuleSpec (JaItnModel.Char.rule o) (Some 1000000%Z) true) 1000000%Z e g _ c (ja_itn_clean o c));
    [apply ja_itn_only|reflexivity|reflexivity|apply ja_itn_rules|exact E|exact G|exact L|exact P|exact V|reflexivity| |].
  - intros y w. cbn [s_rule JaItnModel.Char.rule JaItnModel.value_rule r_tagger]. rewrite tokens_added. split.
    + intros (z & -> & H). apply tag_field_spec in H as (_ & -> & z' & H). apply (ja_itn_pre o c z' w V) in H as (_ & ->). split; [|reflexivity].
      unfold char_token. rewrite <- value_shape. reflexivity.
    + intros (-> & ->). exists ((u "value: """ ++ escape_value [c]) ++ u """"). split; [symmetry; apply value_shape|]. apply tag_field_spec.
      cbn [forallb]. rewrite V. split; [reflexivity|]. split; [rewrite <- app_assoc; reflexivity|]. exists (ja_itn_clean o c). now apply ja_itn_pre.
  - intros d w. cbn [s_rule JaItnModel.Char.rule JaItnModel.value_rule r_verbalizer]. rewrite <- (ja_itn_pre o c d w V). exact (char_mapped _ c d w V).
Qed.
