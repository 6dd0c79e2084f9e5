(** The Japanese text normalisation grammar verbalises the tokens it writes. *)
From Coq Require Import List NArith ZArith Bool String Lia.
From Verif Require Import Text TextFacts TokenModel TokenSpec PipelineModel.
From Verif Require Import Fst GrammarModel GrammarSpec FstFacts FstRun ShapeSpec GrammarShape GrammarAccept.
From Verif Require Import DataJaTn JaTnModel JaTnShape.
Import ListNotations.
Local Open Scope list_scope.

Notation os := ja_tn_token_orders.
(** The preprocessor neither makes nor hides quotes and backslashes on the input side. *)
Lemma pre_plain o g : unescaped g = true -> unescaped (pre o g) = true.
Proof.
  unfold unescaped. rewrite !andb_true_iff. intros (A & B).
  assert (P : forall n, (n = 34 \/ n = 92)%N -> snd (avoidsb n (preprocessor o)) = true).
  { intros n [-> | ->]; destruct o as [? ? ? [] ?]; vm_compute; reflexivity. }
  unfold pre, apply_input_processor. cbn [avoidsb Datatypes.fst].
  rewrite (P 34%N), (P 92%N), A, B by auto. now rewrite !orb_true_r.
Qed.
Ltac raw P := repeat match goal with R : reads ?g ?v |- context [escape_value ?v] =>
  rewrite (unescaped_spec g v (P _) R) end.
Lemma plain_cat a b : unescaped a = true -> unescaped b = true -> unescaped (a + b)%fst = true.
Proof. unfold unescaped. cbn [avoidsb Datatypes.fst]. rewrite !andb_true_iff. tauto. Qed.
Lemma plain_union a b : unescaped a = true -> unescaped b = true -> unescaped (a ∪ b)%fst = true.
Proof. unfold unescaped. cbn [avoidsb Datatypes.fst]. rewrite !andb_true_iff. tauto. Qed.
Lemma plain_star a : unescaped a = true -> unescaped (Star a) = true.
Proof. exact (fun H => H). Qed.
Lemma plain_ques a : unescaped a = true -> unescaped (ques a) = true.
Proof. intro A. apply plain_union; [exact A|reflexivity]. Qed.
Lemma plain_thousand o : unescaped (Cardinal.thousand o) = true.
Proof. apply pre_plain. vm_compute; reflexivity. Qed.
Lemma plain_year o : unescaped (Date.g_year o) = true.
Proof. apply plain_cat; [apply plain_thousand|reflexivity]. Qed.
Lemma plain_month o : unescaped (Date.g_month o) = true.
Proof. apply pre_plain. vm_compute; reflexivity. Qed.
Lemma plain_day o : unescaped (Date.g_day o) = true.
Proof. apply pre_plain. vm_compute; reflexivity. Qed.
Ltac rule_tac := repeat apply Forall_cons; [..|apply Forall_nil]; members; fixed; lay os.
Lemma mm_month o v : reads (Date.g_mm o) v -> reads (Date.g_month o) v.
Proof.
  intros (V & z & w & (y & w1 & w2 & E & H1 & H2)). split; [exact V|]. exists z, w, y, w1, w2.
  split; [exact E|]. split; [exact H1|]. now right.
Qed.
Lemma date_ok o : Forall (shape_ok os (r_verbalizer (Date.rule o (r_tagger (Range.rule o))))) (date_shapes o).
Proof.
  unfold date_shapes, named. cbn [map Date.rule r_verbalizer]. unfold Date.verbalizer. rule_tac;
  repeat match goal with R : reads (Date.g_mm _) ?v |- _ => apply mm_month in R end;
  raw plain_year; raw plain_month; raw plain_day;
  (eapply tok_tokens; [st|same_text]).
Qed.
Lemma plain_hour o : unescaped (Time.g_hour o) = true.
Proof. apply pre_plain. vm_compute; reflexivity. Qed.
Lemma plain_minute o : unescaped (Time.g_minute o) = true.
Proof. apply pre_plain. vm_compute; reflexivity. Qed.
Lemma plain_second o : unescaped (Time.g_second o) = true.
Proof. apply pre_plain. vm_compute; reflexivity. Qed.
Lemma plain_noon o : unescaped (Time.g_noon o) = true.
Proof. apply pre_plain. vm_compute; reflexivity. Qed.
Lemma time_ok o : Forall (shape_ok os (r_verbalizer (Time.rule o (r_tagger (Range.rule o))))) (time_shapes o).
Proof.
  unfold time_shapes, named. cbn [map Time.rule r_verbalizer].
  unfold Time.verbalizer, Time.v_noon, Time.v_hour, Time.v_minute, Time.v_second. rule_tac;
  raw plain_hour; raw plain_minute; raw plain_second; raw plain_noon;
  (eapply tok_tokens; [st|same_text]).
Qed.
Lemma plain_number o : unescaped (Cardinal.number o) = true.
Proof. apply pre_plain. vm_compute; reflexivity. Qed.
Lemma plain_team o : unescaped (Sport.team o) = true.
Proof. apply pre_plain. vm_compute; reflexivity. Qed.
Lemma plain_positive o : unescaped (Sport.number o) = true.
Proof. apply pre_plain. vm_compute; reflexivity. Qed.
Lemma plain_score o : unescaped (Sport.any_score o) = true.
Proof.
  apply plain_union; apply pre_plain; repeat apply plain_cat; try apply plain_positive; vm_compute; reflexivity.
Qed.
Lemma sport_ok o : Forall (shape_ok os (r_verbalizer (Sport.rule o))) (sport_shapes o).
Proof.
  unfold sport_shapes, named. cbn [map Sport.rule r_verbalizer]. rule_tac.
  - apply (reads_left _ (Sport.only_score o)) in R0. change (reads (Sport.any_score o) v0) in R0.
    raw plain_team; raw plain_score; (eapply tok_tokens; [st|same_text]).
  - apply (reads_right (Sport.score o)) in R. change (reads (Sport.any_score o) v) in R.
    raw plain_score; (eapply tok_tokens; [st|same_text]).
Qed.
Lemma fraction_ok o : Forall (shape_ok os (r_verbalizer (Fraction.rule o))) (fraction_shapes o).
Proof.
  unfold fraction_shapes, named. cbn [map Fraction.rule r_verbalizer]. rule_tac.
  raw plain_number. eapply tok_tokens; [st|same_text].
Qed.
Lemma plain_currency o : unescaped (Money.currency o) = true.
Proof. apply pre_plain. vm_compute; reflexivity. Qed.
Lemma money_ok o : Forall (shape_ok os (r_verbalizer (Money.rule o))) (money_shapes o).
Proof.
  unfold money_shapes, named. cbn [map Money.rule r_verbalizer]. rule_tac.
  raw plain_number; raw plain_currency. eapply tok_tokens; [st|same_text].
Qed.
Lemma value_ok name g : dict_get name os = None \/ dict_get name os = Some [u "denominator"; u "numerator"; u "value"] ->
  unescaped g = true -> Forall (shape_ok os (r_verbalizer (value_rule name g))) (named name [[f_value g]]).
Proof.
  intros N P. unfold named. cbn [map value_rule r_verbalizer]. apply Forall_cons; [|constructor]. members.
  assert (E : layout os name (map Datatypes.fst [(u "value", v)]) (marked [(u "value", v)]) = [0]).
  { unfold layout. destruct N as [->| ->]; vm_compute; reflexivity. }
  rewrite E. cbn [flat_map field_at nth_error app]. unfold format_field, raw_value. rewrite (unescaped_spec g v P R).
  eapply tok_tokens; [st|]. f_equal. same_text.
Qed.
Lemma plain_whitelist o : unescaped (Whitelist.whitelist o) = true.
Proof. apply pre_plain. vm_compute; reflexivity. Qed.
Lemma plain_transliteration o : unescaped (Transliteration.transliteration o) = true.
Proof. apply pre_plain. vm_compute; reflexivity. Qed.
Lemma plain_cardinal o : unescaped (Cardinal.cardinal o) = true.
Proof. apply pre_plain. vm_compute; reflexivity. Qed.
Lemma plain_range o : unescaped (Range.range o) = true.
Proof. apply pre_plain. vm_compute; reflexivity. Qed.
Ltac parts := repeat match goal with
  | |- unescaped (Cardinal.number _) = true => apply plain_number
  | |- unescaped (ques _) = true => apply plain_ques
  | |- unescaped (Star _) = true => apply plain_star
  | |- unescaped (Cat _ _) = true => apply plain_cat
  | |- unescaped (Union _ _) = true => apply plain_union
  end; try (vm_compute; reflexivity).
Lemma plain_math o : unescaped (Math.math o) = true.
Proof. apply pre_plain. parts. Qed.
Lemma plain_measure o : unescaped (Measure.measure o) = true.
Proof. apply pre_plain. unfold Measure.measure0, Measure.prefix. parts. Qed.
Lemma char_ok : Forall (shape_ok os (r_verbalizer Char.rule)) char_shapes.
Proof.
  unfold char_shapes, named. cbn [map Char.rule r_verbalizer]. unfold build_verbalizer. rule_tac.
  eapply tok_tokens; [eapply acc_vvalue; exact (proj1 R)|same_text].
Qed.
Ltac rule_in := unfold verbalizers, rules; rewrite flat_map_app, in_app_iff; left; cbn [flat_map app s_verbalize s_rule In]; tauto.
Ltac value_tac E P := eapply shapes_union; [exact E| |apply value_ok; [(left; vm_compute; reflexivity) || (right; vm_compute; reflexivity)|apply P]]; rule_in.
Lemma shapes_ok o e : verbalizer_union (rules o) = Some e -> Forall (shape_ok os e) (ja_tn_shapes o).
Proof.
  intro E. unfold ja_tn_shapes. rewrite !Forall_app.
  split; [eapply shapes_union; [exact E| |apply (date_ok o)]; rule_in|].
  split; [value_tac E (plain_whitelist o)|].
  split; [eapply shapes_union; [exact E| |apply (sport_ok o)]; rule_in|].
  split; [eapply shapes_union; [exact E| |apply (fraction_ok o)]; rule_in|].
  split; [value_tac E (plain_measure o)|].
  split; [eapply shapes_union; [exact E| |apply (money_ok o)]; rule_in|].
  split; [eapply shapes_union; [exact E| |apply (time_ok o)]; rule_in|].
  split; [value_tac E (plain_cardinal o)|].
  split; [value_tac E (plain_math o)|].
  split; [eapply shapes_union; [exact E| |apply char_ok]; rule_in|].
  split; [value_tac E (plain_range o)|].
  destruct (transliterate o) eqn:T; [|constructor].
  eapply shapes_union; [exact E| |apply value_ok; [left; vm_compute; reflexivity|apply (plain_transliteration o)]].
  unfold verbalizers, rules. rewrite T, flat_map_app, in_app_iff. right. now left.
Qed.
Lemma postprocessor_total o : total (postprocessor o).
Proof.
  unfold postprocessor. repeat apply total_when; (apply total_rewrite; [lazy; reflexivity|vm_compute; reflexivity]).
Qed.
Lemma pre_valid o g : writes_valid g = true -> writes_valid (pre o g) = true.
Proof. intro H. unfold pre, apply_input_processor, preprocessor, build_rule. destruct (full_to_half o); exact H. Qed.
Lemma verbalizers_valid o : forallb writes_valid (verbalizers (rules o)) = true.
Proof. destruct o as [[] ? ? [] ?]; vm_compute; reflexivity. Qed.
Theorem ja_tn_tags o t x : tagger o = Some t -> forallb vchar x = true -> accepts t x.
Proof.
  unfold tagger. destruct (tagger_union (rules o)) as [e|] eqn:E; [|discriminate]. intros [= <-] V.
  eapply trim_accepts; [exact E| |exact char_tagged|exact V].
  unfold taggers, rules. rewrite flat_map_app, in_app_iff. left. cbn [flat_map app s_weight s_rule In]. tauto.
Qed.
Theorem ja_tn_verbalizes o v x y : verbalizer o = Some v -> writes (ja_tn_shapes o) x y ->
  exists out, reorder os y = Ok out /\ accepts v out.
Proof.
  unfold verbalizer. destruct (verbalizer_union (rules o)) as [e|] eqn:E; [|discriminate]. intros [= <-] W.
  eapply reads_back_post; [exact (shapes_ok o e E)|exists x; exact W|exact (union_valid _ _ E (verbalizers_valid o))|
    apply postprocessor_total|]. unfold ja_tn_shapes. destruct (transliterate o); lazy; reflexivity.
Qed.
