(** The Chinese text normalisation grammar verbalises the tokens it writes. *)
From Coq Require Import List NArith ZArith Bool String Lia.
From Verif Require Import Text TextFacts TokenModel TokenSpec PipelineModel.
From Verif Require Import Fst GrammarModel GrammarSpec FstFacts FstRun ShapeSpec GrammarShape GrammarAccept.
From Verif Require Import ZhTnModel ZhTnShape.
Import ListNotations.
Local Open Scope list_scope.

Notation os := zh_tn_token_orders.
Lemma plain_year : unescaped Date.g_year = true. Proof. vm_compute; reflexivity. Qed.
Lemma plain_month : unescaped Date.g_month = true. Proof. vm_compute; reflexivity. Qed.
Lemma plain_day : unescaped Date.g_day = true. Proof. vm_compute; reflexivity. Qed.
Ltac raw g P := repeat match goal with R : reads g ?v |- context [escape_value ?v] =>
  rewrite (unescaped_spec g v P R) end.
Lemma date_ok : Forall (shape_ok os (r_verbalizer (Date.rule (r_tagger Range.rule)))) date_shapes.
Proof.
  unfold date_shapes, named. cbn [map Date.rule r_verbalizer]. unfold Date.verbalizer.
  repeat apply Forall_cons; [..|apply Forall_nil]; members; lay os;
  repeat match goal with R : reads Date.mm ?v |- _ => apply (reads_right Date.m) in R; change (Date.m ∪ Date.mm)%fst with Date.g_month in R end;
  raw Date.g_year plain_year; raw Date.g_month plain_month; raw Date.g_day plain_day;
  (eapply tok_tokens; [st|same_text]).
Qed.
Ltac rule_tac := repeat apply Forall_cons; [..|apply Forall_nil]; members; fixed; lay os.
Lemma plain_hour : unescaped Time.hour = true. Proof. vm_compute; reflexivity. Qed.
Lemma plain_minute : unescaped Time.minute = true. Proof. vm_compute; reflexivity. Qed.
Lemma plain_second : unescaped Time.second = true. Proof. vm_compute; reflexivity. Qed.
Lemma plain_noon : unescaped Time.noon = true. Proof. vm_compute; reflexivity. Qed.
Lemma time_ok : Forall (shape_ok os (r_verbalizer (Time.rule (r_tagger Range.rule)))) time_shapes.
Proof.
  unfold time_shapes, named. cbn [map Time.rule r_verbalizer]. unfold Time.verbalizer. rule_tac;
  raw Time.hour plain_hour; raw Time.minute plain_minute; raw Time.second plain_second; raw Time.noon plain_noon;
  (eapply tok_tokens; [st|same_text]).
Qed.
Lemma plain_whitelist : unescaped Whitelist.whitelist = true. Proof. vm_compute; reflexivity. Qed.
Lemma whitelist_ok b : Forall (shape_ok os (r_verbalizer (Whitelist.rule b))) whitelist_shapes.
Proof.
  unfold whitelist_shapes, named. cbn [map Whitelist.rule r_verbalizer]. rule_tac.
  - apply tok_right. destruct b; (eapply tok_tokens; [|]).
    + apply acc_delete.
    + vm_compute; reflexivity.
    + eapply acc_cat; [eapply acc_cat; [apply acc_delete|]|apply acc_delete]. exists (u "儿"), 0%Z. apply accep_i.
    + vm_compute; reflexivity.
  - apply tok_left. raw Whitelist.whitelist plain_whitelist. eapply tok_tokens; [st|same_text].
Qed.
Lemma plain_team : unescaped Sport.team = true. Proof. vm_compute; reflexivity. Qed.
Lemma plain_score : unescaped Sport.score = true. Proof. vm_compute; reflexivity. Qed.
Lemma sport_ok : Forall (shape_ok os (r_verbalizer Sport.rule)) sport_shapes.
Proof.
  unfold sport_shapes, named. cbn [map Sport.rule r_verbalizer]. rule_tac.
  raw Sport.team plain_team. raw Sport.score plain_score. eapply tok_tokens; [st|same_text].
Qed.
Lemma plain_number : unescaped Cardinal.number = true. Proof. vm_compute; reflexivity. Qed.
Lemma fraction_ok : Forall (shape_ok os (r_verbalizer Fraction.rule)) fraction_shapes.
Proof.
  unfold fraction_shapes, named. cbn [map Fraction.rule r_verbalizer]. rule_tac.
  raw Fraction.number plain_number. eapply tok_tokens; [st|same_text].
Qed.
Lemma plain_measure : unescaped Measure.measure = true. Proof. vm_compute; reflexivity. Qed.
Lemma plain_annual : unescaped (Measure.measure ∪ Measure.annual)%fst = true. Proof. vm_compute; reflexivity. Qed.
Lemma plain_denominator : unescaped Measure.denominator = true. Proof. vm_compute; reflexivity. Qed.
Lemma measure_ok : Forall (shape_ok os (r_verbalizer Measure.rule)) measure_shapes.
Proof.
  unfold measure_shapes, named. cbn [map Measure.rule r_verbalizer]. rule_tac;
  raw Measure.measure plain_measure; raw (Measure.measure ∪ Measure.annual)%fst plain_annual;
  raw Measure.denominator plain_denominator.
  - apply tok_left. eapply tok_tokens; [st|same_text].
  - apply tok_right. eapply tok_tokens; [st|same_text].
Qed.
Lemma plain_currency : unescaped Money.currency = true. Proof. vm_compute; reflexivity. Qed.
Lemma money_ok : Forall (shape_ok os (r_verbalizer Money.rule)) money_shapes.
Proof.
  unfold money_shapes, named. cbn [map Money.rule r_verbalizer]. rule_tac.
  raw Money.number plain_number. raw Money.currency plain_currency. eapply tok_tokens; [st|same_text].
Qed.
Lemma plain_cardinal : unescaped Cardinal.cardinal = true. Proof. vm_compute; reflexivity. Qed.
Lemma cardinal_ok : Forall (shape_ok os (r_verbalizer Cardinal.rule)) cardinal_shapes.
Proof.
  unfold cardinal_shapes, named. cbn [map Cardinal.rule r_verbalizer]. rule_tac.
  raw Cardinal.cardinal plain_cardinal. eapply tok_tokens; [st|same_text].
Qed.
Lemma plain_math : unescaped Math.math = true. Proof. vm_compute; reflexivity. Qed.
Lemma math_ok : Forall (shape_ok os (r_verbalizer Math.rule)) math_shapes.
Proof.
  unfold math_shapes, named. cbn [map Math.rule r_verbalizer]. rule_tac.
  raw Math.math plain_math. eapply tok_tokens; [st|same_text].
Qed.
Lemma plain_range : unescaped Range.range = true. Proof. vm_compute; reflexivity. Qed.
Lemma range_ok : Forall (shape_ok os (r_verbalizer Range.rule)) range_shapes.
Proof.
  unfold range_shapes, named. cbn [map Range.rule r_verbalizer]. rule_tac.
  raw Range.range plain_range. eapply tok_tokens; [st|same_text].
Qed.
Lemma char_ok : Forall (shape_ok os (r_verbalizer Char.rule)) char_shapes.
Proof.
  unfold char_shapes, named. cbn [map Char.rule r_verbalizer]. unfold build_verbalizer. rule_tac.
  eapply tok_tokens; [eapply acc_vvalue; exact (proj1 R)|same_text].
Qed.
Ltac rule_in := unfold verbalizers, rules; cbn [flat_map app s_verbalize s_rule In]; tauto.
Lemma shapes_ok o e : verbalizer_union (rules o) = Some e -> Forall (shape_ok os e) zh_tn_shapes.
Proof.
  intro E. unfold zh_tn_shapes. rewrite !Forall_app.
  split; [eapply shapes_union; [exact E| |apply date_ok]; rule_in|].
  split; [eapply shapes_union; [exact E| |apply (whitelist_ok (remove_erhua o))]; rule_in|].
  split; [eapply shapes_union; [exact E| |apply sport_ok]; rule_in|].
  split; [eapply shapes_union; [exact E| |apply fraction_ok]; rule_in|].
  split; [eapply shapes_union; [exact E| |apply measure_ok]; rule_in|].
  split; [eapply shapes_union; [exact E| |apply money_ok]; rule_in|].
  split; [eapply shapes_union; [exact E| |apply time_ok]; rule_in|].
  split; [eapply shapes_union; [exact E| |apply cardinal_ok]; rule_in|].
  split; [eapply shapes_union; [exact E| |apply math_ok]; rule_in|].
  split; [eapply shapes_union; [exact E| |apply char_ok]; rule_in|].
  eapply shapes_union; [exact E| |apply range_ok]; rule_in.
Qed.
Lemma postprocessor_total o : total (postprocessor o).
Proof.
  unfold postprocessor. repeat apply total_when; (apply total_rewrite; [lazy; reflexivity|vm_compute; reflexivity]).
Qed.
Lemma verbalizers_valid o : forallb writes_valid (verbalizers (rules o)) = true.
Proof. destruct o as [? [] ? ? ? ?]; vm_compute; reflexivity. Qed.
Theorem zh_tn_tags o t x : tagger o = Some t -> forallb vchar x = true -> accepts t x.
Proof.
  unfold tagger. destruct (tagger_union (rules o)) as [e|] eqn:E; [|discriminate]. intros [= <-] V.
  eapply trim_accepts; [exact E| |exact char_tagged|exact V].
  unfold taggers, rules. cbn [flat_map app s_weight s_rule In]. tauto.
Qed.
Theorem zh_tn_verbalizes o v x y : verbalizer o = Some v -> writes zh_tn_shapes x y ->
  exists out, reorder os y = Ok out /\ accepts v out.
Proof.
  unfold verbalizer. destruct (verbalizer_union (rules o)) as [e|] eqn:E; [|discriminate]. intros [= <-] W.
  eapply reads_back_post; [exact (shapes_ok o e E)|exists x; exact W|exact (union_valid _ _ E (verbalizers_valid o))|
    apply postprocessor_total|lazy; reflexivity].
Qed.
