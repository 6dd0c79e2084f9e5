(** The tokens the Japanese text normalisation grammar writes. *)
From Coq Require Import List NArith ZArith Bool String Lia.
From Verif Require Import Text TextFacts TokenModel TokenSpec.
From Verif Require Import Fst GrammarModel GrammarSpec FstFacts ShapeSpec GrammarShape JaTnModel.
Import ListNotations.
Local Open Scope list_scope.

Section Shapes.
Variable o : options.
Definition f_year := (u "year", Date.g_year o).
Definition f_month := (u "month", Date.g_month o).
Definition f_mm := (u "month", Date.g_mm o).
Definition f_day := (u "day", Date.g_day o).
Definition date_shapes := named Date.name
  [[f_year; f_month; f_day]; [f_day; f_month; f_year]; [f_year; f_mm]; [f_mm; f_year]; [f_mm; f_day];
   [f_year; f_month]; [f_month; f_year]; [f_month; f_day]].
Definition f_hour := (u "hour", Time.g_hour o).
Definition f_minute := (u "minute", Time.g_minute o).
Definition f_second := (u "second", Time.g_second o).
Definition f_noon := (u "noon", Time.g_noon o).
Definition time_shapes := named Time.name
  [[f_hour; f_minute; f_second; f_noon]; [f_hour; f_minute; f_second]; [f_hour; f_minute; f_noon]; [f_hour; f_minute];
   [f_hour; f_noon]].
Definition f_value g := (u "value", g) : field_shape.
Definition whitelist_shapes := named Whitelist.name [[f_value (Whitelist.whitelist o)]].
Definition sport_shapes := named Sport.name
  [[(u "team", Sport.team o); (u "score", Sport.score o)]; [(u "score", Sport.only_score o)]].
Definition fraction_shapes := named Fraction.name
  [[(u "numerator", Fraction.number o); (u "denominator", Fraction.number o)]].
Definition measure_shapes := named Measure.name [[f_value (Measure.measure o)]].
Definition money_shapes := named Money.name [[(u "currency", Money.currency o); f_value (Cardinal.number o)]].
Definition cardinal_shapes := named Cardinal.name [[f_value (Cardinal.cardinal o)]].
Definition math_shapes := named Math.name [[f_value (Math.math o)]].
Definition char_shapes := named Char.name [[f_value VCHAR]].
Definition range_shapes := named Range.name [[f_value (Range.range o)]].
Definition translit_shapes := named Transliteration.name [[f_value (Transliteration.transliteration o)]].
Definition ja_tn_shapes : list token_shape :=
  date_shapes ++ whitelist_shapes ++ sport_shapes ++ fraction_shapes ++ measure_shapes ++ money_shapes ++
  time_shapes ++ cardinal_shapes ++ math_shapes ++ char_shapes ++ range_shapes ++
  (if transliterate o then translit_shapes else []).

Lemma rmsign_fields : fields (Date.rmsign o) [[]].
Proof.
  unfold Date.rmsign. eapply fields_more; [|apply fields_cat; [|apply fields_space]].
  2: { eapply fields_compose; [repeat apply fields_union; apply fields_delete|incl_tac]. }
  incl_tac.
Qed.
Lemma colon_fields : fields (Time.colon o) [[]].
Proof. eapply fields_compose; [apply fields_union; apply fields_delete|incl_tac]. Qed.
Lemma slash_fields : fields (Fraction.slash o) [[]].
Proof. eapply fields_compose; [apply fields_delete|incl_tac]. Qed.
Lemma value_emits name g : is_name name -> emits (r_tagger (value_rule name g)) (named name [[f_value g]]).
Proof. intro N. apply emits_tokens; [exact N|apply fields_tag; name_tac|nodup_tac]. Qed.
Lemma one_date : emits (add_tokens Date.name (Date.date o)) date_shapes.
Proof.
  unfold Date.date, Date.year, Date.month, Date.month_two_digit, Date.day, date_shapes. pose proof rmsign_fields. emit_tac.
Qed.
Lemma one_simple_date : emits (add_tokens Date.name (Date.simple_date o)) date_shapes.
Proof.
  unfold Date.simple_date, Date.year, Date.month, Date.day, date_shapes. pose proof rmsign_fields. emit_tac.
Qed.
Lemma one_time : emits (add_tokens Time.name (Time.time o)) time_shapes.
Proof. unfold Time.time, Time.h_noon, time_shapes. pose proof colon_fields. emit_tac. Qed.
Ltac part := unfold ja_tn_shapes; intros ? I; rewrite ?in_app_iff in I; rewrite !in_app_iff; tauto.
Lemma range_emits : emits (r_tagger (Range.rule o)) range_shapes.
Proof. apply value_emits; name_tac. Qed.
Ltac half := intros ? ?; rewrite !in_app_iff; tauto.
Lemma date_emits : emits (r_tagger (Date.rule o (r_tagger (Range.rule o)))) (date_shapes ++ range_shapes).
Proof.
  cbn [Date.rule r_tagger]. unfold Date.tagger. assert (R := range_emits). eapply emits_more with (B := date_shapes ++ range_shapes) in R; [|half].
  assert (D := one_date). eapply emits_more with (B := (date_shapes ++ range_shapes)) in D; [|half].
  assert (S := one_simple_date). eapply emits_more with (B := (date_shapes ++ range_shapes)) in S; [|half].
  apply emits_union.
  - apply emits_cat_ques; [exact D|]. apply emits_cat; [exact R|exact D].
  - apply emits_cat; [apply emits_cat; [exact S|exact R]|exact S].
Qed.
Lemma time_emits : emits (r_tagger (Time.rule o (r_tagger (Range.rule o)))) (time_shapes ++ range_shapes).
Proof.
  cbn [Time.rule r_tagger]. unfold Time.tagger. assert (R := range_emits). eapply emits_more with (B := time_shapes ++ range_shapes) in R; [|half].
  assert (D := one_time). eapply emits_more with (B := (time_shapes ++ range_shapes)) in D; [|half].
  apply emits_cat_ques; [exact D|]. apply emits_cat; [exact R|exact D].
Qed.
Lemma sport_emits : emits (r_tagger (Sport.rule o)) sport_shapes.
Proof. cbn [Sport.rule r_tagger]. unfold sport_shapes. emit_tac. Qed.
Lemma fraction_emits : emits (r_tagger (Fraction.rule o)) fraction_shapes.
Proof.
  cbn [Fraction.rule r_tagger]. unfold fraction_shapes, Fraction.rmspace. pose proof slash_fields. emit_tac.
Qed.
Lemma money_emits : emits (r_tagger (Money.rule o)) money_shapes.
Proof. cbn [Money.rule r_tagger]. unfold money_shapes. emit_tac. Qed.
Lemma char_emits : emits (r_tagger Char.rule) char_shapes.
Proof.
  cbn [Char.rule r_tagger]. apply emits_tokens; [name_tac|apply (fields_char (u "value")); name_tac|nodup_tac].
Qed.
Lemma rules_emit : Forall (fun e => emits e ja_tn_shapes) (taggers (rules o)).
Proof.
  unfold taggers, rules. rewrite flat_map_app. apply Forall_app. split.
  2: { destruct (transliterate o) eqn:E; cbn [flat_map app s_weight s_rule]; [|constructor].
       constructor; [|constructor]. apply emits_weight.
       eapply emits_more with (A := translit_shapes); [|apply value_emits; name_tac].
       unfold ja_tn_shapes. rewrite E. intros ? I; rewrite !in_app_iff; tauto. }
  cbn [flat_map app s_weight s_rule].
  repeat (apply Forall_cons; [apply emits_weight|]); [..|apply Forall_nil].
  - eapply emits_more with (A := cardinal_shapes); [|apply value_emits; name_tac]. part.
  - eapply emits_more; [|apply char_emits]. part.
  - eapply emits_more; [|apply date_emits]. part.
  - eapply emits_more; [|apply fraction_emits]. part.
  - eapply emits_more with (A := math_shapes); [|apply value_emits; name_tac]. part.
  - eapply emits_more with (A := measure_shapes); [|apply value_emits; name_tac]. part.
  - eapply emits_more; [|apply money_emits]. part.
  - eapply emits_more; [|apply sport_emits]. part.
  - eapply emits_more; [|apply time_emits]. part.
  - eapply emits_more with (A := whitelist_shapes); [|apply value_emits; name_tac]. part.
Qed.
Theorem ja_tn_writes t x y w : tagger o = Some t -> denote t x y w -> (x = [] /\ y = []) \/ writes ja_tn_shapes x y.
Proof.
  unfold tagger. destruct (tagger_union (rules o)) as [e|] eqn:E; [|discriminate]. intros [= <-] H.
  refine (emits_trim e _ x y w _ H). exact (union_of_emits _ _ rules_emit _ E).
Qed.
Lemma rules_spell : Forall spells (taggers (rules o)).
Proof.
  unfold taggers, rules. rewrite flat_map_app. apply Forall_app. split.
  2: { destruct (transliterate o); cbn [flat_map app s_weight s_rule]; [|constructor].
       constructor; [|constructor]. apply spells_weight. quiet_tac (value_emits Transliteration.name). name_tac. }
  cbn [flat_map app s_weight s_rule].
  repeat (apply Forall_cons; [apply spells_weight|]); [..|apply Forall_nil].
  - quiet_tac (value_emits Cardinal.name). name_tac.
  - apply spells_char, one_char_plain.
  - quiet_tac date_emits.
  - quiet_tac fraction_emits.
  - quiet_tac (value_emits Math.name). name_tac.
  - quiet_tac (value_emits Measure.name). name_tac.
  - quiet_tac money_emits.
  - quiet_tac sport_emits.
  - quiet_tac time_emits.
  - quiet_tac (value_emits Whitelist.name). name_tac.
Qed.
Theorem ja_tn_pieces t x y w toks : tagger o = Some t -> denote t x y w -> parse y = Ok toks -> pieces x toks.
Proof.
  unfold tagger. destruct (tagger_union (rules o)) as [e|] eqn:E; [|discriminate]. intros [= <-] H.
  refine (spells_pieces e x y w _ _ H). exact (union_of_spells _ rules_spell _ E).
Qed.
End Shapes.
