(** The tokens the Chinese text normalisation grammar writes. *)
From Coq Require Import List NArith ZArith Bool String Lia.
From Verif Require Import Text TextFacts TokenModel TokenSpec.
From Verif Require Import Fst GrammarModel GrammarSpec FstFacts ShapeSpec GrammarShape ZhTnModel.
Import ListNotations.
Local Open Scope list_scope.

Definition f_year := (u "year", Date.g_year).
Definition f_month := (u "month", Date.g_month).
Definition f_mm := (u "month", Date.mm).
Definition f_day := (u "day", Date.g_day).
Definition date_shapes := named Date.name
  [[f_year; f_month; f_day]; [f_day; f_month; f_year]; [f_year; f_mm]; [f_mm; f_year]; [f_mm; f_day]].
Definition f_hour := (u "hour", Time.hour).
Definition f_minute := (u "minute", Time.minute).
Definition f_second := (u "second", Time.second).
Definition f_noon := (u "noon", Time.noon).
Definition time_shapes := named Time.name
  [[f_hour; f_minute; f_second; f_noon]; [f_hour; f_minute; f_second]; [f_hour; f_minute; f_noon]; [f_hour; f_minute]].
Definition f_value g := (u "value", g) : field_shape.
Definition whitelist_shapes := named Whitelist.name
  [[(u "erhua", accep (u "儿"))]; [f_value Whitelist.whitelist]].
Definition sport_shapes := named Sport.name [[(u "team", Sport.team); (u "score", Sport.score)]].
Definition fraction_shapes := named Fraction.name
  [[(u "numerator", Fraction.number); (u "denominator", Fraction.number)]].
Definition measure_shapes := named Measure.name
  [[f_value (Measure.measure ∪ Measure.annual)%fst];
   [(u "numerator", Measure.measure); (u "denominator", Measure.denominator)]].
Definition money_shapes := named Money.name [[(u "currency", Money.currency); f_value Money.number]].
Definition cardinal_shapes := named Cardinal.name [[f_value Cardinal.cardinal]].
Definition math_shapes := named Math.name [[f_value Math.math]].
Definition char_shapes := named Char.name [[f_value VCHAR]].
Definition range_shapes := named Range.name [[f_value Range.range]].
Definition zh_tn_shapes : list token_shape :=
  date_shapes ++ whitelist_shapes ++ sport_shapes ++ fraction_shapes ++ measure_shapes ++ money_shapes ++
  time_shapes ++ cardinal_shapes ++ math_shapes ++ char_shapes ++ range_shapes.

Lemma rmsign_fields : fields Date.rmsign [[]].
Proof.
  unfold Date.rmsign. eapply fields_more; [|apply fields_cat; [repeat apply fields_union; apply fields_delete|apply fields_space]].
  incl_tac.
Qed.
Lemma range_emits : emits (r_tagger Range.rule) range_shapes.
Proof. apply emits_tokens; [name_tac|apply fields_tag; name_tac|nodup_tac]. Qed.
Lemma colon_fields : fields Time.colon [[]].
Proof. eapply fields_more; [|apply fields_union; apply fields_delete]. incl_tac. Qed.
Lemma one_date : emits (add_tokens Date.name Date.date) date_shapes.
Proof. unfold Date.date, Date.year, Date.month, Date.month_two_digit, Date.day, date_shapes. pose proof rmsign_fields. emit_tac. Qed.
Lemma one_time : emits (add_tokens Time.name Time.time) time_shapes.
Proof.
  unfold Time.time, time_shapes. pose proof colon_fields. emit_tac.
Qed.
Ltac part := unfold zh_tn_shapes; intros ? I; rewrite ?in_app_iff in I; rewrite !in_app_iff; tauto.
Ltac half := intros ? ?; rewrite !in_app_iff; tauto.
Lemma date_emits : emits (r_tagger (Date.rule (r_tagger Range.rule))) (date_shapes ++ range_shapes).
Proof.
  cbn [Date.rule r_tagger]. unfold Date.tagger.
  assert (D := one_date). eapply emits_more with (B := (date_shapes ++ range_shapes)) in D; [|half].
  assert (R := range_emits). eapply emits_more with (B := (date_shapes ++ range_shapes)) in R; [|half].
  apply emits_cat_ques; [exact D|]. apply emits_cat; [exact R|exact D].
Qed.
Lemma time_emits : emits (r_tagger (Time.rule (r_tagger Range.rule))) (time_shapes ++ range_shapes).
Proof.
  cbn [Time.rule r_tagger]. unfold Time.tagger.
  assert (D := one_time). eapply emits_more with (B := (time_shapes ++ range_shapes)) in D; [|half].
  assert (R := range_emits). eapply emits_more with (B := (time_shapes ++ range_shapes)) in R; [|half].
  apply emits_cat_ques; [exact D|]. apply emits_cat; [exact R|exact D].
Qed.
Lemma whitelist_emits b : emits (r_tagger (Whitelist.rule b)) whitelist_shapes.
Proof.
  cbn [Whitelist.rule r_tagger]. apply emits_tokens; [name_tac| |nodup_tac].
  apply (fields_union _ _ [_] [_]); [|apply fields_tag; name_tac].
  apply fields_weight. apply (fields_literal (u "erhua")); [name_tac| |].
  - apply vtext_spec. reflexivity.
  - intros c [<-|[]]. split; discriminate.
Qed.
Lemma sport_emits : emits (r_tagger Sport.rule) sport_shapes.
Proof. cbn [Sport.rule r_tagger]. unfold sport_shapes. emit_tac. Qed.
Lemma fraction_emits : emits (r_tagger Fraction.rule) fraction_shapes.
Proof. cbn [Fraction.rule r_tagger]. unfold fraction_shapes, Fraction.rmspace. emit_tac. Qed.
Lemma measure_emits : emits (r_tagger Measure.rule) measure_shapes.
Proof. cbn [Measure.rule r_tagger]. unfold measure_shapes, Measure.tagger, Measure.rmsign, Measure.rmspace. emit_tac. Qed.
Lemma money_emits : emits (r_tagger Money.rule) money_shapes.
Proof. cbn [Money.rule r_tagger]. unfold money_shapes. emit_tac. Qed.
Lemma cardinal_emits : emits (r_tagger Cardinal.rule) cardinal_shapes.
Proof. cbn [Cardinal.rule r_tagger]. unfold cardinal_shapes. emit_tac. Qed.
Lemma math_emits : emits (r_tagger Math.rule) math_shapes.
Proof. cbn [Math.rule r_tagger]. unfold math_shapes. emit_tac. Qed.
Lemma char_emits : emits (r_tagger Char.rule) char_shapes.
Proof.
  cbn [Char.rule r_tagger]. apply emits_tokens; [name_tac|apply (fields_char (u "value")); name_tac|nodup_tac].
Qed.
Lemma rules_emit o : Forall (fun e => emits e zh_tn_shapes) (taggers (rules o)).
Proof.
  unfold taggers, rules. cbn [flat_map app s_weight s_rule].
  repeat (apply Forall_cons; [apply emits_weight|]); [..|apply Forall_nil].
  - eapply emits_more; [|apply date_emits]. part.
  - eapply emits_more; [|apply whitelist_emits]. part.
  - eapply emits_more; [|apply sport_emits]. part.
  - eapply emits_more; [|apply fraction_emits]. part.
  - eapply emits_more; [|apply measure_emits]. part.
  - eapply emits_more; [|apply money_emits]. part.
  - eapply emits_more; [|apply time_emits]. part.
  - eapply emits_more; [|apply cardinal_emits]. part.
  - eapply emits_more; [|apply math_emits]. part.
  - eapply emits_more; [|apply char_emits]. part.
Qed.
Theorem zh_tn_writes o t x y w : tagger o = Some t -> denote t x y w -> (x = [] /\ y = []) \/ writes zh_tn_shapes x y.
Proof.
  unfold tagger. destruct (tagger_union (rules o)) as [e|] eqn:E; [|discriminate]. intros [= <-] H.
  refine (emits_trim e _ x y w _ H). exact (union_of_emits _ _ (rules_emit o) _ E).
Qed.
Lemma rules_spell o : Forall spells (taggers (rules o)).
Proof.
  unfold taggers, rules. cbn [flat_map app s_weight s_rule].
  repeat (apply Forall_cons; [apply spells_weight|]); [..|apply Forall_nil].
  - quiet_tac date_emits.
  - quiet_tac whitelist_emits.
  - quiet_tac sport_emits.
  - quiet_tac fraction_emits.
  - quiet_tac measure_emits.
  - quiet_tac money_emits.
  - quiet_tac time_emits.
  - quiet_tac cardinal_emits.
  - quiet_tac math_emits.
  - apply spells_char, one_char_plain.
Qed.
Theorem zh_tn_pieces o t x y w toks : tagger o = Some t -> denote t x y w -> parse y = Ok toks -> pieces x toks.
Proof.
  unfold tagger. destruct (tagger_union (rules o)) as [e|] eqn:E; [|discriminate]. intros [= <-] H.
  refine (spells_pieces e x y w _ _ H). exact (union_of_spells _ (rules_spell o) _ E).
Qed.
