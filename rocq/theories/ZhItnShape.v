(** The tokens the Chinese inverse normalisation grammar writes. *)
From Coq Require Import List NArith ZArith Bool String Lia.
From Verif Require Import Text TextFacts TokenModel TokenSpec.
From Verif Require Import Fst GrammarModel GrammarSpec FstFacts ShapeSpec GrammarShape ZhItnModel.
Import ListNotations.
Local Open Scope list_scope.

Definition f_year := (u "year", Date.g_year).
Definition f_month := (u "month", Date.g_month).
Definition f_day := (u "day", Date.g_day).
Definition date_shapes := named Date.name
  [[f_year; f_month; f_day]; [f_year; f_month]; [f_month; f_day];
   [(u "year", Date.g_year_only); (u "preserve_order", accep (u "true"))]].
Definition f_value g := (u "value", g) : field_shape.
Definition whitelist_shapes := named Whitelist.name [[f_value Whitelist.graph]].
Definition fraction_shapes o := named Fraction.name
  [[(u "sign", Fraction.sign); (u "denominator", Fraction.g_denominator o); (u "numerator", Fraction.g_numerator o)];
   [(u "sign", Fraction.g_sign); (u "denominator", Fraction.g_denominator o); (u "numerator", Fraction.g_numerator o)]].
Definition measure_shapes o := named Measure.name
  [[f_value (Measure.g_value o)];
   [(u "denominator", Measure.g_denominator); (u "numerator", Measure.g_numerator o)]].
Definition money_shapes o := named Money.name
  [[f_value (Money.g_value o); (u "currency", Money.g_currency); (u "decimal", Money.g_decimal)]].
Definition f_hour := (u "hour", Time.g_hour).
Definition f_minute := (u "minute", Time.minute_tagger).
Definition f_zero := (u "minute", Time.m_zero).
Definition f_second := (u "second", Time.g_second).
Definition f_noon := (u "noon", Time.g_noon).
Definition time_shapes := named Time.name
  [[f_noon; f_hour; f_minute; f_second]; [f_noon; f_hour; f_minute]; [f_hour; f_minute; f_second]; [f_hour; f_minute];
   [f_noon; f_hour; f_zero; f_second]; [f_noon; f_hour; f_zero]].
Definition cardinal_shapes o := named Cardinal.name [[f_value (Cardinal.cardinal o)]].
Definition math_shapes o := named Math.name [[f_value (Math.graph o)]].
Definition plate_shapes := named LicensePlate.name [[f_value LicensePlate.graph]].
Definition train_shapes := named TrainNumber.name [[f_value TrainNumber.graph]].
Definition char_shapes := named Char.name [[f_value VCHAR]].
Definition zh_itn_shapes (o : options) : list token_shape :=
  date_shapes ++ whitelist_shapes ++ fraction_shapes o ++ measure_shapes o ++ money_shapes o ++
  time_shapes ++ cardinal_shapes o ++ math_shapes o ++ plate_shapes ++ train_shapes ++ char_shapes.

Lemma date_emits : emits (r_tagger Date.rule) date_shapes.
Proof.
  cbn [Date.rule r_tagger]. unfold Date.date, Date.year, Date.month, Date.day, Date.year_only, date_shapes.
  assert (F : fields (insert (u " preserve_order: ""true""")) [[(u "preserve_order", accep (u "true"))]]).
  { refine (fields_inserted 1 (u "true") _ _); [apply vtext_spec; reflexivity|].
    vm_compute. intros c H. repeat (destruct H as [<-|H]; [split; discriminate|]). destruct H. }
  emit_tac.
Qed.
Lemma value_emits name g : is_name name -> emits (r_tagger (value_rule name g)) (named name [[f_value g]]).
Proof. intro N. apply emits_tokens; [exact N|apply fields_tag; name_tac|nodup_tac]. Qed.
Lemma fraction_emits o : emits (r_tagger (Fraction.rule o)) (fraction_shapes o).
Proof. cbn [Fraction.rule r_tagger]. unfold Fraction.parts, fraction_shapes. emit_tac. Qed.
Lemma measure_emits o : emits (r_tagger (Measure.rule o)) (measure_shapes o).
Proof. cbn [Measure.rule r_tagger]. unfold measure_shapes, Measure.tagger. emit_tac. Qed.
Lemma money_emits o : emits (r_tagger (Money.rule o)) (money_shapes o).
Proof. cbn [Money.rule r_tagger]. unfold money_shapes. emit_tac. Qed.
Lemma time_emits : emits (r_tagger Time.rule) time_shapes.
Proof.
  cbn [Time.rule r_tagger]. unfold Time.time, Time.noon, Time.hour, Time.minute, Time.minute_zero_no_fen, Time.second, time_shapes.
  emit_tac.
Qed.
Lemma cardinal_emits o : emits (r_tagger (Cardinal.rule o)) (cardinal_shapes o).
Proof. apply emits_tokens; [name_tac|apply fields_tag; name_tac|nodup_tac]. Qed.
Lemma char_emits : emits (r_tagger Char.rule) char_shapes.
Proof.
  cbn [Char.rule r_tagger]. apply emits_tokens; [name_tac|apply (fields_char (u "value")); name_tac|nodup_tac].
Qed.
Ltac part := unfold zh_itn_shapes; intros ? I; rewrite ?in_app_iff in I; rewrite !in_app_iff; tauto.
Lemma rules_emit o : Forall (fun e => emits e (zh_itn_shapes o)) (taggers (rules o)).
Proof.
  unfold taggers, rules. cbn [flat_map app s_weight s_rule].
  repeat (apply Forall_cons; [apply emits_weight|]); [..|apply Forall_nil].
  - eapply emits_more; [|apply date_emits]. part.
  - eapply emits_more with (A := whitelist_shapes); [|apply value_emits; name_tac]. part.
  - eapply emits_more; [|apply fraction_emits]. part.
  - eapply emits_more; [|apply measure_emits]. part.
  - eapply emits_more; [|apply money_emits]. part.
  - eapply emits_more; [|apply time_emits]. part.
  - eapply emits_more; [|apply cardinal_emits]. part.
  - eapply emits_more with (A := math_shapes o); [|apply value_emits; name_tac]. part.
  - eapply emits_more with (A := plate_shapes); [|apply value_emits; name_tac]. part.
  - eapply emits_more with (A := train_shapes); [|apply value_emits; name_tac]. part.
  - eapply emits_more; [|apply char_emits]. part.
Qed.
Theorem zh_itn_writes o t x y w : tagger o = Some t -> denote t x y w -> (x = [] /\ y = []) \/ writes (zh_itn_shapes o) x y.
Proof.
  unfold tagger. destruct (tagger_union (rules o)) as [e|] eqn:E; [|discriminate]. intros [= <-] H.
  refine (emits_trim e _ x y w _ H). exact (union_of_emits _ _ (rules_emit o) _ E).
Qed.
Lemma rules_spell o : Forall spells (taggers (rules o)).
Proof.
  unfold taggers, rules. cbn [flat_map app s_weight s_rule].
  repeat (apply Forall_cons; [apply spells_weight|]); [..|apply Forall_nil].
  - quiet_tac date_emits.
  - quiet_tac (value_emits Whitelist.name). name_tac.
  - quiet_tac fraction_emits.
  - quiet_tac measure_emits.
  - quiet_tac money_emits.
  - quiet_tac time_emits.
  - quiet_tac cardinal_emits.
  - quiet_tac (value_emits Math.name). name_tac.
  - quiet_tac (value_emits LicensePlate.name). name_tac.
  - quiet_tac (value_emits TrainNumber.name). name_tac.
  - apply spells_char, one_char_plain.
Qed.
Theorem zh_itn_pieces o t x y w toks : tagger o = Some t -> denote t x y w -> parse y = Ok toks -> pieces x toks.
Proof.
  unfold tagger. destruct (tagger_union (rules o)) as [e|] eqn:E; [|discriminate]. intros [= <-] H.
  refine (spells_pieces e x y w _ _ H). exact (union_of_spells _ (rules_spell o) _ E).
Qed.
