(** The tokens the Japanese inverse normalisation grammar writes. *)
From Coq Require Import List NArith ZArith Bool String Lia.
From Verif Require Import Text TextFacts TokenModel TokenSpec.
From Verif Require Import Fst GrammarModel GrammarSpec FstFacts ShapeSpec GrammarShape JaItnModel.
Import ListNotations.
Local Open Scope list_scope.

Section Shapes.
Variable o : options.
Definition f_year := (u "year", Date.g_year o).
Definition f_month := (u "month", Date.g_month o).
Definition f_day := (u "day", Date.g_day o).
Definition date_shapes := named Date.name
  [[f_year; f_month]; [f_month; f_day]; [f_year; f_month; f_day]; [(u "year", Date.g_era_year o)]].
Definition f_hour := (u "hour", Time.g_hour o).
Definition f_minute := (u "minute", Time.g_minute o).
Definition f_second := (u "second", Time.g_second o).
Definition time_shapes := named Time.name
  [[f_hour; f_minute; f_second]; [f_hour; f_minute]; [f_minute; f_second]; [f_minute]; [f_hour]; [f_second]].
Definition f_value g := (u "value", g) : field_shape.
Definition fraction_shapes := named Fraction.name
  [[(u "sign", Fraction.g_sign o); (u "denominator", Fraction.g_denominator o); (u "numerator", Fraction.g_numerator o)];
   [(u "denominator", Fraction.g_denominator o); (u "numerator", Fraction.g_numerator o)]].
Definition money_shapes := named Money.name [[f_value (Money.g_value o); (u "currency", Money.g_currency o)]].
Definition whitelist_shapes := named Whitelist.name [[f_value (Whitelist.graph o)]].
Definition measure_shapes := named Measure.name [[f_value (Measure.graph o)]].
Definition cardinal_shapes := named Cardinal.name [[f_value (Cardinal.cardinal o)]].
Definition math_shapes := named Math.name [[f_value (Math.graph o)]].
Definition ordinal_shapes := named Ordinal.name [[f_value (Ordinal.graph o)]].
Definition char_shapes := named Char.name [[f_value (Char.graph o)]].
Definition ja_itn_shapes : list token_shape :=
  date_shapes ++ whitelist_shapes ++ fraction_shapes ++ measure_shapes ++ money_shapes ++
  time_shapes ++ cardinal_shapes ++ math_shapes ++ ordinal_shapes ++ char_shapes.

Lemma value_emits name g : is_name name -> emits (r_tagger (value_rule name g)) (named name [[f_value g]]).
Proof. intro N. apply emits_tokens; [exact N|apply fields_tag; name_tac|nodup_tac]. Qed.
Lemma date_emits : emits (r_tagger (Date.rule o)) date_shapes.
Proof.
  cbn [Date.rule r_tagger]. unfold Date.date, Date.graph_date, Date.year, Date.month, Date.day, date_shapes. emit_tac.
Qed.
Lemma time_emits : emits (r_tagger (Time.rule o)) time_shapes.
Proof. cbn [Time.rule r_tagger]. unfold Time.time, time_shapes. emit_tac. Qed.
Lemma fraction_emits : emits (r_tagger (Fraction.rule o)) fraction_shapes.
Proof. cbn [Fraction.rule r_tagger]. unfold fraction_shapes, Fraction.fraction. emit_tac. Qed.
Lemma money_emits : emits (r_tagger (Money.rule o)) money_shapes.
Proof. cbn [Money.rule r_tagger]. unfold money_shapes. emit_tac. Qed.
Ltac part := unfold ja_itn_shapes; intros ? I; rewrite ?in_app_iff in I; rewrite !in_app_iff; tauto.
Lemma rules_emit : Forall (fun e => emits e ja_itn_shapes) (taggers (rules o)).
Proof.
  unfold taggers, rules. cbn [flat_map app s_weight s_rule].
  repeat (apply Forall_cons; [apply emits_weight|]); [..|apply Forall_nil].
  - eapply emits_more with (A := cardinal_shapes); [|apply value_emits; name_tac]. part.
  - eapply emits_more with (A := char_shapes); [|apply value_emits; name_tac]. part.
  - eapply emits_more; [|apply date_emits]. part.
  - eapply emits_more; [|apply fraction_emits]. part.
  - eapply emits_more with (A := math_shapes); [|apply value_emits; name_tac]. part.
  - eapply emits_more with (A := measure_shapes); [|apply value_emits; name_tac]. part.
  - eapply emits_more; [|apply money_emits]. part.
  - eapply emits_more with (A := ordinal_shapes); [|apply value_emits; name_tac]. part.
  - eapply emits_more; [|apply time_emits]. part.
  - eapply emits_more with (A := whitelist_shapes); [|apply value_emits; name_tac]. part.
Qed.
Theorem ja_itn_writes t x y w : tagger o = Some t -> denote t x y w -> (x = [] /\ y = []) \/ writes ja_itn_shapes x y.
Proof.
  unfold tagger. destruct (tagger_union (rules o)) as [e|] eqn:E; [|discriminate]. intros [= <-] H.
  refine (emits_trim e _ x y w _ H). exact (union_of_emits _ _ rules_emit _ E).
Qed.
Lemma pre_length g x z w : denote (pre o g) x z w -> exists y v, List.length x = List.length y /\ denote g y z v.
Proof.
  intros (y & w1 & w2 & _ & P & G). exists y, w2. split; [|exact G].
  assert (I : forall out a b v, rewritten (denote (Cross [] [])) Anywhere Anywhere out a b v -> List.length a = List.length b).
  { intros out a b v H. refine (rewritten_length _ _ _ _ _ _ _ _ H). now intros p q k (-> & -> & _). }
  unfold preprocessor in P. destruct (full_to_half o); [|exact (I _ _ _ _ P)].
  destruct P as (m & v1 & v2 & _ & P1 & P2). rewrite (I _ _ _ _ P1).
  refine (rewritten_length _ _ _ _ _ _ _ _ P2). intros p q k. apply same_length_spec. vm_compute. reflexivity.
Qed.
Lemma rules_spell : Forall spells (taggers (rules o)).
Proof.
  unfold taggers, rules. cbn [flat_map app s_weight s_rule].
  repeat (apply Forall_cons; [apply spells_weight|]); [..|apply Forall_nil].
  - quiet_tac (value_emits Cardinal.name). name_tac.
  - apply spells_char, one_char_tag. intros x z w H. apply pre_length in H as (y & v & L & c & -> & _).
    destruct x as [|d [|? ?]]; try discriminate. eauto.
  - quiet_tac date_emits.
  - quiet_tac fraction_emits.
  - quiet_tac (value_emits Math.name). name_tac.
  - quiet_tac (value_emits Measure.name). name_tac.
  - quiet_tac money_emits.
  - quiet_tac (value_emits Ordinal.name). name_tac.
  - quiet_tac time_emits.
  - quiet_tac (value_emits Whitelist.name). name_tac.
Qed.
Theorem ja_itn_pieces t x y w toks : tagger o = Some t -> denote t x y w -> parse y = Ok toks -> pieces x toks.
Proof.
  unfold tagger. destruct (tagger_union (rules o)) as [e|] eqn:E; [|discriminate]. intros [= <-] H.
  refine (spells_pieces e x y w _ _ H). exact (union_of_spells _ rules_spell _ E).
Qed.
End Shapes.
