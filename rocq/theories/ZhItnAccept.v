(** The Chinese inverse normalisation grammar verbalises the tokens it writes. *)
From Coq Require Import List NArith ZArith Bool String Lia.
From Verif Require Import Text TextFacts TokenModel TokenSpec PipelineModel.
From Verif Require Import Fst GrammarModel GrammarSpec FstFacts FstRun ShapeSpec GrammarShape GrammarAccept.
From Verif Require Import ZhItnModel ZhItnShape.
Import ListNotations.
Local Open Scope list_scope.

Notation os := zh_itn_token_orders.
Ltac rule_tac := repeat apply Forall_cons; [..|apply Forall_nil]; members; fixed; lay os.
Lemma date_ok : Forall (shape_ok os (r_verbalizer Date.rule)) date_shapes.
Proof.
  unfold date_shapes, named. cbn [map Date.rule r_verbalizer]. unfold Date.verbalizer. rule_tac;
  (eapply tok_tokens; [st|same_text]).
Qed.
Lemma sign_ok v : reads Fraction.sign v -> reads Fraction.g_sign v.
Proof. apply reads_left. Qed.
Lemma fraction_ok o : Forall (shape_ok os (r_verbalizer (Fraction.rule o))) (fraction_shapes o).
Proof.
  unfold fraction_shapes, named. cbn [map Fraction.rule r_verbalizer]. rule_tac;
  repeat match goal with R : reads Fraction.sign _ |- _ => apply sign_ok in R end;
  (eapply tok_tokens; [st|same_text]).
Qed.
Lemma measure_ok o : Forall (shape_ok os (r_verbalizer (Measure.rule o))) (measure_shapes o).
Proof.
  unfold measure_shapes, named. cbn [map Measure.rule r_verbalizer]. rule_tac.
  - apply tok_left. eapply tok_tokens; [st|same_text].
  - apply tok_right. eapply tok_tokens; [st|same_text].
Qed.
Lemma money_ok o : Forall (shape_ok os (r_verbalizer (Money.rule o))) (money_shapes o).
Proof.
  unfold money_shapes, named. cbn [map Money.rule r_verbalizer]. rule_tac; (eapply tok_tokens; [st|same_text]).
Qed.
Lemma minute_ok v : reads Time.minute_tagger v -> reads Time.g_minute v.
Proof. apply reads_left. Qed.
Lemma zero_ok v : reads Time.m_zero v -> reads Time.g_minute v.
Proof. apply reads_right. Qed.
Lemma time_ok : Forall (shape_ok os (r_verbalizer Time.rule)) time_shapes.
Proof.
  unfold time_shapes, named. cbn [map Time.rule r_verbalizer]. rule_tac;
  repeat match goal with
  | R : reads Time.minute_tagger _ |- _ => apply minute_ok in R
  | R : reads Time.m_zero _ |- _ => apply zero_ok in R
  end; (eapply tok_tokens; [st|same_text]).
Qed.
Lemma value_ok name g : dict_get name os = None ->
  Forall (shape_ok os (r_verbalizer (value_rule name g))) (named name [[f_value g]]).
Proof.
  intros N. unfold named. cbn [map value_rule r_verbalizer]. apply Forall_cons; [|constructor]. members.
  assert (E : layout os name (map Datatypes.fst [(u "value", v)]) (marked [(u "value", v)]) = [0]).
  { unfold layout. rewrite N. vm_compute; reflexivity. }
  rewrite E. cbn [flat_map field_at nth_error app]. unfold format_field. eapply tok_tokens; [st|]. f_equal. same_text.
Qed.
Lemma char_ok : Forall (shape_ok os (r_verbalizer Char.rule)) char_shapes.
Proof.
  unfold char_shapes, named. cbn [map Char.rule r_verbalizer]. unfold build_verbalizer. rule_tac.
  eapply tok_tokens; [st|same_text].
Qed.
Ltac rule_in := unfold verbalizers, rules; cbn [flat_map app s_verbalize s_rule In]; tauto.
Ltac value_tac E name g := eapply shapes_union; [exact E| |apply (value_ok name g); vm_compute; reflexivity]; rule_in.
Lemma shapes_ok o e : verbalizer_union (rules o) = Some e -> Forall (shape_ok os e) (zh_itn_shapes o).
Proof.
  intro E. unfold zh_itn_shapes. rewrite !Forall_app.
  split; [eapply shapes_union; [exact E| |apply date_ok]; rule_in|].
  split; [value_tac E Whitelist.name Whitelist.graph|].
  split; [eapply shapes_union; [exact E| |apply (fraction_ok o)]; rule_in|].
  split; [eapply shapes_union; [exact E| |apply (measure_ok o)]; rule_in|].
  split; [eapply shapes_union; [exact E| |apply (money_ok o)]; rule_in|].
  split; [eapply shapes_union; [exact E| |apply time_ok]; rule_in|].
  split; [value_tac E Cardinal.name (Cardinal.cardinal o)|].
  split; [value_tac E Math.name (Math.graph o)|].
  split; [value_tac E LicensePlate.name LicensePlate.graph|].
  split; [value_tac E TrainNumber.name TrainNumber.graph|].
  eapply shapes_union; [exact E| |apply char_ok]; rule_in.
Qed.
Lemma postprocessor_total o : total (postprocessor o).
Proof.
  unfold postprocessor. destruct (remove_interjections o); [|apply total_vsigma].
  apply total_compose; [apply total_vsigma|]. apply total_rewrite; [lazy; reflexivity|vm_compute; reflexivity].
Qed.
Lemma verbalizers_valid o : forallb writes_valid (verbalizers (rules o)) = true.
Proof. destruct o as [? [] [] []]; vm_compute; reflexivity. Qed.
Theorem zh_itn_tags o t x : tagger o = Some t -> forallb vchar x = true -> accepts t x.
Proof.
  unfold tagger. destruct (tagger_union (rules o)) as [e|] eqn:E; [|discriminate]. intros [= <-] V.
  eapply trim_accepts; [exact E| |exact char_tagged|exact V].
  unfold taggers, rules. cbn [flat_map app s_weight s_rule In]. tauto.
Qed.
Theorem zh_itn_verbalizes o v x y : verbalizer o = Some v -> writes (zh_itn_shapes o) x y ->
  exists out, reorder os y = Ok out /\ accepts v out.
Proof.
  unfold verbalizer. destruct (verbalizer_union (rules o)) as [e|] eqn:E; [|discriminate]. intros [= <-] W.
  eapply reads_back_post; [exact (shapes_ok o e E)|exists x; exact W|exact (union_valid _ _ E (verbalizers_valid o))|
    apply postprocessor_total|lazy; reflexivity].
Qed.
