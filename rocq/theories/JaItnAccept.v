(** The Japanese inverse normalisation grammar verbalises the tokens it writes. *)
From Coq Require Import List NArith ZArith Bool String Lia.
From Verif Require Import Text TextFacts TokenModel TokenSpec PipelineModel.
From Verif Require Import Fst GrammarModel GrammarSpec FstFacts FstRun ShapeSpec GrammarShape GrammarAccept.
From Verif Require Import DataJaItn JaItnModel JaItnShape.
Import ListNotations.
Local Open Scope list_scope.

Notation os := ja_itn_token_orders.
Ltac rule_tac := repeat apply Forall_cons; [..|apply Forall_nil]; members; fixed; lay os.
Section Accept.
Variable o : options.
Lemma date_ok : Forall (shape_ok os (r_verbalizer (Date.rule o))) (date_shapes o).
Proof.
  unfold date_shapes, named. cbn [map Date.rule r_verbalizer].
  unfold Date.verbalizer, Date.v_year, Date.v_month, Date.v_day, Date.v_era_year. rule_tac;
  (eapply tok_tokens; [st|same_text]).
Qed.
Lemma fraction_ok : Forall (shape_ok os (r_verbalizer (Fraction.rule o))) (fraction_shapes o).
Proof.
  unfold fraction_shapes, named. cbn [map Fraction.rule r_verbalizer]. unfold Fraction.verbalizer. rule_tac;
  (eapply tok_tokens; [st|same_text]).
Qed.
Lemma money_ok : Forall (shape_ok os (r_verbalizer (Money.rule o))) (money_shapes o).
Proof.
  unfold money_shapes, named. cbn [map Money.rule r_verbalizer]. rule_tac; (eapply tok_tokens; [st|same_text]).
Qed.
Lemma time_ok : Forall (shape_ok os (r_verbalizer (Time.rule o))) (time_shapes o).
Proof.
  unfold time_shapes, named. cbn [map Time.rule r_verbalizer].
  unfold Time.verbalizer, Time.v_hour, Time.v_minute, Time.v_second. rule_tac;
  (eapply tok_tokens; [st|same_text]).
Qed.
Lemma value_ok name g : dict_get name os = None \/
  dict_get name os = Some [u "numerator"; u "denominator"; u "value"; u "units"] ->
  Forall (shape_ok os (r_verbalizer (value_rule name g))) (named name [[f_value g]]).
Proof.
  intros N. unfold named. cbn [map value_rule r_verbalizer]. apply Forall_cons; [|constructor]. members.
  assert (E : layout os name (map Datatypes.fst [(u "value", v)]) (marked [(u "value", v)]) = [0]).
  { unfold layout. destruct N as [-> | ->]; vm_compute; reflexivity. }
  rewrite E. cbn [flat_map field_at nth_error app]. unfold format_field. eapply tok_tokens; [st|]. f_equal. same_text.
Qed.
Ltac rule_in := unfold verbalizers, rules; cbn [flat_map app s_verbalize s_rule In]; tauto.
Ltac value_tac E name g := eapply shapes_union; [exact E|
  |apply (value_ok name g); (left; vm_compute; reflexivity) || (right; vm_compute; reflexivity)]; rule_in.
Lemma shapes_ok e : verbalizer_union (rules o) = Some e -> Forall (shape_ok os e) (ja_itn_shapes o).
Proof.
  intro E. unfold ja_itn_shapes. rewrite !Forall_app.
  split; [eapply shapes_union; [exact E| |apply date_ok]; rule_in|].
  split; [value_tac E Whitelist.name (Whitelist.graph o)|].
  split; [eapply shapes_union; [exact E| |apply fraction_ok]; rule_in|].
  split; [value_tac E Measure.name (Measure.graph o)|].
  split; [eapply shapes_union; [exact E| |apply money_ok]; rule_in|].
  split; [eapply shapes_union; [exact E| |apply time_ok]; rule_in|].
  split; [value_tac E Cardinal.name (Cardinal.cardinal o)|].
  split; [value_tac E Math.name (Math.graph o)|].
  split; [value_tac E Ordinal.name (Ordinal.graph o)|].
  value_tac E Char.name (Char.graph o).
Qed.
Lemma preprocessor_total : total (preprocessor o).
Proof.
  unfold preprocessor. destruct (full_to_half o); [apply total_compose|];
    (apply total_rewrite; [lazy; reflexivity|vm_compute; reflexivity]).
Qed.
(** One character is a character after the preprocessor too. *)
Lemma char_read c : vchar c = true -> reads (Char.graph o) [c].
Proof.
  intro V. assert (Vt : forallb vchar [c] = true) by (cbn; now rewrite V). split; [now apply vtext_spec|].
  destruct (preprocessor_total [c] Vt) as (y & w & P & Vy).
  assert (L : List.length [c] = List.length y).
  { destruct (pre_length o VSIGMA [c] y w) as (y' & v & L & S).
    - destruct (total_vsigma y Vy) as (y' & v & S & _). assert (y' = y /\ v = 0%Z) as (-> & ->).
      { clear -S. cbn [denote VSIGMA VCHAR] in S. induction S as [|a b k a' b' k' (d & -> & -> & _ & ->) S (-> & ->)]; auto. }
      exists y, w, 0%Z. split; [lia|]. auto.
    - rewrite L. clear -S. cbn [denote VSIGMA VCHAR] in S. induction S as [|a b k a' b' k' (d & -> & -> & _ & ->) S IH]; auto.
      rewrite !app_length. cbn. now rewrite IH. }
  destruct y as [|d [|? ?]]; try discriminate. exists [d], (w + 0)%Z, [d], w, 0%Z. split; [reflexivity|]. split; [exact P|].
  exists d. cbn in Vy. rewrite andb_true_r in Vy. auto.
Qed.
Theorem ja_itn_tags t x : tagger o = Some t -> forallb vchar x = true -> accepts t x.
Proof.
  unfold tagger. destruct (tagger_union (rules o)) as [e|] eqn:E; [|discriminate]. intros [= <-] V.
  eapply trim_accepts with (r := r_tagger (Char.rule o)); [exact E| | |exact V].
  - unfold taggers, rules. cbn [flat_map app s_weight s_rule In]. right. left. reflexivity.
  - intros c Vc. apply (tag_accepts (u "value") (Char.graph o) [c] Char.name); [exact (char_read c Vc)|reflexivity|reflexivity].
Qed.
Theorem ja_itn_verbalizes v x y : verbalizer o = Some v -> writes (ja_itn_shapes o) x y ->
  exists out, reorder os y = Ok out /\ accepts v out.
Proof.
  unfold verbalizer. destruct (verbalizer_union (rules o)) as [e|] eqn:E; [|discriminate]. intros [= <-] W.
  eapply reads_back; [exact (shapes_ok e E)|exists x; exact W].
Qed.
End Accept.
