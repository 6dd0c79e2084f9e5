(** Texts one rule of the Japanese inverse normaliser reads whole: from that reading to the one answer (C76). *)
From Coq Require Import List NArith ZArith Bool String Lia Arith.
From Verif Require Import Text TextFacts TokenModel Fst FstFacts GrammarModel GrammarSpec GrammarAccept EnglishNumeralSpec DataJaItn JaItnModel BoundarySpec BoundaryLaw PlainSpec WholeSpec.
From Verif Require Import NbestModel NbestSpec EngineSpec PipelineModel PropsTotal.
From Verif Require Import Boundary BoundaryRules BoundaryChar BoundaryLawProofs Letters Whole OneToken TokenVerbal Fields PropsBoundary.
From Verif Require PlainRules PlainChar.
From Verif Require EndToEnd PropsWhole.
Import ListNotations.
Local Open Scope list_scope.

Lemma ja_itn_cheapest o e : tagger_union (rules o) = Some e -> forall x y w, x <> [] -> (w < 20200)%Z -> whole_reading (rules o) x y w ->
  (forall z v, whole_reading (rules o) x z v -> (w <= v)%Z /\ (v = w -> z = y)) -> cheapest (denote (trim_end e)) x y.
Proof.
  intros U x y w N L. apply (whole_cheapest (ja_itn o) e 20200 (fun _ => False) (ja_itn_rules o) U); try assumption; [|tauto].
  apply (floor_two _ _ U 10100); [lia|]. exact (PropsWhole.ja_itn_floor o).
Qed.
(** With the options [o], normalize answers [d] for [x], alone or among characters that no rule but
    the one of single characters reads, whatever the engine. *)
Definition ja_itn_said (o : options) (x d : text) : Prop := forall en p q, engine_for (ja_itn o) en -> valid_text p -> valid_text q -> plain (ja_itn o) p -> plain (ja_itn o) q ->
  normalizes_to en (p ++ x ++ q) (flat_map (ja_itn_clean o) p ++ d ++ flat_map (ja_itn_clean o) q).
Lemma ja_itn_said_only o x d : valid_text x -> x <> [] -> (forall t v, tagger o = Some t -> verbalizer o = Some v -> only_answer ja_itn_token_orders t v x d) -> ja_itn_said o x d.
Proof.
  intros K N A en p q En Vp Vq P Q. destruct (C44_ja_itn o) as (t & v & Et & Ev & _).
  refine (proj2 (C64_around_ja_itn o en p x q d En Vp K Vq P Q N _)). apply (sole_only (ja_itn o) t v x d Et Ev). exact (A t v Et Ev).
Qed.
Section Said.
Variables (o : options) (name : text) (r : rule) (wt : Z) (x m : text) (fs fs' : list (text * text)).
Hypothesis Only : name_only (rules o) name (RuleSpec r (Some wt) true).
Hypothesis Name : EndToEnd.namechars name = true.
Hypothesis Word : one_word name = true.
Hypothesis NameValid : forallb vchar name = true.
Hypothesis Valid : forallb vchar x = true.
Hypothesis Nonempty : x <> [].
Variable k0 : Z.
Hypothesis Light : (wt + k0 < 20200)%Z.
Hypothesis Keys : good_keys fs = true.
Hypothesis Values : good_values fs = true.
Hypothesis Once : NoDup (map Datatypes.fst fs).
Hypothesis Any : fs <> [].
Hypothesis Order : TokenProofs2.emitted ja_itn_token_orders name fs = fs'.
Hypothesis Keys' : good_keys fs' = true.
Hypothesis Some' : fs' <> [].
Hypothesis Tag : denote (r_tagger r) x (fields_token name fs ++ u " ") k0.
Hypothesis Sole : forall s k y v, In s (rules o) -> s_weight s = Some k -> denote (r_tagger (s_rule s)) x (y ++ u " ") v -> (wt + k0 <= k + v)%Z /\ (k + v = wt + k0 -> y = fields_token name fs)%Z.
Variable kv : Z.
Hypothesis Verb : denote (r_verbalizer r) (fields_token name fs') m kv /\ forall z w, denote (r_verbalizer r) (fields_token name fs') z w -> (kv <= w)%Z /\ (w = kv -> z = m).
Theorem ja_itn_said_fields : ja_itn_said o x m.
Proof.
  apply ja_itn_said_only; [now apply vtext_spec|exact Nonempty|]. intros t v Et Ev. unfold tagger in Et. unfold verbalizer in Ev.
  destruct (tagger_union (rules o)) as [e|] eqn:E; [|discriminate]. injection Et as <-.
  destruct (verbalizer_union (rules o)) as [e'|] eqn:E'; [|discriminate]. injection Ev as <-.
  assert (Ver : forall z w, denote (Star e') (fields_token name fs') z w <-> denote (r_verbalizer r) (fields_token name fs') z w).
  { intros z w. rewrite (one_denote _ _ _ _ (closed_union (rules o) e' (proj2 (proj1 (andb_true_iff _ _) (ja_itn_rules o))) E') (fields_run name fs' Name Keys' Some')). unfold fields_token. exact (name_union (rules o) name (RuleSpec r (Some wt) true) e' Word Only E' _ z w). }
  apply (cheapest_only _ _ _ x (fields_token name fs) (fields_token name fs') m).
  - apply (ja_itn_cheapest o e E x _ (wt + k0) Nonempty Light).
    + split; [apply vtext_spec; now apply fields_valid|]. exists (RuleSpec r (Some wt) true), wt, k0. destruct Only as (I & _). auto.
    + intros z w (_ & s & k & w' & I & W & D & ->). exact (Sole s k z w' I W D).
  - exact (fields_reordered _ name fs fs' Name Keys Once Any Some' Order).
  - exists kv. split; [apply Ver; exact (proj1 Verb)|]. intros z w H. apply Ver in H. exact (proj2 Verb z w H).
Qed.
End Said.
(** ** Rules with one field *)
Section Value.
Variables (o : options) (name : text) (g : fst) (wt : Z) (x d : text).
Hypothesis Only : name_only (rules o) name (RuleSpec (value_rule name g) (Some wt) true).
Hypothesis Name : EndToEnd.namechars name = true.
Hypothesis Word : one_word name = true.
Hypothesis NameValid : forallb vchar name = true.
Hypothesis Order : TokenProofs2.emitted ja_itn_token_orders name [(u "value", x)] = [(u "value", x)].
Hypothesis Valid : forallb vchar x = true.
Hypothesis Bare : ~ In 34%N x /\ ~ In 92%N x.
Hypothesis Nonempty : x <> [].
Variable kv : Z.
Hypothesis Light : (wt + kv < 20200)%Z.
Hypothesis Reads : denote g x d kv /\ forall z w, denote g x z w -> (kv <= w)%Z /\ (w = kv -> z = d).
Hypothesis Others : forall s k y v, In s (rules o) -> s_weight s = Some k -> denote (r_tagger (s_rule s)) x (y ++ u " ") v -> s = RuleSpec (value_rule name g) (Some wt) true \/ (wt + kv < k + v)%Z.
Theorem ja_itn_said_value : ja_itn_said o x d.
Proof.
  assert (T : fields_token name [(u "value", x)] = value_token name x).
  { unfold fields_token, value_token, piece. cbn [map join Datatypes.fst snd]. rewrite (escape_plain x (proj1 Bare) (proj2 Bare)), <- !app_assoc. reflexivity. }
  apply (ja_itn_said_fields o name (value_rule name g) wt x d [(u "value", x)] [(u "value", x)] Only Name Word NameValid Valid Nonempty kv) with (kv := kv); try reflexivity; try discriminate.
  - exact Light.
  - unfold good_values. cbn [forallb Datatypes.fst snd]. now rewrite Valid.
  - cbn [map Datatypes.fst]. repeat constructor. intros [].
  - exact Order.
  - apply PlainRules.tokens_added. exists (piece (u "value") (escape_value x)). split; [unfold fields_token, piece; cbn [map join Datatypes.fst snd]; now rewrite <- !app_assoc|].
    apply tag_field_spec. split; [exact Valid|]. split; [reflexivity|]. exists d. exact (proj1 Reads).
  - intros s k y v I W H. destruct (Others s k y v I W H) as [->|L]; [|lia]. cbn [s_weight] in W. injection W as <-. apply PlainRules.tokens_added in H as (z & E & H). apply tag_field_spec in H as (_ & -> & z & H). apply (proj2 Reads) in H as (H & _). split; [lia|]. intros _.
    unfold fields_token. cbn [map join Datatypes.fst snd]. change (u " } ") with (u " }" ++ u " ") in E. rewrite !app_assoc in E. apply app_inv_tail in E. rewrite E. unfold piece. rewrite <- !app_assoc. reflexivity.
  - rewrite T. split; [exact (value_i name g x d kv (proj1 Bare) (proj2 Bare) Valid (proj1 Reads))|]. intros z w H. apply (proj2 Reads).
    exact (proj2 (value_inv name g (value_token name x) z w [] x (proj1 Bare) (proj2 Bare) H (app_nil_r _))).
Qed.
End Value.
