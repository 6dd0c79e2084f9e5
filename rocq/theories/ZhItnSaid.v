(** Texts one rule of the Chinese inverse normaliser reads whole: from that reading to the one answer (C84). *)
From Coq Require Import List NArith ZArith Bool String Lia Arith.
From Verif Require Import Text TextFacts TokenModel Fst FstFacts GrammarModel GrammarSpec GrammarAccept EnglishNumeralSpec DataZhItn ZhItnModel BoundarySpec BoundaryLaw PlainSpec WholeSpec.
From Verif Require Import NbestModel NbestSpec EngineSpec PipelineModel PropsTotal.
From Verif Require Import Boundary BoundaryRules BoundaryChar BoundaryLawProofs Letters Whole OneToken TokenVerbal Fields PropsBoundary Least ZhItnVerbal.
From Verif Require PlainRules PlainChar.
From Verif Require EndToEnd PropsWhole.
Import ListNotations.
Local Open Scope list_scope.

(** With the options [o], normalize answers [d] for [x], alone or among characters that no rule but
    the one of single characters reads, whatever the engine. *)
Definition zh_itn_said (o : options) (x d : text) : Prop := forall en p q, engine_for (zh_itn o) en -> valid_text p -> valid_text q -> plain (zh_itn o) p -> plain (zh_itn o) q ->
  normalizes_to en (p ++ x ++ q) (flat_map (zh_itn_clean o) p ++ d ++ flat_map (zh_itn_clean o) q).
Lemma zh_itn_said_only o x d : valid_text x -> x <> [] -> (forall t v, tagger o = Some t -> verbalizer o = Some v -> only_answer zh_itn_token_orders t v x d) -> zh_itn_said o x d.
Proof.
  intros K N A en p q En Vp Vq P Q. destruct (C44_zh_itn o) as (t & v & Et & Ev & _).
  refine (proj2 (C64_around_zh_itn o en p x q d En Vp K Vq P Q N _)). apply (sole_only (zh_itn o) t v x d Et Ev). exact (A t v Et Ev).
Qed.
(** Every token of a text of the characters [K] costs [f] at least. *)
Definition floor_on (K : N -> bool) (f : Z) (s : rule_spec) : bool :=
  match s_weight s with Some k => match least K (r_tagger (s_rule s)) with Never => true | AtLeast z => (f <=? k + z)%Z | Unsure => false end | None => true end.
Section Floor.
Variables (K : N -> bool) (rs : list rule_spec) (e : fst) (f : Z).
Hypothesis Tu : tagger_union rs = Some e.
Hypothesis Pos : (0 <= f)%Z.
Hypothesis Fl : forallb (floor_on K f) rs = true.
Lemma on_sound x y w : forallb K x = true -> denote e x y w -> (f <= w)%Z.
Proof.
  intros A H. apply (taggers_spec _ _ Tu) in H as (s & k & I & W & H). rewrite forallb_forall in Fl. specialize (Fl s I). unfold floor_on in Fl. rewrite W in Fl.
  pose proof (least_sound K _ _ _ _ A H) as L. destruct (least K (r_tagger (s_rule s))); cbn [low_ok] in L; [contradiction| |discriminate]. apply Z.leb_le in Fl. lia.
Qed.
Lemma on_star x y w : forallb K x = true -> denote (Star e) x y w -> (0 <= w)%Z.
Proof.
  intros A H. cbn [denote] in H. induction H as [|x1 y1 w1 x2 y2 w2 H _ IH]; [lia|]. rewrite forallb_app, andb_true_iff in A. destruct A as (A1 & A2). pose proof (on_sound _ _ _ A1 H). specialize (IH A2). lia.
Qed.
Lemma on_two x1 y1 w1 x2 y2 w2 x3 y3 w3 : denote e x1 y1 w1 -> denote e x2 y2 w2 -> denote (Star e) x3 y3 w3 -> forallb K (x1 ++ x2 ++ x3) = false \/ (2 * f <= w1 + (w2 + w3))%Z.
Proof.
  intros H1 H2 H3. destruct (forallb K (x1 ++ x2 ++ x3)) eqn:A; [right|now left]. rewrite !forallb_app, !andb_true_iff in A. destruct A as (A1 & A2 & A3).
  pose proof (on_sound _ _ _ A1 H1). pose proof (on_sound _ _ _ A2 H2). pose proof (on_star _ _ _ A3 H3). lia.
Qed.
End Floor.
Section Said.
Variables (o : options) (K : N -> bool) (f : Z) (name : text) (r : rule) (wt : Z) (x m : text) (fs fs' : list (text * text)).
Hypothesis Only : name_only (rules o) name (RuleSpec r (Some wt) true).
Hypothesis Name : EndToEnd.namechars name = true.
Hypothesis Word : one_word name = true.
Hypothesis NameValid : forallb vchar name = true.
Hypothesis Valid : forallb vchar x = true.
Hypothesis Nonempty : x <> [].
Hypothesis Known : forallb K x = true.
Hypothesis Pos : (0 <= f)%Z.
Hypothesis Fl : forallb (floor_on K f) (rules o) = true.
Hypothesis Light : (wt < 2 * f)%Z.
Hypothesis Keys : good_keys fs = true.
Hypothesis Values : good_values fs = true.
Hypothesis Once : NoDup (map Datatypes.fst fs).
Hypothesis Any : fs <> [].
Hypothesis Order : TokenProofs2.emitted zh_itn_token_orders name fs = fs'.
Hypothesis Keys' : good_keys fs' = true.
Hypothesis Some' : fs' <> [].
Hypothesis Kept : forallb kept m = true.
Hypothesis Tag : denote (r_tagger r) x (fields_token name fs ++ u " ") 0%Z.
Hypothesis Sole : forall s k y v, In s (rules o) -> s_weight s = Some k -> denote (r_tagger (s_rule s)) x (y ++ u " ") v -> (wt <= k + v)%Z /\ (k + v = wt -> y = fields_token name fs)%Z.
Hypothesis Verb : forall z w, denote (r_verbalizer r) (fields_token name fs') z w <-> z = m /\ w = 0%Z.
Theorem zh_itn_said_fields : zh_itn_said o x m.
Proof.
  apply zh_itn_said_only; [now apply vtext_spec|exact Nonempty|]. intros t v Et Ev. unfold tagger in Et. unfold verbalizer in Ev.
  destruct (tagger_union (rules o)) as [e|] eqn:E; [|discriminate]. injection Et as <-.
  destruct (verbalizer_union (rules o)) as [e'|] eqn:E'; [|discriminate]. injection Ev as <-.
  apply (fields_sole (rules o) name (RuleSpec r (Some wt) true) e e' (postprocessor o) zh_itn_token_orders x m m 0%Z fs fs'); try assumption.
  - apply zh_itn_rules.
  - intros z w. now apply post_keeps.
  - apply (whole_cheapest (zh_itn o) e (2 * f) (fun x => forallb K x = false) (zh_itn_rules o) E (on_two K (rules o) e f E Pos Fl) x _ wt Nonempty).
    + rewrite Known. discriminate.
    + exact Light.
    + split; [apply vtext_spec; now apply fields_valid|]. exists (RuleSpec r (Some wt) true), wt, 0%Z. destruct Only as (I & _). rewrite Z.add_0_r. auto.
    + intros z w (_ & s & k & w' & I & W & D & ->). exact (Sole s k z w' I W D).
Qed.
End Said.
