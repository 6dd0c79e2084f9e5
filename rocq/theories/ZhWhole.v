(** Texts one rule of the Chinese normaliser reads whole: from that reading to the one answer (C67). *)
From Coq Require Import List NArith ZArith Bool String Lia Arith.
From Verif Require Import Text TextFacts TokenModel Fst FstFacts GrammarModel GrammarSpec GrammarAccept EnglishNumeralSpec ZhTnModel BoundarySpec BoundaryLaw PlainSpec WholeSpec.
From Verif Require Import NbestModel NbestSpec EngineSpec PipelineModel PropsTotal.
From Verif Require Import Boundary BoundaryRules BoundaryChar BoundaryLawProofs Letters Whole OneToken TokenVerbal Fields ZhTnPost PropsBoundary PropsZhTnEnd.
From Verif Require EndToEnd.
Import ListNotations.
Local Open Scope list_scope.

Lemma zh_tn_steps o : forallb (steps phone_char 10200 600) (rules o) = true.
Proof. destruct o as [i r t p f v]; destruct r; vm_compute; reflexivity. Qed.
Lemma phone_texts x : phone_text x <-> forallb phone_char x = true.
Proof. unfold phone_text. rewrite forallb_forall, Forall_forall. reflexivity. Qed.
(** But for telephone numbers no rule makes a text cheaper than its own weight. *)
Definition no_less (s : rule_spec) : bool := cheap phone_char (-10000) (r_tagger (s_rule s)).
Lemma zh_tn_no_less o : forallb no_less (rules o) = true.
Proof. destruct o as [i r t p f v]; destruct r; vm_compute; reflexivity. Qed.
Lemma whole_no_less o s x y v : In s (rules o) -> ~ phone_text x -> denote (r_tagger (s_rule s)) x y v -> (0 <= v)%Z.
Proof.
  intros I P H. pose proof (proj1 (forallb_forall _ _) (zh_tn_no_less o) s I) as C. destruct (cheap_sound _ _ _ C _ _ _ H) as [L|(_ & F)]; [exact L|]. exfalso. apply P. now apply phone_texts.
Qed.
Lemma zh_tn_cheapest o e : tagger_union (rules o) = Some e -> forall x y w, x <> [] -> ~ phone_text x -> (w < 10800)%Z -> whole_reading (rules o) x y w ->
  (forall z v, whole_reading (rules o) x z v -> (w <= v)%Z /\ (v = w -> z = y)) -> cheapest (denote (trim_end e)) x y.
Proof.
  intros U x y w N P L. apply (whole_cheapest (zh_tn o) e 10800 phone_text (zh_tn_rules o) U); try assumption.
  intros x1 y1 w1 x2 y2 w2 x3 y3 w3. apply (steps_two _ _ U phone_char 10200 600); [lia|exact (zh_tn_steps o)].
Qed.
Lemma said_only x d : valid_text x -> x <> [] -> (forall o t v, tagger o = Some t -> verbalizer o = Some v -> only_answer orders t v x d) -> said_as x d.
Proof.
  intros K N A o en p q En Vp Vq P Q. destruct (C44_zh_tn o) as (t & v & Et & Ev & _).
  refine (proj2 (C64_around_zh_tn o en p x q d En Vp K Vq P Q N _)). apply (sole_only (zh_tn o) t v x d Et Ev). exact (A o t v Et Ev).
Qed.
(** A token of several fields. *)
Definition orders := PipelineModel.zh_tn_token_orders.
Section Said.
Variables (name : text) (r : rule) (wt : Z) (x m : text) (fs fs' : list (text * text)).
Hypothesis Only : forall o, name_only (rules o) name (RuleSpec r (Some wt) true).
Hypothesis Name : EndToEnd.namechars name = true.
Hypothesis Word : one_word name = true.
Hypothesis NameValid : forallb vchar name = true.
Hypothesis Valid : forallb vchar x = true.
Hypothesis NotPhone : ~ phone_text x.
Hypothesis Light : (wt < 10800)%Z.
Hypothesis Keys : good_keys fs = true.
Hypothesis Values : good_values fs = true.
Hypothesis Once : NoDup (map Datatypes.fst fs).
Hypothesis Any : fs <> [].
Hypothesis Order : TokenProofs2.emitted orders name fs = fs'.
Hypothesis Keys' : good_keys fs' = true.
Hypothesis Some' : fs' <> [].
Hypothesis Safe : forallb safe m = true.
Hypothesis Tag : denote (r_tagger r) x (fields_token name fs ++ u " ") 0%Z.
Hypothesis Sole : forall o s k y v, In s (rules o) -> s_weight s = Some k -> denote (r_tagger (s_rule s)) x (y ++ u " ") v -> (wt <= k + v)%Z /\ (k + v = wt -> y = fields_token name fs)%Z.
Hypothesis Verb : forall z w, denote (r_verbalizer r) (fields_token name fs') z w <-> z = m /\ w = 0%Z.
Theorem said_fields : said_as x m.
Proof.
  assert (N : x <> []) by (intros ->; apply NotPhone; constructor).
  apply said_only; [now apply vtext_spec|exact N|]. intros o t v Et Ev. unfold tagger in Et. unfold verbalizer in Ev.
  destruct (tagger_union (rules o)) as [e|] eqn:E; [|discriminate]. injection Et as <-.
  destruct (verbalizer_union (rules o)) as [e'|] eqn:E'; [|discriminate]. injection Ev as <-.
  apply (fields_sole (rules o) name (RuleSpec r (Some wt) true) e e' (postprocessor o) orders x m m 0%Z fs fs'); try assumption.
  - apply Only.
  - apply zh_tn_rules.
  - intros z w. now apply post_keeps.
  - apply (zh_tn_cheapest o e E x _ wt N NotPhone Light).
    + split; [apply vtext_spec; now apply fields_valid|]. exists (RuleSpec r (Some wt) true), wt, 0%Z. destruct (Only o) as (I & _). rewrite Z.add_0_r. auto.
    + intros z w (_ & s & k & w' & I & W & D & ->). exact (Sole o s k z w' I W D).
Qed.
End Said.
