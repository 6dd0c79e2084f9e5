(** The words the Japanese postprocessor leaves alone, and texts one rule of the Japanese normaliser
    reads whole: from that reading to the one answer (C71). *)
From Coq Require Import List NArith ZArith Bool String Lia Arith.
From Verif Require Import Text TextFacts TokenModel Fst FstFacts GrammarModel GrammarSpec GrammarAccept EnglishNumeralSpec DataJaTn JaTnModel BoundarySpec BoundaryLaw PlainSpec WholeSpec.
From Verif Require Import NbestModel NbestSpec EngineSpec PipelineModel PropsTotal.
From Verif Require Import Boundary BoundaryRules BoundaryChar BoundaryLawProofs Letters Whole OneToken TokenVerbal Fields PropsBoundary.
From Verif Require Import ZhTnPost PlainChar.
From Verif Require EndToEnd.
Import ListNotations.
Local Open Scope list_scope.

(** ** Words the first steps of the postprocessor leave alone; the last one marks what is not in the charset *)
Definition jsafe (c : N) : bool :=
  vchar c && unlisted ja_tn_char_fullwidth_to_halfwidth c && unlisted ja_tn_default_blacklist c && unlisted ja_tn_char_punctuations_ja c && negb (is_punct c).
Lemma jsafe_all c : jsafe c = true -> vchar c = true /\ unlisted ja_tn_char_fullwidth_to_halfwidth c = true /\ unlisted ja_tn_default_blacklist c = true /\ unlisted ja_tn_char_punctuations_ja c = true /\ negb (is_punct c) = true.
Proof. unfold jsafe. rewrite !andb_true_iff. tauto. Qed.
Definition marked (o : options) (m : text) : text := flat_map (fun c => mark_if (tag_oov o && negb (JaTnModel.charset c)) c) m.
Definition jkeeping (s : fst) : Prop := forall x z w, forallb jsafe x = true -> denote s x z w <-> z = x /\ w = 0%Z.
Lemma jsafe_valid c : jsafe c = true -> vchar c = true.
Proof. intro S. apply jsafe_all in S as (V & _). exact V. Qed.
Lemma jkeeping_when b p s : jkeeping p -> jkeeping s -> jkeeping (when b p s).
Proof.
  intros P S. unfold when. destruct b; [|exact P]. intros x z w K. split.
  - intros (m & w1 & w2 & -> & H & G). apply (P _ _ _ K) in H as (-> & ->). apply (S _ _ _ K) in G as (-> & ->). auto.
  - intros (-> & ->). exists x, 0%Z, 0%Z. split; [reflexivity|]. split; [now apply P|now apply S].
Qed.
Lemma jkeeping_rewrite tau : (forall c x y w, denote tau (c :: x) y w -> jsafe c = false) -> jkeeping (Rewrite tau Anywhere Anywhere).
Proof. intros H x z w K. cbn [denote]. exact (rewrite_keeps _ _ _ jsafe H jsafe_valid x _ z w K). Qed.
(** A rewriting of single characters. *)
Lemma singles_rewrite (tau : rel) (F : N -> text) : (forall x y w, tau x y w -> exists c, x = [c]) ->
  (forall c, vchar c = true -> ((forall y k, ~ tau [c] y k) /\ F c = [c]) \/ ((forall y k, tau [c] y k <-> y = F c /\ k = 0%Z) /\ forallb vchar (F c) = true)) ->
  forall x, forallb vchar x = true -> forall out z w, rewritten tau Anywhere Anywhere out x z w <-> z = flat_map F x /\ w = 0%Z.
Proof.
  intros One H. induction x as [|c x IH]; intros V out z w; [apply nil_rewrite|]. cbn [forallb] in V. apply andb_true_iff in V as (Vc & V). specialize (IH V). cbn [flat_map]. split.
  - intro R. remember (c :: x) as t eqn:Et. destruct R as [|out p q v rest y k Np T _ _ Vp Vq R|out d rest y v M _ R]; [discriminate| |].
    + destruct (One _ _ _ T) as (a & ->). injection Et as -> ->. apply IH in R as (-> & ->). destruct (H c Vc) as [(N & _)|(J & _)]; [now apply N in T|]. apply J in T as (-> & ->). auto.
    + injection Et as -> ->. apply IH in R as (-> & ->). destruct (H c Vc) as [(_ & E)|(J & _)]; [rewrite E; auto|]. exfalso.
      apply (M [c] (F c) 0%Z x eq_refl); [discriminate|now apply J|split; exact I].
  - intros (-> & ->). destruct (H c Vc) as [(N & E)|(J & Vf)].
    + rewrite E. cbn [app]. apply rw_copy; [|exact Vc|now apply IH]. intros p q v rest E' Np T _. destruct (One _ _ _ T) as (a & ->). injection E' as -> _. exact (N _ _ T).
    + change (c :: x) with ([c] ++ x). replace 0%Z with (0 + 0)%Z by lia. apply rw_match; try exact I; [discriminate|now apply J|cbn; now rewrite Vc|exact Vf|now apply IH].
Qed.
Lemma oov_marks p x z w : forallb vchar x = true -> (denote (oov_tagger (u "oov") (Class (fun c => vchar c && negb (p c)))) x z w <-> z = flat_map (fun c => mark_if (negb (p c)) c) x /\ w = 0%Z).
Proof.
  intro V. unfold oov_tagger. match goal with |- denote (Rewrite ?t _ _) _ _ _ <-> _ => set (tau := t); change (denote (Rewrite tau Anywhere Anywhere) x z w) with (rewritten (denote tau) Anywhere Anywhere [] x z w) end.
  assert (J : forall x y k, denote tau x y k <-> exists c, x = [c] /\ vchar c = true /\ negb (p c) = true /\ y = u "<oov>" ++ [c] ++ u "</oov>" /\ k = 0%Z).
  { intros x' y k. split.
    - intro H. apply cat_inv in H as (x1 & y1 & w1 & x2 & y2 & w2 & E & -> & -> & H & (-> & -> & ->)). rewrite app_nil_r in E.
      apply cat_inv in H as (x3 & y3 & w3 & x4 & y4 & w4 & E' & -> & -> & (-> & -> & ->) & (a & -> & -> & P & ->)). subst x' x1.
      apply andb_true_iff in P as (Va & P). exists a. auto.
    - intros (c & -> & Vc & P & -> & ->). change [c] with (([] ++ [c]) ++ []) at 1. change 0%Z with ((0 + 0) + 0)%Z. rewrite app_assoc.
      apply (cat_i (insert (u "<oov>") + Class (fun c => vchar c && negb (p c)))%fst (insert (u "</oov>"))); [|now cbn].
      apply (cat_i (insert (u "<oov>")) (Class (fun c => vchar c && negb (p c)))); [now cbn|]. exists c. now rewrite Vc, P. }
  apply singles_rewrite; [| |exact V].
  - intros x' y k H. apply J in H as (c & -> & _). eauto.
  - intros c Vc. unfold mark_if. destruct (negb (p c)) eqn:P.
    + right. split; [|rewrite !forallb_app; cbn [forallb]; now rewrite Vc]. intros y k. rewrite J. split; [intros (c' & [= <-] & _ & _ & -> & ->); auto|intros (-> & ->); eauto 6].
    + left. split; [|reflexivity]. intros y k H. apply J in H as (c' & [= <-] & _ & A & _). congruence.
Qed.
Lemma unmarked m : flat_map (fun c => mark_if false c) m = m.
Proof. induction m as [|c m IH]; [reflexivity|]. cbn [flat_map]. rewrite IH. reflexivity. Qed.
Theorem ja_post o m : forallb jsafe m = true -> forall z w, denote (postprocessor o) m z w <-> z = marked o m /\ w = 0%Z.
Proof.
  intros S z w. unfold postprocessor. cbv zeta.
  match goal with |- denote (when _ ?p _) _ _ _ <-> _ => assert (K : jkeeping p) end.
  { unfold build_rule. repeat apply jkeeping_when; apply jkeeping_rewrite; intros c x y w' H; apply not_true_iff_false; intro J; apply jsafe_all in J as (_ & S1 & S2 & S3 & S4).
    - destruct H as (E & _). discriminate E.
    - apply unlisted_table in H. rewrite H in S1. discriminate S1.
    - destruct H as (_ & t & H). apply unlisted_table in H. rewrite H in S2. discriminate S2.
    - destruct H as (_ & t & [H|H]); [apply unlisted_table in H; rewrite H in S3; discriminate S3|]. destruct H as (a & E & _ & P & _). injection E as <- _.
      rewrite P in S4. discriminate S4. }
  unfold marked. unfold when at 1. destruct (tag_oov o); cbn [andb].
  - assert (V : forallb vchar m = true) by (revert S; apply ZhTnRead.all_imp; exact jsafe_valid). split.
    + intros (m' & w1 & w2 & -> & H & G). apply (K _ _ _ S) in H as (-> & ->). apply (oov_marks _ _ _ _ V) in G as (-> & ->). auto.
    + intros (-> & ->). exists m, 0%Z, 0%Z. split; [reflexivity|]. split; [now apply K|now apply (oov_marks _ _ _ _ V)].
  - rewrite unmarked. now apply K.
Qed.

(** ** A text read whole by one rule *)
Lemma ja_tn_cheapest o e : tagger_union (rules o) = Some e -> forall x y w, x <> [] -> (w < 20400)%Z -> whole_reading (rules o) x y w ->
  (forall z v, whole_reading (rules o) x z v -> (w <= v)%Z /\ (v = w -> z = y)) -> cheapest (denote (trim_end e)) x y.
Proof.
  intros U x y w N L. apply (whole_cheapest (ja_tn o) e 20400 (fun _ => False) (ja_tn_rules o) U); try assumption; [|tauto].
  apply (floor_two _ _ U 10200); [lia|]. destruct o as [t i p f v]; destruct t, f; vm_compute; reflexivity.
Qed.
Definition ja_said (o : options) (x d : text) : Prop := forall en p q, engine_for (ja_tn o) en -> valid_text p -> valid_text q -> plain (ja_tn o) p -> plain (ja_tn o) q ->
  normalizes_to en (p ++ x ++ q) (flat_map (ja_tn_clean o) p ++ d ++ flat_map (ja_tn_clean o) q).
Lemma ja_said_only o x d : valid_text x -> x <> [] -> (forall t v, tagger o = Some t -> verbalizer o = Some v -> only_answer ja_tn_token_orders t v x d) -> ja_said o x d.
Proof.
  intros K N A en p q En Vp Vq P Q. destruct (C44_ja_tn o) as (t & v & Et & Ev & _).
  refine (proj2 (C64_around_ja_tn o en p x q d En Vp K Vq P Q N _)). apply (sole_only (ja_tn o) t v x d Et Ev). exact (A t v Et Ev).
Qed.
Section Said.
Variables (o : options) (name : text) (r : rule) (wt : Z) (x m : text) (fs fs' : list (text * text)).
Hypothesis Only : name_only (rules o) name (RuleSpec r (Some wt) true).
Hypothesis Name : EndToEnd.namechars name = true.
Hypothesis Word : one_word name = true.
Hypothesis NameValid : forallb vchar name = true.
Hypothesis Valid : forallb vchar x = true.
Hypothesis Nonempty : x <> [].
Hypothesis Light : (wt < 20400)%Z.
Hypothesis Keys : good_keys fs = true.
Hypothesis Values : good_values fs = true.
Hypothesis Once : NoDup (map Datatypes.fst fs).
Hypothesis Any : fs <> [].
Hypothesis Order : TokenProofs2.emitted ja_tn_token_orders name fs = fs'.
Hypothesis Keys' : good_keys fs' = true.
Hypothesis Some' : fs' <> [].
Hypothesis Safe : forallb jsafe m = true.
Hypothesis Tag : denote (r_tagger r) x (fields_token name fs ++ u " ") 0%Z.
Hypothesis Sole : forall s k y v, In s (rules o) -> s_weight s = Some k -> denote (r_tagger (s_rule s)) x (y ++ u " ") v -> (wt <= k + v)%Z /\ (k + v = wt -> y = fields_token name fs)%Z.
Hypothesis Verb : forall z w, denote (r_verbalizer r) (fields_token name fs') z w <-> z = m /\ w = 0%Z.
Theorem ja_said_fields : ja_said o x (marked o m).
Proof.
  apply ja_said_only; [now apply vtext_spec|exact Nonempty|]. intros t v Et Ev. unfold tagger in Et. unfold verbalizer in Ev.
  destruct (tagger_union (rules o)) as [e|] eqn:E; [|discriminate]. injection Et as <-.
  destruct (verbalizer_union (rules o)) as [e'|] eqn:E'; [|discriminate]. injection Ev as <-.
  apply (fields_sole (rules o) name (RuleSpec r (Some wt) true) e e' (postprocessor o) ja_tn_token_orders x m (marked o m) 0%Z fs fs'); try assumption.
  - apply ja_tn_rules.
  - intros z w. now apply ja_post.
  - apply (ja_tn_cheapest o e E x _ wt Nonempty Light).
    + split; [apply vtext_spec; now apply fields_valid|]. exists (RuleSpec r (Some wt) true), wt, 0%Z. destruct Only as (I & _). rewrite Z.add_0_r. auto.
    + intros z w (_ & s & k & w' & I & W & D & ->). exact (Sole s k z w' I W D).
Qed.
End Said.
