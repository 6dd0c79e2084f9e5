(** Percentages of the Chinese inverse normaliser (C85). *)
From Coq Require Import List NArith ZArith Bool String Lia Arith.
From Verif Require Import Text TextFacts TokenModel Fst FstFacts GrammarModel GrammarSpec GrammarAccept NumeralSpec EnglishNumeralSpec ZhSpokenSpec BoundarySpec WholeSpec.
From Verif Require Import DataZhItn ZhItnModel ZhSpokenProofs ZhSpokenProofs2 ZhSpokenProofs3 ZhSpokenProofs4 ZhSpokenProofs5 ZhSpokenProofs6.
From Verif Require Import TokenVerbal Apart JaHead ZhItnTag ZhItnTag2.
From Verif Require Import NbestModel NbestSpec EngineSpec PipelineModel Boundary BoundaryRules BoundaryChar BoundaryLaw BoundaryLawProofs PlainSpec Letters Whole OneToken Fields Fields2 PropsBoundary ZhItnVerbal ZhItnSaid.
From Verif Require EndToEnd FstEval PlainRules.
Import ListNotations.
Local Open Scope list_scope.

Definition BAI : N := Eval vm_compute in hd 0%N (u "百").
Definition FEN : N := Eval vm_compute in hd 0%N (u "分").
Definition ZHI : N := Eval vm_compute in hd 0%N (u "之").
Definition pc_chars : text := Eval vm_compute in u "一幺壹二两贰三叁四肆五伍六陆七柒拐八捌九玖零洞十百千万分之".
Definition pc (c : N) : bool := existsb (N.eqb c) pc_chars.
Definition start_chars : text := Eval vm_compute in u "一幺壹二两贰三叁四肆五伍六陆七柒拐八捌九玖零洞十".
Definition startc (c : N) : bool := existsb (N.eqb c) start_chars.
Lemma chars_all l (P : N -> bool) : forallb P l = true -> forall c, existsb (N.eqb c) l = true -> P c = true.
Proof. intros H c A. rewrite forallb_forall in H. apply H. apply existsb_exists in A as (a & I & E). apply N.eqb_eq in E. now subst a. Qed.
Lemma pc_valid c : pc c = true -> vchar c = true.
Proof. apply chars_all. vm_compute. reflexivity. Qed.
Lemma known_pc c : known c = true -> pc c = true.
Proof. apply chars_all. vm_compute. reflexivity. Qed.
(** ** Tokens that begin with 百, 分 or 之 *)
Definition others (o : options) : list rule := [Date.rule; Whitelist.rule; Fraction.rule o; Money.rule o; Time.rule; Cardinal.rule o; Math.rule o; LicensePlate.rule; TrainNumber.rule].
Lemma others_begin o r : In r (others o) -> begins pc startc (r_tagger r) = true.
Proof. revert r. apply (proj1 (forallb_forall (fun r => begins pc startc (r_tagger r)) _)). destruct o as [a [] [] []]; vm_compute; reflexivity. Qed.
Lemma measure_begin o : begins pc startc (Measure.measure o) = true /\ begins pc startc (Measure.measure_sp o) = true /\ begins pc startc (Measure.money_colloquial o) = true.
Proof. destruct o as [a b [] []]; vm_compute; auto. Qed.
Lemma number_begin o : begins pc startc (Measure.any_number o) = true /\ Datatypes.fst (FstEval.eats (Measure.any_number o)) = true.
Proof. destruct o as [a b c []]; vm_compute; auto. Qed.
Lemma denom_begin : begins pc startc Measure.g_denominator = true /\ Datatypes.fst (FstEval.eats Measure.g_denominator) = true.
Proof. vm_compute. auto. Qed.
Lemma not_begun e c r y w : begins pc startc e = true -> forallb pc (c :: r) = true -> startc c = false -> ~ denote e (c :: r) y w.
Proof. intros B K C H. pose proof (begins_sound pc startc pc_valid e B _ _ _ K H) as X. cbn [headed] in X. congruence. Qed.
Lemma pc_plain x : forallb pc x = true -> forallb vchar x = true /\ escape_value x = x.
Proof.
  intro K. split; [apply forallb_forall; intros c I; apply pc_valid; rewrite forallb_forall in K; auto|].
  assert (A : forallb (fun c => negb (c =? 34)%N && negb (c =? 92)%N) pc_chars = true) by (vm_compute; reflexivity).
  apply escape_plain; intro I; rewrite forallb_forall in K; specialize (K _ I); vm_compute in K; discriminate K.
Qed.
Lemma value_given o c r y w : forallb pc (c :: r) = true -> startc c = false -> denote (Measure.g_value o) (c :: r) y w <-> denote (Measure.percent o) (c :: r) y w.
Proof.
  intros K C. destruct (measure_begin o) as (B1 & B2 & B3). split.
  - intros [[[H|H]|H]|H]; [exfalso; exact (not_begun _ _ _ _ _ B1 K C H)|exfalso; exact (not_begun _ _ _ _ _ B2 K C H)|exact H|exfalso; exact (not_begun _ _ _ _ _ B3 K C H)].
  - intro H. left. right. exact H.
Qed.
Lemma odd_token o e c r t w : tagger_union (rules o) = Some e -> forallb pc (c :: r) = true -> startc c = false -> denote e (c :: r) t w ->
  (w = 1000000%Z /\ r = []) \/ (exists z v, denote (Measure.percent o) (c :: r) z v /\ w = (v + 10500)%Z /\ t = value_token (u "measure") (c :: r) ++ u " ").
Proof.
  intros E K C H. apply (taggers_spec _ _ E) in H as (s & k & I & Ek & H). pose proof (others_begin o) as Oth.
  unfold rules in I. cbn [In] in I.
  repeat destruct I as [I|I]; [..|destruct I]; rewrite <- I in H, Ek; cbn [s_weight s_rule] in H, Ek; injection Ek as <-;
    try (exfalso; revert H; apply not_begun; [apply Oth; unfold others; cbn [In]; tauto|exact K|exact C]).
  - right. unfold Measure.rule in H. cbn [r_tagger] in H. apply tokens_added in H as (t' & -> & [H|H]).
    + apply tag_field_spec in H as (_ & -> & z & H). apply value_given in H; [|exact K|exact C]. exists z, (w - 10500)%Z. split; [exact H|]. split; [lia|]. rewrite (proj2 (pc_plain _ K)). unfold value_token. rewrite <- !app_assoc. reflexivity.
    + exfalso. apply cat_inv in H as (x1 & y1 & w1 & x2 & y2 & w2 & E1 & _ & _ & H & _). apply cat_inv in H as (x3 & y3 & w3 & x4 & y4 & w4 & -> & _ & _ & H & _). apply tag_field_spec in H as (_ & _ & z & H).
      destruct x3 as [|c' r']; [exact (proj1 (FstEval.eats_sound _) (proj2 denom_begin) _ _ H)|]. rewrite <- app_assoc in E1. injection E1 as <- ->. cbn [forallb] in K. apply andb_true_iff in K as (Kc & K). rewrite forallb_app, andb_true_iff in K. refine (not_begun _ _ _ _ _ (proj1 denom_begin) _ C H). cbn [forallb]. now rewrite Kc.
  - left. unfold Char.rule in H. cbn [r_tagger] in H. apply tokens_added in H as (t' & _ & H).
    apply cat_inv in H as (x1 & y1 & w1 & x2 & y2 & w2 & E1 & -> & Ew & H & (-> & -> & ->)).
    apply cat_inv in H as (x3 & y3 & w3 & x4 & y4 & w4 & -> & -> & -> & (-> & -> & ->) & H). rewrite app_nil_r in E1. cbn [app] in E1. subst x4.
    destruct H as [[(c' & E2 & _ & _ & ->)|(E2 & _ & ->)]|(E2 & _ & ->)]; (split; [lia|exact (f_equal (@tl N) E2)]).
Qed.
(** ** The percentage *)
Section Percent.
Variables (o : options) (x : text) (n : N).
Hypothesis S : spoken_number x = Some n.
Hypothesis M : (enable_million o = true \/ n < 1000000)%N.
Hypothesis Nl : ~ ends_liang x.
Let Q : text := u "百分之" ++ x.
Lemma x_fine : fine o x.
Proof. split; [exact (spoken_smooth _ _ S)|]. destruct M as [M'|M']; [auto|right; exact (spoken_low _ _ S M')]. Qed.
Lemma x_pc : forallb pc x = true.
Proof. pose proof (smooth_known x (proj1 x_fine)) as K. rewrite forallb_forall in K |- *. auto using known_pc. Qed.
Lemma x_head q : x <> BAI :: q.
Proof.
  intros ->. pose proof (spoken_shape _ _ S) as I. assert (A : forallb (fun l => match l with Hu :: _ => false | _ => true end) shapes = true) by (vm_compute; reflexivity). rewrite forallb_forall in A. specialize (A _ I). discriminate A.
Qed.
Lemma any_cost a q d w : x = a ++ q -> denote (Measure.any_number o) a d w -> c_number (shape a) = Some w.
Proof.
  intros E H. pose proof x_fine as F. rewrite E in F. apply fine_app in F as ((Sa & La) & _). apply (number0_cost (enable_million o) a d); [|exact La]. now apply number_only.
Qed.
Lemma percent_parse p q d w : p ++ q = Q -> denote (Measure.percent o) p d w -> exists a d', p = u "百分之" ++ a /\ x = a ++ q /\ d = d' ++ u "%" /\ denote (Measure.any_number o) a d' w.
Proof.
  intros E H. assert (K : forallb pc p = true). { assert (KQ : forallb pc Q = true) by (unfold Q; rewrite forallb_app, x_pc; reflexivity). rewrite <- E, forallb_app, andb_true_iff in KQ. tauto. }
  apply cat_inv in H as (x1 & y1 & w1 & x2 & y2 & w2 & -> & -> & -> & H & (-> & -> & ->)). apply cat_inv in H as (x3 & y3 & w3 & x4 & y4 & w4 & -> & -> & -> & H & Hb). apply cat_inv in H as (x5 & y5 & w5 & x6 & y6 & w6 & -> & -> & -> & H & Hz). apply cat_inv in H as (x7 & y7 & w7 & x8 & y8 & w8 & -> & -> & -> & Hs & (-> & -> & ->)).
  rewrite !app_nil_r in *. rewrite !forallb_app, !andb_true_iff in K. destruct K as (((K7 & _) & K6) & K4).
  assert (x7 = [] /\ y7 = [] /\ w7 = 0%Z) as (-> & -> & ->).
  { destruct Hs as [Hs|Hs]; [exfalso|exact Hs]. revert Hs. apply (apart_known pc); [vm_compute; reflexivity|exact K7]. }
  cbn [app] in *. assert (y6 = [] /\ w6 = 0%Z /\ (x6 = u "之" \/ x6 = [])) as (-> & -> & Hx) by (destruct Hz as [(-> & -> & ->)|(-> & -> & ->)]; auto). clear Hz.
  assert (B : denote (Measure.any_number o) x4 y4 w4 \/ x4 = [BAI]).
  { destruct Hb as [Hb|Hb]; apply cat_inv in Hb as (a1 & b1 & v1 & a2 & b2 & v2 & -> & -> & -> & H1 & H2); rewrite forallb_app, andb_true_iff in K4; destruct K4 as (Ka & Kb).
    - destruct H2 as [H2|(-> & -> & ->)]; [exfalso|left; rewrite !app_nil_r, Z.add_0_r; exact H1]. apply cat_inv in H2 as (a3 & b3 & v3 & a4 & b4 & v4 & -> & _ & _ & H2 & _). rewrite forallb_app, andb_true_iff in Kb. revert H2. apply (apart_known pc); [vm_compute; reflexivity|exact (proj1 Kb)].
    - destruct H1 as [H1|(-> & -> & ->)]; [exfalso|right; destruct H2 as (-> & _); reflexivity]. apply cat_inv in H1 as (a3 & b3 & v3 & a4 & b4 & v4 & -> & _ & _ & _ & H2'). rewrite forallb_app, andb_true_iff in Ka. revert H2'. apply (apart_known pc); [vm_compute; reflexivity|exact (proj2 Ka)]. }
  unfold Q in E. destruct (number_begin o) as (Nb & Ne). destruct Hx as [-> | ->].
  - change (u "百分之") with (u "百分" ++ u "之") in E |- *. rewrite <- !app_assoc in E. do 2 apply app_inv_head in E. destruct B as [B| ->]; [|exfalso; exact (x_head q (eq_sym E))].
    exists x4, y4. rewrite <- !app_assoc. split; [reflexivity|]. split; [auto|]. split; [reflexivity|]. replace (0 + 0 + 0 + w4 + 0)%Z with w4 by lia. exact B.
  - exfalso. change (u "百分之") with (u "百分" ++ u "之") in E. rewrite app_nil_r, <- !app_assoc in E. apply app_inv_head in E. destruct B as [B| ->]; [|discriminate E].
    destruct x4 as [|c r]; [exact (proj1 (FstEval.eats_sound _) Ne _ _ B)|]. injection E as -> _. exact (not_begun _ _ _ _ _ Nb K4 eq_refl B).
Qed.
Lemma percent_i d w : denote (Measure.any_number o) x d w -> denote (Measure.percent o) Q (d ++ u "%") w.
Proof.
  intro H. unfold Q, Measure.percent. rewrite <- (app_nil_r (u "百分之" ++ x)). replace w with (w + 0)%Z by lia. apply cat_i; [|now cbn]. change d with ([] ++ d). replace w with (0 + w)%Z by lia. apply cat_i.
  - change (u "百分之") with (([] ++ u "百分") ++ u "之"). change (@nil N) with ((@nil N ++ []) ++ []) at 2. change 0%Z with (0 + 0 + 0)%Z. apply cat_i; [apply cat_i; [right; now cbn|now cbn]|left; now cbn].
  - left. rewrite <- (app_nil_r x), <- (app_nil_r d). replace w with (w + 0)%Z by lia. apply cat_i; [exact H|right; now cbn].
Qed.
Lemma any_reads d : decimal d n -> exists c, c_number (shape x) = Some c /\ forall z w, denote (Measure.any_number o) x z w <-> z = d /\ w = c.
Proof.
  intro D. destruct (gives_number _ _ _ (number0_exists (enable_million o) x n S M d D)) as (c & G). pose proof (any_cost x [] d c (eq_sym (app_nil_r x)) G) as C. exists c. split; [exact C|]. intros z w. split.
  - intro H. pose proof (any_cost x [] z w (eq_sym (app_nil_r x)) H) as C'. assert (w = c) as -> by congruence. split; [|reflexivity].
    destruct (cheapest_spoken (Options false true true (enable_million o)) x n d eq_refl S (or_introl eq_refl) M D) as (k & Hk & Best).
    assert (L : forall y, denote (Cardinal.number (enable_million o)) x y c -> denote (Cardinal.cardinal (Options false true true (enable_million o))) x y (c + 1000)%Z) by (intros y Hy; left; right; exists c; split; [lia|exact Hy]).
    assert (k = c + 1000)%Z as ->; [|symmetry; destruct (Best _ _ (L _ H)) as (_ & X); symmetry; apply X; lia].
    destruct (Best _ _ (L _ G)) as (X & _). enough (c + 1000 <= k)%Z by lia. clear X Best.
    apply cardinal_cases in Hk as [Hk|(a & b & va & t & E & A & B & ->)]; [..|exact (proj1 x_fine)|exact (proj2 x_fine)].
    + apply one_only in Hk as (v2 & -> & Hk); [|exact (proj1 x_fine)]. apply number0_cost in Hk; [|exact (proj2 x_fine)]. assert (v2 = c) by congruence. lia.
    + rewrite E in C. pose proof (cut_dear _ _ _ _ _ C A B). lia.
  - intros (-> & ->). exact G.
Qed.
Variable e : fst.
Hypothesis Union : tagger_union (rules o) = Some e.
Lemma star_nonneg y t w : (exists p, x = p ++ y) -> star (denote e) y t w -> (0 <= w)%Z.
Proof.
  intros (p & E) H. pose proof x_fine as F. rewrite E in F. apply fine_app in F as (_ & F). assert (Ny : ~ ends_liang y) by (intros (a & ->); apply Nl; exists (p ++ a); rewrite E; now rewrite app_assoc).
  destruct (tokens_cut o e Union y t w H F Ny) as [(_ & _ & ->)|[L|(s & C & L)]]; [lia|lia|]. pose proof (cuts_nonneg _ _ C). lia.
Qed.
Lemma empty_none y w : ~ denote e [] y w.
Proof.
  intro H. apply (taggers_spec _ _ Union) in H as (s & k & I & _ & H). revert H. apply FstEval.eats_sound. revert s I. apply (proj1 (forallb_forall (fun s => Datatypes.fst (FstEval.eats (r_tagger (s_rule s)))) (rules o))). destruct o as [a [] [] []]; vm_compute; reflexivity.
Qed.
Lemma star_first y t w : star (denote e) y t w -> y = [] /\ t = [] /\ w = 0%Z \/ exists c r t1 w1 q t2 w2, y = c :: r ++ q /\ t = t1 ++ t2 /\ w = (w1 + w2)%Z /\ denote e (c :: r) t1 w1 /\ star (denote e) q t2 w2.
Proof.
  intros [|p t1 w1 q t2 w2 H Hs]; [auto|]. right. destruct p as [|c r]; [exfalso; exact (empty_none _ _ H)|]. exists c, r, t1, w1, q, t2, w2. auto.
Qed.
Lemma percent_head c r y w : forallb pc (c :: r) = true -> denote (Measure.percent o) (c :: r) y w -> c = BAI.
Proof.
  intros K H. assert (B : begins pc (N.eqb BAI) (Measure.percent o) = true) by (destruct o as [a b d []]; vm_compute; reflexivity).
  pose proof (begins_sound pc (N.eqb BAI) pc_valid _ B _ _ _ K H) as X. cbn [headed] in X. now apply N.eqb_eq in X.
Qed.
(** The characters of 分之 in front are characters of their own. *)
Lemma loose c y t w : forallb pc (c :: y) = true -> startc c = false -> c <> BAI -> (forall t' w', star (denote e) y t' w' -> (0 <= w')%Z) -> star (denote e) (c :: y) t w -> (1000000 <= w)%Z.
Proof.
  intros K C B IH H. apply star_first in H as [(E & _)|(c' & r & t1 & w1 & q & t2 & w2 & E & -> & -> & H & Hs)]; [discriminate E|]. injection E as <- ->.
  assert (K1 : forallb pc (c :: r) = true) by (cbn [forallb] in *; rewrite forallb_app in K; rewrite !andb_true_iff in *; tauto).
  apply (odd_token o e _ _ _ _ Union K1 C) in H as [(-> & ->)|(z & v & H & _)]; [specialize (IH _ _ Hs); lia|]. apply percent_head in H; [contradiction|exact K1].
Qed.
Lemma tail_nonneg t w : star (denote e) (u "分之" ++ x) t w -> (0 <= w)%Z.
Proof.
  intro H. assert (K : forallb pc x = true) by exact x_pc. enough (1000000 <= w)%Z by lia. change (u "分之" ++ x) with (FEN :: ZHI :: x) in H. revert H. apply loose; [cbn [forallb]; rewrite K; reflexivity|reflexivity|discriminate|].
  intros t' w' H. enough (1000000 <= w')%Z by lia. revert H. apply loose; [cbn [forallb]; rewrite K; reflexivity|reflexivity|discriminate|]. intros t2 w2. apply star_nonneg. now exists [].
Qed.
Lemma percent_tokens c t w : c_number (shape x) = Some c -> star (denote e) Q t w -> (c + 10500 <= w)%Z /\ (w = c + 10500 -> t = value_token (u "measure") Q ++ u " ")%Z.
Proof.
  intros C H. pose proof (cost_bounds _ _ C) as Cb. assert (KQ : forallb pc Q = true) by (unfold Q; rewrite forallb_app, x_pc; reflexivity).
  apply star_first in H as [(E & _)|(c' & r & t1 & w1 & q & t2 & w2 & E & -> & -> & H & Hs)]; [discriminate E|].
  assert (K1 : forallb pc (c' :: r) = true) by (rewrite E in KQ; cbn [forallb] in *; rewrite forallb_app in KQ; rewrite !andb_true_iff in *; tauto).
  assert (Cs : startc c' = false) by (injection E as <- _; reflexivity).
  apply (odd_token o e _ _ _ _ Union K1 Cs) in H as [(-> & ->)|(z & v & H & -> & ->)].
  - cbn [app] in E. unfold Q in E. change (u "百分之" ++ x) with (BAI :: u "分之" ++ x) in E. injection E as <- <-. apply tail_nonneg in Hs. lia.
  - assert (E' : (c' :: r) ++ q = Q) by (rewrite E; reflexivity). destruct (percent_parse _ _ _ _ E' H) as (a & d & Ep & Ex & _ & Ha). rewrite Ep. pose proof (any_cost a q d v Ex Ha) as Ca. pose proof x_fine as F. rewrite Ex in F. apply fine_app in F as (_ & Fq).
    assert (Nq : ~ ends_liang q) by (intros (b & ->); apply Nl; exists (a ++ b); rewrite Ex; now rewrite app_assoc).
    destruct (tokens_cut o e Union q t2 w2 Hs Fq Nq) as [(-> & -> & ->)|[L|(s & Cq & L)]].
    + rewrite app_nil_r in Ex. subst a. assert (v = c) as -> by congruence. rewrite app_nil_r. split; [lia|]. reflexivity.
    + pose proof (cost_bounds _ _ Ca). lia.
    + assert (Cx : c_number (shape a ++ shape q) = Some c) by (rewrite <- shape_app, <- Ex; exact C). pose proof (cuts_dear _ _ _ _ _ Cx (f_number _ _ Ca) Cq). lia.
Qed.
Lemma value_is : fields_token (u "measure") [(u "value", Q)] = value_token (u "measure") Q.
Proof.
  assert (KQ : forallb pc Q = true) by (unfold Q; rewrite forallb_app, x_pc; reflexivity). unfold fields_token, value_token, piece. cbn [map join Datatypes.fst snd]. rewrite (proj2 (pc_plain _ KQ)), <- !app_assoc. reflexivity.
Qed.
Lemma percent_token d c : denote (Measure.any_number o) x d c -> denote e Q (value_token (u "measure") Q ++ u " ") (c + 10500)%Z.
Proof.
  intro H. assert (KQ : forallb pc Q = true) by (unfold Q; rewrite forallb_app, x_pc; reflexivity). apply (taggers_spec _ _ Union). exists (RuleSpec (Measure.rule o) (Some 10500%Z) true), 10500%Z. split; [unfold rules; cbn [In]; tauto|]. split; [reflexivity|]. replace (c + 10500 - 10500)%Z with c by lia.
  cbn [s_rule r_tagger Measure.rule]. apply tokens_added. exists (piece (u "value") Q). split; [unfold value_token, piece; rewrite <- !app_assoc; reflexivity|]. left. apply tag_field_spec. split; [apply pc_plain; exact KQ|]. split; [rewrite (proj2 (pc_plain _ KQ)); reflexivity|]. exists (d ++ u "%"). left. right. exact (percent_i d c H).
Qed.
Lemma measure_verbal d c : (forall z w, denote (Measure.any_number o) x z w <-> z = d /\ w = c) -> forall z w, denote (r_verbalizer (Measure.rule o)) (fields_token (u "measure") [(u "value", Q)]) z w <-> z = d ++ u "%" /\ w = c.
Proof.
  intros R z w. assert (KQ : forallb pc Q = true) by (unfold Q; rewrite forallb_app, x_pc; reflexivity). assert (Bq : forallb bare Q = true) by (rewrite forallb_forall in KQ |- *; intros a I; specialize (KQ a I); revert a KQ I; intros a KQ _; revert KQ; apply chars_all; vm_compute; reflexivity).
  unfold fields_token. cbn [map join Datatypes.fst snd]. rewrite (bare_escape Q Bq). cbn [r_verbalizer Measure.rule]. change Measure.name with (u "measure"). split.
  - intro H. change (denote (delete_tokens (u "measure") (verbalize_field (u "value") (Some (Measure.g_value o)) false)) (u "measure" ++ u " { " ++ piece (u "value") Q ++ u " }") z w \/ denote (delete_tokens (u "measure") (verbalize_field (u "numerator") (Some (Measure.g_numerator o)) false + insert (u "/") + verbalize_field (u "denominator") (Some Measure.g_denominator) true)%fst) (u "measure" ++ u " { " ++ piece (u "value") Q ++ u " }") z w) in H. rewrite !tokens_inner in H. destruct H as [H|H].
    + destruct (vfield_cut false (u "value") _ _ z w [] Q [] Bq (fun I => I) H ltac:(rewrite !app_nil_r; reflexivity)) as (G & _). apply value_given in G; [|exact KQ|reflexivity].
      destruct (percent_parse Q [] z w (app_nil_r Q) G) as (a & d' & _ & Ex & -> & Ha). rewrite app_nil_r in Ex. subst a. apply R in Ha as (-> & ->). auto.
    + exfalso. apply cat_inv in H as (x1 & y1 & w1 & x2 & y2 & w2 & E & _ & _ & H & _). revert H E. intros H E. first [apply vfield_denote in H as (v & -> & _)|apply cat_inv in H as (x3 & y3 & w3 & x4 & y4 & w4 & -> & _ & _ & H & _); apply vfield_denote in H as (v & -> & _)]. discriminate E.
  - intros (-> & ->). left. apply tokens_inner. refine (vfield_i false (u "value") _ Q _ c Bq _ _); [apply pc_plain; exact KQ|]. apply value_given; [exact KQ|reflexivity|]. apply percent_i. now apply R.
Qed.
End Percent.
Definition measure_spec o : rule_spec := RuleSpec (Measure.rule o) (Some 10500%Z) true.
Lemma only_zh_itn_measure o : name_only (rules o) (u "measure") (measure_spec o).
Proof. destruct o as [a b c d]; PlainRules.only_tac. Qed.
Theorem percent_said o x n d : spoken_number x = Some n -> (enable_million o = true \/ n < 1000000)%N -> ~ ends_liang x -> decimal d n -> zh_itn_said o (u "百分之" ++ x) (d ++ u "%").
Proof.
  intros S M Nl D. destruct (any_reads o x n S M d D) as (c & C & R). assert (KQ : forallb pc (u "百分之" ++ x) = true) by (rewrite forallb_app, (x_pc o x n S M); reflexivity).
  pose proof (proj1 (pc_plain _ KQ)) as V. apply zh_itn_said_only; [now apply vtext_spec|discriminate|]. intros t v Et Ev. unfold tagger in Et. unfold verbalizer in Ev.
  destruct (tagger_union (rules o)) as [e|] eqn:E; [|discriminate]. injection Et as <-.
  destruct (verbalizer_union (rules o)) as [e'|] eqn:E'; [|discriminate]. injection Ev as <-.
  apply (fields_sole (rules o) (u "measure") (measure_spec o) e e' (postprocessor o) zh_itn_token_orders (u "百分之" ++ x) (d ++ u "%") (d ++ u "%") c [(u "value", u "百分之" ++ x)] [(u "value", u "百分之" ++ x)]); [reflexivity|reflexivity|apply only_zh_itn_measure|exact (zh_itn_rules o)|exact E'|reflexivity|discriminate|exact (measure_verbal o x n S M Nl d c R)| |reflexivity|repeat constructor; intros []|discriminate|reflexivity|].
  - intros z w. apply post_keeps. rewrite forallb_app. apply andb_true_iff. split; [exact (digits_kept d n D)|reflexivity].
  - refine (eq_ind_r (fun t => cheapest (denote (trim_end e)) (u "百分之" ++ x) t) _ (value_is o x n S M)). apply EndToEnd.trim_cheapest; [apply EndToEnd.value_valid; [reflexivity|exact V]|]. exists (c + 10500)%Z. split; [exact (star_one _ _ _ _ (percent_token o x n S M e E d c (proj2 (R _ _) (conj eq_refl eq_refl))))|]. intros t w H. destruct (percent_tokens o x n S M Nl e E c t w C H) as (L & X). split; [exact L|]. intro W. apply X. lia.
Qed.
