(** The cost of a text one rule reads whole, and of one cut in two. *)
From Coq Require Import List NArith ZArith Bool String Lia Arith.
From Verif Require Import Text TextFacts TokenModel Fst FstFacts GrammarModel GrammarSpec BoundarySpec BoundaryLaw WholeSpec Letters.
From Verif Require Import Boundary BoundaryRules PlainRules.
From Verif Require FstEval GrammarEngine EnglishNumeralSpec.
Import ListNotations.
Local Open Scope list_scope.

(** No reading costs less than nothing. *)
Fixpoint nonneg (e : fst) : bool :=
  match e with
  | Weight k a => (0 <=? k)%Z && nonneg a
  | Union a b | Cat a b | Compose a b => nonneg a && nonneg b
  | Star a | Input a | Erase a | Rewrite a _ _ => nonneg a
  | _ => true
  end.
Lemma nonneg_sound e : nonneg e = true -> forall x y w, denote e x y w -> (0 <= w)%Z.
Proof.
  induction e as [x y|q|l|a IHa b IHb|a IHa b IHb|a IHa|k a IHa|a IHa b IHb|a IHa|a IHa|a IHa|t IHt l r]; cbn [nonneg]; intros A x0 y0 w0 H.
  - now destruct H as (_ & _ & ->).
  - now destruct H as (c & _ & _ & _ & ->).
  - now destruct H as (_ & ->).
  - apply andb_true_iff in A as (A & B). destruct H as [H|H]; eauto.
  - apply andb_true_iff in A as (A & B). apply cat_inv in H as (x1 & y1 & w1 & x2 & y2 & w2 & -> & -> & -> & H1 & H2).
    pose proof (IHa A _ _ _ H1). pose proof (IHb B _ _ _ H2). lia.
  - cbn [denote] in H. induction H as [|x1 y1 w1 x2 y2 w2 H _ IH]; [lia|]. pose proof (IHa A _ _ _ H). lia.
  - apply andb_true_iff in A as (K & A). apply Z.leb_le in K. destruct H as (v & -> & H). pose proof (IHa A _ _ _ H). lia.
  - apply andb_true_iff in A as (A & B). destruct H as (m & w1 & w2 & -> & H1 & H2). pose proof (IHa A _ _ _ H1). pose proof (IHb B _ _ _ H2). lia.
  - destruct H as (_ & z & H). eauto.
  - destruct H as (_ & z & H). eauto.
  - destruct H as (_ & -> & _). lia.
  - cbn [denote] in H. induction H as [|out p q w rest y v _ T _ _ _ _ _ IH|]; [lia| |assumption]. pose proof (IHt A _ _ _ T). lia.
Qed.

Section Cheap.
Variables (p : N -> bool) (k0 : Z).
(** Only texts of the characters [p] are read for less than nothing, and for [k0] at least. *)
Fixpoint cheap (e : fst) : bool :=
  if nonneg e then true else
  match e with
  | Union a b => cheap a && cheap b
  | Cat a b => nonneg a && reads p a && cheap b || cheap a && nonneg b && reads p b
  | Weight k a => (k0 <=? k)%Z && nonneg a && reads p a
  | Compose a b => cheap a && nonneg b
  | Input a => cheap a
  | _ => false
  end.
Lemma cheap_sound e : cheap e = true -> forall x y w, denote e x y w -> (0 <= w \/ k0 <= w /\ forallb p x = true)%Z.
Proof.
  induction e as [x y|q|l|a IHa b IHb|a IHa b IHb|a IHa|k a IHa|a IHa b IHb|a IHa|a IHa|a IHa|t IHt l r]; cbn [cheap]; intros A x0 y0 w0 H;
    (match type of A with (if ?n then _ else _) = _ => destruct n eqn:A'; [left; exact (nonneg_sound _ A' _ _ _ H)|clear A'] end); try discriminate.
  - apply andb_true_iff in A as (A & B). destruct H as [H|H]; eauto.
  - apply cat_inv in H as (x1 & y1 & w1 & x2 & y2 & w2 & -> & -> & -> & H1 & H2). rewrite forallb_app. apply orb_true_iff in A as [A|A].
    + apply andb_true_iff in A as (A & B). apply andb_true_iff in A as (N & R). pose proof (nonneg_sound _ N _ _ _ H1).
      rewrite (reads_sound _ _ R _ _ _ H1). destruct (IHb B _ _ _ H2) as [L|(L & F)]; [left; lia|right; rewrite F; split; [lia|reflexivity]].
    + apply andb_true_iff in A as (A & R). apply andb_true_iff in A as (A & N). pose proof (nonneg_sound _ N _ _ _ H2).
      rewrite (reads_sound _ _ R _ _ _ H2). destruct (IHa A _ _ _ H1) as [L|(L & F)]; [left; lia|right; rewrite F; split; [lia|reflexivity]].
  - apply andb_true_iff in A as (A & R). apply andb_true_iff in A as (K & N). apply Z.leb_le in K. destruct H as (v & -> & H).
    right. split; [pose proof (nonneg_sound _ N _ _ _ H); lia|exact (reads_sound _ _ R _ _ _ H)].
  - apply andb_true_iff in A as (A & B). destruct H as (m & w1 & w2 & -> & H1 & H2). pose proof (nonneg_sound _ B _ _ _ H2).
    destruct (IHa A _ _ _ H1) as [L|(L & F)]; [left; lia|right; split; [lia|exact F]].
  - destruct H as (_ & z & H). eauto.
Qed.
End Cheap.

(** ** Whole texts *)
Section Law.
Variables (G : grammar) (e : fst) (limit : Z) (exempt : text -> Prop).
Hypothesis Checks : cut_rules (g_rules G) = true.
Hypothesis Tu : tagger_union (g_rules G) = Some e.
Hypothesis Tg : g_tagger G = Some (trim_end e).
Hypothesis Lf : FstEval.loopfree (trim_end e) = true.
Hypothesis Two : forall x1 y1 w1 x2 y2 w2 x3 y3 w3, denote e x1 y1 w1 -> denote e x2 y2 w2 -> denote (Star e) x3 y3 w3 ->
  exempt (x1 ++ x2 ++ x3) \/ (limit <= w1 + (w2 + w3))%Z.
Lemma blank_e : forall x y w, denote e x y w -> ends_blank y.
Proof using Checks Tu.
  refine (blank_union _ _ _ Tu). unfold cut_rules in Checks. repeat (apply andb_true_iff in Checks as (Checks & _)); exact Checks.
Qed.
Lemma whole_tagging x y w : x <> [] -> whole_reading (g_rules G) x y w -> denote (trim_end e) x y w.
Proof using Checks Tu.
  intros N (V & s & k & v & I & W & D & ->). apply (trim_denote e blank_e); [exact N|]. split; [|now apply vtext_spec].
  cbn [denote]. rewrite <- (app_nil_r x), <- (app_nil_r (y ++ _)), <- (Z.add_0_r (k + v)).
  apply star_app; [|constructor]. apply (taggers_spec _ _ Tu). exists s, k. split; [exact I|]. split; [exact W|].
  replace (k + v - k)%Z with v by (clear; lia). exact D.
Qed.
Lemma tagging_whole x y w : x <> [] -> ~ exempt x -> (w < limit)%Z -> denote (trim_end e) x y w -> whole_reading (g_rules G) x y w.
Proof using Checks Tu Two.
  intros N X L D. apply (trim_denote e blank_e) in D as (S & V); [|exact N]. split; [now apply vtext_spec|].
  cbn [denote] in S. remember (y ++ [32%N]) as t eqn:Et. destruct S as [|x1 y1 w1 x2 y2 w2 H S]; [contradiction|].
  destruct S as [|x2 y2 w2 x3 y3 w3 H2 S].
  - rewrite !app_nil_r in *. subst y1. apply (taggers_spec _ _ Tu) in H as (s & k & I & W & D).
    exists s, k, (w1 + 0 - k)%Z. split; [exact I|]. split; [exact W|]. split; [|clear; lia]. replace (w1 + 0 - k)%Z with (w1 - k)%Z by (clear; lia). exact D.
  - destruct (Two _ _ _ _ _ _ _ _ _ H H2 S) as [E|E]; [contradiction|clear -E L; lia].
Qed.
Lemma Has x y w : denote (trim_end e) x y w -> exists z, best_output (denote (trim_end e)) x z.
Proof.
  intro D. destruct (GrammarEngine.outcomes_least _ _ _ _ Lf D) as (b & (z & L & _) & M).
  exists z, b. split; [exact L|]. intros z' v H. destruct (GrammarEngine.outcomes_exist _ _ _ _ Lf H) as (v' & O).
  pose proof (M _ _ O). pose proof (proj2 O _ H). lia.
Qed.
Lemma whole_law_i : whole_law G limit exempt.
Proof.
  intros x y w N X D L.
  assert (E : forall z, best_output (denote (trim_end e)) x z <-> best_output (whole_reading (g_rules G)) x z).
  { intro z. split; intros (v & H & M).
    - exists v. split; [|intros z' v' H'; apply (M z'); now apply whole_tagging].
      apply tagging_whole; auto. pose proof (M _ _ (whole_tagging _ _ _ N D)). lia.
    - exists v. split; [now apply whole_tagging|]. intros z' v' H'. destruct (Z.lt_ge_cases v' limit) as [Lt|Ge].
      + apply (M z'). now apply tagging_whole.
      + pose proof (M _ _ D). lia. }
  exists (trim_end e). split; [exact Tg|]. split; [exact (Has _ _ _ (whole_tagging _ _ _ N D))|]. split; [exact E|].
  intro d. split.
  - intros (t & v & Et & Ev & z & r & B & R & O). rewrite Tg in Et. injection Et as <-. exists v, z, r. rewrite <- E. auto.
  - intros (v & z & r & Ev & B & R & O). exists (trim_end e), v. split; [exact Tg|]. split; [exact Ev|]. exists z, r. rewrite E. auto.
Qed.
End Law.

(** ** The floors *)
Section Floor.
Variables (rs : list rule_spec) (e : fst).
Hypothesis Tu : tagger_union rs = Some e.
(** Every token costs [f] at least. *)
Definition floor (f : Z) (s : rule_spec) : bool :=
  match s_weight s with Some k => (f <=? k)%Z && nonneg (r_tagger (s_rule s)) | None => true end.
Lemma floor_sound f : forallb (floor f) rs = true -> forall x y w, denote e x y w -> (f <= w)%Z.
Proof.
  intros C x y w H. apply (taggers_spec _ _ Tu) in H as (s & k & I & W & H). rewrite forallb_forall in C. specialize (C s I).
  unfold floor in C. rewrite W in C. apply andb_true_iff in C as (K & N). apply Z.leb_le in K. pose proof (nonneg_sound _ N _ _ _ H). lia.
Qed.
Lemma floor_star f : (0 <= f)%Z -> forallb (floor f) rs = true -> forall x y w, denote (Star e) x y w -> (0 <= w)%Z.
Proof. intros F C x y w H. cbn [denote] in H. induction H as [|x1 y1 w1 x2 y2 w2 H _ IH]; [lia|]. pose proof (floor_sound f C _ _ _ H). lia. Qed.
Lemma floor_two f : (0 <= f)%Z -> forallb (floor f) rs = true -> forall x1 y1 w1 x2 y2 w2 x3 y3 w3, denote e x1 y1 w1 -> denote e x2 y2 w2 -> denote (Star e) x3 y3 w3 ->
  False \/ (2 * f <= w1 + (w2 + w3))%Z.
Proof.
  intros F C x1 y1 w1 x2 y2 w2 x3 y3 w3 H1 H2 H3. right. pose proof (floor_sound f C _ _ _ H1). pose proof (floor_sound f C _ _ _ H2). pose proof (floor_star f F C _ _ _ H3). lia.
Qed.
(** Every token costs [f] at least, or reads only characters of [p] and costs [g] at least. *)
Variable p : N -> bool.
Definition steps (f g : Z) (s : rule_spec) : bool :=
  match s_weight s with Some k => (f <=? k)%Z && cheap p (g - k) (r_tagger (s_rule s)) | None => true end.
Lemma steps_sound f g : forallb (steps f g) rs = true -> forall x y w, denote e x y w -> (f <= w \/ g <= w /\ forallb p x = true)%Z.
Proof.
  intros C x y w H. apply (taggers_spec _ _ Tu) in H as (s & k & I & W & H). rewrite forallb_forall in C. specialize (C s I).
  unfold steps in C. rewrite W in C. apply andb_true_iff in C as (K & N). apply Z.leb_le in K.
  destruct (cheap_sound p _ _ N _ _ _ H) as [L|(L & F)]; [left; lia|right; split; [lia|exact F]].
Qed.
Lemma steps_star f g : (0 <= g <= f)%Z -> forallb (steps f g) rs = true -> forall x y w, denote (Star e) x y w -> (f <= w \/ 0 <= w /\ forallb p x = true)%Z.
Proof.
  intros F C x y w H. cbn [denote] in H. induction H as [|x1 y1 w1 x2 y2 w2 H _ IH]; [right; split; [lia|reflexivity]|]. rewrite forallb_app.
  destruct (steps_sound f g C _ _ _ H) as [L|(L & A)], IH as [L'|(L' & B)]; try (left; lia). right. rewrite A, B. split; [lia|reflexivity].
Qed.
Lemma steps_two f g : (0 <= g <= f)%Z -> forallb (steps f g) rs = true -> forall x1 y1 w1 x2 y2 w2 x3 y3 w3, denote e x1 y1 w1 -> denote e x2 y2 w2 -> denote (Star e) x3 y3 w3 ->
  Forall (fun c => p c = true) (x1 ++ x2 ++ x3) \/ (f + g <= w1 + (w2 + w3))%Z.
Proof.
  intros F C x1 y1 w1 x2 y2 w2 x3 y3 w3 H1 H2 H3.
  destruct (steps_sound f g C _ _ _ H1) as [L1|(L1 & A1)], (steps_sound f g C _ _ _ H2) as [L2|(L2 & A2)], (steps_star f g F C _ _ _ H3) as [L3|(L3 & A3)]; try (right; lia).
  left. apply Forall_forall. apply forallb_forall. now rewrite !forallb_app, A1, A2, A3.
Qed.
End Floor.

(** ** The cheapest tagging, from the readings of the whole text *)
Lemma whole_cheapest G e limit (exempt : text -> Prop) : cut_rules (g_rules G) = true -> tagger_union (g_rules G) = Some e ->
  (forall x1 y1 w1 x2 y2 w2 x3 y3 w3, denote e x1 y1 w1 -> denote e x2 y2 w2 -> denote (Star e) x3 y3 w3 -> exempt (x1 ++ x2 ++ x3) \/ (limit <= w1 + (w2 + w3))%Z) ->
  forall x y w, x <> [] -> ~ exempt x -> (w < limit)%Z -> whole_reading (g_rules G) x y w ->
  (forall z v, whole_reading (g_rules G) x z v -> (w <= v)%Z /\ (v = w -> z = y)) -> EnglishNumeralSpec.cheapest (denote (trim_end e)) x y.
Proof.
  intros C U T x y w N X L H M. exists w. split; [exact (whole_tagging G e C U x y w N H)|]. intros z v D. destruct (Z.lt_ge_cases v limit) as [Lt|Ge].
  - apply M. exact (tagging_whole G e limit exempt C U T x z v N X Lt D).
  - split; lia.
Qed.
