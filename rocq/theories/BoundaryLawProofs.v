(** The laws of C63 and C64 from what a grammar's rules satisfy. *)
From Coq Require Import List NArith ZArith Bool String Lia Arith.
From Verif Require Import Text TextFacts TokenModel Fst FstFacts GrammarModel GrammarSpec GrammarAccept BoundarySpec BoundaryLaw BoundaryRules BoundaryChar BoundaryEngine PlainRules.
From Verif Require Import NbestModel NbestSpec EngineSpec PropsTotal.
From Verif Require FstEval GrammarEngine.
Import ListNotations.
Local Open Scope list_scope.

Section Laws.
Variable G : grammar.
Hypothesis Total : always_normalizes (g_orders G) (g_tagger G) (g_verbalizer G).
Hypothesis Lt : GrammarEngine.opt_loopfree (g_tagger G).
Hypothesis Lv : GrammarEngine.opt_loopfree (g_verbalizer G).
Hypothesis Cuts : cuts (g_orders G) (g_rules G) (g_tagger G) (g_verbalizer G).
Lemma graphs : exists t v, g_tagger G = Some t /\ g_verbalizer G = Some v.
Proof. destruct Total as (t & v & E & E' & _). eauto. Qed.
Lemma answers_of t v x d : g_tagger G = Some t -> g_verbalizer G = Some v -> answers G x d <-> best_answer (g_orders G) t v x d.
Proof.
  intros E E'. split; [|intro H; exists t, v; auto]. intros (t' & v' & F & F' & H). assert (t' = t) as -> by congruence. assert (v' = v) as -> by congruence. exact H.
Qed.
Theorem cut_law_i : cut_law G.
Proof.
  intros a b Na Nb U d. destruct graphs as (t & v & E & E'). rewrite (answers_of t v _ _ E E'). rewrite (Cuts t v E E' a b Na Nb U). split.
  - intros (d1 & d2 & -> & A & B). exists d1, d2. rewrite !(answers_of t v _ _ E E'). auto.
  - intros (d1 & d2 & -> & A & B). exists d1, d2. rewrite !(answers_of t v _ _ E E') in *. auto.
Qed.
Theorem answer_law_i : answer_law G.
Proof.
  intros en x (Os & t & v & E & E' & O) V Nx. pose proof Total as (t' & v' & F & F' & T). assert (t' = t) as -> by congruence. assert (v' = v) as -> by congruence.
  pose proof Lt as Lt'. pose proof Lv as Lv'. rewrite E in Lt'. rewrite E' in Lv'. cbn in Lt', Lv'. destruct (T x V Nx) as (T1 & T2). rewrite <- Os in T2.
  assert (R : exists n, forall fuel, n <= fuel -> exists ans, normalize fuel en x (PyInt 1) = POk ans).
  { apply (GrammarEngine.normalize_returns en t v Lt' Lv' O x 1%Z Nx ltac:(lia) T1 T2). }
  assert (A : forall fuel d, normalize fuel en x (PyInt 1) = POk (One d) -> answers G x d).
  { intros fuel d H. apply (answers_of t v x d E E'). rewrite <- Os. exact (normalize_answers en t v x d fuel Lt' Lv' O Nx T2 H). }
  split; [|split; [|exact A]].
  - destruct R as (n & R). destruct (R n (le_n n)) as (ans & H). destruct (normalize_one _ _ _ _ H) as (d & ->). exists d. exact (A _ _ H).
  - destruct R as (n & R). exists n. intros fuel L. destruct (R fuel L) as (ans & H). destruct (normalize_one _ _ _ _ H) as (d & ->). eauto.
Qed.
Lemma sole_normalizes en x d : engine_for G en -> valid_text x -> x <> [] -> sole_answer G x d -> normalizes_to en x d.
Proof.
  intros En V Nx S. destruct (answer_law_i en x En V Nx) as (_ & (n & R) & A). exists n. intros fuel L. destruct (R fuel L) as (d' & H).
  rewrite H. apply A in H. now apply S in H as ->.
Qed.
Lemma valid_app a b : valid_text a -> valid_text b -> valid_text (a ++ b).
Proof. intros A B. apply FstFacts.vtext_spec in A. apply FstFacts.vtext_spec in B. apply FstFacts.vtext_spec. now rewrite forallb_app, A, B. Qed.
Theorem cut_normalize_i : cut_normalize_law G.
Proof.
  intros en a b d1 d2 En Va Vb Na Nb U A B. split; [now apply sole_normalizes|]. split; [now apply sole_normalizes|].
  apply sole_normalizes; [exact En|now apply valid_app|now destruct a|]. intro d. rewrite (cut_law_i a b Na Nb U). split.
  - intros (e1 & e2 & -> & H1 & H2). apply A in H1 as ->. now apply B in H2 as ->.
  - intros ->. exists d1, d2. split; [reflexivity|]. split; [now apply A|now apply B].
Qed.
Variable clean : N -> text.
Hypothesis Reads : forall x y w, denote (r_tagger (g_char G)) x y w -> exists a, x = [a].
Hypothesis Single : forall t v c, g_tagger G = Some t -> g_verbalizer G = Some v -> vchar c = true -> plain_for (g_rules G) (g_char G) c ->
  only_answer (g_orders G) t v [c] (clean c).
Lemma sole_only t v x d : g_tagger G = Some t -> g_verbalizer G = Some v -> sole_answer G x d <-> only_answer (g_orders G) t v x d.
Proof. intros E E'. unfold sole_answer, only_answer. split; intros H d'; [rewrite <- (answers_of t v x d' E E')|rewrite (answers_of t v x d' E E')]; apply H. Qed.
Lemma plain_simple t v x : g_tagger G = Some t -> g_verbalizer G = Some v -> valid_text x -> plain G x -> Forall (simple (g_orders G) (g_rules G) t v clean) x.
Proof.
  intros E E' V P. apply FstFacts.vtext_spec in V. rewrite forallb_forall in V. unfold plain in P. rewrite Forall_forall in *. intros c I. specialize (P c I). split.
  - exact (plain_ordinary _ _ c P Reads).
  - apply Single; auto.
Qed.
Theorem plain_law_i : plain_law G clean.
Proof.
  intros en x En V Nx P. destruct graphs as (t & v & E & E'). apply sole_normalizes; [exact En|exact V|exact Nx|]. apply (sole_only t v _ _ E E').
  apply (simple_text (g_orders G) (g_rules G) t v (Cuts t v E E')); [exact Nx|now apply plain_simple].
Qed.
Theorem around_law_i : around_law G clean.
Proof.
  intros en p x q d En Vp Vx Vq P Q Nx S. split; [now apply sole_normalizes|]. destruct graphs as (t & v & E & E').
  apply sole_normalizes; [exact En|apply valid_app; [exact Vp|now apply valid_app]|destruct p; [now destruct x|discriminate]|]. apply (sole_only t v _ _ E E').
  apply (simple_around (g_orders G) (g_rules G) t v (Cuts t v E E')); [now apply plain_simple|now apply plain_simple|exact Nx|now apply (sole_only t v)].
Qed.
End Laws.
(** Deciding that a character is plain. *)
Definition plainb (rs : list rule_spec) (c : N) : bool :=
  forallb (fun s => Datatypes.fst (avoidsb c (r_tagger (s_rule s))) || negb (other_name (u "char") (r_verbalizer (s_rule s)))) rs.
Lemma plainb_sound rs s c : char_only rs s -> plainb rs c = true -> plain_for rs (s_rule s) c.
Proof.
  intros (_ & _ & O) P s' x y w I H C. unfold plainb in P. rewrite forallb_forall in P. specialize (P _ I). apply orb_true_iff in P as [P|P].
  - exfalso. exact (proj1 (avoidsb_sound _ _) P _ _ _ H C).
  - destruct (O _ I) as [->|N]; [reflexivity|]. rewrite N in P. discriminate.
Qed.
