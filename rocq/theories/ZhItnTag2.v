(** The cheapest tagging of a spoken Chinese number (C62). *)
From Coq Require Import List NArith ZArith Bool String Lia Arith.
From Verif Require Import Text TextFacts TokenModel Fst FstFacts FstRun GrammarModel GrammarAccept NumeralSpec EnglishNumeralSpec ZhSpokenSpec.
From Verif Require Import EnSpokenProofs DataZhItn ZhItnModel ZhSpokenProofs ZhSpokenProofs2 ZhSpokenProofs3 ZhSpokenProofs4 ZhSpokenProofs5 ZhSpokenProofs6.
From Verif Require Import TokenVerbal Apart ZhItnTag.
From Verif Require EndToEnd.
Import ListNotations.
Local Open Scope list_scope.

Section Options.
Variables (o : options) (e : fst).
Hypothesis Union : tagger_union (rules o) = Some e.
Definition fine (x : text) : Prop := smooth (shape x) = true /\ (enable_million o = true \/ low (shape x) = true).
Lemma fine_app a b : fine (a ++ b) -> fine a /\ fine b.
Proof.
  unfold fine. rewrite shape_app. intros (S & L). apply smooth_app in S as (S1 & S2). split; (split; [assumption|]);
    (destruct L as [L|L]; [auto|apply low_app in L; tauto]).
Qed.
Lemma cardinal_cuts x z v : fine x -> denote (Cardinal.cardinal o) x z v ->
  (exists c, c_number (shape x) = Some c /\ v = (c + 1000)%Z) \/
  exists a b c t, shape x = a ++ b /\ a <> [] /\ at_most (f_cost a) c /\ cuts b t /\ v = (c + t + 1000)%Z.
Proof.
  intros (S & L) H. apply cardinal_cases in H as [H|(a & b & c & t & E & A & B & ->)]; [..|exact S|exact L].
  - left. apply one_only in H as (c & -> & H); [|exact S]. exists c. split; [|reflexivity]. now apply number0_cost in H.
  - right. exists a, b, (c + 1000)%Z, t. split; [exact E|]. split; [exact (number_nonempty _ _ A)|]. split; [exact (f_number _ _ A)|].
    split; [exact (cut_cuts _ _ B)|lia].
Qed.
Lemma cardinal_cut x z v : fine x -> denote (Cardinal.cardinal o) x z v -> exists t, cuts (shape x) t /\ (t <= v)%Z.
Proof.
  intros F H. apply (cardinal_cuts x z v F) in H as [(c & C & ->)|(a & b & c & t & E & N & A & B & ->)].
  - exists (c + 1000)%Z. split; [now constructor|lia].
  - exists (c + t)%Z. rewrite E. split; [now constructor|lia].
Qed.
Lemma two_dear a b s t w : c_number (a ++ b) = Some w -> cuts a s -> cuts b t -> (w + 1000 < s + t)%Z.
Proof.
  intros E A B. destruct A as [l v C|a1 a2 v s N F A].
  - exact (cuts_dear _ _ _ _ _ E (f_number _ _ C) B).
  - rewrite <- app_assoc in E. pose proof (cuts_dear _ _ _ _ _ E F (cuts_app _ _ _ _ A B)). lia.
Qed.
Lemma liang_tail p q : q <> [] -> ends_liang q -> ends_liang (p ++ q).
Proof. intros _ (a & ->). exists (p ++ a). now rewrite app_assoc. Qed.
Lemma tokens_cut x t w : star (denote e) x t w -> fine x -> ~ ends_liang x ->
  x = [] /\ t = [] /\ w = 0%Z \/ (1000000 <= w)%Z \/ exists s, cuts (shape x) s /\ (s + 10600 <= w)%Z.
Proof.
  intro H. induction H as [|p t1 w1 q t2 w2 H S IH]; intros F N; [auto|]. right. pose proof (fine_app p q F) as (Fp & Fq).
  assert (Nq : ~ ends_liang q) by (intros (a & ->); apply N; exists (p ++ a); now rewrite app_assoc).
  specialize (IH Fq Nq). rewrite shape_app.
  apply (token_known o p (proj1 Fp) (proj2 Fp) e _ _ Union) in H as [(z & v & C & -> & _)|[(E & A)| ->]].
  - apply (cardinal_cut p z v Fp) in C as (s & C & Ls). pose proof (cuts_nonneg _ _ C) as Ns.
    destruct IH as [(-> & -> & ->)|[L|(s2 & C2 & L)]].
    + right. exists s. change (shape []) with (@nil cls). rewrite app_nil_r. split; [exact C|lia].
    + left. lia.
    + right. exists (s + s2)%Z. split; [now apply cuts_app|lia].
  - pose proof (f_cost_nonneg _ _ A) as Na. destruct IH as [(-> & -> & ->)|[L|(s2 & C2 & L)]].
    + exfalso. apply N. now rewrite app_nil_r.
    + left. lia.
    + right. exists (w1 + s2)%Z. split; [|lia]. constructor; [|exact A|exact C2]. destruct E as (a & ->). rewrite shape_app. now destruct (shape a).
  - left. destruct IH as [(-> & -> & ->)|[L|(s2 & C2 & L)]]; [lia|lia|]. pose proof (cuts_nonneg _ _ C2). lia.
Qed.
Theorem spoken_tagging x n : enable_standalone_number o = true -> spoken_number x = Some n ->
  (enable_0_to_9 o = true \/ 10 <= n)%N -> (enable_million o = true \/ n < 1000000)%N -> ~ ends_liang x ->
  cheapest (denote (trim_end e)) x (value_token (u "cardinal") x).
Proof.
  intros St S N9 M Nl. pose proof (spoken_plain x n S) as P. destruct (plain_facts x P) as (V & Q & B).
  apply EndToEnd.trim_cheapest; [apply EndToEnd.value_valid; [reflexivity|exact V]|].
  assert (F : fine x).
  { split; [exact (spoken_smooth _ _ S)|]. destruct M as [M|M]; [auto|right; exact (spoken_low _ _ S M)]. }
  destruct (EnSpokenProofs5.decimal_exists n) as (d & D). destruct (cheapest_spoken o x n d St S N9 M D) as (w & H & Best).
  assert (C : exists c, c_number (shape x) = Some c /\ w = (c + 1000)%Z).
  { destruct (cardinal_cuts x d w F H) as [C|(a & b & c & t & E & N & A & Bt & Ew)]; [exact C|].
    destruct (number0_exists true x n S (or_introl eq_refl) d D) as (k & G). apply number0_cost in G; [|auto].
    destruct (number0_exists (enable_million o) x n S M d D) as (k2 & G2). pose proof (number0_cost _ _ _ _ G2 (proj2 F)) as C2.
    exfalso. assert (L : (w <= k + 1000)%Z).
    { assert (J : gives (Cardinal.one o) x d).
      { pose proof (number0_exists _ x n S M d D) as J. unfold Cardinal.one. rewrite St. destruct (enable_0_to_9 o) eqn:E9.
        - apply gives_union. right. apply gives_weight. now apply gives_number.
        - destruct N9 as [?|N9]; [discriminate|]. apply gives_union. right. apply gives_weight. apply gives_exclude. exact (number0_exclude _ x d n J D N9). }
      destruct J as (w' & J). destruct (Best d w') as (L & _); [now left|].
      apply one_only in J as (v & -> & J); [|exact (proj1 F)]. apply number0_cost in J; [|exact (proj2 F)]. assert (v = k) by congruence. lia. }
    rewrite E in G. pose proof (cuts_dear _ _ _ _ _ G A Bt). lia. }
  destruct C as (c & C & ->). exists (c + 1000 + 10600)%Z. split.
  - rewrite <- (app_nil_r x) at 1. rewrite <- (app_nil_r (value_token _ _ ++ _)), <- (Z.add_0_r (c + 1000 + 10600)). constructor; [|constructor].
    apply (taggers_spec _ _ Union). exists (RuleSpec (Cardinal.rule o) (Some 10600%Z) true), 10600%Z.
    split; [unfold rules; cbn [In]; tauto|]. split; [reflexivity|]. cbn [s_rule]. apply cardinal_tagged; [exact P|]. split; [reflexivity|].
    exists d. replace (c + 1000 + 10600 - 10600)%Z with (c + 1000)%Z by lia. exact H.
  - intros z v T. pose proof (cost_bounds _ _ C) as Bc. cbn [denote] in T. destruct T as [|p t1 w1 q t2 w2 T1 T2]; [discriminate|].
    pose proof (fine_app p q F) as (Fp & Fq).
    assert (Nq : ~ ends_liang q) by (intros (a & ->); apply Nl; exists (p ++ a); now rewrite app_assoc).
    pose proof (tokens_cut q t2 w2 T2 Fq Nq) as R. rewrite shape_app in C.
    apply (token_known o p (proj1 Fp) (proj2 Fp) e _ _ Union) in T1 as [(z & v & K & -> & ->)|[(E & A)| ->]].
    + destruct R as [(-> & -> & ->)|[L|(s2 & C2 & L)]].
      * change (shape []) with (@nil cls) in C. rewrite !app_nil_r in *. destruct (Best _ _ K) as (L & _). split; [lia|]. intros _. reflexivity.
      * apply (cardinal_cut p z v Fp) in K as (s & K & Ls). pose proof (cuts_nonneg _ _ K). lia.
      * apply (cardinal_cut p z v Fp) in K as (s & K & Ls). pose proof (two_dear _ _ _ _ _ C K C2). lia.
    + pose proof (f_cost_nonneg _ _ A) as Na. destruct R as [(-> & -> & ->)|[L|(s2 & C2 & L)]].
      * exfalso. apply Nl. now rewrite app_nil_r.
      * lia.
      * pose proof (cuts_dear _ _ _ _ _ C A C2). lia.
    + destruct R as [(-> & -> & ->)|[L|(s2 & C2 & L)]]; [lia|lia|]. pose proof (cuts_nonneg _ _ C2). lia.
Qed.
End Options.
