(** The cheapest reading of a spoken Chinese number (C61). *)
From Coq Require Import List NArith ZArith Bool String Lia Arith.
From Verif Require Import Text TextFacts Fst FstFacts FstRun GrammarModel NumeralSpec EnglishNumeralSpec ZhSpokenSpec.
From Verif Require Import ZhNumberProofs EnNumberProofs EnNumberProofs4 EnSpokenProofs.
From Verif Require EnSpokenProofs5.
From Verif Require Import DataZhItn ZhItnModel ZhSpokenProofs ZhSpokenProofs2 ZhSpokenProofs3 ZhSpokenProofs4.
Import ListNotations.
Local Open Scope list_scope.

(** ** Graphs that say no more of such a text than a part of theirs *)
Definition only (e e' : fst) : Prop := forall x d w, denote e x d w -> smooth (shape x) = true -> denote e' x d w.
Lemma unlike_only e : unlike e -> forall e', only e e'.
Proof. intros U e' x d w H S. rewrite (U _ _ _ H) in S. discriminate. Qed.
Lemma only_refl e : only e e.
Proof. intros x d w H _. exact H. Qed.
Lemma only_trans a b c : only a b -> only b c -> only a c.
Proof. intros A B x d w H S. apply B; auto. Qed.
Lemma only_union a b c : only a c -> only b c -> only (a ∪ b)%fst c.
Proof. intros A B x d w [H|H] S; auto. Qed.
Lemma only_ques_front a b : unlike a -> only (ques a + b)%fst b.
Proof.
  intros A x d w H S. apply cat_inv in H as (x1 & y1 & w1 & x2 & y2 & w2 & -> & -> & -> & [H|H] & G).
  - rewrite shape_app, (unlike_app_l _ _ (A _ _ _ H)) in S. discriminate.
  - destruct H as (-> & -> & ->). exact G.
Qed.
Lemma only_ques_back a b : unlike b -> only (a + ques b)%fst a.
Proof.
  intros A x d w H S. apply cat_inv in H as (x1 & y1 & w1 & x2 & y2 & w2 & -> & -> & -> & G & [H|H]).
  - rewrite shape_app, (unlike_app_r _ _ (A _ _ _ H)) in S. discriminate.
  - destruct H as (-> & -> & ->). now rewrite !app_nil_r, Z.add_0_r.
Qed.
Lemma accep_unlike s : smooth (shape (u s)) = false -> unlike (accep (u s)).
Proof. intros F x d w (-> & _). exact F. Qed.
Lemma only_group a s b : smooth (shape (u s)) = false -> only (Cardinal.group a (u s) + b)%fst b.
Proof. intro F. apply only_ques_front. apply unlike_l, unlike_r, accep_unlike, F. Qed.
Lemma only_groups a n : only (Cardinal.group a (u "兆") + Cardinal.group a (u "亿") + n)%fst n.
Proof.
  intros x d w H S. apply cat_inv in H as (x1 & y1 & w1 & x2 & y2 & w2 & -> & -> & -> & H & G).
  apply cat_inv in H as (x3 & y3 & w3 & x4 & y4 & w4 & -> & -> & -> & H1 & H2).
  rewrite <- !app_assoc in *. rewrite <- Z.add_assoc.
  apply (only_group a "亿" n eq_refl). 2:{ rewrite shape_app in S. destruct H1 as [H1|(-> & -> & ->)].
    - exfalso. assert (U : smooth (shape x3) = false) by (eapply (unlike_l _ _ (unlike_r _ _ (accep_unlike "兆" eq_refl))); exact H1).
      rewrite (unlike_app_l _ _ U) in S. discriminate.
    - exact S. }
  destruct H1 as [H1|(-> & -> & ->)].
  - exfalso. assert (U : smooth (shape x3) = false) by (eapply (unlike_l _ _ (unlike_r _ _ (accep_unlike "兆" eq_refl))); exact H1).
    rewrite shape_app, (unlike_app_l _ _ U) in S. discriminate.
  - cbn [app]. rewrite Z.add_0_l. now apply cat_i.
Qed.
Lemma number2_only m : only (Cardinal.number2 m) (Cardinal.number0 m).
Proof.
  eapply only_trans; [apply only_ques_back, unlike_l, dot_unlike|]. eapply only_trans; [apply only_ques_front, sign_unlike|]. apply only_groups.
Qed.
Lemma number_only m : only (Cardinal.number m) (Cardinal.number0 m).
Proof. apply only_union; [apply only_union; [apply number2_only|apply unlike_only, tilde_unlike]|apply unlike_only, dash_unlike]. Qed.
Lemma exclude_only m : only (Cardinal.number_exclude_0_to_9 m) (Cardinal.exclude0 m).
Proof.
  eapply only_trans; [apply only_ques_front, sign_unlike|]. apply only_union; [apply only_union; [apply only_union|]|].
  - apply only_groups.
  - apply unlike_only, unlike_r, unlike_l, unlike_l, dot_unlike.
  - apply unlike_only, tilde_unlike.
  - apply unlike_only, unlike_weight, dash_unlike.
Qed.
Lemma exclude_number m : only (Cardinal.exclude0 m) (Cardinal.number0 m).
Proof.
  intros x d w H _. destruct H as [[[[H|H]|H]|H]|H].
  - do 4 left. now right.
  - do 3 left. now right.
  - do 2 left. now right.
  - left. now right.
  - now right.
Qed.
(** One number of a cardinal, and what it costs. *)
Lemma one_only o x d w : denote (Cardinal.one o) x d w -> smooth (shape x) = true -> exists v, w = (v + 1000)%Z /\ denote (Cardinal.number0 (enable_million o)) x d v.
Proof.
  unfold Cardinal.one. destruct (enable_standalone_number o); [destruct (enable_0_to_9 o)|]; intros H S.
  - destruct H as [H|(v & -> & H)]; [rewrite (formats_unlike _ _ _ _ H) in S; discriminate|]. exists v. split; [reflexivity|].
    now apply number_only.
  - destruct H as [H|(v & -> & H)]; [rewrite (formats_unlike _ _ _ _ H) in S; discriminate|]. exists v. split; [reflexivity|].
    apply exclude_number; [|exact S]. now apply exclude_only.
  - rewrite (formats_unlike _ _ _ _ H) in S. discriminate.
Qed.

(** ** Cutting a text into pieces *)
Inductive cut_up : list cls -> Z -> Prop :=
| cut_one l v : c_number l = Some v -> cut_up l (v + 1000)
| cut_more a b v t : c_number a = Some v -> cut_up b t -> cut_up (a ++ b) (v + 1000 + t).
Definition at_most (o : option Z) (t : Z) : Prop := exists b, o = Some b /\ (b <= t)%Z.
Lemma omin_l a b t : at_most a t -> at_most (omin a b) t.
Proof. intros (v & -> & L). destruct b as [w|]; [exists (Z.min v w); split; [reflexivity|lia]|exists v; auto]. Qed.
Lemma omin_r a b t : at_most b t -> at_most (omin a b) t.
Proof. intros (v & -> & L). destruct a as [w|]; [exists (Z.min w v); split; [reflexivity|lia]|exists v; auto]. Qed.
Lemma pieces_one l p v : c_number (rev p ++ l) = Some v -> at_most (pieces l p) (v + 1000).
Proof.
  revert p. induction l as [|c l IH]; intros p E.
  - rewrite app_nil_r in E. cbn [pieces]. rewrite E. exists (v + 1000)%Z. split; [reflexivity|lia].
  - cbn [pieces]. apply omin_l. apply IH. cbn [rev]. now rewrite <- app_assoc.
Qed.
Lemma pieces_more a c r p v t : c_number (rev p ++ a) = Some v -> at_most (pieces r [c]) t -> at_most (pieces (a ++ c :: r) p) (v + 1000 + t).
Proof.
  revert p. induction a as [|x a IH]; intros p E L.
  - rewrite app_nil_r in E. cbn [app pieces]. apply omin_r. rewrite E. destruct L as (b & -> & L). cbn [osum]. exists (v + 1000 + b)%Z. split; [reflexivity|lia].
  - cbn [app pieces]. apply omin_l. apply IH; [|exact L]. cbn [rev]. now rewrite <- app_assoc.
Qed.
Lemma least2_more a c r p v t : c_number (rev p ++ a) = Some v -> at_most (pieces r [c]) t -> at_most (least2_from (a ++ c :: r) p) (v + 1000 + t).
Proof.
  revert p. induction a as [|x a IH]; intros p E L.
  - rewrite app_nil_r in E. cbn [app least2_from]. apply omin_r. rewrite E. destruct L as (b & -> & L). cbn [osum]. exists (v + 1000 + b)%Z. split; [reflexivity|lia].
  - cbn [app least2_from]. apply omin_l. apply IH; [|exact L]. cbn [rev]. now rewrite <- app_assoc.
Qed.
Lemma cut_pieces l t : cut_up l t -> exists c r, l = c :: r /\ at_most (pieces r [c]) t.
Proof.
  induction 1 as [l v E|a b v t E C (c & r & -> & IH)].
  - destruct l as [|c r]; [discriminate|]. exists c, r. split; [reflexivity|]. apply pieces_one. exact E.
  - destruct a as [|x a]; [discriminate|]. exists x, (a ++ c :: r). split; [reflexivity|]. apply pieces_more; auto.
Qed.
Lemma cut_dear a b v t w : c_number (a ++ b) = Some w -> c_number a = Some v -> cut_up b t -> (w < v + 1000 + t)%Z.
Proof.
  intros E A B. pose proof (proj1 (forallb_forall dear shapes) all_dear _ (number_in _ _ E)) as Dr. unfold dear in Dr. rewrite E in Dr.
  apply cut_pieces in B as (c & r & -> & B). destruct (least2_more a c r [] v t A B) as (k & F & L). unfold least2 in Dr. rewrite F in Dr.
  apply Z.ltb_lt in Dr. lia.
Qed.
(** The pieces of a cardinal in several numbers. *)
Lemma star_cut o x d w : star (denote (insert (u " ") + Cardinal.one o)%fst) x d w -> smooth (shape x) = true ->
  enable_million o = true \/ low (shape x) = true -> x = [] /\ d = [] /\ w = 0%Z \/ cut_up (shape x) w.
Proof.
  intro H. induction H as [|x y w x' y' w' H S IH]; intros Sm L; [auto|]. right.
  apply cat_inv in H as (x1 & y1 & w1 & x2 & y2 & w2 & -> & -> & -> & (-> & -> & ->) & H). cbn [app] in *. rewrite Z.add_0_l.
  rewrite shape_app in *. pose proof (smooth_app _ _ Sm) as (S1 & S2).
  assert (L1 : enable_million o = true \/ low (shape x2) = true) by (destruct L as [L|L]; [auto|apply low_app in L; tauto]).
  assert (L2 : enable_million o = true \/ low (shape x') = true) by (destruct L as [L|L]; [auto|apply low_app in L; tauto]).
  apply one_only in H as (v & -> & H); [|exact S1]. apply number0_cost in H; [|exact L1].
  destruct (IH S2 L2) as [(-> & -> & ->)|C].
  - rewrite Z.add_0_r. change (shape []) with (@nil cls). rewrite app_nil_r. now apply cut_one.
  - now apply cut_more.
Qed.
Lemma cardinal_cases o x d w : denote (Cardinal.cardinal o) x d w -> smooth (shape x) = true -> enable_million o = true \/ low (shape x) = true ->
  denote (Cardinal.one o) x d w \/
  exists a b v t, shape x = a ++ b /\ c_number a = Some v /\ cut_up b t /\ w = (v + 1000 + t + 1000)%Z.
Proof.
  intros [H|(v & -> & H)] Sm L; [auto|]. right. apply cat_inv in H as (x1 & y1 & w1 & x2 & y2 & w2 & -> & -> & -> & H & G).
  apply cat_inv in G as (x3 & y3 & w3 & x4 & y4 & w4 & -> & -> & -> & G1 & G2).
  assert (G : star (denote (insert (u " ") + Cardinal.one o)%fst) (x3 ++ x4) (y3 ++ y4) (w3 + w4)%Z) by now constructor.
  rewrite shape_app in *. pose proof (smooth_app _ _ Sm) as (S1 & S2).
  assert (L1 : enable_million o = true \/ low (shape x1) = true) by (destruct L as [L|L]; [auto|apply low_app in L; tauto]).
  assert (L2 : enable_million o = true \/ low (shape (x3 ++ x4)) = true) by (destruct L as [L|L]; [auto|apply low_app in L; tauto]).
  apply one_only in H as (v & -> & H); [|exact S1]. apply number0_cost in H; [|exact L1].
  apply star_cut in G as [(_ & E & _)|C]; [|..|exact S2|exact L2].
  - exfalso. apply cat_inv in G1 as (x5 & y5 & w5 & x6 & y6 & w6 & _ & -> & _ & (_ & -> & _) & _). discriminate.
  - exists (shape x1), (shape (x3 ++ x4)), v, (w3 + w4)%Z. split; [reflexivity|]. split; [auto|]. split; [exact C|lia].
Qed.

(** ** The text of a spoken number *)
Lemma number0_exists m x n : spoken_number x = Some n -> m = true \/ (n < 1000000)%N -> forall d, decimal d n -> gives (Cardinal.number0 m) x d.
Proof. intros S M d Dd. apply number0_graph. exists n. left. auto. Qed.
Lemma spoken_shape x n : spoken_number x = Some n -> In (shape x) shapes.
Proof.
  intro S. destruct (EnSpokenProofs5.decimal_exists n) as (d & Dd). destruct (number0_exists true x n S (or_introl eq_refl) d Dd) as (w & G).
  apply number0_cost in G; [|auto]. exact (number_in _ _ G).
Qed.
Lemma spoken_smooth x n : spoken_number x = Some n -> smooth (shape x) = true.
Proof. intro S. apply spoken_shape in S. revert S. apply (proj1 (forallb_forall smooth shapes) shapes_smooth). Qed.
Lemma numerals_no_wan x : Forall (fun c => numeral c = true) x -> forallb (fun c => match c with Wa => false | _ => true end) (shape x) = true.
Proof.
  intro F. induction F as [|c x E F IH]; [reflexivity|]. unfold shape in *. cbn [map forallb]. rewrite IH, andb_true_r. unfold cls_of.
  destruct (digit_of c); [reflexivity|]. destruct (zero_of c); [reflexivity|]. destruct (is "十" c); [reflexivity|]. destruct (is "百" c); [reflexivity|].
  destruct (is "千" c); [reflexivity|]. now rewrite (numeral_not_big c "万" E ltac:(cbn; auto)).
Qed.
Lemma no_wan_low l : forallb (fun c => match c with Wa => false | _ => true end) l = true -> low l = true.
Proof.
  induction l as [|c l IH]; [reflexivity|]. cbn [forallb low]. rewrite andb_true_iff. intros (_ & F). rewrite (IH F), andb_true_r. now destruct c.
Qed.
Lemma low_wan a b : forallb (fun c => match c with Hu | Th => false | _ => true end) a = true -> low b = true -> low (a ++ b) = true.
Proof.
  induction a as [|c a IH]; [auto|]. cbn [forallb app low]. rewrite andb_true_iff. intros (C & F) B. rewrite (IH F B), andb_true_r. now destruct c.
Qed.
Lemma tens_low a : In (shape a) ([Dg] :: tens_shapes) -> forallb (fun c => match c with Hu | Th => false | _ => true end) (shape a) = true.
Proof. generalize (shape a). apply forallb_forall. reflexivity. Qed.
Lemma spoken_low x n : spoken_number x = Some n -> (n < 1000000)%N -> low (shape x) = true.
Proof.
  intros S L. apply spoken_cases in S as [S|(a & b & k & j & -> & Sa & A & ->)].
  - apply no_wan_low, numerals_no_wan. apply small_either in S as [(z & -> & Z0 & _)|S]; [|exact (numerals_section _ _ S)].
    constructor; [exact (numeral_zero _ Z0)|constructor].
  - rewrite !shape_app. change (shape (u "万")) with [Wa]. apply low_wan.
    + apply tens_low. change (10 ^ N.of_nat 4)%N with 10000%N in L. destruct (EnSpokenProofs5.decimal_exists k) as (d & Dd).
      destruct (proj2 (small_tens_graph a d)) as (w & [[G|G]|G]).
      * exists k. split; [lia|auto].
      * right. exact (tens_in _ _ (costs_teen _ _ _ G)).
      * right. exact (tens_in _ _ (costs_ties _ _ _ G)).
      * left. now apply digit_shape in G as (-> & _).
    + change ([Wa] ++ shape b) with (Wa :: shape b). cbn [low]. cbn [andb]. apply no_wan_low, numerals_no_wan. exact (numerals_after_wan _ _ A).
Qed.
Lemma gives_number m x d : gives (Cardinal.number0 m) x d -> gives (Cardinal.number m) x d.
Proof.
  intro G. unfold Cardinal.number. apply gives_union. left. apply gives_union. left. unfold Cardinal.number2.
  apply gives_cat. exists x, d, [], []. rewrite !app_nil_r. split; [auto|]. split; [auto|]. split; [|apply gives_ques; auto].
  apply gives_cat. exists [], [], x, d. split; [auto|]. split; [auto|]. split; [apply gives_ques; auto|].
  unfold Cardinal.number1. apply gives_cat. exists [], [], x, d. split; [auto|]. split; [auto|]. split; [|exact G].
  apply gives_cat. exists [], [], [], []. split; [auto|]. split; [auto|]. split; apply gives_ques; auto.
Qed.
Lemma gives_exclude m x d : gives (Cardinal.exclude0 m) x d -> gives (Cardinal.number_exclude_0_to_9 m) x d.
Proof.
  intro G. unfold Cardinal.number_exclude_0_to_9. apply gives_cat. exists [], [], x, d. split; [auto|]. split; [auto|]. split; [apply gives_ques; auto|].
  apply gives_union. left. apply gives_union. left. unfold Cardinal.exclude2. apply gives_union. left. unfold Cardinal.exclude1.
  apply gives_cat. exists [], [], x, d. split; [auto|]. split; [auto|]. split; [|exact G].
  apply gives_cat. exists [], [], [], []. split; [auto|]. split; [auto|]. split; apply gives_ques; auto.
Qed.
Lemma number0_exclude m x d n : gives (Cardinal.number0 m) x d -> decimal d n -> (10 <= n)%N -> gives (Cardinal.exclude0 m) x d.
Proof.
  intros G Dd L. unfold Cardinal.number0 in G. unfold Cardinal.exclude0. rewrite !gives_union in *. destruct G as [[[[[G|G]|G]|G]|G]|G]; try tauto. exfalso.
  unfold Cardinal.digits in G. apply gives_union in G as [G|G].
  - apply zero_graph in G as (z & _ & _ & ->). destruct Dd as (_ & _ & _ & <-). vm_compute in L. apply L. reflexivity.
  - apply digit_graph in G as (c & k & _ & E & ->). apply digit_facts in E as (E & _). destruct Dd as (_ & _ & _ & <-).
    unfold decimal_value in L. cbn [fold_left] in L. lia.
Qed.
Theorem cheapest_spoken o x n d : enable_standalone_number o = true -> spoken_number x = Some n ->
  (enable_0_to_9 o = true \/ 10 <= n)%N -> (enable_million o = true \/ n < 1000000)%N -> decimal d n ->
  cheapest (denote (Cardinal.cardinal o)) x d.
Proof.
  intros St S N9 M Dd. pose proof (spoken_smooth _ _ S) as Sm.
  assert (L : enable_million o = true \/ low (shape x) = true) by (destruct M as [M|M]; [auto|right; exact (spoken_low _ _ S M)]).
  assert (G : gives (Cardinal.one o) x d).
  { pose proof (number0_exists _ x n S M d Dd) as G. unfold Cardinal.one. rewrite St. destruct (enable_0_to_9 o) eqn:E9.
    - apply gives_union. right. apply gives_weight. now apply gives_number.
    - destruct N9 as [?|N9]; [discriminate|]. apply gives_union. right. apply gives_weight. apply gives_exclude. exact (number0_exclude _ x d n G Dd N9). }
  destruct G as (w & G). exists w. split; [now left|]. pose proof (one_only _ _ _ _ G Sm) as (v & Ew & G0).
  assert (C : c_number (shape x) = Some v) by (apply number0_cost in G0; [exact G0|exact L]).
  intros z v' H. apply cardinal_cases in H as [H|(a & b & va & t & E & A & B & ->)]; [..|exact Sm|exact L].
  - apply one_only in H as (v2 & -> & H); [|exact Sm].
    assert (C2 : c_number (shape x) = Some v2) by (apply number0_cost in H; [exact H|exact L]).
    assert (v2 = v) as -> by congruence. split; [lia|]. intros _. assert (Gz : gives (Cardinal.number0 (enable_million o)) x z) by now exists v.
    apply number0_graph in Gz as (n' & [(S' & _ & D')|(Fm & Wz)]).
    + assert (n' = n) as -> by congruence. exact (decimal_unique _ _ _ D' Dd).
    + exfalso. destruct M as [M|M]; [congruence|]. destruct L as [L|L]; [congruence|].
      destruct Wz as (a & b & k & e1 & e2 & j & -> & Sa & K & _ & Ha & _).
      apply spoken_cases in S as [S|(a' & b' & k' & j' & E & Sa' & A' & ->)].
      * assert (F : Forall (fun c => numeral c = true) (a ++ u "万" ++ b)).
        { apply small_either in S as [(z0 & E & Z0 & _)|S]; [|exact (numerals_section _ _ S)]. rewrite E. constructor; [exact (numeral_zero _ Z0)|constructor]. }
        apply Forall_app in F as (_ & F). apply Forall_app in F as (F & _). apply Forall_inv in F. vm_compute in F. discriminate.
      * pose proof (cut_section "万" a b k ltac:(cbn; auto) Sa) as C1. rewrite E in C1. rewrite (cut_section "万" a' b' k' ltac:(cbn; auto) Sa') in C1.
        assert (a' = a) as -> by congruence. assert (k' = k) as -> by congruence. change (10 ^ N.of_nat 4)%N with 10000%N in M. lia.
  - rewrite E in C. pose proof (cut_dear _ _ _ _ _ C A B). split; [lia|]. intro. lia.
Qed.
