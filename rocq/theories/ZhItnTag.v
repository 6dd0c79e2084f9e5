(** How the Chinese inverse normaliser cuts a spoken number into tokens (C62). *)
From Coq Require Import List NArith ZArith Bool String Lia Arith.
From Verif Require Import Text TextFacts TokenModel Fst FstFacts FstRun GrammarModel GrammarShape GrammarAccept NumeralSpec EnglishNumeralSpec ZhSpokenSpec.
From Verif Require Import EnSpokenProofs DataZhItn ZhItnModel ZhSpokenProofs ZhSpokenProofs2 ZhSpokenProofs3 ZhSpokenProofs4 ZhSpokenProofs5 ZhSpokenProofs6.
From Verif Require Import TokenVerbal Apart EnNumberProofs5.
Import ListNotations.
Local Open Scope list_scope.

(** ** The characters numbers are said with *)
Definition numerals : text := Eval vm_compute in u "一幺壹二两贰三叁四肆五伍六陆七柒拐八捌九玖零洞十百千万".
Definition known (c : N) : bool := existsb (N.eqb c) numerals.
Lemma known_cls c : plain_cls (cls_of c) = true -> known c = true.
Proof.
  unfold cls_of. destruct (digit_of c) as [n|] eqn:E.
  - intros _. exact (lookup_all (fun t _ => match t with [c] => known c | _ => false end) spoken_digits ltac:(vm_compute; reflexivity) c n E).
  - destruct (zero_of c) eqn:Z0.
    { intros _. unfold zero_of in Z0. apply orb_true_iff in Z0 as [Z0|Z0].
      - destruct (text_eqb_spec (u "零") [c]) as [X|]; [|discriminate]. vm_compute in X. injection X as <-. reflexivity.
      - destruct (text_eqb_spec (u "洞") [c]) as [X|]; [|discriminate]. vm_compute in X. injection X as <-. reflexivity. }
    unfold is.
    destruct (text_eqb_spec (u "十") [c]) as [X|]; [vm_compute in X; injection X as <-; reflexivity|].
    destruct (text_eqb_spec (u "百") [c]) as [X|]; [vm_compute in X; injection X as <-; reflexivity|].
    destruct (text_eqb_spec (u "千") [c]) as [X|]; [vm_compute in X; injection X as <-; reflexivity|].
    destruct (text_eqb_spec (u "万") [c]) as [X|]; [vm_compute in X; injection X as <-; reflexivity|]. discriminate.
Qed.
Lemma smooth_known x : smooth (shape x) = true -> forallb known x = true.
Proof.
  induction x as [|c x IH]; [reflexivity|]. unfold shape in *. cbn [map smooth forallb]. rewrite !andb_true_iff. intros ((P & _) & S).
  split; [exact (known_cls c P)|exact (IH S)].
Qed.
Lemma known_plain x : forallb known x = true -> forallb plain x = true.
Proof.
  rewrite !forallb_forall. intros K c I. specialize (K c I). unfold known in K. apply existsb_exists in K as (c' & J & E). apply N.eqb_eq in E as <-.
  revert c J I. assert (F : forallb plain numerals = true) by (vm_compute; reflexivity). rewrite forallb_forall in F. auto.
Qed.
Lemma apart_unlike e : apart known e = true -> unlike e.
Proof.
  intros A x d w H. destruct (smooth (shape x)) eqn:S; [|reflexivity]. exfalso. exact (apart_known known e x d w A (smooth_known x S) H).
Qed.

(** ** The costs of tokens by their shapes *)
Definition f_liang (l : list cls) : option Z :=
  match rev l with
  | Dg :: Wa :: r => omin (more 10500 (c_number (rev (Wa :: r)))) (more 5500 (c_number (rev r)))
  | Dg :: r => more 10500 (c_number (rev r))
  | _ => None
  end.
Definition f_cost (l : list cls) : option Z := omin (more 1000 (c_number l)) (f_liang l).
Fixpoint fpieces (l p : list cls) : option Z :=
  match l with
  | [] => more 1000 (c_number (rev p))
  | c :: r => omin (fpieces r (c :: p)) (match f_cost (rev p) with Some w => osum (Some w) (fpieces r [c]) | None => None end)
  end.
Fixpoint fleast (l p : list cls) : option Z :=
  match l with
  | [] => None
  | c :: r => omin (fleast r (c :: p)) (match f_cost (rev p) with Some w => osum (Some w) (fpieces r [c]) | None => None end)
  end.
Definition fdear (l : list cls) : bool :=
  match c_number l with
  | Some w => (0 <=? w)%Z && (w <=? 100000)%Z && match fleast l [] with Some v => (w + 1000 <? v)%Z | None => true end
  | None => false
  end.
Lemma all_fdear : forallb fdear shapes = true.
Proof. vm_compute. reflexivity. Qed.
Lemma cost_bounds l w : c_number l = Some w -> (0 <= w <= 100000)%Z.
Proof.
  intro E. pose proof (proj1 (forallb_forall fdear shapes) all_fdear _ (number_in _ _ E)) as D. unfold fdear in D. rewrite E in D.
  rewrite !andb_true_iff, !Z.leb_le in D. tauto.
Qed.
(** Cut into pieces, the last of which is a number. *)
Inductive cuts : list cls -> Z -> Prop :=
| cuts_one l v : c_number l = Some v -> cuts l (v + 1000)
| cuts_more a b v t : a <> [] -> at_most (f_cost a) v -> cuts b t -> cuts (a ++ b) (v + t).
Lemma fpieces_one l p v : c_number (rev p ++ l) = Some v -> at_most (fpieces l p) (v + 1000).
Proof.
  revert p. induction l as [|c l IH]; intros p E.
  - rewrite app_nil_r in E. cbn [fpieces]. rewrite E. exists (v + 1000)%Z. split; [reflexivity|lia].
  - cbn [fpieces]. apply omin_l. apply IH. cbn [rev]. now rewrite <- app_assoc.
Qed.
Lemma fpieces_more a c r p v t : at_most (f_cost (rev p ++ a)) v -> at_most (fpieces r [c]) t -> at_most (fpieces (a ++ c :: r) p) (v + t).
Proof.
  revert p. induction a as [|x a IH]; intros p E L.
  - rewrite app_nil_r in E. cbn [app fpieces]. apply omin_r. destruct E as (k & -> & E), L as (b & -> & L). cbn [osum]. exists (k + b)%Z. split; [reflexivity|lia].
  - cbn [app fpieces]. apply omin_l. apply IH; [|exact L]. cbn [rev]. now rewrite <- app_assoc.
Qed.
Lemma fleast_more a c r p v t : at_most (f_cost (rev p ++ a)) v -> at_most (fpieces r [c]) t -> at_most (fleast (a ++ c :: r) p) (v + t).
Proof.
  revert p. induction a as [|x a IH]; intros p E L.
  - rewrite app_nil_r in E. cbn [app fleast]. apply omin_r. destruct E as (k & -> & E), L as (b & -> & L). cbn [osum]. exists (k + b)%Z. split; [reflexivity|lia].
  - cbn [app fleast]. apply omin_l. apply IH; [|exact L]. cbn [rev]. now rewrite <- app_assoc.
Qed.
Lemma cuts_pieces l t : cuts l t -> exists c r, l = c :: r /\ at_most (fpieces r [c]) t.
Proof.
  induction 1 as [l v E|a b v t N E C (c & r & -> & IH)].
  - destruct l as [|c r]; [discriminate|]. exists c, r. split; [reflexivity|]. apply fpieces_one. exact E.
  - destruct a as [|x a]; [congruence|]. exists x, (a ++ c :: r). split; [reflexivity|]. now apply fpieces_more.
Qed.
Lemma cuts_dear a b v t w : c_number (a ++ b) = Some w -> at_most (f_cost a) v -> cuts b t -> (w + 1000 < v + t)%Z.
Proof.
  intros E A B. pose proof (proj1 (forallb_forall fdear shapes) all_fdear _ (number_in _ _ E)) as Dr. unfold fdear in Dr. rewrite E in Dr.
  rewrite !andb_true_iff in Dr. destruct Dr as (_ & Dr).
  apply cuts_pieces in B as (c & r & -> & B). destruct (fleast_more a c r [] v t A B) as (k & F & L). rewrite F in Dr.
  apply Z.ltb_lt in Dr. lia.
Qed.
(** A cardinal costs no less than its pieces, and its last piece is a number. *)
Lemma f_number l v : c_number l = Some v -> at_most (f_cost l) (v + 1000).
Proof. intro E. unfold f_cost. rewrite E. apply omin_l. exists (v + 1000)%Z. split; [reflexivity|lia]. Qed.
Lemma number_nonempty l v : c_number l = Some v -> l <> [].
Proof. intros E ->. discriminate. Qed.
Lemma cut_cuts l t : cut_up l t -> cuts l t.
Proof.
  induction 1 as [l v E|a b v t E C IH]; [now constructor|]. constructor; [exact (number_nonempty _ _ E)|exact (f_number _ _ E)|exact IH].
Qed.
Lemma cuts_app a b s t : cuts a s -> cuts b t -> cuts (a ++ b) (s + t).
Proof.
  intros A B. induction A as [l v E|a1 a2 v s' N E A IH].
  - constructor; [exact (number_nonempty _ _ E)|exact (f_number _ _ E)|exact B].
  - rewrite <- app_assoc, <- Z.add_assoc. constructor; auto.
Qed.
Lemma f_cost_nonneg l v : at_most (f_cost l) v -> (0 <= v)%Z.
Proof.
  intros (k & E & L). unfold f_cost, f_liang in E.
  assert (G : forall k o w, (0 <= k)%Z -> (forall v, o = Some v -> (0 <= v)%Z) -> more k o = Some w -> (0 <= w)%Z).
  { intros k' o w K F M. apply more_some in M as (v' & -> & ->). specialize (F _ eq_refl). lia. }
  assert (C : forall l w, c_number l = Some w -> (0 <= w)%Z) by (intros l' w E'; apply cost_bounds in E'; lia).
  assert (O : forall a b w, (forall v, a = Some v -> (0 <= v)%Z) -> (forall v, b = Some v -> (0 <= v)%Z) -> omin a b = Some w -> (0 <= w)%Z).
  { intros [a|] [b|] w Fa Fb X; cbn in X; try discriminate; injection X as <-; try (specialize (Fa _ eq_refl)); try (specialize (Fb _ eq_refl)); lia. }
  enough (0 <= k)%Z by lia. revert E. apply O.
  - intros v0. apply G; [lia|apply C].
  - intros v0 X. destruct (rev l) as [|[] r]; try discriminate.
    destruct r as [|a r]; [revert X; apply G; [lia|apply C]|]. destruct a; try (revert X; apply G; [lia|apply C]).
    revert X. apply O; intro; apply G; try lia; apply C.
Qed.
Lemma cuts_nonneg l t : cuts l t -> (0 <= t)%Z.
Proof.
  induction 1 as [l v E|a b v t N E C IH]; [apply cost_bounds in E; lia|]. apply f_cost_nonneg in E. lia.
Qed.

(** ** The tokens of such a text *)
Definition ends_liang (x : text) : Prop := exists a, x = a ++ u "两".
Lemma f_one a : forall v, c_number (shape a) = Some v -> at_most (f_cost (shape (a ++ u "两"))) (v + 10500).
Proof.
  intros v E. unfold f_cost. apply omin_r. rewrite shape_app. change (shape (u "两")) with [Dg]. unfold f_liang. rewrite rev_unit.
  destruct (rev (shape a)) as [|c r] eqn:R.
  - exfalso. assert (shape a = []) as X by (rewrite <- (rev_involutive (shape a)), R; reflexivity). rewrite X in E. discriminate.
  - assert (X : shape a = rev (c :: r)) by (rewrite <- R, rev_involutive; reflexivity). rewrite X in E.
    destruct c; try apply omin_l; rewrite E; exists (v + 10500)%Z; (split; [reflexivity|lia]).
Qed.
Lemma f_two a : forall v, c_number (shape a) = Some v -> at_most (f_cost (shape (a ++ u "万两"))) (v + 5500).
Proof.
  intros v E. unfold f_cost. apply omin_r. rewrite shape_app. change (shape (u "万两")) with [Wa; Dg]. unfold f_liang.
  rewrite rev_app_distr. cbn [rev app]. rewrite rev_involutive. apply omin_r. rewrite E. exists (v + 5500)%Z. split; [reflexivity|lia].
Qed.
Lemma tokens_added name g x t w : denote (add_tokens name g) x t w <-> exists t', t = name ++ u " { " ++ t' ++ u " } " /\ denote g x t' w.
Proof.
  unfold add_tokens. split.
  - intro H. apply cat_inv in H as (x1 & y1 & w1 & x2 & y2 & w2 & -> & -> & -> & H & (-> & -> & ->)).
    apply cat_inv in H as (x3 & y3 & w3 & x4 & y4 & w4 & -> & -> & -> & (-> & -> & ->) & H). exists y4. rewrite <- !app_assoc, app_nil_r. cbn [app].
    split; [reflexivity|]. replace (0 + w4 + 0)%Z with w4 by lia. exact H.
  - intros (t' & -> & H). rewrite <- (app_nil_r x). replace (name ++ u " { " ++ t' ++ u " } ") with (((name ++ u " { ") ++ t') ++ u " } ") by now rewrite <- !app_assoc.
    replace w with (0 + w + 0)%Z by lia. apply cat_i; [|now cbn]. apply (cat_i _ _ [] _ 0%Z); [now cbn|exact H].
Qed.
Lemma other_rules o r : In r [Date.rule; Fraction.rule o; Money.rule o; Time.rule; Math.rule o; LicensePlate.rule; TrainNumber.rule] ->
  apart known (r_tagger r) = true.
Proof.
  revert r. apply (proj1 (forallb_forall (fun r => apart known (r_tagger r)) _)). destruct o as [a b c d]. destruct c, d; vm_compute; reflexivity.
Qed.
Section Options.
Variables (o : options) (x : text).
Hypothesis Smooth : smooth (shape x) = true.
Hypothesis Low : enable_million o = true \/ low (shape x) = true.
Lemma number_cost p d w : (exists q, x = p ++ q) -> denote (Measure.number o) p d w -> c_number (shape p) = Some w.
Proof.
  intros (q & E) H. pose proof Smooth as S. pose proof Low as L. rewrite E, shape_app in S, L. apply smooth_app in S as (S & _).
  apply (number0_cost (enable_million o) p d).
  - unfold Measure.number, Measure.any_number in H. destruct (enable_0_to_9 o).
    + now apply number_only.
    + apply exclude_number; [|exact S]. now apply exclude_only.
  - destruct L as [L|L]; [auto|]. apply low_app in L. tauto.
Qed.
Lemma units_known q d w : forallb known q = true -> denote Measure.units q d w -> q = u "两" /\ w = 0%Z \/ q = u "万两" /\ w = (-5000)%Z.
Proof.
  intros K [H|H].
  2:{ exfalso. revert H. apply (apart_known known); [vm_compute; reflexivity|exact K]. }
  apply cat_inv in H as (x1 & y1 & w1 & x2 & y2 & w2 & -> & -> & -> & H1 & H2). rewrite forallb_app, andb_true_iff in K. destruct K as (K1 & K2).
  apply (table_known known) in H2 as (H2 & ->); [|exact K2].
  assert (x2 = u "两") as ->.
  { vm_compute in H2. destruct H2 as [H2|[]]. injection H2 as <- _. reflexivity. }
  clear H2.
  destruct H1 as [(v & -> & H1)|(-> & _ & ->)]; [|left; auto].
  destruct H1 as [[(-> & _)|(-> & _)]|(-> & _ & ->)]; [discriminate K1|discriminate K1|right; auto].
Qed.
Lemma measure_known d w : denote (Measure.g_value o) x d w -> exists a v, c_number (shape a) = Some v /\
  (x = a ++ u "两" /\ w = v \/ x = a ++ u "万两" /\ w = (v - 5000)%Z).
Proof.
  pose proof (smooth_known x Smooth) as K. intros [[[H|H]|H]|H].
  - apply cat_inv in H as (x1 & y1 & w1 & x2 & y2 & w2 & E & -> & -> & H & U).
    apply cat_inv in H as (x3 & y3 & w3 & x4 & y4 & w4 & -> & -> & -> & H & [T|T]).
    { exfalso. rewrite E, !forallb_app, !andb_true_iff in K. destruct K as ((_ & K) & _). revert T. apply (apart_known known); [reflexivity|exact K]. }
    destruct T as (-> & -> & ->). rewrite app_nil_r in E. apply (number_cost x3 y3 w3) in H; [|eauto].
    rewrite E, forallb_app, andb_true_iff in K. destruct K as (_ & K). apply units_known in U; [|exact K]. exists x3, w3. split; [exact H|].
    destruct U as [(-> & ->)|(-> & ->)]; [left|right]; (split; [exact E|lia]).
  - exfalso. revert H. apply (apart_known known); [|exact K]. unfold Measure.measure_sp. destruct (enable_0_to_9 o); vm_compute; reflexivity.
  - exfalso. revert H. apply (apart_known known); [vm_compute; reflexivity|exact K].
  - exfalso. revert H. apply (apart_known known); [|exact K]. unfold Measure.money_colloquial. cbn [apart].
    rewrite !orb_true_iff. left. left. right. vm_compute. reflexivity.
Qed.
Lemma token_known e t w : tagger_union (rules o) = Some e -> denote e x t w ->
  (exists z v, denote (Cardinal.cardinal o) x z v /\ w = (v + 10600)%Z /\ t = value_token (u "cardinal") x ++ u " ") \/
  (ends_liang x /\ at_most (f_cost (shape x)) w) \/ w = 1000000%Z.
Proof.
  intros E H. pose proof (smooth_known x Smooth) as K. apply (taggers_spec _ _ E) in H as (s & k & I & Ek & H).
  assert (A : forall e', apart known e' = true -> denote e' x t (w - k)%Z -> False) by (intros e' A; exact (apart_known known e' _ _ _ A K)).
  pose proof (other_rules o) as Oth. unfold rules in I. cbn [In] in I.
  repeat destruct I as [I|I]; [..|destruct I]; rewrite <- I in H, Ek; cbn [s_weight s_rule] in H, Ek; injection Ek as <-;
    try (exfalso; revert H; apply A; apply Oth; cbn [In]; tauto).
  - exfalso. unfold Whitelist.rule, value_rule in H. cbn [r_tagger] in H. apply tokens_added in H as (t' & _ & H).
    apply tag_field_spec in H as (_ & _ & z & H). apply (table_known known) in H as (H & _); [|exact K].
    apply (in_map (fun p => smooth (shape (Datatypes.fst p)))) in H. cbn [Datatypes.fst] in H. rewrite Smooth in H.
    vm_compute in H. intuition discriminate.
  - right. left. unfold Measure.rule in H. cbn [r_tagger] in H. apply tokens_added in H as (t' & _ & [H|H]).
    + apply tag_field_spec in H as (_ & _ & z & H). apply measure_known in H as (a & v & C & [(-> & Ew)|(-> & Ew)]).
      * split; [now exists a|]. replace w with (v + 10500)%Z by lia. now apply f_one.
      * split; [exists (a ++ u "万"); now rewrite <- app_assoc|]. replace w with (v + 5500)%Z by lia. now apply f_two.
    + exfalso. apply cat_inv in H as (x1 & y1 & w1 & x2 & y2 & w2 & -> & -> & _ & H & _).
      rewrite forallb_app, andb_true_iff in K. destruct K as (K & _). revert H. apply (apart_known known); [|exact K]. vm_compute. reflexivity.
  - left. apply cardinal_tagged in H as (-> & z & H); [|exact (known_plain x K)]. exists z, (w - 10600)%Z. split; [exact H|]. split; [lia|reflexivity].
  - right. right. unfold Char.rule in H. cbn [r_tagger] in H. apply tokens_added in H as (t' & _ & H).
    apply cat_inv in H as (x1 & y1 & w1 & x2 & y2 & w2 & -> & -> & Ew & H & (-> & -> & ->)).
    apply cat_inv in H as (x3 & y3 & w3 & x4 & y4 & w4 & -> & -> & -> & (-> & -> & ->) & H). 
    destruct H as [[(c & _ & _ & _ & ->)|(_ & _ & ->)]|(_ & _ & ->)]; lia.
Qed.
End Options.
