(** The path stream enumerates the lattice's outputs (C22). *)
From Coq Require Import List NArith ZArith Bool Arith Lia Sorted.
From Verif Require Import Text TextFacts TokenModel AlignModel AlignSpec NbestModel NbestSpec.
Import ListNotations.

Lemma text_mem_In : forall x l, text_mem x l = true <-> In x l.
Proof. intros x l. destruct (text_mem_spec x l); split; congruence || tauto. Qed.
Lemma text_mem_false : forall x l, text_mem x l = false <-> ~ In x l.
Proof. intros x l. destruct (text_mem_spec x l); split; congruence || tauto. Qed.
Lemma NoDup_app_local : forall {A} (l l' : list A), NoDup l -> NoDup l' -> (forall x, In x l -> ~ In x l') -> NoDup (l ++ l').
Proof.
  intros A l l' H H' D. induction H as [|x l Hn H IH]; cbn; [exact H'|]. constructor.
  - rewrite in_app_iff. intros [C|C]; [contradiction|]. apply (D x); [left; reflexivity|exact C].
  - apply IH. intros y Hy; apply D; right; exact Hy.
Qed.
Lemma sorted_split : forall {A} (R : A -> A -> Prop) l l' x y, StronglySorted R (l ++ l') -> In x l -> In y l' -> R x y.
Proof.
  intros A R l l' x y. induction l as [|a l IH]; cbn [app]; intros H Hx Hy; [destruct Hx|].
  inversion H as [|? ? Hs Hf]; subst. destruct Hx as [->|Hx]; [|apply IH; assumption].
  rewrite Forall_forall in Hf. apply Hf, in_or_app; right; exact Hy.
Qed.
Lemma nodup_split : forall {A} (l l' : list A) x, NoDup (l ++ l') -> In x l -> In x l' -> False.
Proof.
  intros A l l' x. induction l as [|a l IH]; cbn [app]; intros H Hx Hy; [destruct Hx|].
  inversion H as [|? ? Hn Hs]; subst. destruct Hx as [->|Hx]; [|apply IH; assumption].
  apply Hn, in_or_app; right; exact Hy.
Qed.

Lemma sorted_app : forall {A} (R : A -> A -> Prop) l l',
  StronglySorted R l -> StronglySorted R l' -> (forall x y, In x l -> In y l' -> R x y) -> StronglySorted R (l ++ l').
Proof.
  intros A R l l' H H' HR. induction H as [|a l Hs IH Hf]; cbn; [exact H'|].
  constructor.
  - apply IH. intros; apply HR; [right|]; assumption.
  - apply Forall_app; split; [exact Hf|]. apply Forall_forall. intros; apply HR; [left; reflexivity|assumption].
Qed.

(** ** collect *)
Lemma collect_In : forall y l seen t w,
  NoDup (map fst l) -> (forall x, In x (map fst l) -> ~ In x seen) ->
  In (t, w) (collect y seen l) <-> In (t, w) l /\ ~ In t y.
Proof.
  intros y l; induction l as [|[o v] l IH]; cbn [collect map fst]; intros seen t w Hn Hs.
  - cbn; tauto.
  - inversion Hn as [|? ? Hno Hnd]; subst.
    assert (Hseen : text_mem o seen = false) by (apply text_mem_false, Hs; left; reflexivity).
    rewrite Hseen; cbn [negb andb].
    destruct (text_mem o y) eqn:Ey; cbn [negb].
    + rewrite IH; [|assumption|intros x Hx; apply Hs; right; exact Hx].
      apply text_mem_In in Ey. cbn [In]. split; [tauto|].
      intros [[E|E] Hy]; [injection E as -> ->; contradiction|tauto].
    + cbn [In]. rewrite IH; [|assumption|].
      * apply text_mem_false in Ey. split; [|tauto].
        intros [E|E]; [injection E as -> ->; tauto|tauto].
      * intros x Hx [E|E]; [subst; contradiction|]. apply (Hs x); [right; exact Hx|exact E].
Qed.
Lemma collect_sub : forall y l seen x, In x (collect y seen l) -> In x l.
Proof.
  intros y l; induction l as [|[o v] l IH]; cbn [collect]; intros seen x H; [exact H|].
  destruct (_ && _); [destruct H as [E|H]; [left; exact E|]|]; right; eapply IH; exact H.
Qed.
Lemma collect_nodup : forall y l seen, NoDup (map fst l) -> NoDup (map fst (collect y seen l)).
Proof.
  intros y l; induction l as [|[o v] l IH]; cbn [collect map fst]; intros seen H; [constructor|].
  inversion H as [|? ? Hno Hnd]; subst.
  destruct (_ && _); [|apply IH; assumption].
  cbn [map fst]; constructor; [|apply IH; assumption].
  intros C. apply Hno. apply in_map_iff in C. destruct C as (p & E & C). apply in_map_iff. exists p; split; [exact E|].
  eapply collect_sub; exact C.
Qed.
Lemma collect_sorted : forall y l seen, StronglySorted lighter l -> StronglySorted lighter (collect y seen l).
Proof.
  intros y l seen H; revert seen; induction H as [|[o v] l Hs IH Hf]; cbn [collect]; intros seen; [constructor|].
  destruct (_ && _); [|apply IH]. constructor; [apply IH|].
  apply Forall_forall. intros x Hx. rewrite Forall_forall in Hf. apply Hf. eapply collect_sub; exact Hx.
Qed.
Lemma collect_length : forall y l seen, NoDup y -> NoDup (map fst l) -> (forall x, In x (map fst l) -> ~ In x seen) ->
  length l <= length y + length (collect y seen l).
Proof.
  intros y l seen Hy Hn Hs.
  replace (length l) with (length (map fst l)) by apply map_length.
  replace (length (collect y seen l)) with (length (map fst (collect y seen l))) by apply map_length.
  rewrite <- app_length. apply NoDup_incl_length; [exact Hn|].
  intros t Ht. apply in_or_app. destruct (text_mem t y) eqn:E; [left; apply text_mem_In, E|right].
  apply text_mem_false in E. apply in_map_iff in Ht. destruct Ht as ([t' w] & Et & Ht). cbn in Et; subst t'.
  apply in_map_iff. exists (t, w); split; [reflexivity|]. apply collect_In; tauto.
Qed.

(** ** The stream invariant: [Y] is what has been returned so far, in order. *)
Record sinv (S : wset) (p : nat -> list weighted) (s : stream) (Y : list weighted) : Prop := {
  i_paths : paths s = p;
  i_yielded : s_yielded s = rev (map fst Y);
  i_srank : s_rank s = length Y;
  i_sub : forall t w, In (t, w) (Y ++ s_items s) -> S t w;
  i_nodup : NoDup (map fst (Y ++ s_items s));
  i_sorted : StronglySorted lighter (Y ++ s_items s);
  i_rest : forall t w x, S t w -> ~ In (t, w) (Y ++ s_items s) -> In x (Y ++ s_items s) -> (snd x <= w)%Z;
  i_done : s_exhausted s = true -> forall t w, S t w -> In (t, w) (Y ++ s_items s);
  i_limit : s_exhausted s = false -> s_limit s <= length (Y ++ s_items s) }.

Section Stream.
Variable S : wset.
Variable p : nat -> list weighted.
Hypothesis F : functional S.
Hypothesis K : forall k, kbest S k (p k).

Lemma inv_new : sinv S p (new_stream p) [].
Proof.
  constructor; cbn; try reflexivity; try tauto; try constructor; try discriminate.
Qed.

Lemma inv_expand : forall s Y, sinv S p s Y -> s_items s = [] -> s_exhausted s = false ->
  sinv S p (expand s) Y /\ s_limit s < s_limit (expand s) /\ s_exhausted (expand s) = (length (p (s_limit (expand s))) <? s_limit (expand s)).
Proof.
  intros s Y H Hi He. destruct H as [Hp Hy Hr Hsub Hnd Hso Hre Hdo Hli].
  unfold expand; rewrite He.
  set (limit := if s_limit s =? 0 then 1 else s_limit s * 2).
  assert (Hlim : s_limit s < limit).
  { subst limit. destruct (Nat.eqb_spec (s_limit s) 0); lia. }
  rewrite Hi in *. rewrite app_nil_r in *. rewrite Hp.
  destruct (K limit) as (Ksub & Knd & Kso & Kre & Kle & Kdo).
  cbn [paths s_items s_yielded s_rank s_limit s_exhausted].
  assert (Hseen : forall x, In x (map fst (p limit)) -> ~ In x (@nil text)) by (intros ? ? []).
  assert (Hmem : forall t w, In (t, w) (collect (s_yielded s) [] (p limit)) <-> In (t, w) (p limit) /\ ~ In t (map fst Y)).
  { intros t w. rewrite (collect_In _ _ _ _ _ Knd Hseen), Hy, <- in_rev. reflexivity. }
  assert (Hall : forall t w, In (t, w) (Y ++ collect (s_yielded s) [] (p limit)) <-> In (t, w) Y \/ In (t, w) (p limit)).
  { intros t w. rewrite in_app_iff, Hmem. split; [tauto|]. intros [E|E]; [tauto|].
    destruct (text_mem t (map fst Y)) eqn:M; [|apply text_mem_false in M; tauto].
    apply text_mem_In, in_map_iff in M. destruct M as ([t' w'] & Et & M). cbn in Et; subst t'.
    left. rewrite (F t w w' (Ksub _ _ E) (Hsub _ _ M)). exact M. }
  split; [|split; [exact Hlim|reflexivity]].
  constructor; cbn [paths s_items s_yielded s_rank s_limit s_exhausted]; try assumption; try reflexivity.
  - intros t w E. apply Hall in E. destruct E as [E|E]; [apply Hsub, E|apply Ksub, E].
  - rewrite map_app. apply NoDup_app_local; [exact Hnd|apply collect_nodup, Knd|].
    intros t Ht C. apply in_map_iff in C. destruct C as ([t' w] & Et & C). cbn in Et; subst t'.
    apply Hmem in C. tauto.
  - apply sorted_app; [exact Hso|apply collect_sorted, Kso|].
    intros x [t w] Hx Hc. unfold lighter; cbn [snd]. apply (Hre t w x); [apply Ksub, Hmem, Hc| |exact Hx].
    intros C. apply Hmem in Hc. apply (proj2 Hc). apply in_map_iff. exists (t, w); tauto.
  - intros t w x St Hn Hx. destruct x as [tx wx]. apply Hall in Hx. rewrite Hall in Hn.
    destruct Hx as [Hx|Hx]; [apply (Hre t w (tx, wx)); tauto|apply (Kre t w (tx, wx)); tauto].
  - intros E t w St. apply Hall. right. apply Kdo; [apply Nat.ltb_lt, E|exact St].
  - intros E. apply Nat.ltb_ge in E. rewrite app_length.
    transitivity (length (p limit)); [exact E|].
    replace (length Y) with (length (s_yielded s)) by (rewrite Hy, rev_length, map_length; reflexivity).
    apply collect_length; [|exact Knd|exact Hseen]. rewrite Hy. apply NoDup_rev, Hnd.
Qed.

Lemma inv_fill : forall f s Y, sinv S p s Y -> length Y < f + s_limit s ->
  exists s', fill f s = Some s' /\ sinv S p s' Y /\ (s_items s' = [] -> s_exhausted s' = true).
Proof.
  induction f as [|f IH]; intros s Y H Hf; cbn [fill]; destruct (s_items s) as [|it its] eqn:Ei.
  - destruct (s_exhausted s) eqn:Ee; [exists s; tauto|].
    exfalso. pose proof (i_limit _ _ _ _ H Ee) as L. rewrite Ei, app_nil_r in L. lia.
  - exists s. rewrite Ei. split; [reflexivity|]. split; [exact H|discriminate].
  - destruct (s_exhausted s) eqn:Ee; [exists s; tauto|].
    destruct (inv_expand s Y H Ei Ee) as (H' & L & _). apply IH; [exact H'|lia].
  - exists s. rewrite Ei. split; [reflexivity|]. split; [exact H|discriminate].
Qed.

Lemma inv_peek : forall s Y, sinv S p s Y -> exists s', sinv S p s' Y /\ fill (fill_fuel s) s = Some s' /\
  ((s_items s' = [] /\ peek s = Some (None, s') /\ pop s = Some (None, s') /\ s_exhausted s' = true) \/
   exists t w r, s_items s' = (t, w) :: r /\ peek s = Some (Some (Item t w (length Y)), s') /\
     exists s'', pop s = Some (Some (Item t w (length Y)), s'') /\ sinv S p s'' (Y ++ [(t, w)]) /\ s_items s'' = r).
Proof.
  intros s Y H.
  destruct (inv_fill (fill_fuel s) s Y H) as (s' & E & H' & Hx).
  { unfold fill_fuel. rewrite (i_yielded _ _ _ _ H), rev_length, map_length. lia. }
  exists s'. split; [exact H'|]. split; [exact E|].
  unfold pop, peek. rewrite E. destruct (s_items s') as [|[t w] r] eqn:Ei; [left; tauto|right].
  exists t, w, r. rewrite (i_srank _ _ _ _ H'). split; [reflexivity|]. split; [reflexivity|].
  eexists; split; [reflexivity|]. split; [|cbn [s_items]; rewrite Ei; reflexivity].
  destruct H' as [Hp Hy Hr Hsub Hnd Hso Hre Hdo Hli]. rewrite Ei in *.
  constructor; cbn [paths s_items s_yielded s_rank s_limit s_exhausted tl i_text]; rewrite ?Ei; cbn [tl]; rewrite <- ?app_assoc; cbn [app]; try assumption.
  - rewrite Hy, map_app, rev_app_distr. reflexivity.
  - rewrite app_length; cbn; lia.
Qed.

(** Peeking does not change what the next pop or peek returns. *)
Lemma fill_idem : forall f s s' g, fill f s = Some s' -> fill g s' = Some s'.
Proof.
  clear. induction f as [|f IH]; intros s s' g; cbn [fill]; destruct (s_items s) eqn:Ei.
  - destruct (s_exhausted s) eqn:Ee; [|discriminate]. intros E; injection E as <-. destruct g; cbn [fill]; rewrite Ei, Ee; reflexivity.
  - intros E; injection E as <-. destruct g; cbn [fill]; rewrite Ei; reflexivity.
  - destruct (s_exhausted s) eqn:Ee; [|intros E; eapply IH; exact E]. intros E; injection E as <-. destruct g; cbn [fill]; rewrite Ei, Ee; reflexivity.
  - intros E; injection E as <-. destruct g; cbn [fill]; rewrite Ei; reflexivity.
Qed.

Local Notation after := (NbestSpec.after p).
Local Notation popped := (NbestSpec.popped p).
Fixpoint upto (k : nat) : list weighted :=
  match k with
  | O => []
  | Datatypes.S k' => upto k' ++ match popped k' with Some x => [x] | None => [] end
  end.

Lemma after_inv : forall k, sinv S p (after k) (upto k).
Proof.
  induction k as [|k IH]; [apply inv_new|].
  cbn [NbestSpec.after upto]. unfold NbestSpec.popped.
  destruct (inv_peek _ _ IH) as (s' & H' & _ & [(Ei & _ & Ep & _)|(t & w & r & Ei & _ & s'' & Ep & H'' & _)]); rewrite Ep.
  - rewrite app_nil_r. exact H'.
  - exact H''.
Qed.

Lemma popped_none : forall k, popped k = None -> forall t w, S t w -> In (t, w) (upto k).
Proof.
  intros k E t w St. unfold NbestSpec.popped in E.
  destruct (inv_peek _ _ (after_inv k)) as (s' & H' & _ & [(Ei & _ & Ep & Ex)|(t' & w' & r & Ei & _ & s'' & Ep & H'' & _)]); rewrite Ep in E.
  - pose proof (i_done _ _ _ _ H' Ex t w St) as D. rewrite Ei, app_nil_r in D. exact D.
  - discriminate.
Qed.
Lemma popped_none_S : forall k, popped k = None -> popped (Datatypes.S k) = None.
Proof.
  intros k E. pose proof E as E0. unfold NbestSpec.popped in *. cbn [NbestSpec.after].
  destruct (inv_peek _ _ (after_inv k)) as (s' & H' & Ef & [(Ei & _ & Ep & Ex)|(t' & w' & r & Ei & _ & s'' & Ep & H'' & _)]); rewrite Ep in *.
  - unfold pop, peek. rewrite (fill_idem _ _ _ (fill_fuel s') Ef), Ei. reflexivity.
  - discriminate.
Qed.
Lemma popped_none_le : forall i j, i <= j -> popped i = None -> popped j = None.
Proof. intros i j L; induction L; [tauto|]. intros E. apply popped_none_S, IHL, E. Qed.

Lemma upto_In : forall k x, In x (upto k) <-> exists i, i < k /\ popped i = Some x.
Proof.
  induction k as [|k IH]; intros x; cbn [upto].
  - split; [intros []|intros (i & L & _); lia].
  - rewrite in_app_iff, IH. split.
    + intros [(i & L & E)|E]; [exists i; split; [lia|exact E]|].
      destruct (popped k) eqn:Ep; [destruct E as [->|[]]; exists k; split; [lia|exact Ep]|destruct E].
    + intros (i & L & E). destruct (Nat.eq_dec i k) as [->|N]; [right; rewrite E; left; reflexivity|left; exists i; split; [lia|exact E]].
Qed.

Lemma popped_sub : forall i t w, popped i = Some (t, w) -> S t w.
Proof.
  intros i t w E. pose proof (after_inv (Datatypes.S i)) as H. apply (i_sub _ _ _ _ H). apply in_or_app; left.
  apply upto_In. exists i; split; [lia|exact E].
Qed.
Lemma popped_length : forall k i, popped k <> None -> i <= k -> length (upto i) = i.
Proof.
  intros k i E L. induction i as [|i IH]; [reflexivity|]. cbn [upto]. rewrite app_length, IH by lia.
  destruct (popped i) eqn:Ei; [cbn; lia|]. exfalso; apply E. eapply popped_none_le; [|exact Ei]. lia.
Qed.

Lemma upto_prefix : forall i j, i <= j -> exists r, upto j = upto i ++ r.
Proof.
  intros i j L; induction L as [|j L (r & IH)]; [exists []; rewrite app_nil_r; reflexivity|].
  cbn [upto]. rewrite IH, <- app_assoc. eexists; reflexivity.
Qed.

Lemma popped_sorted : forall i j x y, i < j -> popped i = Some x -> popped j = Some y ->
  lighter x y /\ fst x <> fst y.
Proof.
  intros i j x y L Ei Ej.
  pose proof (after_inv (Datatypes.S j)) as H. cbn [upto] in H. rewrite Ej in H.
  assert (Hx : In x (upto j)) by (apply upto_In; exists i; tauto).
  split.
  - apply (sorted_split lighter (upto j) (y :: s_items (after (Datatypes.S j)))); [|exact Hx|left; reflexivity].
    pose proof (i_sorted _ _ _ _ H) as So. rewrite <- app_assoc in So. exact So.
  - intros E. pose proof (i_nodup _ _ _ _ H) as Nd. rewrite <- app_assoc, map_app in Nd.
    apply (nodup_split _ _ (fst x) Nd); [apply in_map, Hx|left; symmetry; exact E].
Qed.

Theorem popped_enumerates : enumerates S popped.
Proof.
  split; [exact popped_sub|]. split; [|split; [|split; [|split]]].
  - intros i j t w w' Ei Ej. destruct (lt_eq_lt_dec i j) as [[L|E]|L]; [|exact E|]; exfalso.
    + apply (popped_sorted i j _ _ L Ei Ej). reflexivity.
    + apply (popped_sorted j i _ _ L Ej Ei). reflexivity.
  - intros i j x y L Ei Ej. destruct (Nat.eq_dec i j) as [->|N].
    + rewrite Ei in Ej. injection Ej as ->. unfold lighter; lia.
    + apply (popped_sorted i j x y); [lia|assumption|assumption].
  - exact popped_none_le.
  - intros i x t w Ei St Hn.
    pose proof (after_inv (Datatypes.S i)) as H. cbn [upto] in H. rewrite Ei in H.
    assert (Hnot : ~ In (t, w) (upto i)) by (rewrite upto_In; intros (j & L & E); exact (Hn j L E)).
    destruct x as [tx wx]. cbn [snd].
    destruct (in_dec (fun a b : weighted => ltac:(decide equality; [apply Z.eq_dec|apply text_eq_dec])) (t, w) ((upto i ++ [(tx, wx)]) ++ s_items (after (Datatypes.S i)))) as [I|I].
    + rewrite <- app_assoc in I. apply in_app_or in I. destruct I as [I|I]; [contradiction|].
      destruct I as [I|I]; [injection I as -> ->; lia|].
      apply (sorted_split lighter (upto i ++ [(tx, wx)]) (s_items (after (Datatypes.S i))) (tx, wx) (t, w)).
      * exact (i_sorted _ _ _ _ H).
      * apply in_or_app; right; left; reflexivity.
      * exact I.
    + apply (i_rest _ _ _ _ H t w (tx, wx) St I). rewrite !in_app_iff; left; right; left; reflexivity.
  - intros i t w Ei St. pose proof (popped_none i Ei t w St) as I. apply upto_In in I. exact I.
Qed.

(** ** Where a stream in the search stands: after [k] pops, perhaps peeked at. *)
Definition at_pos (k : nat) (s : stream) : Prop := s = after k \/ fill (fill_fuel (after k)) (after k) = Some s.
Lemma at_new : at_pos 0 (new_stream p).
Proof. left; reflexivity. Qed.
Lemma fill_at : forall k s, at_pos k s -> fill (fill_fuel s) s = fill (fill_fuel (after k)) (after k).
Proof.
  intros k s [->|E]; [reflexivity|]. rewrite E. eapply fill_idem; exact E.
Qed.
Lemma pop_at_same : forall k s, at_pos k s -> pop s = pop (after k) /\ peek s = peek (after k).
Proof.
  intros k s H. unfold pop, peek. rewrite (fill_at k s H). tauto.
Qed.

Lemma pop_at : forall k s, at_pos k s -> exists s',
  pop s = Some (match popped k with Some (t, w) => Some (Item t w k) | None => None end, s') /\
  match popped k with Some _ => at_pos (Datatypes.S k) s' | None => at_pos k s' end.
Proof.
  intros k s H. destruct (pop_at_same k s H) as (-> & _).
  unfold NbestSpec.popped. destruct (inv_peek _ _ (after_inv k)) as (s' & H' & Ef & [(Ei & _ & Ep & Ex)|(t & w & r & Ei & _ & s'' & Ep & H'' & _)]).
  - rewrite Ep. exists s'. split; [reflexivity|right; exact Ef].
  - rewrite Ep. cbn [i_text i_weight]. exists s''. split.
    + rewrite (popped_length k k); [reflexivity| |lia]. unfold NbestSpec.popped; rewrite Ep; discriminate.
    + left. cbn [NbestSpec.after]. rewrite Ep. reflexivity.
Qed.
Lemma peek_at : forall k s, at_pos k s -> exists s',
  peek s = Some (match popped k with Some (t, w) => Some (Item t w k) | None => None end, s') /\ at_pos k s'.
Proof.
  intros k s H. destruct (pop_at_same k s H) as (_ & ->).
  unfold NbestSpec.popped. destruct (inv_peek _ _ (after_inv k)) as (s' & H' & Ef & [(Ei & Epk & Ep & Ex)|(t & w & r & Ei & Epk & s'' & Ep & H'' & _)]).
  - rewrite Ep, Epk. exists s'. split; [reflexivity|right; exact Ef].
  - rewrite Ep, Epk. cbn [i_text i_weight]. exists s'. split.
    + rewrite (popped_length k k); [reflexivity| |lia]. unfold NbestSpec.popped; rewrite Ep; discriminate.
    + right; exact Ef.
Qed.
End Stream.
