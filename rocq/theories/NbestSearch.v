(** The lazy joint search returns the first n distinct outputs (C19-C21, C24). *)
From Coq Require Import List NArith ZArith Bool Arith Lia Sorted.
From Verif Require Import Text TextFacts TokenModel AlignModel AlignSpec NbestModel NbestSpec NbestStream.
Import ListNotations.

Lemma nodup_map_inj : forall {A B} (f : A -> B) l, (forall a b, In a l -> In b l -> f a = f b -> a = b) -> NoDup l -> NoDup (map f l).
Proof.
  intros A B f l Hi H. induction H as [|a l Hn H IH]; cbn [map]; constructor.
  - intros C. apply in_map_iff in C. destruct C as (b & E & Hb). apply Hn.
    rewrite <- (Hi b a (or_intror Hb) (or_introl eq_refl) E). exact Hb.
  - apply IH. intros; apply Hi; try right; assumption.
Qed.

(** ** Keys *)
Lemma key_ltb_before : forall a b, key_ltb a b = true <-> before a b.
Proof.
  intros [[w1 i1] j1] [[w2 i2] j2]. unfold key_ltb, before.
  rewrite !orb_true_iff, !andb_true_iff, !orb_true_iff, !andb_true_iff, Z.ltb_lt, Z.eqb_eq, !Nat.ltb_lt, Nat.eqb_eq. tauto.
Qed.
Lemma key_ltb_false : forall a b, key_ltb a b = false <-> ~ before a b.
Proof. intros. rewrite <- key_ltb_before. destruct (key_ltb a b); split; congruence. Qed.
Lemma before_total : forall a b, a <> b -> before a b \/ before b a.
Proof.
  intros [[w1 i1] j1] [[w2 i2] j2] N. unfold before.
  destruct (Z.lt_total w1 w2) as [|[->|]]; [tauto| |tauto].
  destruct (lt_eq_lt_dec i1 i2) as [[| ->]|]; [tauto| |tauto].
  destruct (lt_eq_lt_dec j1 j2) as [[| ->]|]; [tauto| |tauto]. congruence.
Qed.
Lemma before_asym : forall a b, before a b -> before b a -> False.
Proof. intros [[w1 i1] j1] [[w2 i2] j2]; unfold before; lia. Qed.
Lemma before_trans : forall a b c, before a b -> before b c -> before a c.
Proof. intros [[w1 i1] j1] [[w2 i2] j2] [[w3 i3] j3]; unfold before; lia. Qed.
Lemma before_irrefl : forall a, ~ before a a.
Proof. intros a H; exact (before_asym a a H H). Qed.

(** ** The heap *)
Definition ebefore (a b : entry) : Prop := before (e_key a) (e_key b).
Lemma insert_In : forall e h x, In x (insert_entry e h) <-> x = e \/ In x h.
Proof.
  intros e h x. induction h as [|y h IH]; cbn [insert_entry].
  - cbn; intuition congruence.
  - destruct (entry_ltb e y); cbn [In]; [intuition congruence|]. rewrite IH. cbn [In]. intuition congruence.
Qed.
Lemma insert_sorted : forall e h, (forall x, In x h -> e_key x <> e_key e) -> StronglySorted ebefore h ->
  StronglySorted ebefore (insert_entry e h).
Proof.
  intros e h D H. induction H as [|y h Hs IH Hf]; cbn [insert_entry].
  - constructor; constructor.
  - assert (Dy : e_key y <> e_key e) by (apply D; left; reflexivity).
    unfold entry_ltb. destruct (key_ltb (e_key e) (e_key y)) eqn:E1; cbn [orb].
    + apply key_ltb_before in E1. constructor; [constructor; assumption|].
      constructor; [exact E1|]. rewrite Forall_forall in *. intros x Hx. eapply before_trans; [exact E1|apply Hf, Hx].
    + apply key_ltb_false in E1. destruct (before_total _ _ Dy) as [B|B]; [|contradiction].
      destruct (key_ltb (e_key y) (e_key e)) eqn:E2; [|apply key_ltb_false in E2; contradiction].
      cbn [negb andb]. constructor.
      * apply IH. intros x Hx; apply D; right; exact Hx.
      * apply Forall_forall. intros x Hx. apply insert_In in Hx. destruct Hx as [->|Hx]; [exact B|].
        rewrite Forall_forall in Hf; apply Hf, Hx.
Qed.
Lemma heappush_ok : forall e h, (forall x, In x h -> e_key x <> e_key e) -> heappush e h = POk (insert_entry e h).
Proof.
  intros e h D. unfold heappush.
  destruct (existsb (entry_same e) h) eqn:E; [|reflexivity]. exfalso.
  apply existsb_exists in E. destruct E as (x & Hx & E). unfold entry_same, entry_ltb in E.
  destruct (before_total _ _ (D x Hx)) as [B|B]; apply key_ltb_before in B; rewrite B in E; cbn in E.
  - rewrite andb_false_r in E; discriminate.
  - discriminate.
Qed.
Lemma insert_trank : forall e h, NoDup (map (fun x => c_trank (e_cand x)) h) ->
  (forall x, In x h -> c_trank (e_cand x) <> c_trank (e_cand e)) ->
  NoDup (map (fun x => c_trank (e_cand x)) (insert_entry e h)).
Proof.
  intros e h H D. induction h as [|y h IH]; cbn [insert_entry].
  - constructor; [intros []|constructor].
  - inversion H as [|? ? Hn Hd]; subst.
    destruct (entry_ltb e y); cbn [map].
    + constructor; [|exact H]. intros [C|C]; [apply (D y (or_introl eq_refl) C)|].
      apply in_map_iff in C. destruct C as (x & E & Hx). apply (D x (or_intror Hx) E).
    + constructor; [|apply IH; [exact Hd|intros x Hx; apply D; right; exact Hx]].
      intros C. apply in_map_iff in C. destruct C as (x & E & Hx). apply insert_In in Hx. destruct Hx as [->|Hx].
      * apply (D y); [left; reflexivity|symmetry; exact E].
      * apply Hn. apply in_map_iff. exists x; tauto.
Qed.

Section Search.
Variable en : engine.
Variables T V : text -> wset.
Variable x : text.
Hypothesis O : search_oracle en T V.

Definition ET : nat -> option (text * Z) := popped (tag_paths en x).
Definition EV (r : text) : nat -> option (text * Z) := popped (verb_paths en r).
Lemma ET_enum : enumerates (T x) ET.
Proof. destruct O as (F1 & F2 & K1 & K2). apply popped_enumerates; [apply F1|apply K1]. Qed.
Lemma EV_enum : forall r, enumerates (V r) (EV r).
Proof. intros r. destruct O as (F1 & F2 & K1 & K2). apply popped_enumerates; [apply F2|apply K2]. Qed.

Definition cand_at (i j : nat) : option candidate :=
  match ET i with
  | Some (t, tw) =>
      match reorder (engine_orders en) t with
      | Ok r => match EV r 0, EV r j with
                | Some (_, b), Some (o, v) => Some (Cand t o tw v b i j)
                | _, _ => None
                end
      | Err _ => None
      end
  | None => None
  end.
Definition ckey (c : candidate) : Z * nat * nat := (c_weight c, c_trank c, c_vrank c).
Lemma c_key_ckey : forall c, c_key c = ckey c.
Proof. reflexivity. Qed.

Lemma cand_at_inv : forall i j c, cand_at i j = Some c ->
  exists t tw r o0 b o v, ET i = Some (t, tw) /\ reorder (engine_orders en) t = Ok r /\ EV r 0 = Some (o0, b) /\
    EV r j = Some (o, v) /\ c = Cand t o tw v b i j.
Proof.
  intros i j c. unfold cand_at.
  destruct (ET i) as [[t tw]|] eqn:E1; [|discriminate].
  destruct (reorder (engine_orders en) t) as [r|e] eqn:E2; [|discriminate].
  destruct (EV r 0) as [[o0 b]|] eqn:E3; [|discriminate].
  destruct (EV r j) as [[o v]|] eqn:E4; [|discriminate].
  intros E; injection E as <-. exists t, tw, r, o0, b, o, v. repeat split; assumption.
Qed.
Lemma cand_rank : forall i j c, cand_at i j = Some c -> c_trank c = i /\ c_vrank c = j.
Proof. intros i j c E. destruct (cand_at_inv _ _ _ E) as (t & tw & r & o0 & b & o & v & _ & _ & _ & _ & ->). split; reflexivity. Qed.
Lemma cand_ranked : forall i j t o w,
  ranked en ET EV i j t o w <-> exists c, cand_at i j = Some c /\ c_tagged c = t /\ c_output c = o /\ c_weight c = w.
Proof.
  intros i j t o w. split.
  - intros (r & tw & vw & o0 & b & E1 & E2 & E3 & E4 & ->). exists (Cand t o tw vw b i j).
    unfold cand_at. rewrite E1, E2, E3, E4. unfold c_weight; cbn. repeat split; try reflexivity. lia.
  - intros (c & E & <- & <- & <-). destruct (cand_at_inv _ _ _ E) as (t & tw & r & o0 & b & o & v & E1 & E2 & E3 & E4 & ->).
    exists r, tw, v, o0, b. unfold c_weight; cbn. repeat split; try assumption. lia.
Qed.
Lemma cand_step : forall i j j' c c', j < j' -> cand_at i j = Some c -> cand_at i j' = Some c' -> before (ckey c) (ckey c').
Proof.
  intros i j j' c c' L E E'.
  destruct (cand_at_inv _ _ _ E) as (t & tw & r & o0 & b & o & v & E1 & E2 & E3 & E4 & ->).
  destruct (cand_at_inv _ _ _ E') as (t' & tw' & r' & o0' & b' & o' & v' & E1' & E2' & E3' & E4' & ->).
  rewrite E1 in E1'; injection E1' as <- <-. rewrite E2 in E2'; injection E2' as <-.
  rewrite E3 in E3'; injection E3' as <- <-.
  assert (v <= v')%Z.
  { destruct (EV_enum r) as (_ & _ & So & _). apply (So j j' (o, v) (o', v')); [lia|assumption|assumption]. }
  unfold ckey, before, c_weight; cbn. lia.
Qed.
Lemma cand_weight : forall i j c t tw, cand_at i j = Some c -> ET i = Some (t, tw) -> (tw <= c_weight c)%Z.
Proof.
  intros i j c t tw E ET'. destruct (cand_at_inv _ _ _ E) as (t' & tw' & r & o0 & b & o & v & E1 & E2 & E3 & E4 & ->).
  rewrite E1 in ET'; injection ET' as <- <-.
  assert (b <= v)%Z. { destruct (EV_enum r) as (_ & _ & So & _). apply (So 0 j (o0, b) (o, v)); [lia|assumption|assumption]. }
  unfold c_weight; cbn. lia.
Qed.
Lemma cand_prev : forall i j j' c, j' <= j -> cand_at i j = Some c -> exists c', cand_at i j' = Some c'.
Proof.
  intros i j j' c L E. destruct (cand_at_inv _ _ _ E) as (t & tw & r & o0 & b & o & v & E1 & E2 & E3 & E4 & _).
  destruct (EV r j') as [[o' v']|] eqn:E5.
  - eexists. unfold cand_at. rewrite E1, E2, E3, E5. reflexivity.
  - destruct (EV_enum r) as (_ & _ & _ & N & _). rewrite (N j' j L E5) in E4. discriminate.
Qed.

(** ** The invariant: [a] tags popped, [P] the candidates taken from the heap. *)
Record sound (q : search) (a : nat) (P : list (nat * nat)) : Prop := {
  q_pos : at_pos (tag_paths en x) a (q_tags q);
  q_popped : forall i, i < a -> ET i <> None;
  q_entry : forall e, In e (q_frontier q) ->
    cand_at (c_trank (e_cand e)) (c_vrank (e_cand e)) = Some (e_cand e) /\
    e_key e = ckey (e_cand e) /\ c_trank (e_cand e) < a /\
    exists r, reorder (engine_orders en) (c_tagged (e_cand e)) = Ok r /\
      at_pos (verb_paths en r) (S (c_vrank (e_cand e))) (e_stream e);
  q_heap : StronglySorted ebefore (q_frontier q);
  q_one : NoDup (map (fun e => c_trank (e_cand e)) (q_frontier q));
  q_taken : forall i j c, cand_at i j = Some c ->
    (In (i, j) P <-> i < a /\ forall e, In e (q_frontier q) -> c_trank (e_cand e) = i -> j < c_vrank (e_cand e));
  q_valid : forall i j, In (i, j) P -> exists c, cand_at i j = Some c;
  q_nodup : NoDup P;
  q_order : forall i j i' j' c c', In (i, j) P -> ~ In (i', j') P -> cand_at i j = Some c -> cand_at i' j' = Some c' ->
    before (ckey c) (ckey c');
  q_real : forall c, In c (q_cands q) -> cand_at (c_trank c) (c_vrank c) = Some c /\ In (c_trank c, c_vrank c) P;
  q_sorted : StronglySorted (fun c c' => before (ckey c) (ckey c')) (q_cands q);
  q_distinct : NoDup (map c_output (q_cands q));
  q_seen_is : forall o, In o (q_seen q) <-> In o (map c_output (q_cands q));
  q_cover : forall i j c, In (i, j) P -> cand_at i j = Some c ->
    exists c', In c' (q_cands q) /\ c_output c' = c_output c /\ (ckey c' = ckey c \/ before (ckey c') (ckey c)) }.

Lemma sound_new : sound (Search (new_stream (tag_paths en x)) [] 0 [] []) 0 [].
Proof.
  constructor; cbn [q_tags q_frontier q_activated q_cands q_seen In map].
  - left; reflexivity.
  - intros; lia.
  - intros e [].
  - constructor.
  - constructor.
  - intros; split; [intros []|intros (L & _); lia].
  - intros i j [].
  - constructor.
  - intros i j i' j' c c' [].
  - intros c [].
  - constructor.
  - constructor.
  - intros; reflexivity.
  - intros i j c [].
Qed.

(** Replacing the tag stream by a peeked one changes nothing. *)
Lemma sound_tags : forall q a P s, sound q a P -> at_pos (tag_paths en x) a s ->
  sound (Search s (q_frontier q) (q_activated q) (q_cands q) (q_seen q)) a P.
Proof. intros q a P s H Hs. destruct H. constructor; assumption. Qed.

Lemma pop_tags : forall a s, at_pos (tag_paths en x) a s -> exists s',
  pop s = Some (match ET a with Some (t, w) => Some (Item t w a) | None => None end, s') /\
  match ET a with Some _ => at_pos (tag_paths en x) (S a) s' | None => at_pos (tag_paths en x) a s' end.
Proof. intros a s H. destruct O as (F1 & F2 & K1 & K2). exact (pop_at (T x) _ (F1 x) (K1 x) a s H). Qed.
Lemma peek_tags : forall a s, at_pos (tag_paths en x) a s -> exists s',
  peek s = Some (match ET a with Some (t, w) => Some (Item t w a) | None => None end, s') /\ at_pos (tag_paths en x) a s'.
Proof. intros a s H. destruct O as (F1 & F2 & K1 & K2). exact (peek_at (T x) _ (F1 x) (K1 x) a s H). Qed.
Lemma pop_verb : forall r a s, at_pos (verb_paths en r) a s -> exists s',
  pop s = Some (match EV r a with Some (t, w) => Some (Item t w a) | None => None end, s') /\
  match EV r a with Some _ => at_pos (verb_paths en r) (S a) s' | None => at_pos (verb_paths en r) a s' end.
Proof. intros r a s H. destruct O as (F1 & F2 & K1 & K2). exact (pop_at (V r) _ (F2 r) (K2 r) a s H). Qed.

(** activate: the next tag, if there is one, becomes active. *)
Lemma activate_ok : forall q a P, sound q a P ->
  match ET a with
  | None => exists q', activate en q = POk (false, q') /\ sound q' a P /\ q_cands q' = q_cands q
                       /\ q_frontier q' = q_frontier q
  | Some (t, tw) =>
      match reorder (engine_orders en) t with
      | Err e => activate en q = PErr (PParse e)
      | Ok r => exists q', activate en q = POk (true, q') /\ sound q' (S a) P /\ q_cands q' = q_cands q
      end
  end.
Proof.
  intros q a P H. destruct (pop_tags a (q_tags q) (q_pos _ _ _ H)) as (s' & Ep & Hs).
  unfold activate. rewrite Ep. cbn [of_fuel pbind].
  destruct (ET a) as [[t tw]|] eqn:ETa.
  2:{ eexists; split; [reflexivity|]. split; [exact (sound_tags _ _ _ _ H Hs)|split; reflexivity]. }
  cbn [i_text i_weight i_rank].
  destruct (reorder (engine_orders en) t) as [r|e] eqn:Er; [|reflexivity].
  cbn [of_parse pbind].
  destruct (pop_verb r 0 _ (or_introl eq_refl)) as (vs & Ev & Hv). cbn [after] in Ev. rewrite Ev. cbn [of_fuel pbind].
  destruct (EV r 0) as [[o b]|] eqn:EV0.
  - cbn [i_text i_weight i_rank].
    set (c := Cand t o tw b b a 0).
    assert (Ec : cand_at a 0 = Some c) by (unfold cand_at; rewrite ETa, Er, EV0; reflexivity).
    assert (Dr : forall y, In y (q_frontier q) -> c_trank (e_cand y) <> a).
    { intros y Hy E. destruct (q_entry _ _ _ H y Hy) as (_ & _ & L & _). lia. }
    rewrite heappush_ok.
    2:{ intros y Hy E. apply (Dr y Hy). destruct (q_entry _ _ _ H y Hy) as (_ & K & _ & _).
        rewrite K in E. cbn [e_key] in E. unfold ckey, c_key in E. injection E as _ E _. exact E. }
    cbn [pbind]. eexists; split; [reflexivity|]. split; [|reflexivity].
    assert (Hf : forall y, In y (insert_entry (Entry (c_key c) (S (q_activated q)) c vs) (q_frontier q)) <->
                   y = Entry (c_key c) (S (q_activated q)) c vs \/ In y (q_frontier q)) by (intros; apply insert_In).
    destruct H as [Hpos Hpop Hen Hheap Hone Htak Hval Hnd Hord Hreal Hso Hdi Hse Hco].
    constructor; cbn [q_tags q_frontier q_activated q_cands q_seen]; try assumption.
    + intros i L. destruct (Nat.eq_dec i a) as [->|N]; [congruence|]. apply Hpop; lia.
    + intros y Hy. apply Hf in Hy. destruct Hy as [->|Hy].
      * cbn [e_cand e_key e_stream]. split; [exact Ec|]. split; [reflexivity|]. split; [cbn; lia|].
        exists r. split; [exact Er|exact Hv].
      * destruct (Hen y Hy) as (A & B & L & D). split; [exact A|]. split; [exact B|]. split; [lia|exact D].
    + apply insert_sorted; [|exact Hheap]. intros y Hy E. apply (Dr y Hy).
      destruct (Hen y Hy) as (_ & K & _ & _). rewrite K in E. unfold ckey, c_key in E; cbn [e_key] in E. injection E as _ E _. exact E.
    + apply insert_trank; [exact Hone|exact Dr].
    + intros i j c' E'. rewrite (Htak i j c' E'). split.
      * intros (L & D). split; [lia|]. intros y Hy Ey. apply Hf in Hy. destruct Hy as [->|Hy]; [cbn in Ey; lia|apply D; assumption].
      * intros (L & D). destruct (Nat.eq_dec i a) as [->|N].
        -- exfalso. specialize (D _ (proj2 (Hf _) (or_introl eq_refl)) eq_refl). cbn in D. lia.
        -- split; [lia|]. intros y Hy Ey. apply D; [apply Hf; right; exact Hy|exact Ey].
  - eexists; split; [reflexivity|]. split; [|reflexivity].
    destruct H as [Hpos Hpop Hen Hheap Hone Htak Hval Hnd Hord Hreal Hso Hdi Hse Hco].
    constructor; cbn [q_tags q_frontier q_activated q_cands q_seen]; try assumption.
    + intros i L. destruct (Nat.eq_dec i a) as [->|N]; [congruence|]. apply Hpop; lia.
    + intros y Hy. destruct (Hen y Hy) as (A & B & L & D). split; [exact A|]. split; [exact B|]. split; [lia|exact D].
    + intros i j c' E'. rewrite (Htak i j c' E'). split; intros (L & D); (split; [|exact D]); [lia|].
      destruct (Nat.eq_dec i a) as [->|N]; [|lia]. exfalso.
      unfold cand_at in E'. rewrite ETa, Er, EV0 in E'. discriminate.
Qed.

(** The order facts that make taking the top of the heap right. *)
Lemma top_least : forall q a P top rest, sound q a P -> q_frontier q = top :: rest ->
  match ET a with Some (t, w) => ~ before (w, a, 0) (e_key top) | None => True end ->
  forall i j c, cand_at i j = Some c -> ~ In (i, j) P ->
    (i, j) = (c_trank (e_cand top), c_vrank (e_cand top)) \/ before (ckey (e_cand top)) (ckey c).
Proof.
  intros q a P top rest H Ef Hb i j c Ec Hn.
  destruct (q_entry _ _ _ H top) as (At & Kt & Lt & _); [rewrite Ef; left; reflexivity|].
  destruct (le_lt_dec a i) as [L|L].
  - (* a tag not popped yet *)
    right. destruct (cand_at_inv _ _ _ Ec) as (t & tw & r & o0 & b & o & v & E1 & _).
    destruct (ET a) as [[ta wa]|] eqn:EA.
    2:{ destruct ET_enum as (_ & _ & _ & N & _). rewrite (N a i L EA) in E1. discriminate. }
    assert (W : (wa <= tw)%Z). { destruct ET_enum as (_ & _ & So & _). apply (So a i (ta, wa) (t, tw) L EA E1). }
    pose proof (cand_weight _ _ _ _ _ Ec E1) as W2.
    destruct (cand_rank _ _ _ Ec) as (R1 & R2). unfold ckey. rewrite R1, R2.
    rewrite Kt in Hb. unfold ckey, before in *. lia.
  - (* an active tag: it has an entry at or before j *)
    assert (Hex : exists e, In e (q_frontier q) /\ c_trank (e_cand e) = i /\ c_vrank (e_cand e) <= j).
    { assert (D : forall l, (exists e, In e l /\ c_trank (e_cand e) = i /\ c_vrank (e_cand e) <= j) \/
                 (forall e, In e l -> c_trank (e_cand e) = i -> j < c_vrank (e_cand e))).
      { clear. induction l as [|e l [(e' & A & B)|IH]]; [right; intros ? []|left; exists e'; split; [right; exact A|exact B]|].
        destruct (Nat.eq_dec (c_trank (e_cand e)) i) as [E|N].
        - destruct (le_lt_dec (c_vrank (e_cand e)) j) as [L|L]; [left; exists e; split; [left; reflexivity|tauto]|].
          right. intros e' [<-|I] E'; [exact L|apply IH; assumption].
        - right. intros e' [<-|I] E'; [contradiction|apply IH; assumption]. }
      destruct (D (q_frontier q)) as [D'|D']; [exact D'|]. exfalso. apply Hn. apply (q_taken _ _ _ H i j c Ec). split; [exact L|exact D']. }
    destruct Hex as (e & He & Ei & Lj).
    destruct (q_entry _ _ _ H e He) as (Ae & Ke & _ & _).
    assert (B : ckey (e_cand e) = ckey c \/ before (ckey (e_cand e)) (ckey c)).
    { destruct (Nat.eq_dec (c_vrank (e_cand e)) j) as [Ej|N].
      - left. rewrite Ei, Ej, Ec in Ae. injection Ae as ->. reflexivity.
      - right. rewrite Ei in Ae. apply (cand_step i (c_vrank (e_cand e)) j); [lia|exact Ae|exact Ec]. }
    rewrite Ef in He. destruct He as [<-|He].
    + destruct B as [B|B]; [left|right; exact B]. destruct (cand_rank _ _ _ Ec) as (R1 & R2).
      unfold ckey in B. injection B as _ B1 B2. congruence.
    + right. pose proof (q_heap _ _ _ H) as Hs. rewrite Ef in Hs. inversion Hs as [|? ? _ Hf]; subst.
      rewrite Forall_forall in Hf. specialize (Hf e He). unfold ebefore in Hf. rewrite Kt, Ke in Hf.
      destruct B as [B|B]; [rewrite <- B; exact Hf|eapply before_trans; [exact Hf|exact B]].
Qed.

(** One round of the loop. *)
Definition joint_bad (e : err) : Prop := exists t w, T x t w /\ reorder (engine_orders en) t = Err e.
Lemma step_ok : forall q a P, sound q a P ->
  (exists q' a' P', search_step en q = POk (inl q') /\ sound q' a' P' /\ a' + length P' = S (a + length P) /\
     exists more, q_cands q' = q_cands q ++ more /\ length more <= 1) \/
  (exists q', search_step en q = POk (inr q') /\ sound q' a P /\ q_cands q' = q_cands q /\
     forall i j c, cand_at i j = Some c -> In (i, j) P) \/
  (exists e, search_step en q = PErr (PParse e) /\ joint_bad e).
Proof.
  intros q a P H.
  destruct (peek_tags a (q_tags q) (q_pos _ _ _ H)) as (s & Ek & Hs).
  unfold search_step. rewrite Ek. cbn [of_fuel pbind].
  pose proof (sound_tags _ _ _ _ H Hs) as H0. revert H0.
  set (q0 := Search s (q_frontier q) (q_activated q) (q_cands q) (q_seen q)). intros H0.
  change (q_frontier q) with (q_frontier q0). change (q_cands q) with (q_cands q0).
  assert (Hact : forall t w, ET a = Some (t, w) ->
    (exists q' r, reorder (engine_orders en) t = Ok r /\ activate en q0 = POk (true, q') /\ sound q' (S a) P /\ q_cands q' = q_cands q0) \/
    (exists e, activate en q0 = PErr (PParse e) /\ joint_bad e)).
  { intros t w E. pose proof (activate_ok q0 a P H0) as A. rewrite E in A.
    destruct (reorder (engine_orders en) t) as [r|e] eqn:Er.
    - left. destruct A as (q' & A). exists q', r. tauto.
    - right. exists e. split; [exact A|]. exists t, w. split; [|exact Er]. destruct ET_enum as (Su & _). apply (Su a), E. }
  destruct (q_frontier q0) as [|top rest] eqn:Ef.
  - (* empty heap *)
    destruct (ET a) as [[t w]|] eqn:EA.
    + destruct (Hact t w eq_refl) as [(q' & r & _ & A & Hq & Eq)|(e & A & B)].
      * left. rewrite A. cbn [pbind]. exists q', (S a), P. split; [reflexivity|]. split; [exact Hq|]. split; [lia|].
        exists []. rewrite app_nil_r. split; [exact Eq|cbn; lia].
      * right; right. exists e. rewrite A. split; [reflexivity|exact B].
    + right; left. pose proof (activate_ok q0 a P H0) as A. rewrite EA in A. destruct A as (q' & A & Hq & Eq & Efr).
      rewrite A. cbn [pbind]. exists q'. split; [reflexivity|]. split; [exact Hq|]. split; [exact Eq|].
      intros i j c Ec. apply (q_taken _ _ _ Hq i j c Ec). split.
      * destruct (le_lt_dec a i) as [L|L]; [|exact L]. exfalso.
        destruct (cand_at_inv _ _ _ Ec) as (t & tw & r & o0 & b & o & v & E1 & _).
        destruct ET_enum as (_ & _ & _ & N & _). rewrite (N a i L EA) in E1. discriminate.
      * rewrite Efr, Ef. intros e [].
  - set (uf := match match ET a with Some (t, w) => Some (Item t w a) | None => None end with
               | Some t => key_ltb (i_weight t, i_rank t, 0) (e_key top) | None => false end).
    destruct uf eqn:Eu; subst uf.
    + (* activate another tag first *)
      destruct (ET a) as [[t w]|] eqn:EA; [|discriminate].
      destruct (Hact t w eq_refl) as [(q' & r & _ & A & Hq & Eq)|(e & A & B)].
      * left. rewrite A. cbn [pbind]. exists q', (S a), P. split; [reflexivity|]. split; [exact Hq|]. split; [lia|].
        exists []. rewrite app_nil_r. split; [exact Eq|cbn; lia].
      * right; right. exists e. rewrite A. split; [reflexivity|exact B].
    + (* take the top of the heap *)
      left.
      assert (Hle : match ET a with Some (t, w) => ~ before (w, a, 0) (e_key top) | None => True end).
      { destruct (ET a) as [[t w]|]; [|exact I]. apply key_ltb_false. exact Eu. }
      pose proof (top_least q0 a P top rest H0 Ef Hle) as Least. clear Eu Hle Hact Ek.
      set (c := e_cand top) in *. set (i0 := c_trank c) in *. set (j0 := c_vrank c) in *.
      assert (Htop : In top (q_frontier q0)) by (rewrite Ef; left; reflexivity).
      destruct (q_entry _ _ _ H0 top Htop) as (Ac & Kc & Lc & r & Er & Hst). fold c i0 j0 in Ac, Kc, Lc, Er, Hst.
      assert (Hnew : ~ In (i0, j0) P).
      { intros C. apply (q_taken _ _ _ H0 i0 j0 c Ac) in C. destruct C as (_ & C). specialize (C top Htop eq_refl). fold c j0 in C. lia. }
      destruct (pop_verb r (S j0) (e_stream top) Hst) as (vs & Ev & Hv).
      rewrite Ev. cbn [of_fuel pbind].
      (* the new heap *)
      set (cand' := fun nv w => Cand (c_tagged c) nv (c_tw c) w (c_best c) (c_trank c) (S j0)).
      set (fr := match EV r (S j0) with
                 | Some (nv, w) => insert_entry (Entry (c_key (cand' nv w)) (e_serial top) (cand' nv w) vs) rest
                 | None => rest end).
      pose proof (q_heap _ _ _ H0) as Hheap. pose proof (q_one _ _ _ H0) as Hone. rewrite Ef in Hheap, Hone.
      cbn [map] in Hone. fold c i0 in Hone.
      apply StronglySorted_inv in Hheap. destruct Hheap as (Hheap & Hfa). rewrite Forall_forall in Hfa.
      apply NoDup_cons_iff in Hone. destruct Hone as (Hno & Hone).
      assert (Drest : forall y, In y rest -> c_trank (e_cand y) <> i0).
      { intros y Hy E. apply Hno. rewrite <- E. apply (in_map (fun e => c_trank (e_cand e))), Hy. }
      assert (Drk : forall y nv w, In y rest -> e_key y <> c_key (cand' nv w)).
      { intros y nv w Hy E. apply (Drest y Hy). destruct (q_entry _ _ _ H0 y) as (_ & K & _); [rewrite Ef; right; exact Hy|].
        rewrite K in E. unfold ckey, c_key, cand' in E. cbn [c_trank] in E. injection E as _ E _. exact E. }
      assert (Enext : forall nv w, EV r (S j0) = Some (nv, w) -> cand_at i0 (S j0) = Some (cand' nv w)).
      { intros nv w E. destruct (cand_at_inv _ _ _ Ac) as (t & tw & r' & o0 & b & o & v & E1 & E2 & E3 & E4 & Ec).
        unfold cand_at. rewrite E1, E2. subst c. rewrite Ec in Er. cbn [c_tagged] in Er. rewrite E2 in Er. injection Er as ->.
        rewrite E3, E. unfold cand'. rewrite Ec. reflexivity. }
      assert (Hpush : match match EV r (S j0) with Some (t, w) => Some (Item t w (S j0)) | None => None end with
                      | None => POk rest
                      | Some nv => let c' := Cand (c_tagged c) (i_text nv) (c_tw c) (i_weight nv) (c_best c) (c_trank c) (i_rank nv) in
                          heappush (Entry (c_key c') (e_serial top) c' vs) rest end = POk fr).
      { subst fr. destruct (EV r (S j0)) as [[nv w]|]; [|reflexivity]. cbn [i_text i_weight i_rank]. cbv zeta.
        fold (cand' nv w). apply heappush_ok. intros y Hy. apply Drk, Hy. }
      cbv zeta in Hpush |- *. fold i0 in Hpush. rewrite Hpush. cbn [pbind].
      assert (Hfr : forall y, In y fr <-> In y rest \/ exists nv w, EV r (S j0) = Some (nv, w) /\
                     y = Entry (c_key (cand' nv w)) (e_serial top) (cand' nv w) vs).
      { intros y. subst fr. destruct (EV r (S j0)) as [[nv w]|].
        - rewrite insert_In. split.
          + intros [->|I]; [right; exists nv, w; tauto|tauto].
          + intros [I|(nv' & w' & E & ->)]; [tauto|]. injection E as <- <-. tauto.
        - split; [tauto|]. intros [I|(nv & w & E & _)]; [exact I|discriminate]. }
      assert (Hfrs : StronglySorted ebefore fr).
      { subst fr. destruct (EV r (S j0)) as [[nv w]|]; [|exact Hheap]. apply insert_sorted; [|exact Hheap]. intros y Hy. apply Drk, Hy. }
      assert (Hfr1 : NoDup (map (fun e => c_trank (e_cand e)) fr)).
      { subst fr. destruct (EV r (S j0)) as [[nv w]|]; [|exact Hone]. apply insert_trank; [exact Hone|].
        intros y Hy. cbn [e_cand]. unfold cand'; cbn [c_trank]. fold i0. apply Drest, Hy. }
      (* the new state, for any candidate list that extends the old one suitably *)
      assert (Core : forall cs seen,
        (forall c', In c' cs -> cand_at (c_trank c') (c_vrank c') = Some c' /\ In (c_trank c', c_vrank c') ((i0, j0) :: P)) ->
        StronglySorted (fun c c' => before (ckey c) (ckey c')) cs -> NoDup (map c_output cs) ->
        (forall o, In o seen <-> In o (map c_output cs)) ->
        (forall c', In c' (q_cands q0) -> In c' cs) ->
        (exists c', In c' cs /\ c_output c' = c_output c /\ (ckey c' = ckey c \/ before (ckey c') (ckey c))) ->
        sound (Search (q_tags q0) fr (q_activated q0) cs seen) a ((i0, j0) :: P)).
      { intros cs seen Hr Hso Hdi Hse Hinc Hc.
        constructor; cbn [q_tags q_frontier q_activated q_cands q_seen]; try assumption.
        - exact (q_popped _ _ _ H0).
        - intros e He. apply Hfr in He. destruct He as [He|(nv & w & E & ->)].
          + apply (q_entry _ _ _ H0). rewrite Ef. right; exact He.
          + cbn [e_cand e_key e_stream]. unfold cand' at 1 2; cbn [c_trank c_vrank]. fold i0.
            split; [apply Enext, E|]. split; [reflexivity|]. split; [exact Lc|].
            exists r. split; [exact Er|]. rewrite E in Hv. exact Hv.
        - intros i j c' E'. cbn [In]. rewrite (q_taken _ _ _ H0 i j c' E'). split.
          + intros [E|(L & D)].
            * injection E as <- <-. split; [exact Lc|]. intros e He Ee. apply Hfr in He. destruct He as [He|(nv & w & E & ->)].
              -- exfalso. exact (Drest e He Ee).
              -- unfold cand'; cbn. lia.
            * split; [exact L|]. intros e He Ee. apply Hfr in He. destruct He as [He|(nv & w & E & ->)].
              -- apply D; [rewrite Ef; right; exact He|exact Ee].
              -- unfold cand' in Ee; cbn in Ee. fold i0 in Ee. specialize (D top Htop Ee). fold c j0 in D. unfold cand'; cbn. lia.
          + intros (L & D). destruct (Nat.eq_dec i i0) as [->|Ni].
            * destruct (Nat.eq_dec j j0) as [->|Nj]; [left; reflexivity|right].
              split; [exact L|]. intros e He Ee. rewrite Ef in He. destruct He as [<-|He].
              -- fold c j0. destruct (EV r (S j0)) as [[nv w]|] eqn:En.
                 ++ assert (j < S j0). { apply (D (Entry (c_key (cand' nv w)) (e_serial top) (cand' nv w) vs)); [apply Hfr; right; exists nv, w; split; reflexivity|reflexivity]. }
                    lia.
                 ++ destruct (le_lt_dec j j0) as [Lj|Lj]; [lia|]. exfalso.
                    destruct (cand_at_inv _ _ _ E') as (t & tw & r' & o0 & b & o & v & E1 & E2 & E3 & E4 & _).
                    destruct (cand_at_inv _ _ _ Ac) as (t' & tw' & r'' & o0' & b' & o' & v' & E1' & E2' & E3' & E4' & Ec).
                    rewrite E1 in E1'; injection E1' as <- <-. subst c; rewrite Ec in Er; cbn [c_tagged] in Er. rewrite E2 in Er; injection Er as ->.
                    destruct (EV_enum r) as (_ & _ & _ & N & _). rewrite (N (S j0) j) in E4; [discriminate|lia|exact En].
              -- exfalso. exact (Drest e He Ee).
            * right. split; [exact L|]. intros e He Ee. rewrite Ef in He. destruct He as [<-|He].
              -- fold c i0 in Ee. congruence.
              -- apply D; [apply Hfr; left; exact He|exact Ee].
        - intros i j [E|I]; [injection E as <- <-; exists c; exact Ac|apply (q_valid _ _ _ H0), I].
        - constructor; [exact Hnew|exact (q_nodup _ _ _ H0)].
        - intros i j i' j' c1 c2 [E|I] N E1 E2.
          + injection E as <- <-. rewrite Ac in E1. injection E1 as <-.
            destruct (Least i' j' c2 E2) as [E|B]; [intros C; apply N; right; exact C| |exact B].
            exfalso. apply N. left. symmetry. exact E.
          + apply (q_order _ _ _ H0 i j i' j'); try assumption. intros C; apply N; right; exact C.
        - intros i j c1 [E|I] E1.
          + injection E as <- <-. rewrite Ac in E1. injection E1 as <-. exact Hc.
          + destruct (q_cover _ _ _ H0 i j c1 I E1) as (c' & A & B). exists c'. split; [apply Hinc, A|exact B]. }
      destruct (text_mem (c_output c) (q_seen q0)) eqn:Em.
      * (* the output is known *)
        apply text_mem_In in Em. apply (q_seen_is _ _ _ H0) in Em. apply in_map_iff in Em. destruct Em as (c' & Eo & Hc').
        eexists _, a, ((i0, j0) :: P). split; [reflexivity|]. split; [|split; [cbn; lia|exists []; rewrite app_nil_r; split; [reflexivity|cbn; lia]]].
        destruct (q_real _ _ _ H0 c' Hc') as (Ac' & I').
        apply Core; [intros c2 Hc2; destruct (q_real _ _ _ H0 c2 Hc2); split; [assumption|right; assumption]
                    |exact (q_sorted _ _ _ H0)|exact (q_distinct _ _ _ H0)|exact (q_seen_is _ _ _ H0)|tauto|].
        exists c'. split; [exact Hc'|]. split; [exact Eo|]. right. apply (q_order _ _ _ H0 _ _ i0 j0 c' c I' Hnew Ac' Ac).
      * (* a new output *)
        apply text_mem_false in Em.
        assert (Hno' : ~ In (c_output c) (map c_output (q_cands q0))) by (intros C; apply Em, (q_seen_is _ _ _ H0), C).
        eexists _, a, ((i0, j0) :: P). split; [reflexivity|]. split; [|split; [cbn; lia|exists [c]; split; [reflexivity|cbn; lia]]].
        apply Core.
        -- intros c2 Hc2. apply in_app_or in Hc2. destruct Hc2 as [Hc2|[<-|[]]].
           ++ destruct (q_real _ _ _ H0 c2 Hc2); split; [assumption|right; assumption].
           ++ split; [exact Ac|left; reflexivity].
        -- apply sorted_app; [exact (q_sorted _ _ _ H0)|constructor; constructor|].
           intros c1 c2 Hc1 [<-|[]]. destruct (q_real _ _ _ H0 c1 Hc1) as (A1 & I1).
           apply (q_order _ _ _ H0 _ _ i0 j0 c1 c I1 Hnew A1 Ac).
        -- rewrite map_app. apply NoDup_app_local; [exact (q_distinct _ _ _ H0)|constructor; [intros []|constructor]|].
           intros o Ho [<-|[]]. exact (Hno' Ho).
        -- intros o. rewrite map_app, in_app_iff. cbn [In map]. rewrite (q_seen_is _ _ _ H0 o). tauto.
        -- intros c' Hc'. apply in_or_app; left; exact Hc'.
        -- exists c. split; [apply in_or_app; right; left; reflexivity|]. split; [reflexivity|left; reflexivity].
Qed.

(** ** Termination.  [a] popped taggings are distinct; candidates taken for one tag
    have distinct outputs, all of which are among the results. *)
Lemma popped_bound : forall l q a P, (forall t w, T x t w -> In t l) -> sound q a P -> a <= length l.
Proof.
  intros l q a P Hl H.
  set (f := fun i => match ET i with Some (t, _) => t | None => [] end).
  rewrite <- (seq_length a 0), <- (map_length f). apply NoDup_incl_length.
  - apply nodup_map_inj; [|apply seq_NoDup].
    intros i j Hi Hj E. apply in_seq in Hi, Hj. unfold f in E.
    pose proof (q_popped _ _ _ H i ltac:(lia)) as Ni. pose proof (q_popped _ _ _ H j ltac:(lia)) as Nj.
    destruct (ET i) as [[t w]|] eqn:Ei; [|congruence]. destruct (ET j) as [[t' w']|] eqn:Ej; [|congruence].
    subst t'. destruct ET_enum as (_ & Inj & _). exact (Inj i j t w w' Ei Ej).
  - intros t Ht. apply in_map_iff in Ht. destruct Ht as (i & <- & Hi). apply in_seq in Hi.
    unfold f. pose proof (q_popped _ _ _ H i ltac:(lia)) as Ni. destruct (ET i) as [[t w]|] eqn:Ei; [|congruence].
    apply (Hl t w). destruct ET_enum as (Su & _). exact (Su i t w Ei).
Qed.

Lemma taken_bound : forall q a P, sound q a P -> length P <= a * length (q_cands q).
Proof.
  intros q a P H.
  set (f := fun p : nat * nat => (fst p, match cand_at (fst p) (snd p) with Some c => c_output c | None => [] end)).
  replace (a * length (q_cands q)) with (length (list_prod (seq 0 a) (map c_output (q_cands q))))
    by (rewrite prod_length, seq_length, map_length; reflexivity).
  rewrite <- (map_length f). apply NoDup_incl_length.
  - apply nodup_map_inj; [|exact (q_nodup _ _ _ H)].
    intros [i j] [i' j'] Hi Hj E. unfold f in E; cbn [fst snd] in E.
    destruct (q_valid _ _ _ H _ _ Hi) as (c & Ec). destruct (q_valid _ _ _ H _ _ Hj) as (c' & Ec').
    rewrite Ec, Ec' in E. injection E as <- E. f_equal.
    destruct (cand_at_inv _ _ _ Ec) as (t & tw & r & o0 & b & o & v & E1 & E2 & E3 & E4 & ->).
    destruct (cand_at_inv _ _ _ Ec') as (t' & tw' & r' & o0' & b' & o' & v' & E1' & E2' & E3' & E4' & ->).
    rewrite E1 in E1'; injection E1' as <- <-. rewrite E2 in E2'; injection E2' as <-. cbn in E; subst o'.
    destruct (EV_enum r) as (_ & Inj & _). exact (Inj j j' o v v' E4 E4').
  - intros [i o] Hp. apply in_map_iff in Hp. destruct Hp as ([i' j] & E & Hp). unfold f in E; cbn [fst snd] in E.
    destruct (q_valid _ _ _ H _ _ Hp) as (c & Ec). rewrite Ec in E. injection E as <- <-.
    apply in_prod.
    + apply in_seq. apply (q_taken _ _ _ H i' j c Ec) in Hp. lia.
    + destruct (q_cover _ _ _ H _ _ c Hp Ec) as (c' & I & Eo & _). rewrite <- Eo. apply in_map, I.
Qed.

Lemma loop_ok : forall n fuel q a P, sound q a P -> length (q_cands q) <= n ->
  match search_loop fuel en n q with
  | POk q' => exists a' P', sound q' a' P' /\ length (q_cands q') <= n /\
      (length (q_cands q') = n \/ forall i j c, cand_at i j = Some c -> In (i, j) P')
  | PErr (PParse e) => joint_bad e
  | PErr PFuel => forall l, (forall t w, T x t w -> In t l) -> a + length P + fuel <= length l * S n
  | PErr _ => False
  end.
Proof.
  intros n fuel; induction fuel as [|f IH]; intros q a P H Hl; cbn [search_loop];
    destruct (length (q_cands q) <? n) eqn:El.
  - intros l Hf. pose proof (popped_bound l q a P Hf H). pose proof (taken_bound q a P H).
    assert (a * length (q_cands q) <= length l * n) by (apply Nat.mul_le_mono; assumption). lia.
  - apply Nat.ltb_ge in El. exists a, P. split; [exact H|]. split; [exact Hl|left; lia].
  - apply Nat.ltb_lt in El.
    destruct (step_ok q a P H) as [(q' & a' & P' & E & H' & Em & more & Ec & Lm)|[(q' & E & H' & Ec & Hall)|(e & E & B)]];
      rewrite E; cbn [pbind].
    + assert (Hl' : length (q_cands q') <= n) by (rewrite Ec, app_length; lia).
      specialize (IH q' a' P' H' Hl').
      destruct (search_loop f en n q') as [q''|[]]; try exact IH.
      intros l Hf. specialize (IH l Hf). lia.
    + exists a, P. split; [exact H'|]. split; [rewrite Ec; exact Hl|right; exact Hall].
    + exact B.
  - apply Nat.ltb_ge in El. exists a, P. split; [exact H|]. split; [exact Hl|left; lia].
Qed.

Lemma sound_first_distinct : forall q a P n, sound q a P -> length (q_cands q) <= n ->
  (length (q_cands q) = n \/ forall i j c, cand_at i j = Some c -> In (i, j) P) ->
  first_distinct n (ranked en ET EV) (q_cands q).
Proof.
  intros q a P n H Hl Hd. split; [|split; [exact (q_sorted _ _ _ H)|split; [exact (q_distinct _ _ _ H)|split; [exact Hl|]]]].
  - intros c Hc. apply cand_ranked. destruct (q_real _ _ _ H c Hc) as (A & _). exists c. tauto.
  - intros i j t o w R. apply cand_ranked in R. destruct R as (c & Ec & <- & <- & <-).
    destruct (cand_rank _ _ _ Ec) as (R1 & R2).
    assert (K : (c_weight c, i, j) = ckey c) by (unfold ckey; rewrite R1, R2; reflexivity).
    rewrite K.
    destruct (in_dec (fun a b : nat * nat => ltac:(decide equality; apply Nat.eq_dec)) (i, j) P) as [I|N].
    + left. destruct (q_cover _ _ _ H i j c I Ec) as (c' & I' & Eo & B). exists c'. tauto.
    + destruct Hd as [Hd|Hd]; [right|exfalso; apply N, (Hd i j c Ec)]. split; [exact Hd|].
      intros c' Hc'. destruct (q_real _ _ _ H c' Hc') as (A & I). exact (q_order _ _ _ H _ _ i j c' c I N A Ec).
Qed.

Theorem candidates_ok : forall fuel n, 1 <= n ->
  match normalization_candidates fuel en x n with
  | POk cs => cs <> [] /\ first_distinct n (ranked en ET EV) cs
  | PErr PNoPath => forall i j t o w, ~ ranked en ET EV i j t o w
  | PErr (PParse e) => exists t w, T x t w /\ reorder (engine_orders en) t = Err e
  | PErr PFuel => forall l, (forall t w, T x t w -> In t l) -> fuel <= length l * S n
  | PErr _ => False
  end.
Proof.
  intros fuel n Hn. unfold normalization_candidates.
  pose proof (loop_ok n fuel _ _ _ sound_new (Nat.le_0_l n)) as L.
  destruct (search_loop fuel en n _) as [q|e]; cbn [pbind].
  - destruct L as (a & P & H & Hl & Hd).
    pose proof (sound_first_distinct q a P n H Hl Hd) as F.
    destruct (q_cands q) as [|c cs] eqn:Ec.
    + intros i j t o w R. apply cand_ranked in R. destruct R as (c & Ecc & _).
      destruct Hd as [Hd|Hd]; [cbn in Hd; lia|].
      destruct (q_cover _ _ _ H i j c (Hd i j c Ecc) Ecc) as (c' & I & _). rewrite Ec in I. destruct I.
    + split; [discriminate|exact F].
  - destruct e; try exact L; destruct L.
Qed.
End Search.

(** ** Prefixes *)
Lemma activate_cands : forall en q b q', activate en q = POk (b, q') -> q_cands q' = q_cands q.
Proof.
  intros en q b q'. unfold activate. destruct (pop (q_tags q)) as [[it tags]|]; cbn [of_fuel pbind]; [|discriminate].
  destruct it as [t|]; [|intros E; injection E as _ <-; reflexivity].
  destruct (reorder _ _) as [r|e]; cbn [of_parse pbind]; [|discriminate].
  destruct (pop (new_stream _)) as [[v vs]|]; cbn [of_fuel pbind]; [|discriminate].
  destruct v as [v|]; [|intros E; injection E as _ <-; reflexivity].
  unfold heappush. destruct (existsb _ _); cbn [pbind]; [discriminate|]. intros E; injection E as _ <-; reflexivity.
Qed.
Lemma step_grows : forall en q q', search_step en q = POk (inl q') \/ search_step en q = POk (inr q') ->
  exists more, q_cands q' = q_cands q ++ more /\ length more <= 1.
Proof.
  intros en q q'. unfold search_step.
  destruct (peek (q_tags q)) as [[nt tags]|]; cbn [of_fuel pbind]; [|intros [E|E]; discriminate].
  cbn [q_frontier q_cands q_seen q_tags q_activated]. cbv zeta.
  destruct (q_frontier q) as [|top rest] eqn:Ef.
  - destruct (activate en _) as [[b q1]|e] eqn:Ea; cbn [pbind]; [|intros [E|E]; discriminate].
    apply activate_cands in Ea. cbn [q_cands] in Ea.
    destruct b; intros [E|E]; try discriminate; injection E as <-; exists []; rewrite app_nil_r; (split; [exact Ea|cbn; lia]).
  - destruct (match nt with Some _ => _ | None => _ end).
    + destruct (activate en _) as [[b q1]|e] eqn:Ea; cbn [pbind]; [|intros [E|E]; discriminate].
      apply activate_cands in Ea. cbn [q_cands] in Ea.
      intros [E|E]; try discriminate; injection E as <-; exists []; rewrite app_nil_r; (split; [exact Ea|cbn; lia]).
    + destruct (pop (e_stream top)) as [[v vs]|]; cbn [of_fuel pbind]; [|intros [E|E]; discriminate].
      destruct (match v with Some _ => _ | None => _ end) as [fr|e]; cbn [pbind]; [|intros [E|E]; discriminate].
      destruct (text_mem _ _); intros [E|E]; try discriminate; injection E as <-; cbn [q_cands].
      * exists []; rewrite app_nil_r; (split; [reflexivity|cbn; lia]).
      * eexists; split; [reflexivity|cbn; lia].
Qed.
Lemma loop_grows : forall en n fuel q q', search_loop fuel en n q = POk q' -> exists more, q_cands q' = q_cands q ++ more.
Proof.
  intros en n fuel; induction fuel as [|f IH]; intros q q'; cbn [search_loop]; destruct (_ <? _).
  - discriminate.
  - intros E; injection E as <-. exists []; rewrite app_nil_r; reflexivity.
  - destruct (search_step en q) as [[q1|q1]|e] eqn:Es; cbn [pbind].
    + intros E. destruct (IH _ _ E) as (m2 & E2). destruct (step_grows en q q1 (or_introl Es)) as (m1 & E1 & _).
      exists (m1 ++ m2). rewrite E2, E1, app_assoc. reflexivity.
    + intros E; injection E as <-. destruct (step_grows en q q1 (or_intror Es)) as (m1 & E1 & _). exists m1; exact E1.
    + discriminate.
  - intros E; injection E as <-. exists []; rewrite app_nil_r; reflexivity.
Qed.
Lemma loop_prefix : forall en n m f g q q1 q2, n <= m -> length (q_cands q) <= n ->
  search_loop f en n q = POk q1 -> search_loop g en m q = POk q2 ->
  length (q_cands q1) <= n /\ q_cands q1 = firstn n (q_cands q2).
Proof.
  intros en n m f; induction f as [|f IH]; intros g q q1 q2 Hnm Hl E1 E2.
  - cbn [search_loop] in E1. destruct (length (q_cands q) <? n) eqn:El; [discriminate|]. injection E1 as <-.
    apply Nat.ltb_ge in El. destruct (loop_grows _ _ _ _ _ E2) as (more & ->).
    split; [exact Hl|]. replace n with (length (q_cands q) + 0) by lia. rewrite firstn_app_2. cbn. rewrite app_nil_r. reflexivity.
  - cbn [search_loop] in E1. destruct (length (q_cands q) <? n) eqn:El.
    + apply Nat.ltb_lt in El. destruct g as [|g]; cbn [search_loop] in E2; rewrite (proj2 (Nat.ltb_lt _ _)) in E2 by lia; [discriminate|].
      destruct (search_step en q) as [[q'|q']|e] eqn:Es; cbn [pbind] in E1, E2; [| |discriminate].
      * apply (IH g q' q1 q2 Hnm); [|exact E1|exact E2].
        destruct (step_grows en q q' (or_introl Es)) as (more & -> & L). rewrite app_length. lia.
      * injection E1 as <-. injection E2 as <-. destruct (step_grows en q q' (or_intror Es)) as (more & Em & L).
        assert (length (q_cands q') <= n) by (rewrite Em, app_length; lia).
        split; [assumption|]. symmetry; apply firstn_all2; assumption.
    + injection E1 as <-.
      apply Nat.ltb_ge in El. destruct (loop_grows _ _ _ _ _ E2) as (more & ->).
      split; [exact Hl|]. replace n with (length (q_cands q) + 0) by lia. rewrite firstn_app_2. cbn. rewrite app_nil_r. reflexivity.
Qed.
Theorem candidates_prefix : forall en x n m f g a b, 1 <= n -> n <= m ->
  normalization_candidates f en x n = POk a -> normalization_candidates g en x m = POk b -> a = firstn n b.
Proof.
  intros en x n m f g a b H1 Hnm. unfold normalization_candidates.
  destruct (search_loop f en n _) as [q1|] eqn:E1; cbn [pbind]; [|discriminate].
  destruct (search_loop g en m _) as [q2|] eqn:E2; cbn [pbind]; [|discriminate].
  destruct (loop_prefix en n m f g (Search (new_stream (tag_paths en x)) [] 0 [] []) q1 q2 Hnm (Nat.le_0_l n) E1 E2) as (_ & E).
  destruct (q_cands q1); [discriminate|]. destruct (q_cands q2); [discriminate|].
  intros Ea Eb. injection Ea as <-. injection Eb as <-. exact E.
Qed.
(** If the larger request succeeds, so does the smaller, within the same fuel. *)
Lemma loop_smaller : forall en n m f q q2, n <= m -> search_loop f en m q = POk q2 ->
  exists q1, search_loop f en n q = POk q1.
Proof.
  intros en n m f; induction f as [|f IH]; intros q q2 Hnm E; cbn [search_loop] in *.
  - destruct (length (q_cands q) <? m) eqn:Em; [discriminate|]. apply Nat.ltb_ge in Em.
    rewrite (proj2 (Nat.ltb_ge _ _)) by lia. eexists; reflexivity.
  - destruct (length (q_cands q) <? n) eqn:En; [|eexists; reflexivity].
    apply Nat.ltb_lt in En. rewrite (proj2 (Nat.ltb_lt _ _)) in E by lia.
    destruct (search_step en q) as [[q'|q']|e]; cbn [pbind] in *; [eapply IH; eassumption|eexists; reflexivity|discriminate].
Qed.
Theorem candidates_smaller : forall en x n m f b, 1 <= n -> n <= m ->
  normalization_candidates f en x m = POk b -> exists a, normalization_candidates f en x n = POk a.
Proof.
  intros en x n m f b H1 Hnm. unfold normalization_candidates.
  destruct (search_loop f en m _) as [q2|] eqn:E2; cbn [pbind]; [|discriminate].
  destruct (loop_smaller en n m f _ q2 Hnm E2) as (q1 & E1). rewrite E1. cbn [pbind].
  destruct (loop_prefix en n m f f (Search (new_stream (tag_paths en x)) [] 0 [] []) q1 q2 Hnm (Nat.le_0_l n) E1 E2) as (_ & E).
  destruct (q_cands q2) as [|c cs]; [discriminate|]. intros _.
  rewrite E. destruct n; [lia|]. cbn [firstn]. eexists; reflexivity.
Qed.
