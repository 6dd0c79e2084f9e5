(** normalize, tag, verbalize and normalize_with_mapping (C16, C17, C19-C25). *)
From Coq Require Import List NArith ZArith Bool Arith Lia Sorted.
From Verif Require Import Text TextFacts TokenModel TokenSpec TokenProofs TokenProofs2 TokenProofs3.
From Verif Require Import AlignModel AlignSpec AlignBytes AlignProofs.
From Verif Require Import NbestModel NbestSpec NbestStream NbestSearch.
Import ListNotations.

(** ** Arguments *)
Lemma validate_ok : forall v n, validate_nbest v = POk n <-> exists z, v = PyInt z /\ (1 <= z)%Z /\ n = Z.to_nat z.
Proof.
  intros v n. unfold validate_nbest. destruct v as [b|z|]; [split; [discriminate|intros (z & E & _); discriminate]| |split; [discriminate|intros (z & E & _); discriminate]].
  destruct (Z.ltb_spec z 1).
  - split; [discriminate|]. intros (z' & E & L & _). injection E as <-. lia.
  - split.
    + intros E; injection E as <-. exists z. repeat split; assumption.
    + intros (z' & E & L & ->). injection E as <-. reflexivity.
Qed.
Lemma validate_err : forall v e, validate_nbest v = PErr e -> e = PBadNbest.
Proof. intros [b|z|] e; cbn; try congruence. destruct (z <? 1)%Z; congruence. Qed.

Lemma normalize_inv : forall fuel en x v ans, normalize fuel en x v = POk ans -> x <> [] ->
  exists z cs, v = PyInt z /\ (1 <= z)%Z /\ normalization_candidates fuel en x (Z.to_nat z) = POk cs /\
    ans = answer_of (Z.to_nat z) (map c_output cs) [].
Proof.
  intros fuel en x v ans E Nx. unfold normalize in E.
  destruct (validate_nbest v) as [n|e] eqn:Ev; cbn [pbind] in E; [|discriminate].
  apply validate_ok in Ev. destruct Ev as (z & -> & L & ->).
  destruct x as [|c x]; [congruence|].
  destruct (normalization_candidates _ _ _ _) as [cs|e] eqn:Ec; cbn [pbind] in E; [|discriminate].
  injection E as <-. exists z, cs. repeat split; assumption.
Qed.
Lemma candidates_nonempty : forall fuel en x n cs, normalization_candidates fuel en x n = POk cs -> cs <> [].
Proof.
  intros fuel en x n cs. unfold normalization_candidates. destruct (search_loop _ _ _ _) as [q|]; cbn [pbind]; [|discriminate].
  destruct (q_cands q); [discriminate|]. intros E; injection E as <-. discriminate.
Qed.
Lemma listed_answer : forall {A} n (l : list A) d, 1 <= n -> length l <= n -> l <> [] -> listed (answer_of n l d) = l.
Proof.
  intros A n l d L1 L2 N. unfold answer_of. destruct (Nat.eqb_spec n 1) as [->|_]; [|reflexivity].
  destruct l as [|a [|b l]]; [congruence|reflexivity|cbn in L2; lia].
Qed.

(** ** Finite sets *)
Lemma enum_complete : forall S E, finite S -> enumerates S E -> forall t w, S t w -> exists i, E i = Some (t, w).
Proof.
  intros S E (l & Hl) (Su & Inj & So & No & Mi & Do).
  assert (Hend : exists N, E N = None).
  { set (f := fun i => match E i with Some (t, _) => t | None => [] end).
    assert (D : forall k, (exists i, i < k /\ E i = None) \/ (forall i, i < k -> E i <> None)).
    { induction k as [|k [(i & L & Ei)|IH]]; [right; intros; lia|left; exists i; split; [lia|exact Ei]|].
      destruct (E k) eqn:Ek; [right|left; exists k; split; [lia|exact Ek]].
      intros i L. destruct (Nat.eq_dec i k) as [->|]; [congruence|apply IH; lia]. }
    destruct (D (Datatypes.S (length l))) as [(i & _ & Ei)|D']; [exists i; exact Ei|exfalso].
    assert (L : length (map f (seq 0 (Datatypes.S (length l)))) <= length l).
    { apply NoDup_incl_length.
      - apply nodup_map_inj; [|apply seq_NoDup]. intros i j Hi Hj Eq. apply in_seq in Hi, Hj. unfold f in Eq.
        pose proof (D' i ltac:(lia)). pose proof (D' j ltac:(lia)).
        destruct (E i) as [[t w]|] eqn:Ei; [|congruence]. destruct (E j) as [[t' w']|] eqn:Ej; [|congruence].
        subst t'. exact (Inj i j t w w' Ei Ej).
      - intros t Ht. apply in_map_iff in Ht. destruct Ht as (i & <- & Hi). apply in_seq in Hi. unfold f.
        pose proof (D' i ltac:(lia)). destruct (E i) as [[t w]|] eqn:Ei; [|congruence]. exact (Hl t w (Su i t w Ei)). }
    rewrite map_length, seq_length in L. lia. }
  destruct Hend as (N & EN). intros t w St. destruct (Do N t w EN St) as (j & _ & Ej). exists j; exact Ej.
Qed.
Lemma enum_first : forall S E b, enumerates S E -> ((exists o, E 0 = Some (o, b)) <-> least S b).
Proof.
  intros S E b (Su & Inj & So & No & Mi & Do). split.
  - intros (o & E0). split; [exists o; exact (Su 0 o b E0)|].
    intros t w St. apply (Mi 0 (o, b) t w E0 St). intros j L; lia.
  - intros ((t & St) & Hle). destruct (E 0) as [[o b']|] eqn:E0.
    + exists o. f_equal. f_equal. apply Z.le_antisymm.
      * apply (Mi 0 (o, b') t b E0 St). intros j L; lia.
      * apply (Hle o b'). exact (Su 0 o b' E0).
    + destruct (Do 0 t b E0 St) as (j & L & _). lia.
Qed.
Lemma enum_empty : forall S E, enumerates S E -> (E 0 = None <-> forall t w, ~ S t w).
Proof.
  intros S E (Su & Inj & So & No & Mi & Do). split.
  - intros E0 t w St. destruct (Do 0 t w E0 St) as (j & L & _). lia.
  - intros H. destruct (E 0) as [[t w]|] eqn:E0; [|reflexivity]. exfalso. exact (H t w (Su 0 t w E0)).
Qed.

Section Oracle.
Variable en : engine.
Variables T V : text -> wset.
Hypothesis O : search_oracle en T V.

Lemma ranked_joint : forall x i j t o w, ranked en (ET en x) (EV en) i j t o w -> joint en T V x t o w.
Proof.
  intros x i j t o w (r & tw & vw & o0 & b & E1 & E2 & E3 & E4 & ->).
  pose proof (ET_enum en T V x O) as HT. pose proof (EV_enum en T V O r) as HV.
  exists r, tw, vw, b. split; [apply (proj1 HT i), E1|]. split; [exact E2|]. split; [apply (proj1 HV j), E3|].
  split; [|reflexivity]. apply (enum_first _ _ _ HV). exists o0; exact E4.
Qed.
Lemma joint_ranked : forall x t o w, finite (T x) -> (forall r, finite (V r)) -> joint en T V x t o w ->
  exists i j, ranked en (ET en x) (EV en) i j t o w.
Proof.
  intros x t o w FT FV (r & tw & vw & b & HT & Er & HV & Hb & ->).
  destruct (enum_complete _ _ FT (ET_enum en T V x O) t tw HT) as (i & Ei).
  destruct (enum_complete _ _ (FV r) (EV_enum en T V O r) o vw HV) as (j & Ej).
  apply (enum_first _ _ _ (EV_enum en T V O r)) in Hb. destruct Hb as (o0 & E0).
  exists i, j, r, tw, vw, o0, b. repeat split; assumption.
Qed.

Lemma first_distinct_kbest : forall x n cs, finite (T x) -> (forall r, finite (V r)) ->
  first_distinct n (ranked en (ET en x) (EV en)) cs ->
  kbest (outputs en T V x) n (map (fun c => (c_output c, c_weight c)) cs).
Proof.
  intros x n cs FT FV (Hr & Hs & Hd & Hl & Hc).
  assert (Hbw : forall a b : Z * nat * nat, before a b -> (fst (fst a) <= fst (fst b))%Z)
    by (intros [[w1 i1] j1] [[w2 i2] j2]; unfold before; cbn; lia).
  assert (Huniq : forall c c', In c cs -> In c' cs -> c_output c = c_output c' -> c = c').
  { clear - Hd. intros c c' H H' E. induction cs as [|d cs IH]; [destruct H|]. cbn [map] in Hd.
    inversion Hd as [|? ? Hn Hd']; subst.
    destruct H as [->|H], H' as [->|H']; [reflexivity| | |apply IH; assumption].
    - exfalso. apply Hn. rewrite E. apply in_map, H'.
    - exfalso. apply Hn. rewrite <- E. apply in_map, H. }
  assert (Hmin : forall c t w, In c cs -> joint en T V x t (c_output c) w -> (c_weight c <= w)%Z).
  { intros c t w Ic J. destruct (joint_ranked x t _ w FT FV J) as (i & j & R).
    destruct (Hc i j t _ w R) as [(c' & Ic' & Eo & B)|(_ & B)].
    - rewrite <- (Huniq c' c Ic' Ic Eo). destruct B as [B|B]; [injection B as -> _ _; lia|apply Hbw in B; exact B].
    - apply (Hbw _ _ (B c Ic)). }
  split; [|split; [|split; [|split; [|split]]]].
  - intros o w I. apply in_map_iff in I. destruct I as (c & E & Ic). injection E as <- <-. split.
    + exists (c_tagged c). apply (ranked_joint x (c_trank c) (c_vrank c)), Hr, Ic.
    + intros t w' J. exact (Hmin c t w' Ic J).
  - rewrite map_map. exact Hd.
  - clear - Hs Hbw. induction Hs as [|c cs Hs IH Hf]; cbn [map]; constructor; [exact IH|].
    rewrite Forall_forall in *. intros y Hy. apply in_map_iff in Hy. destruct Hy as (c' & <- & Hc').
    unfold lighter; cbn [snd]. exact (Hbw _ _ (Hf c' Hc')).
  - intros o w y ((t & J) & Hle) Hn Iy. apply in_map_iff in Iy. destruct Iy as (c & <- & Ic). cbn [snd].
    destruct (joint_ranked x t o w FT FV J) as (i & j & R).
    destruct (Hc i j t o w R) as [(c' & Ic' & Eo & B)|(_ & B)].
    + exfalso. apply Hn. apply in_map_iff. exists c'. split; [|exact Ic']. f_equal; [exact Eo|].
      apply Z.le_antisymm.
      * subst o. exact (Hmin c' t w Ic' J).
      * subst o. apply (Hle (c_tagged c')). apply (ranked_joint x (c_trank c') (c_vrank c')), Hr, Ic'.
    + exact (Hbw _ _ (B c Ic)).
  - rewrite map_length. exact Hl.
  - rewrite map_length. intros L o w ((t & J) & Hle).
    destruct (joint_ranked x t o w FT FV J) as (i & j & R).
    destruct (Hc i j t o w R) as [(c' & Ic' & Eo & B)|(E & B)]; [|lia].
    apply in_map_iff. exists c'. split; [|exact Ic']. f_equal; [exact Eo|]. subst o.
    apply Z.le_antisymm; [exact (Hmin c' t w Ic' J)|]. apply (Hle (c_tagged c')).
    apply (ranked_joint x (c_trank c') (c_vrank c')), Hr, Ic'.
Qed.

Lemma candidates_spec : forall fuel x n cs, 1 <= n -> normalization_candidates fuel en x n = POk cs ->
  cs <> [] /\ first_distinct n (ranked en (ET en x) (EV en)) cs.
Proof.
  intros fuel x n cs L E. pose proof (candidates_ok en T V x O fuel n L) as H. rewrite E in H. exact H.
Qed.

Theorem normalize_exact : forall fuel x z ans, x <> [] -> normalize fuel en x (PyInt z) = POk ans ->
  exists ET EV cs, enumerates (T x) ET /\ (forall r, enumerates (V r) (EV r)) /\
    first_distinct (Z.to_nat z) (ranked en ET EV) cs /\ cs <> [] /\ listed ans = map c_output cs.
Proof.
  intros fuel x z ans Nx E. destruct (normalize_inv _ _ _ _ _ E Nx) as (z' & cs & Ez & L & Ec & ->). injection Ez as <-.
  destruct (candidates_spec fuel x (Z.to_nat z) cs ltac:(lia) Ec) as (N & F).
  exists (ET en x), (EV en), cs. split; [exact (ET_enum en T V x O)|]. split; [exact (EV_enum en T V O)|].
  split; [exact F|]. split; [exact N|]. apply listed_answer; [lia| |].
  - rewrite map_length. apply F.
  - destruct cs; [congruence|discriminate].
Qed.
Theorem normalize_kbest : forall fuel x z ans, x <> [] -> finite (T x) -> (forall r, finite (V r)) ->
  normalize fuel en x (PyInt z) = POk ans ->
  exists best, kbest (outputs en T V x) (Z.to_nat z) best /\ best <> [] /\ listed ans = map fst best.
Proof.
  intros fuel x z ans Nx FT FV E. destruct (normalize_inv _ _ _ _ _ E Nx) as (z' & cs & Ez & L & Ec & ->). injection Ez as <-.
  destruct (candidates_spec fuel x (Z.to_nat z) cs ltac:(lia) Ec) as (N & F).
  exists (map (fun c => (c_output c, c_weight c)) cs). split; [apply first_distinct_kbest; assumption|].
  split; [destruct cs; [congruence|discriminate]|]. rewrite map_map. apply listed_answer; [lia| |].
  - rewrite map_length. apply F.
  - destruct cs; [congruence|discriminate].
Qed.

(** ** Termination and errors *)
Theorem normalize_terminates : forall x z l, x <> [] -> (1 <= z)%Z -> (forall t w, T x t w -> In t l) ->
  forall fuel, length l * S (Z.to_nat z) < fuel ->
  match normalize fuel en x (PyInt z) with
  | POk ans => exists t o w, joint en T V x t o w
  | PErr PNoPath => forall t o w, ~ joint en T V x t o w
  | PErr (PParse e) => exists t w, T x t w /\ reorder (engine_orders en) t = Err e
  | PErr _ => False
  end.
Proof.
  intros x z l Nx L Hl fuel Lf. unfold normalize.
  assert (Ev : validate_nbest (PyInt z) = POk (Z.to_nat z)) by (apply validate_ok; exists z; repeat split; lia).
  rewrite Ev. cbn [pbind]. destruct x as [|c x]; [congruence|].
  pose proof (candidates_ok en T V (c :: x) O fuel (Z.to_nat z) ltac:(lia)) as H.
  destruct (normalization_candidates fuel en (c :: x) (Z.to_nat z)) as [cs|e]; cbn [pbind].
  - destruct H as (N & F). destruct cs as [|d cs]; [congruence|].
    exists (c_tagged d), (c_output d), (c_weight d). apply (ranked_joint _ (c_trank d) (c_vrank d)), F. left; reflexivity.
  - destruct e; try exact H.
    + intros t o w (r & tw & vw & b & HT & Er & HV & Hb & _).
      destruct (enum_complete _ _ (ex_intro _ l Hl) (ET_enum en T V (c :: x) O) t tw HT) as (i & Ei).
      apply (enum_first _ _ _ (EV_enum en T V O r)) in Hb. destruct Hb as (o0 & E0).
      apply (H i 0 t o0 (tw + (b - b))%Z). exists r, tw, b, o0, b. repeat split; assumption.
    + specialize (H l Hl). lia.
Qed.

(** ** The best output *)
Theorem normalize_best : forall fuel x o, x <> [] -> finite (T x) ->
  normalize fuel en x (PyInt 1) = POk (One o) ->
  exists t r tw b, T x t tw /\ reorder (engine_orders en) t = Ok r /\ V r o b /\ least (V r) b /\
    forall t' r' tw' o' v', T x t' tw' -> reorder (engine_orders en) t' = Ok r' -> V r' o' v' -> (tw <= tw')%Z.
Proof.
  intros fuel x o Nx FT E. destruct (normalize_inv _ _ _ _ _ E Nx) as (z' & cs & Ez & L & Ec & Ea). injection Ez as <-.
  destruct (candidates_spec fuel x 1 cs ltac:(lia) Ec) as (N & Hr & Hs & Hd & Hl & Hc).
  destruct cs as [|c [|c2 cs]]; [congruence| |cbn in Hl; lia].
  cbn in Ea. injection Ea as ->.
  destruct (Hr c (or_introl eq_refl)) as (r & tw & vw & o0 & b & E1 & E2 & E3 & E4 & Ew).
  assert (Hfirst : forall i j t o w, ranked en (ET en x) (EV en) i j t o w ->
    (c_weight c, c_trank c, c_vrank c) = (w, i, j) \/ before (c_weight c, c_trank c, c_vrank c) (w, i, j)).
  { intros i j t o w R. destruct (Hc i j t o w R) as [(c' & [<-|[]] & _ & B)|(_ & B)]; [exact B|right; apply B; left; reflexivity]. }
  assert (R0 : ranked en (ET en x) (EV en) (c_trank c) 0 (c_tagged c) o0 (tw + (b - b))%Z).
  { exists r, tw, b, o0, b. repeat split; assumption. }
  pose proof (EV_enum en T V O r) as HV. pose proof (ET_enum en T V x O) as HT.
  assert (Evw : vw = b).
  { assert (b <= vw)%Z by (apply (proj1 (proj2 (proj2 HV)) 0 (c_vrank c) (o0, b) (c_output c, vw)); [lia|assumption|assumption]).
    destruct (Hfirst _ _ _ _ _ R0) as [B|B].
    - injection B as B1 _. lia.
    - unfold before in B. lia. }
  subst vw.
  exists (c_tagged c), r, tw, b. split; [apply (proj1 HT (c_trank c)), E1|]. split; [exact E2|].
  split; [apply (proj1 HV (c_vrank c)), E3|]. split; [apply (enum_first _ _ _ HV); exists o0; exact E4|].
  intros t' r' tw' o' v' HT' Er' HV'.
  destruct (enum_complete _ _ FT HT t' tw' HT') as (i & Ei).
  destruct (EV en r' 0) as [[o0' b']|] eqn:E0'.
  2:{ destruct (proj1 (enum_empty _ _ (EV_enum en T V O r')) E0' _ _ HV'). }
  assert (R' : ranked en (ET en x) (EV en) i 0 t' o0' (tw' + (b' - b'))%Z) by (exists r', tw', b', o0', b'; repeat split; assumption).
  destruct (Hfirst _ _ _ _ _ R') as [B|B]; [injection B as B1 _ _; lia|unfold before in B; lia].
Qed.
End Oracle.

(** If the result is a single string the request was for one. *)
Lemma normalize_shape : forall fuel en x v ans, normalize fuel en x v = POk ans ->
  exists z, v = PyInt z /\ (1 <= z)%Z /\ match ans with One _ => z = 1%Z | Many l => z <> 1%Z /\ length l <= Z.to_nat z end.
Proof.
  intros fuel en x v ans E. unfold normalize in E.
  destruct (validate_nbest v) as [n|e] eqn:Ev; cbn [pbind] in E; [|discriminate].
  apply validate_ok in Ev. destruct Ev as (z & -> & L & ->). exists z. split; [reflexivity|]. split; [exact L|].
  destruct x as [|c x].
  - injection E as <-. destruct (Nat.eqb_spec (Z.to_nat z) 1); [lia|]. cbn; lia.
  - destruct (normalization_candidates _ _ _ _) as [cs|e] eqn:Ec; cbn [pbind] in E; [|discriminate].
    injection E as <-. unfold answer_of. destruct (Nat.eqb_spec (Z.to_nat z) 1); [lia|]. split; [lia|].
    rewrite map_length. unfold normalization_candidates in Ec.
    destruct (search_loop _ _ _ _) as [q|] eqn:Es; cbn [pbind] in Ec; [|discriminate].
    destruct (loop_prefix en (Z.to_nat z) (Z.to_nat z) fuel fuel (Search (new_stream (tag_paths en (c :: x))) [] 0 [] []) q q
      (Nat.le_refl _) (Nat.le_0_l _) Es Es) as (Hl & _).
    destruct (q_cands q); [discriminate|]. injection Ec as <-. exact Hl.
Qed.

Theorem normalize_prefix : forall en x f g n m a b, (1 <= n <= m)%Z ->
  normalize f en x (PyInt n) = POk a -> normalize g en x (PyInt m) = POk b ->
  listed a = firstn (Z.to_nat n) (listed b).
Proof.
  intros en x f g n m a b L Ea Eb.
  destruct x as [|c x].
  - unfold normalize in Ea, Eb.
    rewrite (proj2 (validate_ok (PyInt n) (Z.to_nat n))) in Ea by (exists n; repeat split; lia).
    rewrite (proj2 (validate_ok (PyInt m) (Z.to_nat m))) in Eb by (exists m; repeat split; lia).
    cbn [pbind] in Ea, Eb. injection Ea as <-. injection Eb as <-.
    replace (Z.to_nat n) with (S (Z.to_nat (n - 1))) by lia. replace (Z.to_nat m) with (S (Z.to_nat (m - 1))) by lia.
    destruct (S (Z.to_nat (n - 1)) =? 1), (S (Z.to_nat (m - 1)) =? 1); cbn [listed firstn]; rewrite firstn_nil; reflexivity.
  - destruct (normalize_inv _ _ _ _ _ Ea ltac:(discriminate)) as (z & ca & Ez & _ & Eca & Ha). injection Ez as <-.
    destruct (normalize_inv _ _ _ _ _ Eb ltac:(discriminate)) as (z & cb & Ez & _ & Ecb & Hb). injection Ez as <-.
    pose proof (candidates_prefix en (c :: x) (Z.to_nat n) (Z.to_nat m) f g ca cb ltac:(lia) ltac:(lia) Eca Ecb) as P.
    pose proof (candidates_nonempty _ _ _ _ _ Eca) as Na. pose proof (candidates_nonempty _ _ _ _ _ Ecb) as Nb.
    destruct (normalize_shape _ _ _ _ _ Eb) as (z & Ez & _ & Sb). injection Ez as <-.
    assert (Lb : listed b = map c_output cb).
    { subst b. unfold answer_of in *. destruct (Nat.eqb_spec (Z.to_nat m) 1) as [E1|_]; [|reflexivity].
      assert (n = m) by lia. subst n.
      assert (length cb <= 1).
      { rewrite Eca in Ecb || idtac. pose proof (candidates_prefix en (c :: x) (Z.to_nat m) (Z.to_nat m) g g cb cb ltac:(lia) ltac:(lia) Ecb Ecb) as Q.
        rewrite Q, firstn_length. lia. }
      destruct cb as [|d [|d2 cb]]; [congruence|reflexivity|cbn in H; lia]. }
    rewrite Lb. subst a. unfold answer_of. destruct (Nat.eqb_spec (Z.to_nat n) 1) as [E1|_].
    + rewrite E1 in *. destruct cb as [|d cb]; [congruence|]. subst ca. cbn [firstn map listed hd]. destruct cb; reflexivity.
    + cbn [listed]. rewrite P, firstn_map. reflexivity.
Qed.

(** ** Arguments, all three entry points *)
Definition not_bad {A} (r : pres A) : Prop := r <> PErr PBadNbest.
Lemma bind_not_bad : forall {A B} (r : pres A) (f : A -> pres B), not_bad r -> (forall a, not_bad (f a)) -> not_bad (pbind r f).
Proof. intros A B [a|e] f Hr Hf; cbn [pbind]; [apply Hf|]. intros E. apply Hr. injection E as ->. reflexivity. Qed.
Lemma fuel_not_bad : forall {A} (o : option A), not_bad (of_fuel o).
Proof. intros A [a|]; cbn; discriminate. Qed.
Lemma parse_not_bad : forall {A} (o : res A), not_bad (of_parse o).
Proof. intros A [a|]; cbn; discriminate. Qed.
Lemma align_not_bad : forall {A} (o : ares A), not_bad (of_align o).
Proof. intros A [a|]; cbn; discriminate. Qed.
Lemma heappush_not_bad : forall e h, not_bad (heappush e h).
Proof. intros e h; unfold heappush; destruct (existsb _ _); discriminate. Qed.
Lemma activate_not_bad : forall en q, not_bad (activate en q).
Proof.
  intros en q. unfold activate. apply bind_not_bad; [apply fuel_not_bad|]. intros [[t|] s]; [|discriminate].
  apply bind_not_bad; [apply parse_not_bad|]. intros r. apply bind_not_bad; [apply fuel_not_bad|]. intros [[v|] s']; [|discriminate].
  cbv zeta. apply bind_not_bad; [apply heappush_not_bad|]. discriminate.
Qed.
Lemma step_not_bad : forall en q, not_bad (search_step en q).
Proof.
  intros en q. unfold search_step. apply bind_not_bad; [apply fuel_not_bad|]. intros [nt tags]. cbv zeta. cbn [q_frontier].
  destruct (q_frontier q) as [|top rest].
  - apply bind_not_bad; [apply activate_not_bad|]. intros [[] q']; discriminate.
  - destruct (match nt with None => false | Some t => _ end).
    + apply bind_not_bad; [apply activate_not_bad|]. intros [b q']; discriminate.
    + apply bind_not_bad; [apply fuel_not_bad|]. intros [v vs]. apply bind_not_bad.
      * destruct v; [apply heappush_not_bad|discriminate].
      * intros f. destruct (text_mem _ _); discriminate.
Qed.
Lemma candidates_not_bad : forall fuel en x n, not_bad (normalization_candidates fuel en x n).
Proof.
  intros fuel en x n. unfold normalization_candidates. apply bind_not_bad.
  - generalize (Search (new_stream (tag_paths en x)) [] 0 [] []). induction fuel as [|f IH]; intros q; cbn [search_loop].
    + destruct (_ <? n); discriminate.
    + destruct (_ <? n); [|discriminate]. apply bind_not_bad; [apply step_not_bad|]. intros [q'|q']; [apply IH|discriminate].
  - intros q. destruct (q_cands q); discriminate.
Qed.
Lemma mapping_not_bad : forall en x b cs, not_bad (map_pres (fun c => candidate_mapping en x c b) cs).
Proof.
  intros en x b cs. induction cs as [|c cs IH]; cbn [map_pres]; [discriminate|]. apply bind_not_bad.
  - unfold candidate_mapping. apply bind_not_bad.
    + unfold verbalize_tagged. apply bind_not_bad; [apply parse_not_bad|]. intros toks. apply bind_not_bad; [apply parse_not_bad|].
      intros [r s]. cbv zeta. apply bind_not_bad; [apply fuel_not_bad|]. intros a. apply bind_not_bad; [apply align_not_bad|].
      intros [o os]; discriminate.
    + intros [[o t] os]. apply bind_not_bad; [apply fuel_not_bad|]. intros a. apply bind_not_bad; [apply align_not_bad|]. discriminate.
  - intros r. apply bind_not_bad; [exact IH|]. discriminate.
Qed.
Theorem accepted_args : forall z, (1 <= z)%Z -> forall fuel en x b,
  tag en x (PyInt z) <> PErr PBadNbest /\ normalize fuel en x (PyInt z) <> PErr PBadNbest /\
  normalize_with_mapping fuel en x (PyInt z) b <> PErr PBadNbest.
Proof.
  intros z L fuel en x b.
  assert (Ev : validate_nbest (PyInt z) = POk (Z.to_nat z)) by (apply validate_ok; exists z; repeat split; lia).
  unfold tag, normalize, normalize_with_mapping. rewrite Ev. cbn [pbind]. destruct x as [|c x].
  - repeat split; discriminate.
  - split; [|split].
    + destruct (_ =? 1); [|discriminate]. destruct (tag_string _ _); discriminate.
    + apply bind_not_bad; [apply candidates_not_bad|discriminate].
    + apply bind_not_bad; [apply candidates_not_bad|]. intros cs. apply bind_not_bad; [apply mapping_not_bad|discriminate].
Qed.
Theorem rejected_args : forall v, (forall z, v = PyInt z -> (z < 1)%Z) -> forall fuel en x b,
  tag en x v = PErr PBadNbest /\ normalize fuel en x v = PErr PBadNbest /\
  normalize_with_mapping fuel en x v b = PErr PBadNbest.
Proof.
  intros v H fuel en x b.
  assert (Ev : validate_nbest v = PErr PBadNbest).
  { destruct v as [c|z|]; cbn; try reflexivity. specialize (H z eq_refl). destruct (Z.ltb_spec z 1); [reflexivity|lia]. }
  unfold tag, normalize, normalize_with_mapping. rewrite Ev. repeat split; reflexivity.
Qed.
Theorem empty_text : forall fuel en z b, (1 <= z)%Z ->
  tag en [] (PyInt z) = POk (if (z =? 1)%Z then One [] else Many [[]]) /\
  normalize fuel en [] (PyInt z) = POk (if (z =? 1)%Z then One [] else Many [[]]) /\
  normalize_with_mapping fuel en [] (PyInt z) b =
    POk (if (z =? 1)%Z then One (Result [] [] []) else Many [Result [] [] []]) /\
  verbalize en [] = POk [].
Proof.
  intros fuel en z b L.
  assert (Ev : validate_nbest (PyInt z) = POk (Z.to_nat z)) by (apply validate_ok; exists z; repeat split; lia).
  unfold tag, normalize, normalize_with_mapping. rewrite Ev. cbn [pbind].
  replace (Z.to_nat z =? 1) with (z =? 1)%Z; [repeat split; reflexivity|].
  destruct (Z.eqb_spec z 1), (Nat.eqb_spec (Z.to_nat z) 1); try reflexivity; lia.
Qed.

(** ** More fuel changes nothing *)
Lemma loop_more : forall en n f q r, search_loop f en n q = r -> r <> PErr PFuel -> forall g, f <= g -> search_loop g en n q = r.
Proof.
  intros en n f; induction f as [|f IH]; intros q r E N g L; cbn [search_loop] in E.
  - destruct g; cbn [search_loop]; destruct (_ <? n); congruence.
  - destruct g as [|g]; [lia|]. cbn [search_loop]. destruct (_ <? n); [|exact E].
    destruct (search_step en q) as [[q'|q']|e]; cbn [pbind] in *; try exact E. apply IH; [exact E|exact N|lia].
Qed.
Theorem normalize_more_fuel : forall en x v f g r, normalize f en x v = r -> r <> PErr PFuel -> f <= g -> normalize g en x v = r.
Proof.
  intros en x v f g r E N L. unfold normalize in *. destruct (validate_nbest v); cbn [pbind] in *; [|exact E].
  destruct x as [|c x]; [exact E|]. unfold normalization_candidates in *.
  destruct (search_loop f en a _) as [q|e] eqn:Es; cbn [pbind] in *.
  - rewrite (loop_more _ _ _ _ _ Es ltac:(discriminate) g L). cbn [pbind]. exact E.
  - assert (e <> PFuel) by congruence. rewrite (loop_more _ _ _ _ _ Es ltac:(congruence) g L). exact E.
Qed.

(** ** The stream under any sequence of peeks and pops (C22) *)
Lemma play_at : forall S p, functional S -> (forall k, kbest S k (p k)) ->
  forall ops k s, at_pos p k s -> play ops s = Some (expected (popped p) k ops).
Proof.
  intros S p Hf Hk ops; induction ops as [|[] ops IH]; intros k s H; cbn [play expected]; [reflexivity| |].
  - destruct (pop_at S p Hf Hk k s H) as (s' & -> & H'). cbn [andb].
    destruct (popped p k) as [[t w]|]; rewrite (IH _ _ H'); reflexivity.
  - destruct (peek_at S p Hf Hk k s H) as (s' & -> & H'). cbn [andb].
    destruct (popped p k) as [[t w]|]; rewrite (IH _ _ H'); reflexivity.
Qed.
Theorem stream_plays : forall S p, functional S -> (forall k, kbest S k (p k)) ->
  exists E, enumerates S E /\ forall ops, play ops (new_stream p) = Some (expected E 0 ops).
Proof.
  intros S p Hf Hk. exists (popped p). split; [apply popped_enumerates; assumption|].
  intros ops. eapply play_at; [exact Hf|exact Hk|apply at_new].
Qed.
