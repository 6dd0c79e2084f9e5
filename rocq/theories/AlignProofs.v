(** The main statements about alignment.py, assembled from the loop invariants. *)
From Coq Require Import List NArith Bool Arith Lia.
From Verif Require Import Text TextFacts AlignModel AlignSpec AlignBytes AlignTrace AlignEmit.
Import ListNotations.
Local Open Scope list_scope.

Definition boundary (t : text) (b : nat) : Prop := exists i, i <= length t /\ byte_pos t i = b.

Lemma boundary_dec t b : encodable t -> (exists i, nat_get b (b2c_of t) = Some i /\ i <= length t /\ byte_pos t i = b) \/ 
  (nat_get b (b2c_of t) = None /\ ~ boundary t b).
Proof.
  intros H. destruct (nat_get b (b2c_of t)) as [i|] eqn:E.
  - left. exists i. split; auto. now apply b2c_get.
  - right. split; auto. intros (i & L & P). assert (X : nat_get b (b2c_of t) = Some i) by (apply b2c_get; auto). congruence.
Qed.

Lemma finish_ok t : encodable t -> forall pairs acc,
  match trace_finish (b2c_of t) pairs acc with
  | AOk r => exists res, r = acc ++ res /\ length res = length pairs /\
      forall k a b, nth_error res k = Some (a, b) -> a <= length t /\ b <= length t /\
        nth_error pairs k = Some (Some (byte_pos t a), Some (byte_pos t b))
  | AErr (AlignmentError NothingConsumed) => exists k e, nth_error pairs k = Some (None, e)
  | AErr (AlignmentError SplitCodePoint) =>
      exists k s e, nth_error pairs k = Some (Some s, e) /\
        forall hi, e = Some hi -> ~ boundary t s \/ ~ boundary t hi
  | AErr _ => False
  end.
Proof.
  intros H. induction pairs as [|[[s|] e] pairs IH]; intros acc; cbn [trace_finish].
  - exists []. rewrite app_nil_r. repeat split; auto; destruct k; discriminate.
  - destruct e as [e|].
    2:{ exists 0, s, None. split; auto. discriminate. }
    destruct (boundary_dec t s H) as [(i & -> & Li & Pi)|(-> & Ns)].
    2:{ exists 0, s, (Some e). split; auto. }
    destruct (boundary_dec t e H) as [(j & -> & Lj & Pj)|(-> & Ne)].
    2:{ exists 0, s, (Some e). split; auto. intros hi E; injection E as <-. auto. }
    specialize (IH (acc ++ [(i, j)])). destruct (trace_finish _ pairs _) as [r|[f| | |]]; auto.
    + destruct IH as (res & -> & L & IH). exists ((i, j) :: res). rewrite <- app_assoc. repeat split; auto.
      * cbn; lia.
      * destruct k as [|k]; cbn in H0; [injection H0 as <- <-; lia|]. apply (IH k a b H0).
      * destruct k as [|k]; cbn in H0; [injection H0 as <- <-; lia|]. apply (IH k a b H0).
      * destruct k as [|k]; cbn in H0; [injection H0 as <- <-; cbn; congruence|]. apply (IH k a b H0).
    + destruct f; auto.
      * destruct IH as (k & x & IH). exists (S k), x. exact IH.
      * destruct IH as (k & x & y & IH). exists (S k), x, y. exact IH.
  - exists 0, e. reflexivity.
Qed.

Lemma nth_error_nth_eq {A} (l : list A) k d : k < length l -> nth_error l k = Some (nth k l d).
Proof. revert k; induction l; intros [|k] L; cbn in *; try lia; auto. apply IHl; lia. Qed.

Lemma nth_error_combine {A B} (a : list A) (b : list B) k x y :
  nth_error (combine a b) k = Some (x, y) <-> nth_error a k = Some x /\ nth_error b k = Some y.
Proof.
  revert b k; induction a as [|u a IH]; intros [|v b] [|k]; cbn; try (split; [discriminate|intuition discriminate]).
  - split; [intros E; injection E as <- <-; auto|intros [E F]; congruence].
  - apply IH.
Qed.

Lemma byte_spans_length t spans : length (byte_spans t spans) = length spans.
Proof. apply map_length. Qed.

Lemma spells_enc input output arcs : spells input output arcs ->
  encodable input /\ encodable output /\ nreads arcs = byte_len input /\ nwrites arcs = byte_len output.
Proof.
  intros [A B]. unfold encodable. rewrite A, B. repeat split; try discriminate.
  - symmetry. now apply byte_len_encode.
  - symmetry. now apply byte_len_encode.
Qed.

(** ** trace_input_spans *)
Theorem trace_exact input output arcs spans :
  spells input output arcs -> increasing_from 0 spans (length output) ->
  match trace_input_spans input output (AOk arcs) spans with
  | AOk res => each_span (input_span_ok input output arcs spans) spans res
  | AErr (AlignmentError NothingConsumed) =>
      exists k, k < length spans /\ forall i, ~ owns (byte_spans output spans) (byte_is_space input) (steps arcs) k i
  | AErr (AlignmentError SplitCodePoint) =>
      exists k lo hi, k < length spans /\
        input_hull (byte_spans output spans) (byte_is_space input) (steps arcs) k lo hi /\
        (~ boundary input lo \/ ~ boundary input hi)
  | AErr _ => False
  end.
Proof.
  intros Sp Inc. destruct (spells_enc _ _ _ Sp) as (Ei & Eo & Nr & Nw).
  unfold trace_input_spans. rewrite (text_boundaries_ok input Ei), (text_boundaries_ok output Eo). cbn [abind].
  unfold character_spans_to_byte_spans. rewrite (spans_loop_ok output false spans 0 [] Eo Inc) by discriminate.
  cbn [app abind].
  assert (IncB := increasing_bytes output spans 0 Eo Inc). rewrite byte_pos_0 in IncB.
  set (bs := byte_spans output spans) in *.
  destruct (trace_loop_inv bs (byte_len output) (byte_is_space input) (flags input) IncB (fun b w => flags_spec input b w Ei) arcs)
    as (st & E & I).
  { rewrite flags_length by assumption. lia. }
  unfold init in E. rewrite E. cbn [abind].
  assert (Lb : length bs = length spans) by apply byte_spans_length.
  assert (Lc : length (combine (t_starts st) (t_ends st)) = length spans).
  { rewrite combine_length, (inv_ls _ _ _ _ I), (inv_le _ _ _ _ I). lia. }
  assert (Get : forall k x y, nth_error (combine (t_starts st) (t_ends st)) k = Some (x, y) ->
    k < length spans /\ nth k (t_starts st) None = x /\ nth k (t_ends st) None = y).
  { intros k x y Hk. assert (k < length spans) by (rewrite <- Lc; apply nth_error_Some; congruence).
    apply nth_error_combine in Hk as [H1 H2]. repeat split; auto.
    - now apply nth_error_nth.
    - now apply nth_error_nth. }
  assert (F := finish_ok input Ei (combine (t_starts st) (t_ends st)) []).
  destruct (trace_finish _ _ _) as [r|[f| | |]]; auto.
  - destruct F as (res & -> & L & F). cbn [app]. split; [congruence|].
    intros k [a b] Hk. destruct (F k a b Hk) as (La & Lb' & P). apply Get in P as (Lk & P1 & P2).
    split; [exact La|]. split; [exact Lb'|]. cbn [fst snd]. fold bs.
    rewrite <- Lb in Lk. destruct (inv_k _ _ _ _ I k Lk) as [(X & _)|(lo & hi & X & Y & Hh)]; [congruence|].
    rewrite X in P1. rewrite Y in P2. injection P1 as ->. injection P2 as ->. exact Hh.
  - destruct f; auto.
    + destruct F as (k & e & P). apply Get in P as (Lk & P1 & P2). exists k. split; auto. rewrite <- Lb in Lk.
      destruct (inv_k _ _ _ _ I k Lk) as [(_ & _ & X)|(lo & hi & X & Y & Hh)]; [exact X|congruence].
    + destruct F as (k & s & e & P & F). apply Get in P as (Lk & P1 & P2). assert (Lk' := Lk). rewrite <- Lb in Lk.
      destruct (inv_k _ _ _ _ I k Lk) as [(X & _)|(lo & hi & X & Y & Hh)]; [congruence|].
      exists k, lo, hi. split; auto. split; auto. rewrite X in P1. injection P1 as <-. apply F. congruence.
Qed.

Theorem trace_complete input output arcs spans res :
  spells input output arcs -> increasing_from 0 spans (length output) ->
  each_span (input_span_ok input output arcs spans) spans res ->
  trace_input_spans input output (AOk arcs) spans = AOk res.
Proof.
  intros Sp Inc [L R]. assert (T := trace_exact _ _ _ _ Sp Inc). destruct (spells_enc _ _ _ Sp) as (Ei & Eo & Nr & Nw).
  assert (IncB := increasing_bytes output spans 0 Eo Inc). rewrite byte_pos_0 in IncB.
  destruct (trace_input_spans _ _ _ _) as [r|[f| | |]]; try contradiction.
  - f_equal. destruct T as [L' R']. apply nth_error_ext. intros k.
    destruct (nth_error r k) as [[a b]|] eqn:E.
    + destruct (nth_error res k) as [[a' b']|] eqn:E'.
      * destruct (R' _ _ E) as (A & B & H). destruct (R _ _ E') as (A' & B' & H'). cbn [fst snd] in *.
        destruct (hull_unique _ _ _ _ _ _ _ _ H H') as [X Y].
        apply (byte_pos_inj input) in X; auto. apply (byte_pos_inj input) in Y; auto. congruence.
      * apply nth_error_None in E'. assert (k < length r) by (apply nth_error_Some; congruence). lia.
    + apply nth_error_None in E. symmetry. apply nth_error_None. lia.
  - exfalso. destruct f; try contradiction.
    + destruct T as (k & Lk & T). rewrite <- L in Lk. destruct (nth_error res k) as [[a b]|] eqn:E; [|apply nth_error_None in E; lia].
      destruct (R _ _ E) as (_ & _ & (i & s & O & _) & _). contradiction (T i).
    + destruct T as (k & lo & hi & Lk & H & T). rewrite <- L in Lk. destruct (nth_error res k) as [[a b]|] eqn:E; [|apply nth_error_None in E; lia].
      destruct (R _ _ E) as (A & B & H'). cbn [fst snd] in *. destruct (hull_unique _ _ _ _ _ _ _ _ H H') as [X Y].
      destruct T as [T|T]; apply T; [exists a|exists b]; auto.
Qed.

Lemma increasing_intro r : forall o limit, (forall k a b, nth_error r k = Some (a, b) -> o <= a /\ a <= b /\ b <= limit) ->
  (forall j k a b a' b', j < k -> nth_error r j = Some (a, b) -> nth_error r k = Some (a', b') -> b <= a') ->
  increasing_from o r limit.
Proof.
  induction r as [|[a b] r IH]; intros o limit H1 H2; cbn [increasing_from]; auto.
  assert (X := H1 0 a b eq_refl). repeat split; try lia. apply IH.
  - intros k x y E. assert (Y := H1 (S k) x y E). assert (Z := H2 0 (S k) a b x y (Nat.lt_0_succ k) eq_refl E). lia.
  - intros j k x y x' y' L E E'. apply (H2 (S j) (S k) x y x' y'); auto. lia.
Qed.
Lemma nonempty_intro r : (forall k a b, nth_error r k = Some (a, b) -> a < b) -> nonempty_spans r.
Proof.
  induction r as [|[a b] r IH]; intros H; cbn; auto. split; [apply (H 0); auto|]. apply IH. intros k. apply (H (S k)).
Qed.

Theorem trace_shape input output arcs spans res :
  spells input output arcs ->
  trace_input_spans input output (AOk arcs) spans = AOk res ->
  length res = length spans /\ nonempty_spans res /\ increasing_from 0 res (length input).
Proof.
  intros Sp T. destruct (spells_enc _ _ _ Sp) as (Ei & Eo & Nr & Nw).
  assert (Inc : increasing_from 0 spans (length output)).
  { unfold trace_input_spans in T. rewrite (text_boundaries_ok input Ei), (text_boundaries_ok output Eo) in T. cbn [abind] in T.
    unfold character_spans_to_byte_spans in T.
    destruct (spans_loop (length output) (c2b_of output) false 0 spans []) as [bs|] eqn:E; [|discriminate].
    now apply spans_loop_inv in E as [E _]. }
  assert (X := trace_exact _ _ _ _ Sp Inc). rewrite T in X. destruct X as [L R].
  assert (IncB := increasing_bytes output spans 0 Eo Inc). rewrite byte_pos_0 in IncB.
  assert (NE : forall k a b, nth_error res k = Some (a, b) -> a < b /\ b <= length input).
  { intros k a b E. destruct (R _ _ E) as (A & B & (i & s & O & Es & Ps) & _ & H). cbn [fst snd] in *. split; auto.
    assert (Y := H _ _ O Es). apply (byte_pos_lt_inv input); auto. lia. }
  split; [exact L|]. split; [apply nonempty_intro; intros k a b E; apply (NE k a b E)|]. apply increasing_intro.
  - intros k a b E. assert (Y := NE k a b E). lia.
  - intros j k a b a' b' Lt E E'. destruct (R _ _ E) as (A & B & H). destruct (R _ _ E') as (A' & B' & H'). cbn [fst snd] in *.
    apply (byte_pos_le_inv input); auto. eapply (hull_order _ _ _ IncB arcs j k _ _ _ _ Lt H H').
Qed.

Theorem trace_bad_spans input output arcs spans : encodable input -> encodable output ->
  ~ increasing_from 0 spans (length output) ->
  trace_input_spans input output arcs spans = AErr (AlignmentError BadSpans).
Proof.
  intros Ei Eo N. unfold trace_input_spans. rewrite (text_boundaries_ok input Ei), (text_boundaries_ok output Eo). cbn [abind].
  unfold character_spans_to_byte_spans. destruct (spans_loop (length output) (c2b_of output) false 0 spans []) as [bs|e] eqn:E.
  - apply spans_loop_inv in E as [E _]. contradiction.
  - apply spans_loop_err in E as [[-> _]|(_ & X & _)]; [reflexivity|discriminate].
Qed.

(** ** transduce_with_spans *)
Lemma emit_finish_conv b2c bounds total : forall rows vals prev acc,
  Forall2 (fun row val => (fst (snd row) = Some (fst val) /\ snd (snd row) = Some (snd val)) \/
     (fst (snd row) = None /\ fst val = snd val /\ nat_get (fst (fst row)) bounds = Some (fst val))) rows vals ->
  (forall limit, (forall v, In v vals -> snd v <= limit) -> increasing_from prev vals limit) ->
  emit_finish b2c bounds total rows prev acc =
  trace_finish b2c (map (fun '(a, b) => (Some a, Some b)) vals) acc.
Proof.
  induction rows as [|[[x y] [es ee]] rows IH]; intros vals prev acc F Inc; inversion F as [|? [lo hi] ? vs R F' ]; subst; cbn [emit_finish map trace_finish]; auto.
  cbn [fst snd] in R.
  assert (Ic : prev <= lo /\ forall limit, (forall v, In v vs -> snd v <= limit) -> increasing_from hi vs limit).
  { split.
    - set (m := list_max (map snd ((lo, hi) :: vs))).
      assert (Hm : forall v, In v ((lo, hi) :: vs) -> snd v <= m).
      { intros v Hv. assert (X := proj1 (list_max_le (map snd ((lo, hi) :: vs)) m) (le_n _)). rewrite Forall_forall in X. apply X. apply in_map. exact Hv. }
      specialize (Inc m Hm). cbn in Inc. tauto.
    - intros limit Hl. set (m := max limit hi).
      assert (Hm : forall v, In v ((lo, hi) :: vs) -> snd v <= m).
      { intros v [<-|Hv]; [cbn; lia|]. specialize (Hl v Hv). lia. }
      specialize (Inc m Hm). cbn in Inc. destruct Inc as (_ & _ & Inc). clear - Inc Hl. revert Inc Hl. generalize hi as o.
      induction vs as [|[a b] vs IH]; intros o Inc Hl; cbn in *; auto. destruct Inc as (A & B & C).
      assert (Y := Hl (a, b) (or_introl eq_refl)). cbn in Y. split; [exact A|]. split; [lia|]. apply IH; auto. }
  destruct Ic as [P Inc'].
  assert (X : match es, ee with
        | Some s, Some e => if s <? prev then AErr (AlignmentError Overlap) else AOk (s, e)
        | Some s, None => AErr (AlignmentError SplitCodePoint)
        | None, _ => let b := match nat_get x bounds with Some v => v | None => total end in
            AOk (Nat.max b prev, Nat.max b prev)
        end = AOk (lo, hi)).
  { destruct R as [[-> ->]|(-> & E & ->)].
    - replace (lo <? prev) with false by (symmetry; apply Nat.ltb_ge; lia). reflexivity.
    - cbv zeta. subst hi. rewrite Nat.max_l by lia. destruct ee; reflexivity. }
  cbv zeta in X |- *. rewrite X. cbn [abind]. destruct (nat_get lo b2c); [|reflexivity]. destruct (nat_get hi b2c); [|reflexivity]. apply IH; auto.
Qed.

Lemma each_value {A} (n : nat) (P : nat -> A -> Prop) : (forall k, k < n -> exists v, P k v) ->
  exists l, length l = n /\ forall k v, nth_error l k = Some v -> P k v.
Proof.
  intros H. induction n as [|n IH].
  - exists []. split; auto. intros [|k]; discriminate.
  - destruct IH as (l & L & F); [intros; apply H; lia|]. destruct (H n) as (v & Hv); [lia|].
    exists (l ++ [v]). split; [rewrite app_length; cbn; lia|]. intros k x E.
    destruct (Nat.lt_ge_cases k (length l)) as [C|C].
    + rewrite nth_error_app1 in E by auto. auto.
    + rewrite nth_error_app2 in E by auto. destruct (k - length l) as [|[|?]] eqn:D; cbn in E; try discriminate.
      injection E as <-. replace k with n by lia. exact Hv.
Qed.

Lemma Forall2_nth {A B} (R : A -> B -> Prop) a b : length a = length b ->
  (forall k x y, nth_error a k = Some x -> nth_error b k = Some y -> R x y) -> Forall2 R a b.
Proof.
  revert b; induction a as [|x a IH]; intros [|y b] L H; cbn in L; try discriminate; constructor.
  - apply (H 0); auto.
  - apply IH; [congruence|]. intros k. apply (H (S k)).
Qed.

Theorem transduce_exact input output m arcs spans :
  start_state m <> None -> spells input output arcs ->
  increasing_from 0 spans (length input) -> nonempty_spans spans ->
  match transduce_with_spans input spans m (AOk arcs) output with
  | AOk (out, res) => out = output /\ each_span (output_span_ok input output arcs spans) spans res
  | AErr (AlignmentError SplitCodePoint) =>
      exists k lo hi, k < length spans /\
        output_interval (byte_spans input spans) (byte_is_space output) (steps arcs) k lo hi /\
        (~ boundary output lo \/ ~ boundary output hi)
  | AErr _ => False
  end.
Proof.
  intros St Sp Inc Ne. destruct (spells_enc _ _ _ Sp) as (Ei & Eo & Nr & Nw).
  unfold transduce_with_spans. rewrite (text_boundaries_ok input Ei). cbn [abind].
  unfold character_spans_to_byte_spans. rewrite (spans_loop_ok input true spans 0 [] Ei Inc) by auto.
  cbn [app abind]. destruct (start_state m); [|congruence]. rewrite (text_boundaries_ok output Eo). cbn [abind].
  assert (IncB := increasing_bytes input spans 0 Ei Inc). rewrite byte_pos_0 in IncB.
  assert (NeB := nonempty_bytes input spans 0 Ei Inc Ne).
  assert (Lb : length (byte_spans input spans) = length spans) by apply byte_spans_length.
  set (bs := byte_spans input spans) in *.
  destruct (emit_loop_inv bs (byte_len input) (byte_is_space output) (flags output) IncB NeB (fun b w => flags_spec output b w Eo) arcs)
    as (st & E & I).
  { rewrite flags_length by assumption. lia. }
  unfold einit in E. rewrite E. cbn [abind]. rewrite !c2b_last, (e_in _ _ _ _ I), (e_out _ _ _ _ I), Nr, Nw, !Nat.eqb_refl. cbn [negb orb].
  rewrite (e_bounds _ _ _ _ I), <- Nr, <- Nw.
  set (bounds := map _ (steps arcs) ++ _).
  destruct (each_value (length bs) (fun k v =>
     output_interval bs (byte_is_space output) (steps arcs) k (fst v) (snd v) /\
     ((nth k (o_starts st) None = Some (fst v) /\ nth k (o_ends st) None = Some (snd v)) \/
      (nth k (o_starts st) None = None /\ fst v = snd v /\ nat_get (fst (nth k bs (0,0))) bounds = Some (fst v))))) as (vals & Lv & Hv).
  { intros k Lk. destruct (e_k _ _ _ _ I k Lk) as [(E1 & E2 & N)|(lo & hi & E1 & E2 & H)].
    - destruct (nth_error bs k) as [[a b]|] eqn:Ek; [|apply nth_error_None in Ek; lia].
      assert (B := increasing_nth _ _ _ _ _ _ IncB Ek). assert (NN := nonempty_nth _ _ _ _ NeB Ek).
      destruct (read_step arcs a) as (i & s & Es & Rs & As); [lia|].
      exists (s_out s, s_out s). cbn [fst snd]. split.
      + right. split; auto. split; auto. exists s, a, b. repeat split; auto. eapply nth_error_In; eauto.
      + right. repeat split; auto. rewrite (nth_error_nth _ _ _ Ek). cbn [fst]. unfold bounds. now apply (bounds_get arcs i s a).
    - exists (lo, hi). cbn [fst snd]. split; [left; exact H|left; auto]. }
  assert (Vinc : forall limit, (forall v, In v vals -> snd v <= limit) -> increasing_from 0 vals limit).
  { intros limit Hl. apply increasing_intro.
    - intros k a b Ek. destruct (Hv _ _ Ek) as [V _]. assert (X := interval_le _ _ _ _ _ _ V). cbn in X.
      assert (Y := Hl _ (nth_error_In _ _ Ek)). cbn in Y. lia.
    - intros j k a b a' b' L Ej Ek. destruct (Hv _ _ Ej) as [V _]. destruct (Hv _ _ Ek) as [V' _]. cbn [fst snd] in V, V'.
      eapply (interval_order bs (byte_len input) _ IncB NeB arcs j k _ _ _ _ L Nr V V'). }
  rewrite (emit_finish_conv (b2c_of output) bounds (nwrites arcs) _ vals 0 []).
  2:{ apply Forall2_nth.
      - rewrite !combine_length, (e_ls _ _ _ _ I), (e_le _ _ _ _ I). lia.
      - intros k [[a b] [es ee]] [lo hi] Ek Ev. destruct (Hv _ _ Ev) as [_ V].
        apply nth_error_combine in Ek as [Ek1 Ek2]. apply nth_error_combine in Ek2 as [Ek2 Ek3]. cbn [fst snd] in *.
        rewrite (nth_error_nth _ _ _ Ek1), (nth_error_nth _ _ _ Ek2), (nth_error_nth _ _ _ Ek3) in V. cbn [fst] in V. tauto. }
  2:exact Vinc.
  assert (F := finish_ok output Eo (map (fun '(a, b) => (Some a, Some b)) vals) []).
  destruct (trace_finish _ _ _) as [r|[f| | |]]; cbn [abind]; auto.
  - destruct F as (res & -> & L & F). cbn [app]. split; auto. split; [rewrite L, map_length; congruence|].
    intros k [a b] Hk. destruct (F k a b Hk) as (La & Lb' & P). rewrite nth_error_map in P.
    destruct (nth_error vals k) as [[lo hi]|] eqn:Ek; [|discriminate]. cbn in P. injection P as -> ->.
    split; [exact La|]. split; [exact Lb'|]. cbn [fst snd]. apply (Hv _ _ Ek).
  - destruct f; auto.
    + destruct F as (k & e & P). rewrite nth_error_map in P. destruct (nth_error vals k) as [[lo hi]|]; discriminate.
    + destruct F as (k & s & e & P & F). rewrite nth_error_map in P. destruct (nth_error vals k) as [[lo hi]|] eqn:Ek; [|discriminate].
      cbn in P. injection P as <- <-. exists k, lo, hi. split; [rewrite <- Lb, <- Lv; apply nth_error_Some; congruence|].
      split; [apply (Hv _ _ Ek)|]. apply F. reflexivity.
Qed.

Theorem transduce_complete input output m arcs spans res :
  start_state m <> None -> spells input output arcs ->
  increasing_from 0 spans (length input) -> nonempty_spans spans ->
  each_span (output_span_ok input output arcs spans) spans res ->
  transduce_with_spans input spans m (AOk arcs) output = AOk (output, res).
Proof.
  intros St Sp Inc Ne [L R]. assert (T := transduce_exact _ _ _ _ _ St Sp Inc Ne).
  destruct (spells_enc _ _ _ Sp) as (Ei & Eo & Nr & Nw).
  destruct (transduce_with_spans _ _ _ _ _) as [[out r]|[f| | |]]; try contradiction.
  - destruct T as (-> & L' & R'). f_equal. f_equal. apply nth_error_ext. intros k.
    destruct (nth_error r k) as [[a b]|] eqn:E.
    + destruct (nth_error res k) as [[a' b']|] eqn:E'.
      * destruct (R' _ _ E) as (A & B & H). destruct (R _ _ E') as (A' & B' & H'). cbn [fst snd] in *.
        destruct (interval_unique _ _ _ _ _ _ _ _ H H') as [X Y].
        apply (byte_pos_inj output) in X; auto. apply (byte_pos_inj output) in Y; auto. congruence.
      * apply nth_error_None in E'. assert (k < length r) by (apply nth_error_Some; congruence). lia.
    + apply nth_error_None in E. symmetry. apply nth_error_None. lia.
  - exfalso. destruct f; try contradiction.
    destruct T as (k & lo & hi & Lk & H & T). rewrite <- L in Lk. destruct (nth_error res k) as [[a b]|] eqn:E; [|apply nth_error_None in E; lia].
    destruct (R _ _ E) as (A & B & H'). cbn [fst snd] in *. destruct (interval_unique _ _ _ _ _ _ _ _ H H') as [X Y].
    destruct T as [T|T]; apply T; [exists a|exists b]; auto.
Qed.

Theorem transduce_shape input output m arcs spans out res :
  spells input output arcs ->
  transduce_with_spans input spans m (AOk arcs) output = AOk (out, res) ->
  out = output /\ length res = length spans /\ increasing_from 0 res (length output).
Proof.
  intros Sp T. destruct (spells_enc _ _ _ Sp) as (Ei & Eo & Nr & Nw).
  assert (Inc : start_state m <> None /\ increasing_from 0 spans (length input) /\ nonempty_spans spans).
  { unfold transduce_with_spans in T. rewrite (text_boundaries_ok input Ei) in T. cbn [abind] in T.
    unfold character_spans_to_byte_spans in T.
    destruct (spans_loop (length input) (c2b_of input) true 0 spans []) as [bs|] eqn:E; [|discriminate].
    apply spans_loop_inv in E as [E1 E2]. cbn [abind] in T. destruct (start_state m); [|discriminate].
    repeat split; auto. discriminate. }
  destruct Inc as (St & Inc & Ne).
  assert (X := transduce_exact _ _ _ _ _ St Sp Inc Ne). rewrite T in X. destruct X as [-> [L R]].
  assert (IncB := increasing_bytes input spans 0 Ei Inc). rewrite byte_pos_0 in IncB.
  assert (NeB := nonempty_bytes input spans 0 Ei Inc Ne).
  split; [reflexivity|]. split; [exact L|]. apply increasing_intro.
  - intros k a b E. destruct (R _ _ E) as (A & B & H). cbn [fst snd] in *. apply interval_le in H.
    apply (byte_pos_le_inv output) in H; auto. lia.
  - intros j k a b a' b' Lt E E'. destruct (R _ _ E) as (A & B & H). destruct (R _ _ E') as (A' & B' & H'). cbn [fst snd] in *.
    apply (byte_pos_le_inv output); auto.
    eapply (interval_order _ (byte_len input) _ IncB NeB arcs j k _ _ _ _ Lt Nr H H').
Qed.

Theorem transduce_bad_spans input m arcs spans output : encodable input ->
  ~ (increasing_from 0 spans (length input) /\ nonempty_spans spans) ->
  transduce_with_spans input spans m arcs output = AErr (AlignmentError BadSpans) /\ ~ increasing_from 0 spans (length input) \/
  transduce_with_spans input spans m arcs output = AErr ValueError /\ ~ nonempty_spans spans.
Proof.
  intros Ei N. unfold transduce_with_spans. rewrite (text_boundaries_ok input Ei). cbn [abind].
  unfold character_spans_to_byte_spans. destruct (spans_loop (length input) (c2b_of input) true 0 spans []) as [bs|e] eqn:E.
  - apply spans_loop_inv in E as [E1 E2]. exfalso. apply N; auto.
  - cbn [abind]. apply spans_loop_err in E as [[-> X]|(-> & _ & X)]; [left|right]; auto.
Qed.

(** Emitting steps belong to one token. *)
Theorem emits_one_owner input spans space s j k : encodable input ->
  increasing_from 0 spans (length input) -> nonempty_spans spans ->
  emits (byte_spans input spans) space j s -> emits (byte_spans input spans) space k s -> j = k.
Proof.
  intros Ei Inc Ne J K. assert (IncB := increasing_bytes input spans 0 Ei Inc). rewrite byte_pos_0 in IncB.
  assert (NeB := nonempty_bytes input spans 0 Ei Inc Ne).
  set (bs := byte_spans input spans) in *.
  destruct (advance_spec bs (s_in s) (S (length bs)) 0) as (_ & A2 & A3); [lia|].
  assert (Al := advance_le bs (s_in s) (S (length bs)) 0 (Nat.le_0_l _)).
  assert (Lo : forall i a b, i < advance (S (length bs)) bs (s_in s) 0 -> nth_error bs i = Some (a, b) -> b <= s_in s).
  { intros i a b L E. apply (A2 i a b); auto. lia. }
  assert (XJ := emits_index bs _ space IncB NeB j s _ J Al Lo A3). assert (XK := emits_index bs _ space IncB NeB k s _ K Al Lo A3).
  destruct XJ as [(J1 & a & b & Ea & D)|(J1 & J2 & J3 & J4)], XK as [(K1 & a' & b' & Ea' & D')|(K1 & K2 & K3 & K4)]; try congruence.
  - exfalso. rewrite <- J1 in K4. specialize (K4 _ _ Ea). destruct D as [(D & _)|(_ & [D|D])]; [congruence|lia|lia].
  - exfalso. rewrite <- K1 in J4. specialize (J4 _ _ Ea'). destruct D' as [(D & _)|(_ & [D|D])]; [congruence|lia|lia].
Qed.

(** ** The walker *)
Lemma chain_app_visited m : forall s a, chain m s a -> forall s' , walks m s s' -> exists b, chain m s' b /\ length b <= length a.
Proof.
  intros s a C s' W. revert a C. induction W as [s|s x t E W IH]; intros a C; [eauto|].
  inversion C as [? E'|? y r E' C']; subst; [congruence|]. assert (y = x) by congruence. subst y.
  destruct (IH _ C') as (b & B & L). exists b. split; auto. cbn; lia.
Qed.

Lemma chain_det m s a : chain m s a -> forall b, chain m s b -> a = b.
Proof.
  induction 1 as [s E|s x r E C IH]; intros b D; inversion D as [? E'|? y r' E' D']; subst; try congruence.
  assert (y = x) by congruence. subst. f_equal. auto.
Qed.

(** A chain never comes back to its start. *)
Lemma chain_no_return m s x r t : nth_error (state_arcs m) s = Some [x] -> chain m (nextstate x) r -> walks m (nextstate x) t -> t <> s.
Proof.
  intros E C W ->. destruct (chain_app_visited m _ _ C _ W) as (b & B & L).
  assert (D : chain m s (x :: r)) by (econstructor; eauto). assert (X := chain_det _ _ _ B _ D). subst b. cbn in L. lia.
Qed.

Definition walk_result (m : machine) (s : nat) (acc : list arc) (r : option (ares (list arc))) : Prop :=
  match r with
  | None => False
  | Some (AOk l) => exists c, chain m s c /\ l = acc ++ c
  | Some (AErr (AlignmentError NotLinear)) => exists t x y l, walks m s t /\ nth_error (state_arcs m) t = Some (x :: y :: l)
  | Some (AErr (AlignmentError Cyclic)) =>
      exists t x, walks m s t /\ nth_error (state_arcs m) t = Some [x] /\ walks m (nextstate x) t
  | Some (AErr AIndexError) => exists t, walks m s t /\ nth_error (state_arcs m) t = None
  | Some (AErr _) => False
  end.

Lemma linear_loop_spec m : forall fuel visited s acc,
  NoDup visited -> (forall v, In v visited -> v < length (state_arcs m)) -> 
  length (state_arcs m) + 2 <= fuel + length visited ->
  (forall v, In v visited -> walks m v s /\ exists x, nth_error (state_arcs m) v = Some [x] /\ walks m (nextstate x) s) ->
  walk_result m s acc (linear_loop fuel m visited s acc).
Proof.
  induction fuel as [|f IH]; intros visited s acc ND In_ L Wk; cbn [linear_loop].
  - exfalso. assert (X : length visited <= length (seq 0 (length (state_arcs m)))).
    { apply NoDup_incl_length; auto. intros v Hv. apply in_seq. specialize (In_ v Hv). lia. }
    rewrite seq_length in X. lia.
  - destruct (existsb (Nat.eqb s) visited) eqn:V.
    + apply existsb_exists in V as (v & Hv & E). apply Nat.eqb_eq in E. subst v. cbn.
      destruct (Wk s Hv) as (_ & x & E & W). exists s, x. split; [constructor|auto].
    + destruct (nth_error (state_arcs m) s) as [[|a [|b l]]|] eqn:E.
      * cbn. exists []. split; [constructor; auto|]. now rewrite app_nil_r.
      * assert (NV : ~ In s visited).
        { intros Hs. assert (X : existsb (Nat.eqb s) visited = true) by (apply existsb_exists; exists s; split; auto; apply Nat.eqb_refl). congruence. }
        assert (Ls : s < length (state_arcs m)) by (apply nth_error_Some; congruence).
        specialize (IH (s :: visited) (nextstate a) (acc ++ [a])).
        assert (P : walk_result m (nextstate a) (acc ++ [a]) (linear_loop f m (s :: visited) (nextstate a) (acc ++ [a]))).
        { apply IH.
          - constructor; auto.
          - intros v [<-|Hv]; auto.
          - cbn; lia.
          - assert (Tr : forall v x, walks m v x -> forall y, walks m x y -> walks m v y).
            { intros v x W. induction W; auto. intros y Hy. econstructor; eauto. }
            assert (W1 : walks m s (nextstate a)) by (econstructor; [exact E|constructor]).
            intros v [<-|Hv].
            + split; auto. exists a. split; auto. constructor.
            + destruct (Wk v Hv) as (W & x & Ex & W'). split; [eauto|]. exists x. split; eauto. }
        unfold walk_result in *. destruct (linear_loop f m (s :: visited) (nextstate a) (acc ++ [a])) as [[l|[[]| | |]]|]; auto.
        -- destruct P as (c & C & ->). exists (a :: c). split; [econstructor; eauto|]. now rewrite <- app_assoc.
        -- destruct P as (t & x & y & l & W & P). exists t, x, y, l. split; auto. econstructor; eauto.
        -- destruct P as (t & x & W & P). exists t, x. split; auto. econstructor; eauto.
        -- destruct P as (t & W & P). exists t. split; auto. econstructor; eauto.
      * cbn. exists s, a, b, l. split; [constructor|auto].
      * cbn. exists s. split; [constructor|auto].
Qed.

Theorem linear_arcs_spec m : closed_machine m ->
  match start_state m with
  | None => linear_arcs m = Some (AErr (AlignmentError NoPath))
  | Some s =>
      match linear_arcs m with
      | Some (AOk l) => chain m s l
      | Some (AErr (AlignmentError NotLinear)) => exists t x y l, walks m s t /\ nth_error (state_arcs m) t = Some (x :: y :: l)
      | Some (AErr (AlignmentError Cyclic)) =>
          exists t x, walks m s t /\ nth_error (state_arcs m) t = Some [x] /\ walks m (nextstate x) t
      | _ => False
      end
  end.
Proof.
  intros [C1 C2]. unfold linear_arcs. destruct (start_state m) as [s|] eqn:St; [|reflexivity].
  assert (P := linear_loop_spec m (S (S (length (state_arcs m)))) [] s []).
  specialize (P (NoDup_nil _) (fun v (H : In v []) => match H with end)).
  assert (Q : walk_result m s [] (linear_loop (S (S (length (state_arcs m)))) m [] s [])) by (apply P; cbn; [lia|contradiction]).
  clear P. assert (Cl : forall t, walks m s t -> t < length (state_arcs m)).
  { intros t W. assert (Ls : s < length (state_arcs m)) by auto. clear - C2 W Ls. induction W as [s|s x t E W IH]; auto.
    apply IH. apply (C2 s [x] x E). left; auto. }
  destruct (linear_loop _ m [] s []) as [[l|[[]| | |]]|] eqn:E; cbn [walk_result] in Q; auto.
  - destruct Q as (c & C & ->). exact C.
  - destruct Q as (t & W & Q). assert (X := Cl t W). apply nth_error_None in Q. lia.
Qed.

Theorem linear_arcs_complete m s l : closed_machine m -> start_state m = Some s -> chain m s l ->
  linear_arcs m = Some (AOk l).
Proof.
  intros Cm St C. assert (P := linear_arcs_spec m Cm). rewrite St in P.
  destruct (linear_arcs m) as [[l'|[[]| | |]]|]; try contradiction.
  - now rewrite (chain_det m s l C l' P).
  - exfalso. destruct P as (t & x & y & r & W & E). destruct (chain_app_visited m s l C t W) as (b & B & _).
    inversion B; subst; congruence.
  - exfalso. destruct P as (t & x & W & E & W'). destruct (chain_app_visited m s l C t W) as (b & B & _).
    inversion B as [? E'|? y r E' C']; subst; [congruence|]. assert (y = x) by congruence. subst y.
    exact (chain_no_return m t x r t E C' W' eq_refl).
Qed.

(** Non-whitespace output has an owner unless it is written while reading a byte
    between two tokens. *)
Theorem emits_total input spans space s : encodable input ->
  increasing_from 0 spans (length input) -> nonempty_spans spans -> spans <> [] ->
  (forall a b, nth_error spans 0 = Some (a, b) -> a = 0) ->
  s_writes s = true -> ~ space (s_out s) ->
  (s_reads s = true -> exists k a b, nth_error (byte_spans input spans) k = Some (a, b) /\ a <= s_in s < b) ->
  exists k, emits (byte_spans input spans) space k s.
Proof.
  intros Ei Inc Ne Nn F0 W Ns Rd. assert (IncB := increasing_bytes input spans 0 Ei Inc). rewrite byte_pos_0 in IncB.
  assert (NeB := nonempty_bytes input spans 0 Ei Inc Ne).
  assert (Lb : length (byte_spans input spans) = length spans) by apply byte_spans_length.
  assert (F0' : forall a b, nth_error (byte_spans input spans) 0 = Some (a, b) -> a = 0).
  { intros a b E. unfold byte_spans in E. rewrite nth_error_map in E. destruct (nth_error spans 0) as [[x y]|] eqn:E'; [|discriminate].
    specialize (F0 _ _ eq_refl). subst x. cbn in E. injection E as <- <-. reflexivity. }
  set (bs := byte_spans input spans) in *.
  destruct (s_reads s) eqn:R.
  - destruct (Rd eq_refl) as (k & a & b & E & L). exists k. split; auto. exists a, b. split; auto.
  - destruct (advance_spec bs (s_in s) (S (length bs)) 0) as (_ & A2 & A3); [lia|].
    assert (Al := advance_le bs (s_in s) (S (length bs)) 0 (Nat.le_0_l _)).
    set (ti := advance (S (length bs)) bs (s_in s) 0) in *.
    assert (Prev : forall p, ti = S p -> (forall a b, nth_error bs (S p) = Some (a, b) -> s_in s <= a) -> exists k, emits bs space k s).
    { intros p Hp Hn. exists p. split; auto. destruct (nth_error bs p) as [[a b]|] eqn:E; [|apply nth_error_None in E; lia].
      exists a, b. split; auto. right. right. right. split; [exact R|]. split; [exact Ns|].
      split; [apply (A2 p a b); auto; lia|exact Hn]. }
    destruct (nth_error bs ti) as [[a b]|] eqn:E.
    + specialize (A3 _ _ eq_refl). destruct (Nat.lt_ge_cases a (s_in s)) as [L|L].
      * exists ti. split; auto. exists a, b. split; auto.
      * destruct ti as [|p] eqn:Et.
        -- exists 0. split; auto. exists a, b. split; auto. right. right. left. specialize (F0' _ _ E). lia.
        -- apply (Prev p eq_refl). intros a' b' E'. congruence.
    + destruct ti as [|p] eqn:Et.
      * apply nth_error_None in E. destruct spans; [congruence|]. cbn [length] in Lb. lia.
      * apply (Prev p eq_refl). intros a' b' E'. congruence.
Qed.
