(** The loop of trace_input_spans computes the hulls of AlignSpec.v. *)
From Coq Require Import List NArith Bool Arith Lia.
From Verif Require Import Text TextFacts AlignModel AlignSpec AlignBytes.
Import ListNotations.
Local Open Scope list_scope.

(** ** Spans *)
Lemma spans_loop_ok t rej : forall spans prev acc, encodable t ->
  increasing_from prev spans (length t) -> (rej = true -> nonempty_spans spans) ->
  spans_loop (length t) (c2b_of t) rej prev spans acc = AOk (acc ++ byte_spans t spans).
Proof.
  induction spans as [|[a b] spans IH]; intros prev acc H I R; cbn [spans_loop].
  - cbn. now rewrite app_nil_r.
  - cbn [increasing_from nonempty_spans] in I, R.
    replace (a <? prev) with false by (symmetry; apply Nat.ltb_ge; lia).
    replace (b <? a) with false by (symmetry; apply Nat.ltb_ge; lia).
    replace (length t <? b) with false by (symmetry; apply Nat.ltb_ge; lia). cbn [orb].
    replace (rej && (a =? b)) with false.
    2:{ symmetry. destruct rej; auto. cbn. apply Nat.eqb_neq. destruct (R eq_refl). lia. }
    rewrite !c2b_nth. replace (a <=? length t) with true by (symmetry; apply Nat.leb_le; lia).
    replace (b <=? length t) with true by (symmetry; apply Nat.leb_le; lia).
    rewrite IH; [|assumption|tauto|]. { now rewrite <- app_assoc. } intros E. destruct (R E). assumption.
Qed.

Lemma spans_loop_inv t rej : forall spans prev acc r, 
  spans_loop (length t) (c2b_of t) rej prev spans acc = AOk r ->
  increasing_from prev spans (length t) /\ (rej = true -> nonempty_spans spans).
Proof.
  induction spans as [|[a b] spans IH]; intros prev acc r; cbn [spans_loop].
  - cbn; auto.
  - cbn [increasing_from nonempty_spans].
    destruct (Nat.ltb_spec a prev); [discriminate|]. destruct (Nat.ltb_spec b a); [discriminate|].
    destruct (Nat.ltb_spec (length t) b); [discriminate|]. cbn [orb].
    destruct (rej && (a =? b)) eqn:E; [discriminate|]. rewrite !c2b_nth.
    replace (a <=? length t) with true by (symmetry; apply Nat.leb_le; lia).
    replace (b <=? length t) with true by (symmetry; apply Nat.leb_le; lia).
    intros X. apply IH in X as [X Y]. split; [repeat split; auto; lia|]. intros ->. cbn in E. apply Nat.eqb_neq in E. split; [lia|auto].
Qed.

Lemma spans_loop_err t rej : forall spans prev acc e,
  spans_loop (length t) (c2b_of t) rej prev spans acc = AErr e ->
  (e = AlignmentError BadSpans /\ ~ increasing_from prev spans (length t)) \/
  (e = ValueError /\ rej = true /\ ~ nonempty_spans spans).
Proof.
  induction spans as [|[a b] spans IH]; intros prev acc e; cbn [spans_loop]; [discriminate|].
  cbn [increasing_from nonempty_spans].
  destruct ((a <? prev) || (b <? a) || (length t <? b)) eqn:E.
  - intros X; injection X as <-. left. split; auto. rewrite !orb_true_iff, !Nat.ltb_lt in E. lia.
  - rewrite !orb_false_iff, !Nat.ltb_ge in E. destruct (rej && (a =? b)) eqn:R.
    + intros X; injection X as <-. right. apply andb_true_iff in R as [-> R]. apply Nat.eqb_eq in R. repeat split; auto. lia.
    + rewrite !c2b_nth. replace (a <=? length t) with true by (symmetry; apply Nat.leb_le; lia).
      replace (b <=? length t) with true by (symmetry; apply Nat.leb_le; lia).
      intros X. apply IH in X as [[-> X]|(-> & -> & X)]; [left|right]; repeat split; tauto.
Qed.

Lemma increasing_bytes t : forall spans p, encodable t -> increasing_from p spans (length t) ->
  increasing_from (byte_pos t p) (byte_spans t spans) (byte_len t).
Proof.
  induction spans as [|[a b] spans IH]; intros p H I; cbn; auto. cbn in I.
  repeat split; [apply byte_pos_mono_le; auto; lia|apply byte_pos_mono_le; auto; lia|apply byte_pos_mono_le; auto; lia|].
  apply IH; tauto.
Qed.
Lemma nonempty_bytes t : forall spans p, encodable t -> increasing_from p spans (length t) ->
  nonempty_spans spans -> nonempty_spans (byte_spans t spans).
Proof.
  induction spans as [|[a b] spans IH]; intros p H I N; cbn; auto. cbn in I, N.
  split; [apply byte_pos_mono; auto; lia|]. apply (IH b); tauto.
Qed.

Lemma increasing_nth spans : forall o l k a b, increasing_from o spans l ->
  nth_error spans k = Some (a, b) -> o <= a /\ a <= b <= l.
Proof.
  induction spans as [|[x y] spans IH]; intros o l [|k] a b I E; cbn in E; try discriminate; cbn in I.
  - injection E as <- <-. lia.
  - destruct I as (I1 & I2 & I3). apply (IH y l k) in E; auto. lia.
Qed.
Lemma increasing_lt spans : forall o l j k a b a' b', increasing_from o spans l -> j < k ->
  nth_error spans j = Some (a, b) -> nth_error spans k = Some (a', b') -> b <= a'.
Proof.
  induction spans as [|[x y] spans IH]; intros o l [|j] [|k] a b a' b' I L E E'; cbn in E, E'; try discriminate; try lia; cbn in I.
  - injection E as <- <-. destruct I as (_ & _ & I). apply (increasing_nth _ _ _ _ _ _ I) in E'. lia.
  - destruct I as (_ & _ & I). apply (IH y l j k a b a' b'); auto. lia.
Qed.
Lemma nonempty_nth spans : forall k a b, nonempty_spans spans -> nth_error spans k = Some (a, b) -> a < b.
Proof.
  induction spans as [|[x y] spans IH]; intros [|k] a b I E; cbn in E; try discriminate; cbn in I.
  - injection E as <- <-. lia.
  - apply (IH k); tauto.
Qed.

(** ** Steps *)
Definition nreads (arcs : list arc) := length (reads arcs).
Definition nwrites (arcs : list arc) := length (writes arcs).
Definition b2n (b : bool) : nat := if b then 1 else 0.

Lemma nreads_app a b : nreads (a ++ b) = nreads a + nreads b.
Proof. unfold nreads, reads. now rewrite map_app, filter_app, app_length. Qed.
Lemma nwrites_app a b : nwrites (a ++ b) = nwrites a + nwrites b.
Proof. unfold nwrites, writes. now rewrite map_app, filter_app, app_length. Qed.
Lemma nreads_1 a : nreads [a] = b2n (lab (ilabel a)).
Proof. unfold nreads, reads. cbn. destruct (lab (ilabel a)); reflexivity. Qed.
Lemma nwrites_1 a : nwrites [a] = b2n (lab (olabel a)).
Proof. unfold nwrites, writes. cbn. destruct (lab (olabel a)); reflexivity. Qed.

Lemma steps_from_app p : forall i o q, steps_from i o (p ++ q) = steps_from i o p ++ steps_from (i + nreads p) (o + nwrites p) q.
Proof.
  induction p as [|a p IH]; intros i o q; cbn [app steps_from].
  - cbn. now rewrite !Nat.add_0_r.
  - rewrite IH. f_equal. f_equal. change (a :: p) with ([a] ++ p). rewrite nreads_app, nwrites_app, nreads_1, nwrites_1.
    unfold b2n. f_equal; lia.
Qed.
Lemma steps_snoc p a : steps (p ++ [a]) = steps p ++ [Step (nreads p) (nwrites p) (lab (ilabel a)) (lab (olabel a))].
Proof. unfold steps. now rewrite steps_from_app. Qed.
Lemma steps_length arcs i o : length (steps_from i o arcs) = length arcs.
Proof. revert i o; induction arcs; intros; cbn; auto. Qed.

Lemma steps_nth arcs : forall n s, nth_error (steps arcs) n = Some s ->
  exists p a q, arcs = p ++ a :: q /\ length p = n /\
    s = Step (nreads p) (nwrites p) (lab (ilabel a)) (lab (olabel a)).
Proof.
  induction arcs as [|a arcs IH] using rev_ind; intros n s E; [destruct n; discriminate|].
  rewrite steps_snoc in E. destruct (Nat.lt_ge_cases n (length (steps arcs))) as [L|L].
  - rewrite nth_error_app1 in E by assumption. destruct (IH _ _ E) as (p & b & q & -> & E2 & E3).
    exists p, b, (q ++ [a]). rewrite <- app_assoc. auto.
  - rewrite nth_error_app2 in E by assumption. unfold steps in E, L. rewrite steps_length in *.
    destruct (n - length arcs) as [|[|?]] eqn:D; cbn in E; try discriminate. injection E as <-.
    exists arcs, a, []. repeat split; auto. lia.
Qed.

(** Along a path offsets grow by what the steps read and write. *)
Lemma steps_order arcs i j s s' : nth_error (steps arcs) i = Some s -> nth_error (steps arcs) j = Some s' -> i < j ->
  s_in s + b2n (s_reads s) <= s_in s' /\ s_out s + b2n (s_writes s) <= s_out s'.
Proof.
  intros E E' L. destruct (steps_nth _ _ _ E) as (p & a & q & E1 & L1 & ->).
  destruct (steps_nth _ _ _ E') as (p' & a' & q' & E2 & L2 & ->). cbn [s_in s_out s_reads s_writes].
  assert (P : exists m, p' = p ++ a :: m).
  { rewrite E1 in E2. clear E E' E1. subst i j. revert p' E2 L; induction p as [|x p IH]; intros [|y p'] E2 L; cbn in *; try lia.
    - injection E2 as <- E2. eauto.
    - injection E2 as -> E2. destruct (IH p' E2) as (m & ->); [lia|]. eauto. }
  destruct P as (m & ->). change (p ++ a :: m) with (p ++ [a] ++ m). rewrite !nreads_app, !nwrites_app, nreads_1, nwrites_1. lia.
Qed.
Lemma steps_bound arcs i s : nth_error (steps arcs) i = Some s ->
  s_in s + b2n (s_reads s) <= nreads arcs /\ s_out s + b2n (s_writes s) <= nwrites arcs.
Proof.
  intros E. destruct (steps_nth _ _ _ E) as (p & a & q & -> & L1 & ->). cbn [s_in s_out s_reads s_writes].
  change (p ++ a :: q) with (p ++ [a] ++ q). rewrite !nreads_app, !nwrites_app, nreads_1, nwrites_1. lia.
Qed.
Lemma steps_index arcs i j s s' : nth_error (steps arcs) i = Some s -> nth_error (steps arcs) j = Some s' ->
  s_in s < s_in s' \/ s_out s < s_out s' -> i < j.
Proof.
  intros E E' L. destruct (lt_eq_lt_dec i j) as [[X| ->]|X]; [assumption|rewrite E in E'; injection E' as <-; lia|].
  assert (Y := steps_order _ _ _ _ _ E' E X). lia.
Qed.

(** ** advance *)
Lemma advance_spec spans o : forall fuel ti, length spans < fuel + ti ->
  ti <= advance fuel spans o ti /\
  (forall j a b, ti <= j < advance fuel spans o ti -> nth_error spans j = Some (a, b) -> b <= o) /\
  (forall a b, nth_error spans (advance fuel spans o ti) = Some (a, b) -> o < b).
Proof.
  induction fuel as [|f IH]; intros ti L; cbn [advance].
  - repeat split; [lia|lia|]. intros a b E. assert (X : ti < length spans) by (apply nth_error_Some; congruence). lia.
  - destruct (nth_error spans ti) as [[a b]|] eqn:E.
    + destruct (Nat.leb_spec b o).
      * destruct (IH (S ti)) as (A & B & C); [lia|]. repeat split; [lia| |exact C].
        intros j x y Lj Ej. destruct (Nat.eq_dec j ti) as [->|N]; [congruence|]. apply (B j x y); auto. lia.
      * repeat split; [lia|lia|]. intros x y E'. congruence.
    + repeat split; [lia|lia|]. intros x y E'. congruence.
Qed.

(** ** set_nth *)
Lemma set_nth_length {A} i (v : A) l : length (set_nth i v l) = length l.
Proof. revert i; induction l; intros [|i]; cbn; auto. Qed.
Lemma set_nth_same {A} i (v d : A) l : i < length l -> nth i (set_nth i v l) d = v.
Proof. revert i; induction l; intros [|i] L; cbn in *; try lia; auto. apply IHl; lia. Qed.
Lemma set_nth_other {A} i j (v d : A) l : i <> j -> nth j (set_nth i v l) d = nth j l d.
Proof. revert i j; induction l; intros [|i] [|j] L; cbn; auto; try lia. Qed.

Section Trace.
  Variable spans : list (nat * nat).
  Variable limit : nat.
  Variable space : nat -> Prop.
  Variable ws : list bool.
  Hypothesis Inc : increasing_from 0 spans limit.
  Hypothesis Ws : forall b w, nth_error ws b = Some w -> (w = true <-> space b).

  Notation Takes := (takes spans space).
  Notation Owns := (owns spans space).
  Notation Hull := (input_hull spans space).

  Record inv (p : list arc) (st : tstate) : Prop := {
    inv_in : t_in st = nreads p;
    inv_out : t_out st = nwrites p;
    inv_idx : forall j a b, j < t_idx st -> nth_error spans j = Some (a, b) -> b <= t_out st;
    inv_ls : length (t_starts st) = length spans;
    inv_le : length (t_ends st) = length spans;
    inv_k : forall k, k < length spans ->
      (nth k (t_starts st) None = None /\ nth k (t_ends st) None = None /\ forall i, ~ Owns (steps p) k i) \/
      (exists lo hi, nth k (t_starts st) None = Some lo /\ nth k (t_ends st) None = Some hi /\ Hull (steps p) k lo hi) }.

  Lemma owns_lead path k i : Owns path k i -> exists j s, j <= i /\ nth_error path j = Some s /\ Takes k s /\ ~ leading_space space s.
  Proof.
    intros (s & E & T & [N|(j & s' & L & E' & T' & N)]); [exists i, s|exists j, s']; (split; [lia|auto]).
  Qed.
  Lemma lead_owns path k j s : nth_error path j = Some s -> Takes k s -> ~ leading_space space s -> Owns path k j.
  Proof. intros E T N. exists s. auto. Qed.

  Lemma owns_app path s k i : i < length path -> Owns (path ++ [s]) k i <-> Owns path k i.
  Proof.
    intros L. unfold owns. rewrite nth_error_app1 by assumption. split.
    - intros (x & E & T & [N|(j & s' & Lj & E' & T' & N)]); exists x; (split; [exact E|split; [exact T|]]); auto. right. exists j, s'.
      rewrite nth_error_app1 in E' by lia. auto.
    - intros (x & E & T & [N|(j & s' & Lj & E' & T' & N)]); exists x; (split; [exact E|split; [exact T|]]); auto. right. exists j, s'.
      rewrite nth_error_app1 by lia. auto.
  Qed.
  Lemma owns_bound path k i : Owns path k i -> i < length path.
  Proof. intros (s & E & _). apply nth_error_Some. congruence. Qed.

  (** The new step is owned iff it is taken and not leading, or something was owned. *)
  Lemma owns_last path s k : Owns (path ++ [s]) k (length path) <->
    Takes k s /\ (~ leading_space space s \/ exists i, Owns path k i).
  Proof.
    unfold owns at 1. rewrite nth_error_app2, Nat.sub_diag by lia. cbn [nth_error]. split.
    - intros (x & E & T & D). injection E as <-. split; auto. destruct D as [N|(j & s' & L & E' & T' & N)]; auto.
      right. exists j. rewrite nth_error_app1 in E' by lia. now apply (lead_owns path k j s').
    - intros (T & D). exists s. split; [auto|]. split; [auto|]. destruct D as [N|(i & O)]; auto. right.
      assert (B := owns_bound _ _ _ O). apply owns_lead in O as (j & s' & L & E' & T' & N). exists j, s'.
      rewrite nth_error_app1 by lia. split; [lia|auto].
  Qed.

  Lemma takes_index k s ti : Takes k s ->
    (forall j a b, j < ti -> nth_error spans j = Some (a, b) -> b <= s_out s) ->
    (forall a b, nth_error spans ti = Some (a, b) -> s_out s < b) -> k = ti.
  Proof.
    intros (R & a & b & E & D) Lo Hi. assert (I := increasing_nth _ _ _ _ _ _ Inc E).
    assert (Bk : s_out s < b) by (destruct D as [(D & _)|(D & _)]; lia).
    destruct (lt_eq_lt_dec k ti) as [[L|L]|L]; auto.
    - specialize (Lo k a b L E). lia.
    - exfalso. destruct (nth_error spans ti) as [[a' b']|] eqn:E'.
      + specialize (Hi a' b' eq_refl). destruct D as [(D & _)|(_ & _ & _ & D)].
        * assert (X := increasing_lt _ _ _ ti k a' b' a b Inc L E' E). lia.
        * specialize (D ti a' b' L E'). lia.
      + apply nth_error_None in E'. assert (k < length spans) by (apply nth_error_Some; congruence). lia.
  Qed.

  Definition own (st : tstate) (s : step) (k : nat) : Prop :=
    Takes k s /\ (~ leading_space space s \/ nth k (t_starts st) None <> None).

  Lemma takes_dec_in ti s a b : nth_error spans ti = Some (a, b) ->
    s_reads s = true -> a <= s_out s < b -> (s_out s <> a \/ s_writes s = true) -> Takes ti s.
  Proof. intros E R L D. split; auto. exists a, b. split; auto. left. split; auto. intros X. tauto. Qed.

  Lemma step_owner p st a s : inv p st -> nreads (p ++ [a]) <= length ws ->
    s = Step (nreads p) (nwrites p) (lab (ilabel a)) (lab (olabel a)) ->
    exists o, (forall k, o = Some k <-> own st s k) /\
      trace_step spans ws st a =
      AOk (TState (t_in st + b2n (lab (ilabel a))) (t_out st + b2n (lab (olabel a)))
             (advance (S (length spans)) spans (t_out st) (t_idx st))
             (match o with Some k => if is_none (nth k (t_starts st) None) then set_nth k (Some (t_in st)) (t_starts st) else t_starts st
              | None => t_starts st end)
             (match o with Some k => set_nth k (Some (t_in st + b2n (lab (ilabel a)))) (t_ends st) | None => t_ends st end)).
  Proof.
    intros I Lw ->. set (s := Step _ _ _ _).
    unfold trace_step. destruct (advance_spec spans (t_out st) (S (length spans)) (t_idx st)) as (A1 & A2 & A3); [lia|].
    set (ti := advance _ _ _ _) in *.
    assert (Lo : forall j x y, j < ti -> nth_error spans j = Some (x, y) -> y <= s_out s).
    { intros j x y L E. cbn. rewrite <- (inv_out _ _ I). destruct (Nat.lt_ge_cases j (t_idx st)).
      - apply (inv_idx _ _ I j x y); auto.
      - apply (A2 j x y); auto. }
    assert (Hi : forall x y, nth_error spans ti = Some (x, y) -> s_out s < y).
    { cbn. rewrite <- (inv_out _ _ I). exact A3. }
    assert (TI : forall k, Takes k s -> k = ti) by (intros k T; apply (takes_index k s ti); auto).
    assert (Wsv : lab (ilabel a) = true -> exists w, nth_error ws (t_in st) = Some w /\ (w = true <-> space (s_in s))).
    { intros R. rewrite nreads_app, nreads_1, R in Lw. cbn in Lw. rewrite (inv_in _ _ I).
      destruct (nth_error ws (nreads p)) as [w|] eqn:E; [|apply nth_error_None in E; lia].
      exists w. split; [reflexivity|]. apply (Ws _ _ E). }
    cut (exists o, (forall k, o = Some k <-> own st s k) /\
      match nth_error spans ti with
      | None => AOk None
      | Some (start, end_) =>
        if lab (ilabel a) && ((start <=? t_out st) && (t_out st <? end_))
             && (negb (t_out st =? start) || lab (olabel a)) then
          if lab (olabel a) then AOk (Some ti)
          else match nth_error ws (t_in st) with
               | None => AErr AIndexError
               | Some w => if w && is_none (nth ti (t_starts st) None) then AOk None else AOk (Some ti)
               end
        else if lab (ilabel a) && lab (olabel a) && (t_out st + 1 =? start) then
          match nth_error ws (t_in st) with
          | None => AErr AIndexError
          | Some w => if negb w then AOk (Some ti) else AOk None
          end
        else AOk None
      end = AOk o).
    { intros (o & O & ->). exists o. split; auto. cbn [abind]. unfold b2n. destruct o; reflexivity. }
    destruct (nth_error spans ti) as [[start end_]|] eqn:E.
    2:{ exists None. split; auto. intros k. split; [discriminate|]. intros [T _]. rewrite (TI k T) in T.
        destruct T as (_ & x & y & E' & _). congruence. }
    rewrite (inv_out _ _ I). specialize (Hi _ _ eq_refl).
    destruct (lab (ilabel a)) eqn:R; cbn [andb].
    2:{ exists None. split; auto. intros k. split; [discriminate|]. intros [(X & _) _]. cbn in X. congruence. }
    destruct (Wsv eq_refl) as (w & Ew & Hw). rewrite Ew.
    destruct ((start <=? nwrites p) && (nwrites p <? end_)) eqn:C1.
    - apply andb_true_iff in C1 as [C1 C2]. apply Nat.leb_le in C1. apply Nat.ltb_lt in C2. cbn [andb].
      destruct (negb (nwrites p =? start) || lab (olabel a)) eqn:C3.
      + assert (T : Takes ti s).
        { apply (takes_dec_in ti s start end_); auto. cbn. apply orb_true_iff in C3 as [C3|C3]; auto.
          left. apply negb_true_iff, Nat.eqb_neq in C3. exact C3. }
        destruct (lab (olabel a)) eqn:O.
        * exists (Some ti). split; auto. intros k. split.
          -- intros X; injection X as <-. split; auto. left. intros (X & _). cbn in X. congruence.
          -- intros [X _]. f_equal. symmetry. auto.
        * destruct w; cbn [andb].
          -- destruct (nth ti (t_starts st) None) eqn:St; cbn [is_none].
             ++ exists (Some ti). split; auto. intros k. split.
                ** intros X; injection X as <-. split; auto. right. congruence.
                ** intros [X _]. f_equal. symmetry. auto.
             ++ exists None. split; auto. intros k. split; [discriminate|]. intros [X D]. assert (k = ti) by auto. subst k.
                exfalso. destruct D as [D|D]; [apply D|congruence]. split; auto. apply Hw. reflexivity.
          -- exists (Some ti). split; auto. intros k. split.
             ++ intros X; injection X as <-. split; auto. left. intros (_ & X). apply Hw in X. discriminate.
             ++ intros [X _]. f_equal. symmetry. auto.
      + apply orb_false_iff in C3 as [C3 C4]. apply negb_false_iff, Nat.eqb_eq in C3. rewrite C4. cbn [andb].
        exists None. split; auto. intros k. split; [discriminate|]. intros [T _]. assert (k = ti) by auto. subst k. exfalso.
        destruct T as (_ & x & y & E' & D). rewrite E in E'. injection E' as <- <-. cbn in D. destruct D as [(D1 & D2)|(D1 & _)]; [|lia].
        rewrite D2 in C4 by auto. discriminate.
    - cbn [andb]. apply andb_false_iff in C1.
      assert (C1' : nwrites p < start). { destruct C1 as [C1|C1]; [now apply Nat.leb_gt in C1|]. apply Nat.ltb_ge in C1. cbn in Hi. lia. }
      assert (Ti : Takes ti s <-> lab (olabel a) = true /\ nwrites p + 1 = start /\ ~ space (s_in s)).
      { split.
        - intros (_ & x & y & E' & D). rewrite E in E'. injection E' as <- <-. cbn in D. destruct D as [(D1 & D2)|(D1 & D2 & D3 & _)]; [lia|]. auto.
        - intros (O & S1 & N). split; auto. exists start, end_. split; auto. }
      destruct (lab (olabel a)) eqn:O; cbn [andb].
      + destruct (Nat.eqb_spec (nwrites p + 1) start) as [C2|C2].
        * destruct w; cbn [negb].
          -- exists None. split; auto. intros k. split; [discriminate|]. intros [T _]. assert (k = ti) by auto. subst k. apply Ti in T.
             exfalso. apply T. apply Hw. reflexivity.
          -- exists (Some ti). split; auto. intros k. split.
             ++ intros X; injection X as <-. split.
                ** apply Ti. repeat split; auto. intros X. apply Hw in X. discriminate.
                ** left. intros (X & _). cbn in X. congruence.
             ++ intros [X _]. f_equal. symmetry. auto.
        * exists None. split; auto. intros k. split; [discriminate|]. intros [T _]. assert (k = ti) by auto. subst k. apply Ti in T. tauto.
      + exists None. split; auto. intros k. split; [discriminate|]. intros [T _]. assert (k = ti) by auto. subst k. apply Ti in T.
        destruct T; discriminate.
  Qed.

  Lemma inv_starts p st k : inv p st -> k < length spans ->
    (nth k (t_starts st) None <> None <-> exists i, Owns (steps p) k i).
  Proof.
    intros I L. destruct (inv_k _ _ I k L) as [(E & _ & N)|(lo & hi & E & _ & H)]; rewrite E.
    - split; [congruence|]. intros (i & O). contradiction (N i).
    - split; [|discriminate]. intros _. destruct H as ((i & s & O & _) & _). eauto.
  Qed.

  Lemma inv_step p st a : inv p st -> nreads (p ++ [a]) <= length ws ->
    exists st', trace_step spans ws st a = AOk st' /\ inv (p ++ [a]) st'.
  Proof.
    intros I Lw. destruct (step_owner p st a _ I Lw eq_refl) as (o & O & ->). set (s := Step _ _ _ _) in *.
    eexists. split; [reflexivity|].
    assert (Ok : forall k, o = Some k -> k < length spans).
    { intros k E. apply O in E as [(_ & x & y & E & _) _]. apply nth_error_Some. congruence. }
    assert (Last : forall k, k < length spans -> Owns (steps p ++ [s]) k (length (steps p)) <-> o = Some k).
    { intros k Lk. rewrite owns_last, O. unfold own. rewrite (inv_starts p st k I Lk). reflexivity. }
    split; cbn [t_in t_out t_idx t_starts t_ends].
    - rewrite nreads_app, nreads_1, (inv_in _ _ I). reflexivity.
    - rewrite nwrites_app, nwrites_1, (inv_out _ _ I). reflexivity.
    - destruct (advance_spec spans (t_out st) (S (length spans)) (t_idx st)) as (A1 & A2 & A3); [lia|].
      intros j x y L E. destruct (Nat.lt_ge_cases j (t_idx st)) as [C|C].
      + assert (X := inv_idx _ _ I j x y C E). lia.
      + assert (X := A2 j x y (conj C L) E). lia.
    - destruct o as [k|]; [|apply I]. destruct (is_none _); rewrite ?set_nth_length; apply I.
    - destruct o as [k|]; [|apply I]. rewrite ?set_nth_length; apply I.
    - intros k Lk. rewrite steps_snoc. fold s.
      assert (Old : forall i, Owns (steps p ++ [s]) k i <-> Owns (steps p) k i \/ (i = length (steps p) /\ o = Some k)).
      { intros i. split.
        - intros X. assert (B := owns_bound _ _ _ X). rewrite app_length in B. cbn [length] in B.
          destruct (Nat.eq_dec i (length (steps p))) as [->|N].
          + right. split; auto. now apply Last.
          + left. apply (owns_app (steps p) s k i); [lia|exact X].
        - intros [X|[-> X]]; [apply owns_app; auto; eapply owns_bound; eauto|now apply Last]. }
      assert (Dec : o = Some k \/ o <> Some k) by (destruct o as [j|]; [destruct (Nat.eq_dec j k); [left|right]; congruence|right; discriminate]).
      destruct Dec as [Eo|Eo].
      + rewrite Eo. assert (Own := proj1 (O k) Eo). destruct Own as (T & _).
        assert (R : lab (ilabel a) = true) by (destruct T as (T & _); exact T).
        right. rewrite R in *. cbn [b2n]. 
        assert (Hn : nth_error (steps p ++ [s]) (length (steps p)) = Some s)
          by (rewrite nth_error_app2, Nat.sub_diag by lia; reflexivity).
        assert (Ol : Owns (steps p ++ [s]) k (length (steps p))) by (apply Last; auto).
        destruct (inv_k _ _ I k Lk) as [(E1 & E2 & N)|(lo & hi & E1 & E2 & H)].
        * exists (t_in st), (t_in st + 1). rewrite E1. cbn [is_none].
          rewrite !set_nth_same by (rewrite ?(inv_ls _ _ I), ?(inv_le _ _ I); auto). split; [reflexivity|]. split; [reflexivity|]. split; [|split].
          -- exists (length (steps p)), s. split; [exact Ol|]. split; [exact Hn|]. cbn. now rewrite (inv_in _ _ I).
          -- exists (length (steps p)), s. split; [exact Ol|]. split; [exact Hn|]. cbn. now rewrite (inv_in _ _ I).
          -- intros i x H H0.
             apply Old in H as [H|[-> _]]; [contradiction (N i)|]. rewrite Hn in H0. injection H0 as <-. cbn. rewrite (inv_in _ _ I). lia.
        * exists lo, (t_in st + 1). rewrite E1. cbn [is_none].
          rewrite !set_nth_same by (rewrite ?(inv_ls _ _ I), ?(inv_le _ _ I); auto).
          destruct H as ((i1 & s1 & H1 & H1' & H1'') & _ & H3).
          assert (Bnd : forall i x, nth_error (steps p) i = Some x -> s_reads x = true -> s_in x + 1 <= t_in st).
          { intros i x Ex Rx. assert (X := steps_bound _ _ _ Ex). rewrite Rx in X. cbn in X. rewrite (inv_in _ _ I). lia. }
          assert (In : forall i x, Owns (steps p ++ [s]) k i -> nth_error (steps p ++ [s]) i = Some x -> lo <= s_in x < t_in st + 1).
          { intros i x Hi Hx. apply Old in Hi as [Hi|[-> _]].
            - rewrite nth_error_app1 in Hx by (eapply owns_bound; eauto). assert (X := H3 i x Hi Hx).
              destruct Hi as (x' & Ex' & (Rx & _) & _). rewrite Hx in Ex'. injection Ex' as <-. specialize (Bnd i x Hx Rx). lia.
            - rewrite Hn in Hx. injection Hx as <-. cbn. rewrite (inv_in _ _ I).
              assert (X := H3 i1 s1 H1 H1'). destruct H1 as (x' & Ex' & (Rx & _) & _). rewrite H1' in Ex'. injection Ex' as <-.
              specialize (Bnd i1 s1 H1' Rx). rewrite (inv_in _ _ I) in Bnd. lia. }
          split; [exact E1|]. split; [reflexivity|]. split; [|split; [|exact In]].
          -- exists i1, s1. split; [apply Old; auto|]. rewrite nth_error_app1 by (eapply owns_bound; eauto). auto.
          -- exists (length (steps p)), s. repeat split; auto. cbn. now rewrite (inv_in _ _ I).
      + assert (Old' : forall i, Owns (steps p ++ [s]) k i <-> Owns (steps p) k i) by (intros i; rewrite Old; tauto).
        assert (Es : forall d, nth k (match o with
            | Some k0 => if is_none (nth k0 (t_starts st) None) then set_nth k0 (Some (t_in st)) (t_starts st) else t_starts st
            | None => t_starts st end) d = nth k (t_starts st) d).
        { intros d. destruct o as [j|]; auto. destruct (is_none _); auto. apply set_nth_other. congruence. }
        assert (Ee : forall d, nth k (match o with Some k0 => set_nth k0 (Some (t_in st + b2n (lab (ilabel a)))) (t_ends st) | None => t_ends st end) d = nth k (t_ends st) d).
        { intros d. destruct o as [j|]; auto. apply set_nth_other. congruence. }
        rewrite Es, Ee. destruct (inv_k _ _ I k Lk) as [(E1 & E2 & N)|(lo & hi & E1 & E2 & H)].
        * left. repeat split; auto. intros i X. apply Old' in X. contradiction (N i).
        * right. exists lo, hi. destruct H as ((i1 & s1 & H1 & H1' & H1'') & (i2 & s2 & H2 & H2' & H2'') & H3).
          split; [exact E1|]. split; [exact E2|]. split; [|split].
          -- exists i1, s1. split; [apply Old'; auto|]. rewrite nth_error_app1 by (eapply owns_bound; eauto). auto.
          -- exists i2, s2. split; [apply Old'; auto|]. rewrite nth_error_app1 by (eapply owns_bound; eauto). auto.
          -- intros i x X Y. apply Old' in X. rewrite nth_error_app1 in Y by (eapply owns_bound; eauto). eapply H3; eauto.
  Qed.

  Lemma trace_loop_app a b st : trace_loop spans ws (a ++ b) st = abind (trace_loop spans ws a st) (trace_loop spans ws b).
  Proof.
    revert st; induction a as [|x a IH]; intros st; cbn [app trace_loop]; auto.
    destruct (trace_step spans ws st x); cbn [abind]; auto.
  Qed.

  Definition init := TState 0 0 0 (repeat None (length spans)) (repeat None (length spans)).

  Lemma trace_loop_inv arcs : nreads arcs <= length ws ->
    exists st, trace_loop spans ws arcs init = AOk st /\ inv arcs st.
  Proof.
    induction arcs as [|a p IH] using rev_ind; intros L.
    - exists init. split; auto. split; cbn; try rewrite repeat_length; auto; try lia.
      intros k Lk. left. rewrite !nth_repeat. repeat split; auto. intros i (s & E & _). destruct i; discriminate.
    - rewrite nreads_app in L. destruct IH as (st & E & I); [lia|]. destruct (inv_step p st a I) as (st' & E' & I').
      { rewrite nreads_app. exact L. }
      exists st'. split; auto. rewrite trace_loop_app, E. cbn [abind trace_loop]. now rewrite E'.
  Qed.

  Lemma hull_unique path k lo hi lo' hi' : Hull path k lo hi -> Hull path k lo' hi' -> lo = lo' /\ hi = hi'.
  Proof.
    clear Ws Inc.
    intros ((i1 & s1 & A1 & A2 & A3) & (i2 & s2 & B1 & B2 & B3) & C) ((i1' & s1' & A1' & A2' & A3') & (i2' & s2' & B1' & B2' & B3') & C').
    assert (X1 := C _ _ A1' A2'). assert (X2 := C' _ _ A1 A2). assert (X3 := C _ _ B1' B2'). assert (X4 := C' _ _ B1 B2). lia.
  Qed.

  (** Tokens take bytes in token order. *)
  Lemma takes_order j k s s' : j < k -> Takes j s -> Takes k s' -> s_out s < s_out s'.
  Proof.
    clear Ws.
    intros L (R & a & b & E & D) (R' & a' & b' & E' & D').
    assert (X := increasing_lt _ _ _ j k a b a' b' Inc L E E').
    assert (Y := increasing_nth _ _ _ _ _ _ Inc E). assert (Y' := increasing_nth _ _ _ _ _ _ Inc E').
    destruct D as [(D & _)|(D & _)]; destruct D' as [(D' & _)|(D' & _ & _ & D'')]; try lia.
    - specialize (D'' j a b L E). lia.
    - specialize (D'' j a b L E). lia.
  Qed.
  Lemma hull_order arcs j k lo hi lo' hi' : j < k -> Hull (steps arcs) j lo hi -> Hull (steps arcs) k lo' hi' -> lo < hi /\ hi <= lo'.
  Proof.
    clear Ws.
    intros L (_ & (i2 & s2 & B1 & B2 & B3) & C) ((i1 & s1 & A1 & A2 & A3) & _ & C').
    assert (X := C _ _ B1 B2). split; [lia|].
    destruct B1 as (x & Ex & Tx & _). rewrite B2 in Ex. injection Ex as <-.
    destruct A1 as (y & Ey & Ty & _). rewrite A2 in Ey. injection Ey as <-.
    assert (O := takes_order j k s2 s1 L Tx Ty).
    assert (I : i2 < i1) by (apply (steps_index arcs i2 i1 s2 s1); auto).
    assert (Z := steps_order arcs i2 i1 s2 s1 B2 A2 I). destruct Tx as (R & _). rewrite R in Z. cbn in Z. lia.
  Qed.
End Trace.
