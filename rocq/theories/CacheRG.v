(** Rely/guarantee reasoning for concurrent programs over the file system of
    CacheModel.v, and the sequential reasoning it reduces to under the lock. *)
From Coq Require Import List NArith ZArith Bool Arith Lia.
From Verif Require Import Text CacheModel CacheSpec.
Import ListNotations.

(** What can never be undone: directories that have been the bundle only lose entries,
    files that have been in the bundle keep their content. *)
Record fm (s s' : st) : Prop := {
  fm_pub : forall d p, pub_of s d = Some p -> pub_of s' d = Some p;
  fm_frozen : forall d, frozen s d = true -> frozen s' d = true;
  fm_dirs : forall d fn e, frozen s d = true -> dirs s' d fn = Some e -> dirs s d fn = Some e;
  fm_sealed : forall f, sealed s f = true -> sealed s' f = true /\ files s' f = files s f;
  fm_built : forall p, In p (built s) -> In p (built s') }.
Lemma fm_refl s : fm s s. Proof. constructor; auto. Qed.
Lemma fm_trans a b c : fm a b -> fm b c -> fm a c.
Proof.
  intros H K. constructor; intros.
  - now apply (fm_pub _ _ K), (fm_pub _ _ H).
  - now apply (fm_frozen _ _ K), (fm_frozen _ _ H).
  - apply (fm_dirs _ _ H); [assumption|]. apply (fm_dirs _ _ K); [|assumption]. now apply (fm_frozen _ _ H).
  - destruct (fm_sealed _ _ H f H0) as [E1 E2]. destruct (fm_sealed _ _ K f E1) as [E3 E4].
    split; [assumption|congruence].
  - now apply (fm_built _ _ K), (fm_built _ _ H).
Qed.

Record rely (me : nat) (s s' : st) : Prop := {
  rely_fm : fm s s';
  rely_lock : lock s = Some me -> s' = s;
  rely_back : lock s' = Some me -> lock s = Some me }.
Record guar (me : nat) (s s' : st) : Prop := {
  guar_fm : fm s s';
  guar_lock : forall o, o <> me -> lock s = Some o -> s' = s;
  guar_back : forall o, o <> me -> lock s' = Some o -> lock s = Some o;
  guar_own : lock s <> Some me -> s' = s \/ (lock s = None /\ s' = upd_lock s (Some me)) }.
Lemma rely_refl me s : rely me s s. Proof. constructor; auto using fm_refl. Qed.
Lemma rely_trans me a b c : rely me a b -> rely me b c -> rely me a c.
Proof.
  intros [H1 H2 H3] [K1 K2 K3]. constructor; [eauto using fm_trans| |auto].
  intros E. specialize (H2 E). subst b. auto.
Qed.
Lemma guar_refl me s : guar me s s. Proof. constructor; auto using fm_refl. Qed.
Lemma guar_rely i me s s' : i <> me -> guar i s s' -> rely me s s'.
Proof. intros D [H1 H2 H3 _]. constructor; [assumption| |]; intros; [eapply H2|eapply H3]; eauto. Qed.
Lemma guar_locked me s s' : lock s = Some me -> lock s' = Some me -> fm s s' -> guar me s s'.
Proof. intros A B F. constructor; [assumption| | |]; [intros o D E; congruence..|congruence]. Qed.
Lemma rely_release i me s : i <> me -> rely me s (release i s).
Proof.
  intros D. unfold release. destruct (lock s) as [o|] eqn:L; [|apply rely_refl].
  destruct (Nat.eqb_spec o i) as [E|E]; [|apply rely_refl]. constructor.
  - constructor; cbn; auto.
  - intros E'. rewrite L in E'. injection E' as E'. congruence.
  - cbn. discriminate.
Qed.

Section RG.
Variable w : world.
Variable I : st -> Prop.

Fixpoint wp (me : nat) {A} (p : prog A) (Q : A -> st -> Prop) (s : st) : Prop :=
  match p with
  | Ret a => Q a s
  | Op c k => forall s1, I s1 -> rely me s s1 ->
      forall r s2, step w me c s1 r s2 -> I s2 /\ guar me s1 s2 /\ wp me (k r) Q s2
  end.

Lemma wp_mono me A (p : prog A) (Q Q' : A -> st -> Prop) :
  (forall a s, Q a s -> Q' a s) -> forall s, wp me p Q s -> wp me p Q' s.
Proof.
  intros M. induction p as [a|c k IH]; cbn [wp]; intros s H; [auto|].
  intros s1 I1 R r s2 ST. destruct (H s1 I1 R r s2 ST) as (I2 & G & W). split; [assumption|]. split; auto.
Qed.
Lemma wp_bindp me A B (p : prog A) (f : A -> prog B) Q :
  forall s, wp me p (fun a s' => wp me (f a) Q s') s -> wp me (bindp p f) Q s.
Proof.
  induction p as [a|c k IH]; cbn [wp bindp]; intros s H; [assumption|].
  intros s1 I1 R r s2 ST. destruct (H s1 I1 R r s2 ST) as (I2 & G & W). split; [assumption|]. split; auto.
Qed.

(** Every reachable configuration. *)
Variable crashes : bool.
Hypothesis crash_ok : crashes = true -> forall i s, I s -> I (release i s).
Variable Q : nat -> (exn + option pub) -> st -> Prop.
Definition good (g : config) : Prop :=
  I (cst g) /\ forall i p, thr g i = Some p -> exists s0, rely i s0 (cst g) /\ wp i p (Q i) s0.
Lemma good_step g g' : good g -> sstep w crashes g g' -> good g'.
Proof.
  intros [Ig T] S. destruct S as [g i c k r s' E ST | g i p C E].
  - destruct (T i _ E) as (s0 & R & W). cbn [wp] in W.
    destruct (W (cst g) Ig R r s' ST) as (I2 & G & W2). split; [exact I2|].
    intros j p. cbn [thr cst]. unfold set_thr. destruct (Nat.eq_dec j i) as [->|N]; intros E'.
    + injection E' as <-. exists s'. split; [apply rely_refl|exact W2].
    + destruct (T j p E') as (s1 & R1 & W1). exists s1. split; [|exact W1].
      eapply rely_trans; [exact R1|]. eapply guar_rely; [|exact G]. congruence.
  - split; [cbn; auto|]. intros j q. cbn [thr cst]. unfold set_thr.
    destruct (Nat.eq_dec j i) as [->|N]; intros E'; [discriminate|].
    destruct (T j q E') as (s1 & R1 & W1). exists s1. split; [|exact W1].
    eapply rely_trans; [exact R1|]. apply rely_release. congruence.
Qed.
Lemma good_reach g0 g : good g0 -> reach w crashes g0 g -> good g.
Proof. intros H R. induction R; [assumption|]. eapply good_step; eauto. Qed.
Lemma good_guar g g' : good g -> sstep w crashes g g' ->
  (exists i c k r, thr g i = Some (Op c k) /\ step w i c (cst g) r (cst g') /\ guar i (cst g) (cst g')) \/ (crashes = true /\ exists i, cst g' = release i (cst g)).
Proof.
  intros [Ig T] S. destruct S as [g i c k r s' E ST | g i p C E]; [left|right; split; [exact C|exists i; reflexivity]].
  destruct (T i _ E) as (s0 & R & W). cbn [wp] in W. destruct (W (cst g) Ig R r s' ST) as (I2 & G & _). exists i, c, k, r. split; [exact E|]. split; [exact ST|exact G].
Qed.
Lemma good_finished g i r : good g -> finished g i r -> exists s0, rely i s0 (cst g) /\ Q i r s0.
Proof. intros [_ T] F. apply (T i _ F). Qed.
End RG.

(** Sequential reasoning: under [A] each step establishes [G]. *)
Fixpoint swp (w : world) (me : nat) (A G : st -> st -> Prop) {T} (p : prog T) (Q : T -> st -> Prop) (s : st) : Prop :=
  match p with
  | Ret a => Q a s
  | Op c k => forall r s2, step w me c s r s2 -> A s s2 -> G s s2 /\ swp w me A G (k r) Q s2
  end.
Definition always : st -> st -> Prop := fun _ _ => True.
Lemma swp_mono w me A G T (p : prog T) (Q Q' : T -> st -> Prop) :
  (forall a s, Q a s -> Q' a s) -> forall s, swp w me A G p Q s -> swp w me A G p Q' s.
Proof.
  intros M. induction p as [a|c k IH]; cbn [swp]; intros s H; [auto|].
  intros r s2 ST As. destruct (H r s2 ST As) as (Gs & W). split; auto.
Qed.
Lemma swp_bindp w me A G T U (p : prog T) (f : T -> prog U) Q :
  forall s, swp w me A G p (fun a s' => swp w me A G (f a) Q s') s -> swp w me A G (bindp p f) Q s.
Proof.
  induction p as [a|c k IH]; cbn [swp bindp]; intros s H; [assumption|].
  intros r s2 ST As. destruct (H r s2 ST As) as (Gs & W). split; auto.
Qed.
Lemma swp_bind w me A G T U (p : io T) (f : T -> io U) Q s :
  swp w me A G p (fun r s' => match r with inl e => Q (inl e) s' | inr a => swp w me A G (f a) Q s' end) s ->
  swp w me A G (bind p f) Q s.
Proof.
  intros H. apply swp_bindp. eapply swp_mono; [|exact H]. intros [e|a] s'; cbn [swp throw]; auto.
Qed.
Lemma swp_catch w me A G T (p : io T) (h : exn -> io T) Q s :
  swp w me A G p (fun r s' => match r with inl e => swp w me A G (h e) Q s' | inr a => Q (inr a) s' end) s ->
  swp w me A G (catch p h) Q s.
Proof.
  intros H. apply swp_bindp. eapply swp_mono; [|exact H]. intros [e|a] s'; cbn [swp ok]; auto.
Qed.
Lemma swp_and w me (G1 G2 : st -> st -> Prop) T (p : prog T) Q1 Q2 :
  forall s, swp w me always G1 p Q1 s -> swp w me G1 G2 p Q2 s ->
  swp w me always (fun a b => G1 a b /\ G2 a b) p (fun a s' => Q1 a s' /\ Q2 a s') s.
Proof.
  induction p as [a|c k IH]; cbn [swp]; intros s H K; [auto|].
  intros r s2 ST _. destruct (H r s2 ST Logic.I) as (Gs & W). destruct (K r s2 ST Gs) as (Gs2 & W2).
  split; auto.
Qed.
Lemma swp_guar w me A (G G' : st -> st -> Prop) T (p : prog T) Q :
  (forall a b, G a b -> G' a b) -> forall s, swp w me A G p Q s -> swp w me A G' p Q s.
Proof.
  intros M. induction p as [a|c k IH]; cbn [swp]; intros s H; [auto|].
  intros r s2 ST As. destruct (H r s2 ST As) as (Gs & W). split; auto.
Qed.

(** Under the lock nobody else does anything. *)
Definition held (me : nat) (I : st -> Prop) (s s2 : st) : Prop := I s2 /\ fm s s2 /\ lock s2 = Some me.
Lemma wp_locked w I me T (p : prog T) (Q : T -> st -> Prop) :
  forall s, lock s = Some me -> swp w me always (held me I) p (fun a s' => lock s' = Some me -> Q a s') s -> wp w I me p Q s.
Proof.
  induction p as [a|c k IH]; cbn [swp wp]; intros s L H; [auto|].
  intros s1 I1 R r s2 ST. assert (s1 = s) by (now apply (rely_lock _ _ _ R)). subst s1.
  destruct (H r s2 ST Logic.I) as ((I2 & F & L2) & W).
  split; [assumption|]. split; [now apply guar_locked|]. now apply IH.
Qed.
Lemma wp_bind w I me T U (p : io T) (f : T -> io U) Q s :
  wp w I me p (fun r s' => match r with inl e => Q (inl e) s' | inr a => wp w I me (f a) Q s' end) s ->
  wp w I me (bind p f) Q s.
Proof.
  intros H. apply wp_bindp. eapply wp_mono; [|exact H]. intros [e|a] s'; cbn [wp throw]; auto.
Qed.
Lemma wp_catch w I me T (p : io T) (h : exn -> io T) Q s :
  wp w I me p (fun r s' => match r with inl e => wp w I me (h e) Q s' | inr a => Q (inr a) s' end) s ->
  wp w I me (catch p h) Q s.
Proof.
  intros H. apply wp_bindp. eapply wp_mono; [|exact H]. intros [e|a] s'; cbn [wp ok]; auto.
Qed.

(** Runs of one process alone. *)
Lemma runs_bindp w me T U (p : prog T) (f : T -> prog U) :
  forall s a s', runs w me (bindp p f) s a s' -> exists b s1, runs w me p s b s1 /\ runs w me (f b) s1 a s'.
Proof.
  induction p as [b|c k IH]; cbn [bindp runs]; intros s a s' R.
  - exists b, s. auto.
  - destruct R as (r & s1 & ST & R). destruct (IH _ _ _ _ R) as (b & s2 & R1 & R2).
    exists b, s2. split; [|assumption]. exists r, s1. auto.
Qed.
Lemma runs_bind w me T U (p : io T) (f : T -> io U) s a s' :
  runs w me (bind p f) s a s' ->
  (exists e, runs w me p s (inl e) s' /\ a = inl e) \/
  (exists b s1, runs w me p s (inr b) s1 /\ runs w me (f b) s1 a s').
Proof.
  intros R. apply runs_bindp in R. destruct R as ([e|b] & s1 & R1 & R2); [left|right]; [|eauto].
  cbn [runs throw] in R2. destruct R2 as [-> ->]. eauto.
Qed.
Lemma runs_catch w me T (p : io T) (h : exn -> io T) s a s' :
  runs w me (catch p h) s a s' ->
  (exists b, runs w me p s (inr b) s' /\ a = inr b) \/
  (exists e s1, runs w me p s (inl e) s1 /\ runs w me (h e) s1 a s').
Proof.
  intros R. apply runs_bindp in R. destruct R as ([e|b] & s1 & R1 & R2); [right; eauto|left].
  cbn [runs ok] in R2. destruct R2 as [-> ->]. eauto.
Qed.
(** What is proved of every run may be used. *)
Lemma swp_runs w me A G T (p : prog T) Q :
  forall s, swp w me A G p Q s -> swp w me A G p (fun a s' => Q a s' /\ runs w me p s a s') s.
Proof.
  induction p as [a|c k IH]; cbn [swp runs]; intros s H; [auto|].
  intros r s2 ST As. destruct (H r s2 ST As) as (Gs & W). split; [assumption|].
  eapply swp_mono; [|apply IH, W]. cbn beta. intros a s' [HQ R]. split; eauto.
Qed.
