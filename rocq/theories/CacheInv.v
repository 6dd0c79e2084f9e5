(** The invariant of the bundle protocol and its preservation by each change a client
    makes. *)
From Coq Require Import List NArith ZArith Bool Arith Lia.
From Verif Require Import Text CacheModel CacheSpec CacheRG.
Import ListNotations.

Record Inv (en : env) (s : st) : Prop := {
  inv_own : forall n e, par s n = Some e ->
    match n with NOther _ => forall d, e = EDir d -> pub_of s d = None /\ d < next s
    | _ => exists d, e = EDir d /\ pub_of s d <> None end;
  inv_final : forall d, par s NFinal = Some (EDir d) ->
    frozen s d = true /\ exists p, pub_of s d = Some p /\ holds en s d p;
  inv_old : forall n d, par s n = Some (EDir d) ->
    match n with NPrev _ | NCorrupt _ => frozen s d = true | NTmp _ => frozen s d = false | _ => True end;
  inv_inj : forall n m d, par s n = Some (EDir d) -> par s m = Some (EDir d) -> pub_of s d <> None -> n = m;
  inv_ent : forall d p fn e, pub_of s d = Some p -> dirs s d fn = Some e ->
    exists f, e = FReg f /\ known fn = true /\ f < next s /\ sealed s f = frozen s d /\
      (frozen s d = true -> files s f = content en p fn);
  inv_finj : forall d d' fn fn' f, pub_of s d <> None -> pub_of s d' <> None ->
    dirs s d fn = Some (FReg f) -> dirs s d' fn' = Some (FReg f) -> d = d' /\ fn = fn';
  inv_pub : forall d p, pub_of s d = Some p -> In p (built s) /\ d < next s;
  inv_frozen : forall d, frozen s d = true -> pub_of s d <> None;
  inv_sealed : forall f, sealed s f = true -> f < next s;
  inv_fin : exists l, forall n, par s n <> None -> In n l }.

Section S.
Variable en : env.
Notation Inv := (Inv en).

Lemma inv_fresh s : fresh_key s -> Inv s.
Proof.
  intros (P & L & O & LK & PF & SE & B). constructor.
  - intros n e E. specialize (P n). destruct n; try congruence. intros d ->. split; [apply PF|eauto].
  - intros d E. specialize (P NFinal). cbn in P. congruence.
  - intros n d E. specialize (P n). destruct n; cbn in P; try congruence; exact Logic.I.
  - intros n m d _ _ X. exfalso. apply X, PF.
  - intros d p fn e X. destruct (PF d) as [Y _]. congruence.
  - intros d d' fn fn' f X. exfalso. apply X, PF.
  - intros d p X. destruct (PF d) as [Y _]. congruence.
  - intros d X. destruct (PF d) as [_ Y]. congruence.
  - intros f X. rewrite SE in X. discriminate.
  - apply L.
Qed.

Lemma holds_ext s s' d p :
  (forall fn, dirs s' d fn = dirs s d fn) ->
  (forall fn f, dirs s d fn = Some (FReg f) -> files s' f = files s f) ->
  holds en s d p -> holds en s' d p.
Proof.
  intros D F [H1 H2]. split.
  - intros fn K. destruct (H1 fn K) as (f & E1 & E2). exists f. rewrite D. split; [assumption|].
    now rewrite (F fn).
  - intros i. now rewrite D.
Qed.

Lemma inv_upd_lock s l : Inv s -> Inv (upd_lock s l).
Proof. intros [H1 H2 H3 H4 H5 H6 H7 H8 H9 H10]. constructor; cbn; try assumption. Qed.
Lemma fm_upd_lock s l : fm s (upd_lock s l).
Proof. constructor; cbn; auto. Qed.
Lemma inv_release i s : Inv s -> Inv (release i s).
Proof. intros H. unfold release. destruct (lock s) as [o|]; [|assumption]. destruct (o =? i); [now apply inv_upd_lock|assumption]. Qed.

Lemma inv_upd_built s p : Inv s -> Inv (upd_built s p).
Proof.
  intros [H1 H2 H3 H4 H5 H6 H7 H8 H9 H10]. constructor; cbn; try assumption.
  intros d q E. destruct (H7 d q E). auto.
Qed.
Lemma fm_upd_built s p : fm s (upd_built s p).
Proof. constructor; cbn; auto. Qed.

(** rmdir *)
Lemma inv_rmdir s n : Inv s -> Inv (upd_par s n None).
Proof.
  intros [H1 H2 H3 H4 H5 H6 H7 H8 H9 H10]. constructor; cbn; try assumption.
  - intros m e. destruct (name_eq_dec m n); [discriminate|]. apply H1.
  - intros d. destruct (name_eq_dec NFinal n); [discriminate|]. apply H2.
  - intros m d. destruct (name_eq_dec m n); [discriminate|]. apply H3.
  - intros m m' d. destruct (name_eq_dec m n); [discriminate|]. destruct (name_eq_dec m' n); [discriminate|]. apply H4.
  - destruct H10 as [l H10]. exists l. intros m. destruct (name_eq_dec m n); [congruence|]. apply H10.
Qed.
Lemma fm_rmdir s n : fm s (upd_par s n None).
Proof. constructor; cbn; auto. Qed.

(** unlink, not in the bundle *)
Lemma inv_unlink s d fn : Inv s -> par s NFinal <> Some (EDir d) -> Inv (upd_dir s d fn None).
Proof.
  intros [H1 H2 H3 H4 H5 H6 H7 H8 H9 H10] NF. constructor; cbn; try assumption.
  - intros d' E. destruct (H2 d' E) as (F & p & P & W). split; [assumption|]. exists p. split; [assumption|].
    apply (holds_ext s); [|reflexivity|assumption]. intros fn'. cbn.
    destruct (Nat.eq_dec d' d) as [->|]; [congruence|reflexivity].
  - intros d' p fn' e E. destruct (Nat.eq_dec d' d); [destruct (fname_eq_dec fn' fn); [discriminate|]|]; apply (H5 _ _ _ _ E).
  - intros d' d'' f1 f2 f P1 P2.
    destruct (Nat.eq_dec d' d); [destruct (fname_eq_dec f1 fn); [discriminate|]|];
    (destruct (Nat.eq_dec d'' d); [destruct (fname_eq_dec f2 fn); [discriminate|]|]); now apply H6.
Qed.
Lemma fm_unlink s d fn : fm s (upd_dir s d fn None).
Proof.
  constructor; cbn; auto. intros d' fn' e _.
  destruct (Nat.eq_dec d' d); [destruct (fname_eq_dec fn' fn); [discriminate|]|]; auto.
Qed.

(** mkdtemp *)
Lemma inv_new_dir s i p : Inv s -> par s (NTmp i) = None -> In p (built s) -> Inv (new_dir s (NTmp i) p).
Proof.
  intros [H1 H2 H3 H4 H5 H6 H7 H8 H9 H10] N B.
  assert (FR : pub_of s (next s) = None).
  { destruct (pub_of s (next s)) as [q|] eqn:E; [|reflexivity]. destruct (H7 _ _ E). lia. }
  assert (FZ : frozen s (next s) = false).
  { destruct (frozen s (next s)) eqn:E; [|reflexivity]. apply H8 in E. congruence. }
  assert (PN : forall m, par s m <> Some (EDir (next s))).
  { intros m E. destruct m as [|j|j|j|j]; pose proof (H1 _ _ E) as X; cbn in X;
      [destruct X as (d & X & Y); injection X as <-; congruence..|].
    destruct (X _ eq_refl). lia. }
  constructor; cbn -[name_eq_dec].
  - intros m e. destruct (name_eq_dec m (NTmp i)) as [->|D].
    + intros E. injection E as <-. exists (next s). split; [reflexivity|]. destruct (Nat.eq_dec (next s) (next s)); [discriminate|lia].
    + intros E. pose proof (H1 m e E) as X. destruct m as [|j|j|j|j].
      1,2,3,4: (destruct X as (d & -> & X); exists d; split; [reflexivity|]; destruct (Nat.eq_dec d (next s)); [discriminate|assumption]).
      intros d ->. destruct (X d eq_refl) as [X1 X2]. destruct (Nat.eq_dec d (next s)); [lia|]. split; [assumption|lia].
  - intros d E. destruct (name_eq_dec NFinal (NTmp i)); [discriminate|]. destruct (H2 d E) as (F & q & P & W).
    split; [assumption|]. exists q. destruct (Nat.eq_dec d (next s)) as [->|]; [congruence|]. split; [assumption|].
    apply (holds_ext s); [|reflexivity|assumption]. intros fn. cbn. destruct (Nat.eq_dec d (next s)); [congruence|reflexivity].
  - intros m d. destruct (name_eq_dec m (NTmp i)) as [->|D]; [|apply H3].
    intros E. injection E as <-. assumption.
  - intros m m' d. destruct (name_eq_dec m (NTmp i)) as [->|D]; destruct (name_eq_dec m' (NTmp i)) as [->|D'].
    + reflexivity.
    + intros E E'. injection E as <-. now apply PN in E'.
    + intros E E'. injection E' as <-. now apply PN in E.
    + intros E E'. destruct (Nat.eq_dec d (next s)) as [->|]; [now apply PN in E|]. now apply (H4 m m' d).
  - intros d q fn e. destruct (Nat.eq_dec d (next s)) as [->|ND]; [discriminate|].
    intros P E. destruct (H5 d q fn e P E) as (f & A1 & A2 & A3 & A4). exists f. split; [assumption|]. split; [assumption|]. split; [lia|assumption].
  - intros d d' fn fn' f. destruct (Nat.eq_dec d (next s)) as [->|ND]; [discriminate|].
    destruct (Nat.eq_dec d' (next s)) as [->|ND']; [discriminate|]. apply H6.
  - intros d q. destruct (Nat.eq_dec d (next s)) as [->|ND].
    + intros E. injection E as <-. split; [assumption|lia].
    + intros E. destruct (H7 d q E). split; [assumption|lia].
  - intros d E. destruct (Nat.eq_dec d (next s)); [discriminate|]. now apply H8.
  - intros f E. specialize (H9 f E). lia.
  - destruct H10 as [l H10]. exists (NTmp i :: l). intros m. destruct (name_eq_dec m (NTmp i)) as [->|D]; [left; reflexivity|].
    intros E. right. now apply H10.
Qed.
Lemma fm_new_dir s i p : Inv s -> fm s (new_dir s (NTmp i) p).
Proof.
  intros [H1 H2 H3 H4 H5 H6 H7 H8 H9 H10]. constructor; cbn; auto.
  - intros d q E. destruct (Nat.eq_dec d (next s)) as [->|]; [|assumption]. destruct (H7 _ _ E). lia.
  - intros d fn e F. destruct (Nat.eq_dec d (next s)); [discriminate|auto].
Qed.

(** open(..., "w") of a new name in a directory not yet published *)
Lemma inv_create s d fn p : Inv s -> pub_of s d = Some p -> frozen s d = false -> known fn = true -> dirs s d fn = None ->
  Inv (upd_next (upd_file (upd_dir s d fn (Some (FReg (next s)))) (next s) [])).
Proof.
  intros [H1 H2 H3 H4 H5 H6 H7 H8 H9 H10] P F KN D.
  assert (SN : sealed s (next s) = false).
  { destruct (sealed s (next s)) eqn:E; [|reflexivity]. specialize (H9 _ E). lia. }
  constructor; cbn; try assumption.
  - intros n e E. specialize (H1 n e E). destruct n; try assumption. intros d' E'. destruct (H1 d' E'). split; [assumption|lia].
  - intros d' E. destruct (H2 d' E) as (F' & q & Q1 & W). split; [assumption|]. exists q. split; [assumption|].
    assert (ND : d' <> d) by congruence.
    apply (holds_ext s); [| |assumption].
    + intros fn'. cbn. destruct (Nat.eq_dec d' d); [congruence|reflexivity].
    + intros fn' f Ef. cbn. destruct (Nat.eq_dec f (next s)) as [->|]; [|reflexivity].
      destruct (H5 _ _ _ _ Q1 Ef) as (f' & X & _ & Y & _). injection X as <-. lia.
  - intros d' q fn' e Q1. destruct (Nat.eq_dec d' d) as [->|ND]; [destruct (fname_eq_dec fn' fn) as [->|NF]|].
    + intros E. injection E as <-. exists (next s). rewrite F, SN. repeat split; auto. discriminate.
    + intros E. destruct (H5 _ _ _ _ Q1 E) as (f & A1 & A2 & A3 & A4 & A5). exists f. repeat split; auto.
      intros F'. congruence.
    + intros E. destruct (H5 _ _ _ _ Q1 E) as (f & A1 & A2 & A3 & A4 & A5). exists f. repeat split; auto.
      intros F'. destruct (Nat.eq_dec f (next s)); [lia|auto].
  - assert (FN : forall x y, pub_of s x <> None -> dirs s x y <> Some (FReg (next s))).
    { intros x y X E. destruct (pub_of s x) as [q|] eqn:Q1; [|congruence].
      destruct (H5 _ _ _ _ Q1 E) as (f' & Y & _ & Z & _). injection Y as <-. lia. }
    intros d1 d2 f1 f2 f P1 P2.
    destruct (Nat.eq_dec d1 d) as [->|]; [destruct (fname_eq_dec f1 fn) as [->|]|];
      (destruct (Nat.eq_dec d2 d) as [->|]; [destruct (fname_eq_dec f2 fn) as [->|]|]); intros E1 E2;
      try (now split); try (injection E1 as <-; exfalso; revert E2; now apply FN);
      try (injection E2 as <-; exfalso; revert E1; now apply FN); eapply H6; eassumption.
  - intros d' q E. destruct (H7 d' q E). split; [assumption|lia].
  - intros f E. specialize (H9 f E). lia.
Qed.
Lemma fm_create s d fn : Inv s -> frozen s d = false ->
  fm s (upd_next (upd_file (upd_dir s d fn (Some (FReg (next s)))) (next s) [])).
Proof.
  intros [H1 H2 H3 H4 H5 H6 H7 H8 H9 H10] F. constructor; cbn; auto.
  - intros d' fn' e F'. destruct (Nat.eq_dec d' d) as [->|]; [congruence|auto].
  - intros f E. split; [assumption|]. destruct (Nat.eq_dec f (next s)) as [->|]; [|reflexivity]. specialize (H9 _ E). lia.
Qed.

(** write to a file not yet published *)
Lemma inv_upd_file s f b : Inv s -> sealed s f = false -> Inv (upd_file s f b).
Proof.
  intros [H1 H2 H3 H4 H5 H6 H7 H8 H9 H10] S. constructor; cbn; try assumption.
  - intros d E. destruct (H2 d E) as (F & p & P & W). split; [assumption|]. exists p. split; [assumption|].
    apply (holds_ext s); [reflexivity| |assumption]. intros fn f' E'. cbn.
    destruct (Nat.eq_dec f' f) as [->|]; [|reflexivity].
    destruct (H5 _ _ _ _ P E') as (f' & X & _ & _ & Y & _). injection X as <-. congruence.
  - intros d p fn e P E. destruct (H5 _ _ _ _ P E) as (f' & A1 & A2 & A3 & A4 & A5). exists f'. repeat split; auto.
    intros F. destruct (Nat.eq_dec f' f) as [->|]; [congruence|auto].
Qed.
Lemma fm_upd_file s f b : sealed s f = false -> fm s (upd_file s f b).
Proof.
  intros S. constructor; cbn; auto. intros f' E. split; [assumption|]. destruct (Nat.eq_dec f' f); [congruence|reflexivity].
Qed.

(** renames *)
Lemma inv_retire s d n : Inv s -> par s NFinal = Some (EDir d) -> par s n = None ->
  (exists i, n = NPrev i \/ n = NCorrupt i) -> Inv (moved s NFinal n (EDir d)) /\ fm s (moved s NFinal n (EDir d)).
Proof.
  intros [H1 H2 H3 H4 H5 H6 H7 H8 H9 H10] P N (i & K).
  assert (NF : n <> NFinal) by (destruct K as [-> | ->]; discriminate).
  destruct (H2 d P) as (F & p & PB & W).
  assert (EQ : moved s NFinal n (EDir d) =
    St (fun m => if name_eq_dec m n then Some (EDir d) else if name_eq_dec m NFinal then None else par s m)
       (dirs s) (files s) (next s) (lock s) (pub_of s) (frozen s) (sealed s) (built s)).
  { destruct K as [-> | ->]; reflexivity. }
  rewrite EQ. split.
  - constructor; cbn; try assumption.
    + intros m e. destruct (name_eq_dec m n) as [->|D].
      * intros E. injection E as <-. destruct K as [-> | ->]; exists d; (split; [reflexivity|congruence]).
      * destruct (name_eq_dec m NFinal); [discriminate|]. apply H1.
    + intros d'. destruct (name_eq_dec NFinal n); [congruence|]. destruct (name_eq_dec NFinal NFinal); [discriminate|congruence].
    + intros m d'. destruct (name_eq_dec m n) as [->|D].
      * intros E. injection E as <-. destruct K as [-> | ->]; assumption.
      * destruct (name_eq_dec m NFinal); [discriminate|]. apply H3.
    + intros m m' d'. destruct (name_eq_dec m n) as [->|D]; destruct (name_eq_dec m' n) as [->|D'].
      * reflexivity.
      * destruct (name_eq_dec m' NFinal) as [->|]; [discriminate|]. intros E E' X. injection E as <-.
        exfalso. pose proof (H4 _ _ _ P E' X). congruence.
      * destruct (name_eq_dec m NFinal) as [->|]; [discriminate|]. intros E E' X. injection E' as <-.
        exfalso. pose proof (H4 _ _ _ P E X). congruence.
      * destruct (name_eq_dec m NFinal); [discriminate|]. destruct (name_eq_dec m' NFinal); [discriminate|]. apply H4.
    + destruct H10 as [l H10]. exists (n :: l). intros m. destruct (name_eq_dec m n) as [->|D]; [left; reflexivity|].
      destruct (name_eq_dec m NFinal); [congruence|]. intros E. right. auto.
  - constructor; cbn; auto.
Qed.
Lemma holds_file_spec s d f : holds_file s d f = true <-> exists fn, known fn = true /\ dirs s d fn = Some (FReg f).
Proof.
  unfold holds_file. rewrite existsb_exists. split.
  - intros (fn & I & E). exists fn. destruct (dirs s d fn) as [[f'| | |]|]; try discriminate.
    apply Nat.eqb_eq in E. subst f'. split; [|reflexivity]. cbn in I. now destruct I as [<-|[<-|[<-|[]]]].
  - intros (fn & K & E). exists fn. rewrite E, Nat.eqb_refl. split; [|reflexivity].
    destruct fn; try discriminate; cbn; auto.
Qed.
Lemma inv_promote s d n p : Inv s -> par s n = Some (EDir d) -> par s NFinal = None ->
  pub_of s d = Some p -> holds en s d p -> Inv (moved s n NFinal (EDir d)) /\ fm s (moved s n NFinal (EDir d)).
Proof.
  intros [H1 H2 H3 H4 H5 H6 H7 H8 H9 H10] P N PB W.
  assert (NF : n <> NFinal) by congruence.
  assert (SE : forall d' fn f, pub_of s d' <> None -> dirs s d' fn = Some (FReg f) -> holds_file s d f = true -> d' = d).
  { intros d' fn f X E Hf. apply holds_file_spec in Hf. destruct Hf as (fn' & K & E'). eapply H6; try eassumption. congruence. }
  assert (SD : forall fn f, dirs s d fn = Some (FReg f) -> holds_file s d f = true).
  { intros fn f E. apply holds_file_spec. exists fn. split; [|assumption]. destruct (H5 _ _ _ _ PB E) as (f' & X & Y & _). exact Y. }
  unfold moved. split.
  - constructor; cbn -[holds_file]; try assumption.
    + intros m e. destruct (name_eq_dec m NFinal) as [->|D].
      * intros E. injection E as <-. exists d. split; [reflexivity|congruence].
      * destruct (name_eq_dec m n); [discriminate|]. apply H1.
    + intros d' E. injection E as <-. destruct (Nat.eq_dec d d); [|congruence].
      split; [reflexivity|]. exists p. split; [assumption|]. apply (holds_ext s); [reflexivity|reflexivity|assumption].
    + intros m d'. destruct (name_eq_dec m NFinal) as [->|D]; [intros; exact Logic.I|].
      destruct (name_eq_dec m n) as [->|D']; [discriminate|]. intros E. pose proof (H3 m d' E) as X.
      destruct (Nat.eq_dec d' d) as [->|ND]; [|exact X].
      destruct m; try exact Logic.I; try reflexivity.
      exfalso. apply D'. apply (H4 _ _ d E P). congruence.
    + intros m m' d'. destruct (name_eq_dec m NFinal) as [->|D]; destruct (name_eq_dec m' NFinal) as [->|D'].
      * reflexivity.
      * destruct (name_eq_dec m' n) as [->|]; [discriminate|]. intros E E' X. injection E as <-.
        exfalso. pose proof (H4 _ _ _ P E' X). congruence.
      * destruct (name_eq_dec m n) as [->|]; [discriminate|]. intros E E' X. injection E' as <-.
        exfalso. pose proof (H4 _ _ _ P E X). congruence.
      * destruct (name_eq_dec m n); [discriminate|]. destruct (name_eq_dec m' n); [discriminate|]. apply H4.
    + intros d' q fn e Q1 E. destruct (H5 _ _ _ _ Q1 E) as (f & -> & A2 & A3 & A4 & A5). exists f.
      split; [reflexivity|]. split; [assumption|]. split; [assumption|].
      destruct (Nat.eq_dec d' d) as [->|ND].
      * rewrite (SD fn f E), orb_true_r. split; [reflexivity|]. intros _.
        destruct W as [W1 _]. destruct (W1 fn A2) as (f' & B1 & B2). assert (q = p) by congruence. subst q. congruence.
      * split; [|assumption]. destruct (holds_file s d f) eqn:Hf; [|now rewrite orb_false_r].
        exfalso. apply ND. apply (SE d' fn f); [congruence|assumption|assumption].
    + intros d' E. destruct (Nat.eq_dec d' d) as [->|]; [congruence|auto].
    + intros f E. apply orb_true_iff in E. destruct E as [E|E]; [auto|].
      apply holds_file_spec in E. destruct E as (fn & _ & E). destruct (H5 _ _ _ _ PB E) as (f' & X & _ & Y & _).
      injection X as <-. exact Y.
    + destruct H10 as [l H10]. exists (NFinal :: l). intros m. destruct (name_eq_dec m NFinal) as [->|D]; [left; reflexivity|].
      destruct (name_eq_dec m n); [congruence|]. intros E. right. auto.
  - constructor; cbn; auto.
    + intros d' E. destruct (Nat.eq_dec d' d); auto.
    + intros f E. now rewrite E.
Qed.
End S.
