(** Running the model: one admissible schedule computed step by step, used for the
    concrete cases beside the theorems. *)
From Coq Require Import List NArith ZArith Bool Arith Lia Permutation String.
From Verif Require Import Text TextFacts CacheModel CacheSpec CacheRG CacheInv CacheLive.
Import ListNotations.
Local Open Scope list_scope.

Definition fresh_of (U : list name) : nat := S (fold_right (fun n m => Nat.max (index n) m) 0 U).
Definition here {A} (o : option A) : bool := match o with Some _ => true | None => false end.
Definition files_of (s : st) (d : nat) : list fname := filter (fun fn => here (dirs s d fn)) [FTag; FVerb; FMan].
Definition hollow (s : st) (d : nat) : bool := match files_of s d with [] => true | _ => false end.

Section R.
Variable w : world.
Variable builds : nat -> pub.
(** One answer of the operating system: renames fail when they may, reads are
    complete, writes take at most two bytes. *)
Definition answer (me : nat) (c : call) (s : st) (U : list name) : ret c * st * list name :=
  match c return ret c * st * list name with
  | CEnsureParent | CFsync | COwner => (inr tt, s, U)
  | CLstat n => (match par s n with None => inl ENOENT | Some e => inr (entry_kind e) end, s, U)
  | CLexists n => (here (par s n), s, U)
  | COpenDir n => (match par s n with None => inl ENOENT | Some (EDir d) => inr d | Some _ => inl ELOOP end, s, U)
  | CListdir d => (inr (files_of s d), s, U)
  | COpenAt d fn => (match dirs s d fn with None => inl ENOENT | Some FLink => inl ELOOP | Some (FReg f) => inr (Some f) | Some _ => inr None end, s, U)
  | CSize f => (inr (List.length (files s f)), s, U)
  | CRead f off max => (inr (firstn max (skipn off (files s f))), s, U)
  | CScandir n => (match par s n with None => inl ENOENT | Some (EDir d) => inr (files_of s d) | Some _ => inl ELOOP end, s, U)
  | CStatAt n fn => (match par s n with Some (EDir d) => match dirs s d fn with None => inl ENOENT | Some e => inr (fentry_kind e) end | _ => inl ENOENT end, s, U)
  | CUnlinkAt d fn => match dirs s d fn with None => (inl ENOENT, s, U) | Some FDir => (inl EIO, s, U) | Some _ => (inr tt, upd_dir s d fn None, U) end
  | CRmdir n => match par s n with
                | None => (inl ENOENT, s, U)
                | Some (EDir d) => if hollow s d then (inr tt, upd_par s n None, U) else (inl EIO, s, U)
                | Some _ => (inl ELOOP, s, U)
                end
  | CMkdtemp p => let i := fresh_of U in (inr i, new_dir s (NTmp i) p, NTmp i :: U)
  | CCreate n fn => match par s n with
                    | Some (EDir d) =>
                        match dirs s d fn with
                        | None => (inr (next s), upd_next (upd_file (upd_dir s d fn (Some (FReg (next s)))) (next s) []), U)
                        | Some (FReg f) => (inr f, upd_file s f [], U)
                        | Some _ => (inl EIO, s, U)
                        end
                    | _ => (inl ENOENT, s, U)
                    end
  | CWrite f b => let k := Nat.min 2 (List.length b) in (inr k, upd_file s f (files s f ++ firstn k b), U)
  | CRename a b =>
      if faulty w (CRename a b) then (inl EIO, s, U) else
      match par s a with
      | None => (inl ENOENT, s, U)
      | Some (EDir d) =>
          match par s b with
          | None => (inr tt, moved s a b (EDir d), b :: U)
          | Some (EDir d') => if hollow s d' then (inr tt, moved s a b (EDir d), b :: U) else (inl EIO, s, U)
          | Some _ => (inl ELOOP, s, U)
          end
      | Some e => match par s b with Some (EDir _) => (inl EIO, s, U) | _ => (inr tt, moved s a b e, b :: U) end
      end
  | CIterdir => (inr (nodup name_eq_dec (filter (fun n => here (par s n)) U)), s, U)
  | CMtimes l => (inr l, s, U)
  | CUuid => (fresh_of U, s, U)
  | CLock => match lock s with None => (true, upd_lock s (Some me), U) | Some _ => (false, s, U) end
  | CUnlock => (tt, match lock s with Some o => if o =? me then upd_lock s None else s | None => s end, U)
  | CBuild => let p := builds (List.length (built s)) in (inr p, upd_built s p, U)
  | CFingerprint => (true, s, U)
  end.
Definition covers (U : list name) (s : st) : Prop :=
  (forall n, par s n <> None -> In n U) /\ (forall d fn, dirs s d fn <> None -> known fn = true).
Lemma fresh_of_max U n : In n U -> index n < fresh_of U.
Proof.
  unfold fresh_of. induction U as [|a U IH]; [intros []|]. cbn [fold_right In]. intros [<-|M]; [lia|]. specialize (IH M). lia.
Qed.
Lemma fresh_none U s n : covers U s -> index n = fresh_of U -> par s n = None.
Proof. intros [C _] E. destruct (par s n) eqn:P; [|reflexivity]. assert (X : In n U) by (apply C; congruence). apply fresh_of_max in X. lia. Qed.
Lemma here_spec A (o : option A) : here o = true <-> o <> None.
Proof. destruct o; cbn; split; congruence. Qed.
Lemma files_of_spec U s d : covers U s -> lists (files_of s d) (fun fn => dirs s d fn <> None).
Proof.
  intros [_ C]. split.
  - apply NoDup_filter. repeat constructor; cbn; intuition discriminate.
  - intros fn. unfold files_of. rewrite filter_In, here_spec. split; [tauto|]. intros H. split; [|assumption].
    specialize (C _ _ H). destruct fn; cbn in *; auto. discriminate.
Qed.
Lemma hollow_spec U s d : covers U s -> if hollow s d then empty_dir s d else ~ empty_dir s d.
Proof.
  intros C. pose proof (files_of_spec U s d C) as [_ L]. unfold hollow. destruct (files_of s d) as [|x l].
  - intros fn. destruct (dirs s d fn) eqn:E; [|reflexivity]. exfalso. apply (L fn). congruence.
  - intros E. apply (proj1 (L x) (or_introl eq_refl)). apply E.
Qed.
Hypothesis SANE : forall i, sane w (builds i).
Lemma answer_ok me c s U : covers U s -> callable c ->
  let '(r, s', U') := answer me c s U in step w me c s r s' /\ covers U' s'.
Proof.
  intros C CC. pose proof C as [C1 C2].
  destruct c; cbn [answer step];
    try (split; [right; split; reflexivity|exact C]).
  - split; [split; [reflexivity|right; unfold here; destruct (par s n); reflexivity]|exact C].
  - split; [|exact C]. right. split; [reflexivity|]. eexists. split; [reflexivity|]. now apply (files_of_spec U).
  - split; [|exact C]. right. split; [reflexivity|]. exists (firstn max (skipn off (files s f))), (skipn max (skipn off (files s f))).
    split; [reflexivity|]. split; [symmetry; apply firstn_skipn|]. split; [apply firstn_le_length|].
    intros E. destruct max; [now right|left]. destruct (skipn off (files s f)); [reflexivity|discriminate E].
  - split; [|exact C]. right. split; [reflexivity|]. destruct (par s n) as [[d| | |]|]; auto.
    eexists. split; [reflexivity|]. now apply (files_of_spec U).
  - assert (CU : covers U (upd_dir s d fn None)).
    { split; [exact C1|]. intros d' fn'. cbn. destruct (Nat.eq_dec d' d); [destruct (fname_eq_dec fn' fn); [congruence|]|]; apply C2. }
    destruct (dirs s d fn) as [[]|]; (split; [right; split; reflexivity|assumption]).
  - destruct (par s n) as [[d| | |]|]; try (split; [right; split; reflexivity|assumption]).
    pose proof (hollow_spec U s d C) as H. destruct (hollow s d).
    + split; [right; left; auto|]. split; [|exact C2]. intros m. cbn. destruct (name_eq_dec m n); [congruence|apply C1].
    + split; [right; right; auto|exact C].
  - split; [right; exists (fresh_of U); split; [now apply (fresh_none U)|split; reflexivity]|]. split.
    + intros m. cbn [new_dir par In]. destruct (name_eq_dec m (NTmp (fresh_of U))); [left; congruence|right; now apply C1].
    + intros d fn. cbn. destruct (Nat.eq_dec d (next s)); [congruence|apply C2].
  - destruct (par s n) as [[d| | |]|]; try (split; [right; split; reflexivity|assumption]).
    destruct (dirs s d fn) as [[]|]; try (split; [right; split; reflexivity|exact C]).
    split; [right; split; reflexivity|]. split; [exact C1|]. intros d' fn'. cbn.
    destruct (Nat.eq_dec d' d); [destruct (fname_eq_dec fn' fn) as [->|]; [intros _; exact CC|]|]; apply C2.
  - split; [|exact C]. right. exists (Nat.min 2 (List.length b)). split; [|split; reflexivity].
    destruct b as [|x b]; [destruct CC|]. cbn [List.length]. lia.
  - destruct (faulty w (CRename a b)) eqn:F; [split; [left; unfold fault; auto|exact C]|].
    assert (CU : forall e, covers (b :: U) (moved s a b e)).
    { intros e. split.
      - intros m. unfold moved. destruct b, e; cbn; (destruct (name_eq_dec m _); [left; congruence|]; destruct (name_eq_dec m a); [congruence|right; now apply C1]).
      - intros d fn. unfold moved. destruct b, e; apply C2. }
    destruct (par s a) as [[d| | |]|]; try (split; [right; split; reflexivity|exact C]).
    + destruct (par s b) as [[d'| | |]|]; try (split; [right; split; reflexivity|auto]).
      pose proof (hollow_spec U s d' C) as H. destruct (hollow s d'); (split; [right; auto|auto]).
    + destruct (par s b) as [[d'| | |]|]; (split; [right; split; reflexivity|auto]).
    + destruct (par s b) as [[d'| | |]|]; (split; [right; split; reflexivity|auto]).
    + destruct (par s b) as [[d'| | |]|]; (split; [right; split; reflexivity|auto]).
  - split; [|exact C]. right. split; [reflexivity|]. eexists. split; [reflexivity|]. split; [apply NoDup_nodup|].
    intros n. rewrite nodup_In, filter_In, here_spec. split; [tauto|]. auto.
  - split; [|exact C]. right. split; [reflexivity|]. exists l. auto.
  - split; [|exact C]. split; [reflexivity|]. split; now apply (fresh_none U).
  - destruct (lock s) eqn:L; [split; [right; split; [congruence|auto]|exact C]|split; [left; auto|exact C]].
  - split; [reflexivity|]. destruct (lock s) as [o|]; [destruct (o =? me)|]; exact C.
  - split; [|exact C]. right. eexists. split; [apply SANE|]. split; reflexivity.
  - split; [auto|exact C].
Qed.

(** [n] steps of one process. *)
Fixpoint go (n me : nat) {T} (p : prog T) (s : st) (U : list name) : prog T * st * list name :=
  match n, p with
  | S n', Op c k => let '(r, s', U') := answer me c s U in go n' me (k r) s' U'
  | _, _ => (p, s, U)
  end.
(** A schedule: process [i] makes [n] steps, or crashes. *)
Inductive event := Run (i n : nat) | Crash (i : nat).
Fixpoint play (l : list event) (g : config) (U : list name) : config * list name :=
  match l with
  | [] => (g, U)
  | Run i n :: r =>
      match thr g i with
      | Some p => let '(p', s', U') := go n i p (cst g) U in play r (Config s' (set_thr (thr g) i (Some p'))) U'
      | None => play r g U
      end
  | Crash i :: r =>
      match thr g i with
      | Some p => play r (Config (release i (cst g)) (set_thr (thr g) i None)) U
      | None => play r g U
      end
  end.
Lemma reach_trans crashes g0 g1 g2 : reach w crashes g0 g1 -> reach w crashes g1 g2 -> reach w crashes g0 g2.
Proof. intros A B. induction B; [assumption|]. eapply reach_step; eauto. Qed.
(** Configurations are compared up to the function that gives each process its program. *)
Definition same (g g' : config) : Prop := cst g = cst g' /\ forall i, thr g i = thr g' i.
Lemma same_step crashes g1 g1' g2 : same g1 g1' -> sstep w crashes g1 g2 -> exists g2', sstep w crashes g1' g2' /\ same g2 g2'.
Proof.
  intros [E T] S. destruct S as [g i c k r s' H ST|g i p C H].
  - eexists. split; [eapply (SRun w crashes g1' i c k r s'); [now rewrite <- T|now rewrite <- E]|].
    split; [reflexivity|]. intros j. cbn. unfold set_thr. destruct (Nat.eq_dec j i); auto.
  - eexists. split; [eapply (SCrash w crashes g1' i p C); now rewrite <- T|].
    split; [cbn; now rewrite E|]. intros j. cbn. unfold set_thr. destruct (Nat.eq_dec j i); auto.
Qed.
Lemma same_reach crashes g1 g1' g2 : same g1 g1' -> reach w crashes g1 g2 -> exists g2', reach w crashes g1' g2' /\ same g2 g2'.
Proof.
  intros E R. induction R as [|g g' R (g2' & A & B) S]; [exists g1'; split; [apply reach_refl|assumption]|].
  destruct (same_step _ _ _ _ B S) as (g3 & C & D). exists g3. split; [eapply reach_step; eauto|assumption].
Qed.
Lemma go_ok crashes n i : forall p g U, thr g i = Some p -> wf p -> covers U (cst g) ->
  let '(p', s', U') := go n i p (cst g) U in
  exists g', reach w crashes g g' /\ same g' (Config s' (set_thr (thr g) i (Some p'))) /\ wf p' /\ covers U' s'.
Proof.
  induction n as [|n IH]; intros p g U T W C; cbn [go].
  { exists g. split; [apply reach_refl|]. split; [|auto]. split; [reflexivity|]. intros j. cbn. unfold set_thr. destruct (Nat.eq_dec j i) as [->|]; [exact T|reflexivity]. }
  destruct p as [a|c k].
  { exists g. split; [apply reach_refl|]. split; [|auto]. split; [reflexivity|]. intros j. cbn. unfold set_thr. destruct (Nat.eq_dec j i) as [->|]; [exact T|reflexivity]. }
  destruct W as [W1 W2]. pose proof (answer_ok i c (cst g) U C W1) as H. destruct (answer i c (cst g) U) as [[r s1] U1]. destruct H as [ST C'].
  specialize (IH (k r) (Config s1 (set_thr (thr g) i (Some (k r)))) U1). cbn [thr cst] in IH.
  destruct (go n i (k r) s1 U1) as [[p' s'] U']. destruct IH as (g' & R & S & WF & CV); [unfold set_thr; destruct (Nat.eq_dec i i) as [_|N]; [reflexivity|destruct (N eq_refl)]|auto|assumption|].
  exists g'. split; [eapply reach_trans; [|exact R]; eapply reach_step; [apply reach_refl|]; now apply SRun with (c := c)|].
  split; [|auto]. destruct S as [S1 S2]. split; [exact S1|]. intros j. rewrite S2. cbn. unfold set_thr. destruct (Nat.eq_dec j i); reflexivity.
Qed.
Lemma same_trans g1 g2 g3 : same g1 g2 -> same g2 g3 -> same g1 g3.
Proof. intros [A B] [C D]. split; [congruence|]. intros i. now rewrite B. Qed.
Lemma same_sym g1 g2 : same g1 g2 -> same g2 g1.
Proof. intros [A B]. split; auto. Qed.
Lemma play_ok : forall l g U, (forall i p, thr g i = Some p -> wf p) -> covers U (cst g) ->
  exists g', reach w true g g' /\ same g' (fst (play l g U)) /\ covers (snd (play l g U)) (cst (fst (play l g U))).
Proof.
  induction l as [|[i n|i] l IH]; intros g U W C; cbn [play].
  - exists g. split; [apply reach_refl|]. split; [split; auto|exact C].
  - destruct (thr g i) as [p|] eqn:T; [|now apply IH].
    pose proof (go_ok true n i p g U T (W _ _ T) C) as H. destruct (go n i p (cst g) U) as [[p' s'] U'].
    destruct H as (g1 & R & S & WF & CV).
    destruct (IH (Config s' (set_thr (thr g) i (Some p'))) U') as (g2 & R2 & S2 & CV2); [|exact CV|].
    { intros j q. cbn. unfold set_thr. destruct (Nat.eq_dec j i); [intros E; now injection E as <-|apply W]. }
    destruct (same_reach _ _ _ _ (same_sym _ _ S) R2) as (g3 & R3 & S3).
    exists g3. split; [eapply reach_trans; eauto|]. split; [|exact CV2]. eapply same_trans; [apply same_sym; exact S3|exact S2].
  - destruct (thr g i) as [p|] eqn:T; [|now apply IH].
    destruct (IH (Config (release i (cst g)) (set_thr (thr g) i None)) U) as (g2 & R2 & S2 & CV2).
    { intros j q. cbn. unfold set_thr. destruct (Nat.eq_dec j i); [discriminate|apply W]. }
    { unfold release. destruct (lock (cst g)) as [o|]; [|exact C]. destruct (o =? i); exact C. }
    exists g2. split; [|split; [exact S2|exact CV2]]. eapply reach_trans; [|exact R2]. eapply reach_step; [apply reach_refl|]. now apply SCrash with (p := p).
Qed.
End R.
