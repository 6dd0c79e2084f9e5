(** No program gets stuck: from every state each client has a run to its end. *)
From Coq Require Import List NArith ZArith Bool Arith Lia Permutation String.
From Verif Require Import Text TextFacts CacheModel CacheSpec CacheRG CacheInv.
Import ListNotations.
Local Open Scope list_scope.

Definition callable (c : call) : Prop := match c with CWrite _ [] => False | CCreate _ fn => known fn = true | _ => True end.
Fixpoint wf {T} (p : prog T) : Prop :=
  match p with Ret _ => True | Op c k => callable c /\ forall r, wf (k r) end.

Lemma present_list A (dec : forall a b : A, {a = b} + {a <> b}) (P : A -> Prop) (Pd : forall a, {P a} + {~ P a}) l :
  (forall x, P x -> In x l) -> exists l', lists l' P.
Proof.
  intros H. exists (nodup dec (filter (fun a => if Pd a then true else false) l)). split; [apply NoDup_nodup|].
  intros x. rewrite nodup_In, filter_In. destruct (Pd x); intuition. congruence.
Qed.
Lemma some_dec A (o : option A) : {o <> None} + {~ o <> None}.
Proof. destruct o; [left; discriminate|right; auto]. Qed.
Lemma empty_dec s d l : (forall fn, dirs s d fn <> None -> In fn l) -> empty_dir s d \/ ~ empty_dir s d.
Proof.
  intros H. destruct (present_list _ fname_eq_dec _ (fun fn => some_dec _ (dirs s d fn)) l H) as ([|x l'] & _ & L).
  - left. intros fn. destruct (dirs s d fn) eqn:E; [|reflexivity]. exfalso. apply (L fn). congruence.
  - right. intros E. apply (proj1 (L x) (or_introl eq_refl)). apply E.
Qed.
Definition index (n : name) : nat := match n with NTmp i | NPrev i | NCorrupt i | NOther i => i | NFinal => 0 end.
Lemma fresh_index l : exists i, forall n, In n l -> index n < i.
Proof.
  induction l as [|a l (i & H)]; [exists 0; intros n []|]. exists (S (Nat.max (index a) i)). intros n [<-|M]; [lia|]. specialize (H n M). lia.
Qed.

Section L.
Variable w : world.
Variable me : nat.
Variable some_build : pub.
Hypothesis SB : sane w some_build.

Lemma finite_par s n e : finite s -> finite (upd_par s n e).
Proof.
  intros [(l & H) D]. split; [|exact D]. exists (n :: l). intros m. cbn. destruct (name_eq_dec m n); [left; congruence|right; now apply H].
Qed.
Lemma finite_moved s a b e : finite s -> finite (moved s a b e).
Proof.
  intros [(l & H) D]. split.
  - exists (b :: l). intros m. unfold moved. destruct b, e; cbn; (destruct (name_eq_dec m _); [left; congruence|]; destruct (name_eq_dec m a); [congruence|right; now apply H]).
  - intros d. destruct (D d) as (l' & H'). exists l'. unfold moved. destruct b, e; exact H'.
Qed.
Lemma finite_dir s d fn e : finite s -> finite (upd_dir s d fn e).
Proof.
  intros [(l & H) D]. split; [exists l; exact H|]. intros d'. destruct (D d') as (l' & H'). exists (fn :: l'). intros fn'. cbn.
  destruct (Nat.eq_dec d' d); [|right; now apply H']. destruct (fname_eq_dec fn' fn); [left; congruence|right; now apply H'].
Qed.
Lemma finite_step c s r s' : finite s -> step w me c s r s' -> finite s'.
Proof.
  intros F ST. destruct c; cbn [step] in ST; unfold fault in ST;
    repeat match goal with
    | H : _ /\ _ |- _ => destruct H
    | H : _ \/ _ |- _ => destruct H
    | H : exists _, _ |- _ => destruct H
    | H : context [match par s ?n with _ => _ end] |- _ => destruct (par s n) as [[]|]
    | H : context [match dirs s ?d ?n with _ => _ end] |- _ => destruct (dirs s d n) as [[]|]
    end; subst; try exact F; auto using finite_par, finite_moved, finite_dir.
  - destruct F as [(lf & HF) D]. split.
    + exists (NTmp x :: lf). intros m. cbn. destruct (name_eq_dec m (NTmp x)); [left; congruence|right; now apply HF].
    + intros d. destruct (D d) as (l' & H'). exists l'. intros fn. cbn. destruct (Nat.eq_dec d (next s)); [congruence|apply H'].
  - pose proof (finite_dir s d fn (Some (FReg (next s))) F) as [A B]. split; [exact A|exact B].
  - destruct (lock s); [destruct (n =? me)|]; exact F.
Qed.
Lemma step_total c s : finite s -> callable c -> exists r s', step w me c s r s'.
Proof.
  intros [(l & H) D] CC.
  assert (EL : forall d, exists l, lists l (fun fn => dirs s d fn <> None)).
  { intros d. destruct (D d) as (l' & H'). exact (present_list _ fname_eq_dec _ (fun fn => some_dec _ (dirs s d fn)) l' H'). }
  destruct c; cbn [step ret]; try (eexists; exists s; right; split; [reflexivity|reflexivity]).
  - eexists; exists s. split; [reflexivity|]. right. reflexivity.
  - destruct (EL d) as (l' & L'). eexists; exists s. right. split; [reflexivity|]. exists l'. split; [reflexivity|exact L'].
  - eexists; exists s. right. split; [reflexivity|]. exists (firstn max (skipn off (files s f))), (skipn max (skipn off (files s f))).
    split; [reflexivity|]. split; [symmetry; apply firstn_skipn|]. split; [apply firstn_le_length|].
    intros E. destruct max; [now right|left]. destruct (skipn off (files s f)); [reflexivity|discriminate E].
  - destruct (par s n) as [[d| | |]|].
    + destruct (EL d) as (l' & L'). eexists; exists s. right. split; [reflexivity|]. exists l'. split; [reflexivity|exact L'].
    + exists (inl ELOOP), s. right. auto.
    + exists (inl ENOENT), s. right. auto.
    + exists (inl ELOOP), s. right. auto.
    + exists (inl ENOENT), s. right. auto.
  - destruct (dirs s d fn) as [[]|]; eexists; eexists; right; (split; [reflexivity|reflexivity]).
  - destruct (par s n) as [[d| | |]|]; try (eexists; eexists; right; (split; [reflexivity|reflexivity])).
    destruct (D d) as (l' & L'). destruct (empty_dec s d l' L'); eexists; eexists; right; [left|right]; auto.
  - destruct (fresh_index l) as (i & FI). exists (inr i), (new_dir s (NTmp i) p). right. exists i. split; [|auto].
    destruct (par s (NTmp i)) eqn:E; [|reflexivity]. exfalso. assert (X : In (NTmp i) l) by (apply H; congruence). specialize (FI _ X). cbn in FI. lia.
  - destruct (par s n) as [[d| | |]|]; try (eexists; eexists; right; (split; [reflexivity|reflexivity])).
    destruct (dirs s d fn) as [[]|]; eexists; eexists; right; (split; [reflexivity|reflexivity]).
  - destruct b as [|x b]; [destruct CC|]. exists (inr 1). eexists. right. exists 1. cbn [List.length]. split; [lia|]. split; reflexivity.
  - destruct (par s a) as [[d| | |]|].
    + destruct (par s b) as [[d'| | |]|]; try (eexists; eexists; right; (split; [reflexivity|reflexivity])).
      destruct (D d') as (l' & L'). destruct (empty_dec s d' l' L'); eexists; eexists; right; [left|right]; auto.
    + destruct (par s b) as [[d'| | |]|]; eexists; eexists; right; (split; [reflexivity|reflexivity]).
    + destruct (par s b) as [[d'| | |]|]; eexists; eexists; right; (split; [reflexivity|reflexivity]).
    + destruct (par s b) as [[d'| | |]|]; eexists; eexists; right; (split; [reflexivity|reflexivity]).
    + eexists; eexists; right; (split; [reflexivity|reflexivity]).
  - destruct (present_list _ name_eq_dec _ (fun n => some_dec _ (par s n)) l H) as (l' & L'). exists (inr l'), s. right. split; [reflexivity|]. eauto.
  - exists (inr l0), s. right. split; [reflexivity|]. eauto.
  - destruct (fresh_index l) as (i & FI). exists i, s. split; [reflexivity|].
    split; [destruct (par s (NPrev i)) eqn:E|destruct (par s (NCorrupt i)) eqn:E]; try reflexivity; exfalso;
      (match type of E with par s ?n = _ => assert (X : In n l) by (apply H; congruence) end; specialize (FI _ X); cbn in FI; lia).
  - destruct (lock s) eqn:E; [exists false, s; right; split; [congruence|auto]|exists true; eexists; left; eauto].
  - exists tt. eexists. reflexivity.
  - exists (inr some_build). eexists. right. eauto.
  - exists true, s. auto.
Qed.
Lemma runs_total T (p : prog T) : wf p -> forall s, finite s -> exists a s', runs w me p s a s'.
Proof.
  induction p as [a|c k IH]; cbn [wf runs]; intros W s F; [eauto|]. destruct W as [W1 W2].
  destruct (step_total c s F W1) as (r & s1 & ST). destruct (IH r (W2 r) s1 (finite_step _ _ _ _ F ST)) as (a & s' & R). eauto 6.
Qed.
End L.

Lemma wf_bindp T U (p : prog T) (f : T -> prog U) : wf p -> (forall a, wf (f a)) -> wf (bindp p f).
Proof. intros H K. induction p as [a|c k IH]; cbn [bindp wf] in *; [auto|]. destruct H. auto. Qed.
Lemma wf_bind T U (p : io T) (f : T -> io U) : wf p -> (forall a, wf (f a)) -> wf (bind p f).
Proof. intros H K. apply wf_bindp; [assumption|]. intros [e|a]; [exact Logic.I|auto]. Qed.
Lemma wf_catch T (p : io T) (h : exn -> io T) : wf p -> (forall e, wf (h e)) -> wf (catch p h).
Proof. intros H K. apply wf_bindp; [assumption|]. intros [e|a]; [auto|exact Logic.I]. Qed.
Ltac wf_tac := repeat first
  [ exact Logic.I
  | assumption
  | progress cbn [wf callable throw ok]
  | match goal with |- _ /\ _ => split; [exact Logic.I|] | |- forall _, _ => intros ? end
  | match goal with |- wf (match ?x with _ => _ end) => destruct x end
  | match goal with |- wf (bind _ _) => apply wf_bind | |- wf (catch _ _) => apply wf_catch | |- wf (bindp _ _) => apply wf_bindp end ].
Section W.
Variable en : env.
Lemma wf_read_loop f size : forall fuel off acc, wf (read_loop fuel f off size acc).
Proof. induction fuel; intros; cbn [read_loop]; wf_tac; apply IHfuel. Qed.
Lemma wf_read_open h es ms : wf (read_open_regular en h es ms).
Proof. unfold read_open_regular. wf_tac; apply wf_read_loop. Qed.
Lemma wf_read_at d fn es ms : wf (read_regular_at en d fn es ms).
Proof. unfold read_regular_at. wf_tac; apply wf_read_open. Qed.
Lemma wf_read_file n fn : wf (read_regular_file en n fn).
Proof. unfold read_regular_file. wf_tac; apply wf_read_open. Qed.
Lemma wf_load_file d fs fn : wf (load_file en d fs fn).
Proof. unfold load_file. wf_tac; apply wf_read_at. Qed.
Lemma wf_load_path n : wf (load_path en n).
Proof. unfold load_path, open_directory_chain. wf_tac; first [apply wf_read_at|apply wf_load_file]. Qed.
Lemma wf_unlink_all d : forall l, wf (unlink_all d l).
Proof. induction l; cbn [unlink_all]; wf_tac. Qed.
Lemma wf_removable n : forall l, wf (removable n l).
Proof. induction l; cbn [removable]; wf_tac. Qed.
Lemma wf_remove_residual n : wf (remove_residual n).
Proof.
  unfold remove_residual, remove_flat_bundle, remove_flat_bundle_impl. wf_tac; first [apply wf_unlink_all|apply wf_removable].
Qed.
Lemma wf_remove_invalid : wf remove_invalid.
Proof. unfold remove_invalid, replace. wf_tac; apply wf_remove_residual. Qed.
Lemma wf_scan : forall l, wf (scan_residuals l).
Proof. induction l; cbn [scan_residuals]; wf_tac. Qed.
Lemma wf_restore_first : forall l, wf (restore_first en l).
Proof. induction l; cbn [restore_first]; unfold replace; wf_tac; apply wf_load_path. Qed.
Lemma wf_remove_all : forall l, wf (remove_all l).
Proof. induction l; cbn [remove_all]; wf_tac; apply wf_remove_residual. Qed.
Lemma wf_recover : wf (recover_residuals en).
Proof. unfold recover_residuals. wf_tac; first [apply wf_scan|apply wf_restore_first|apply wf_remove_all]. Qed.
Lemma wf_write_loop f : forall fuel b, wf (write_loop fuel f b).
Proof. induction fuel; intros [|x b]; cbn [write_loop]; try exact Logic.I. apply wf_bind; [split; [exact Logic.I|intros; exact Logic.I]|]. intros k. apply IHfuel. Qed.
Lemma wf_write_file n fn b : known fn = true -> wf (write_file n fn b).
Proof. intros K. unfold write_file. apply wf_bind; [split; [exact K|intros; exact Logic.I]|]. wf_tac; apply wf_write_loop. Qed.
Lemma wf_publish p : wf (publish en p).
Proof.
  unfold publish, prepare, move_in, cleanup_tmp, restore_previous, check_bundle_directory, replace.
  wf_tac; first [apply wf_write_file; reflexivity|apply wf_read_file|apply wf_remove_residual].
Qed.
Lemma wf_with_lock A (body : io A) : wf body -> wf (with_lock body).
Proof. intros H. unfold with_lock, finally. wf_tac. Qed.
Lemma wf_build_locked o : wf (build_locked en o).
Proof.
  unfold build_locked, load. wf_tac; first [apply wf_recover|apply wf_load_path|apply wf_remove_invalid|apply wf_publish].
Qed.
Lemma wf_build_fst o : wf (build_fst en o).
Proof. unfold build_fst, load. wf_tac; first [apply wf_load_path|apply wf_with_lock, wf_build_locked]. Qed.
Lemma wf_acts : forall l, wf (acts en l).
Proof.
  induction l as [|a l IH]; cbn [acts]; wf_tac. destruct a; cbn [act]; unfold load; wf_tac;
    first [apply wf_load_path|apply wf_recover|apply wf_remove_invalid|apply wf_publish].
Qed.
Lemma wf_client c : wf (client_prog en c).
Proof. destruct c; cbn [client_prog]; unfold load; wf_tac; first [apply wf_load_path|apply wf_build_fst|apply wf_with_lock, wf_acts]. Qed.
End W.

(** Reachable configurations are finite and every process can go on. *)
Lemma finite_release i s : finite s -> finite (release i s).
Proof. intros F. unfold release. destruct (lock s) as [o|]; [|assumption]. destruct (o =? i); exact F. Qed.
Lemma reach_live en w crashes cl s g : fresh_key s -> reach w crashes (start en cl s) g ->
  finite (cst g) /\ forall i p, thr g i = Some p -> wf p.
Proof.
  intros F R. induction R as [|g g' R [IH1 IH2] ST].
  - split; [apply F|]. intros i p E. cbn in E. injection E as <-. apply wf_client.
  - destruct ST as [g i c k r s' E ST|g i p C E].
    + split; [eapply finite_step; eauto|]. intros j p. cbn [thr]. unfold set_thr. destruct (Nat.eq_dec j i); [|apply IH2].
      intros X. injection X as <-. apply (IH2 i _ E).
    + split; [now apply finite_release|]. intros j q. cbn [thr]. unfold set_thr. destruct (Nat.eq_dec j i); [discriminate|apply IH2].
Qed.
