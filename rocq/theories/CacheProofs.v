(** The statements of PropsCache.v, from the invariants. *)
From Coq Require Import List NArith ZArith Bool Arith Lia Permutation String.
From Verif Require Import Text TextFacts CacheModel JsonSpec JsonDict CacheSpec CacheRG CacheInv CacheLoad CacheSeq CacheSeq2 CacheSeq3 CacheConc CacheLive.
Import ListNotations.
Local Open Scope list_scope.

Section P.
Variable en : env.
Variable w : world.

(** C26 *)
Lemma load_sound me s r s' : runs w me (load en) s r s' ->
  s' = s /\ forall p, r = inr (Some p) -> exists d, par s NFinal = Some (EDir d) /\ genuine en s d p.
Proof. intros R. unfold load in R. apply runs_load_path in R. exact R. Qed.
Lemma genuine_published s d p q f m : genuine en s d p ->
  identity_ok en -> loads en (content en q FMan) = Some m -> json_same m (manifest_of en (fst q) (snd q)) ->
  dirs s d FMan = Some (FReg f) -> files s f = content en q FMan ->
  sha en (fst p) = sha en (fst q) /\ sha en (snd p) = sha en (snd q) /\ size_of (fst p) = size_of (fst q) /\ size_of (snd p) = size_of (snd q).
Proof.
  intros (_ & ft & fv & fmn & o & fs & _ & _ & D3 & _ & _ & LD & _ & OF & _ & M) IO LO SAM D C.
  assert (fmn = f) by congruence. subst fmn. rewrite C, LO in LD. injection LD as ->.
  pose proof (manifest_wf en (fst q) (snd q) IO) as W. unfold manifest_of in *. inversion W as [| | | | |? NM _]; subst.
  destruct (same_get _ _ (u "files") (JObj (two_files en (fst q) (snd q))) SAM NM) as (y & OF' & SF).
  { rewrite obj_get_app, obj_get_notin by apply IO. reflexivity. }
  rewrite OF in OF'. injection OF' as <-.
  assert (X : forall nm b b', (nm = u "tagger.fst" /\ b = fst p) \/ (nm = u "verbalizer.fst" /\ b = snd p) ->
     obj_get nm (two_files en (fst q) (snd q)) = Some (file_entry en b') -> sha en b = sha en b' /\ size_of b = size_of b').
  { intros nm b b' H G. destruct (M nm b H) as (_ & _ & md & E1 & E2 & E3).
    destruct (same_get _ _ nm _ SF (two_files_nodup en _ _) G) as (x & Gx & Sx). rewrite E1 in Gx. injection Gx as <-.
    destruct (same_entry _ _ _ Sx) as (md' & Em & G1 & G2). injection Em as <-. rewrite E2 in G1. rewrite E3 in G2.
    injection G1 as G1. injection G2 as G2. auto. }
  destruct (X (u "tagger.fst") (fst p) (fst q)) as [X1 X2]; [left; auto|reflexivity|].
  destruct (X (u "verbalizer.fst") (snd p) (snd q)) as [X3 X4]; [right; auto|reflexivity|]. auto.
Qed.
Lemma load_unaltered me s r s' q d f m : runs w me (load en) s r s' ->
  identity_ok en -> loads en (content en q FMan) = Some m -> json_same m (manifest_of en (fst q) (snd q)) ->
  par s NFinal = Some (EDir d) -> dirs s d FMan = Some (FReg f) -> files s f = content en q FMan ->
  forall p, r = inr (Some p) -> p = q \/
    exists a b, a <> b /\ size_of a = size_of b /\ sha en a = sha en b /\ ((a = fst p /\ b = fst q) \/ (a = snd p /\ b = snd q)).
Proof.
  intros R ID LO SAM P D C p E. destruct (load_sound _ _ _ _ R) as [_ G]. destruct (G p E) as (d' & P' & GN).
  assert (d' = d) by congruence. subst d'. destruct (genuine_published s d p q f m GN ID LO SAM D C) as (H1 & H2 & Z1 & Z2).
  destruct p as [t v], q as [t' v']. cbn [fst snd] in *.
  destruct (text_eq_dec t t') as [->|Nt]; [|right; exists t, t'; auto 6]. destruct (text_eq_dec v v') as [->|Nv]; [now left|right; exists v, v'; auto 6].
Qed.
Lemma load_complete me s r s' p : no_faults w -> identity_ok en -> format_ok en p -> bundle_is en s p ->
  runs w me (load en) s r s' -> r = inr (Some p).
Proof. intros NF ID FO (d & P & W) R. unfold load in R. exact (proj2 (runs_load_path_whole en w me NFinal d p s r s' NF ID FO P W R)). Qed.

Variable cl : nat -> client.
Variable crashes : bool.
Variable s0 : st.
Hypothesis FK : fresh_key s0.
Notation reached g := (reach w crashes (start en cl s0) g).

Lemma F1 A : False -> A. Proof. intros []. Qed.
Lemma anyhow g : reached g -> good w (II en False False) (fun _ => client_post False) g.
Proof.
  intros R. eapply (reach_good en w False False); try (intros X; now destruct X); eauto.
Qed.

(** C27 *)
Lemma always_complete g : reached g ->
  par (cst g) NFinal = None \/ exists p, In p (built (cst g)) /\ bundle_is en (cst g) p.
Proof.
  intros R. destruct (anyhow g R) as [(IV & _) _]. destruct (par (cst g) NFinal) as [e|] eqn:P; [right|now left].
  destruct (final_dir en (cst g) IV ltac:(congruence)) as (d & p & PD & PB & W). exists p. split; [apply (inv_pub _ _ IV _ _ PB)|]. exists d. auto.
Qed.
(** C28 *)
Lemma result_published g i p : reached g -> finished g i (inr (Some p)) ->
  exists g1, reached g1 /\ reach w crashes g1 g /\ bundle_is en (cst g1) p.
Proof.
  intros R F. destruct (good_finished w (II en False False) _ g i _ (anyhow g R) F) as (s1 & RL & X & _).
  eapply (published_was en w False False) with (cl := cl); try (intros Y; now destruct Y); eauto.
  eapply published_fm; [apply (rely_fm _ _ _ RL)|]. now apply X.
Qed.
(** C31: changes are made by the lock holder only. *)
Lemma only_holder g i c k r s' : reached g -> thr g i = Some (Op c k) -> step w i c (cst g) r s' ->
  lock (cst g) <> Some i -> s' = cst g \/ (lock (cst g) = None /\ s' = upd_lock (cst g) (Some i)).
Proof.
  intros R T ST L. destruct (anyhow g R) as [Ig TT]. destruct (TT i _ T) as (s1 & RL & W). cbn [wp] in W.
  destruct (W (cst g) Ig RL r s' ST) as (_ & G & _). now apply (guar_own _ _ _ G).
Qed.

(** C30 *)
Lemma publish_atomic g me p r s' : reached g -> lock (cst g) = None ->
  runs w me (publish en p) (upd_built (upd_lock (cst g) (Some me)) p) r s' ->
  (r = inr tt -> bundle_is en s' p) /\
  (forall e, r = inl e -> restore_works w ->
     (par (cst g) NFinal = None -> par s' NFinal = None) /\ (forall q, bundle_is en (cst g) q -> bundle_is en s' q)) /\
  (no_faults w -> format_ok en p -> r = inr tt).
Proof.
  intros R L RR. destruct (anyhow g R) as [(IV & _) _]. set (s := upd_built (upd_lock (cst g) (Some me)) p) in *.
  assert (Is : II en False False s).
  { split; [apply inv_upd_built, inv_upd_lock, IV|]. split; intros []. }
  destruct (alone_publish en w False False me p s r s' Is eq_refl (or_introl eq_refl) RR) as (_ & A & B & C & I' & FM).
  split; [exact A|]. split; [|exact C]. intros e E RW. specialize (B e E RW). change (par s NFinal) with (par (cst g) NFinal) in B.
  split; [congruence|]. intros q (d & P & W). rewrite P in B. exists d. split; [assumption|].
  destruct (inv_final _ _ (proj1 I') _ B) as (_ & q' & PQ & W').
  destruct (inv_final _ _ IV _ P) as (_ & q0 & PQ0 & W0).
  assert (q' = q0). { pose proof (fm_pub _ _ FM d q0 PQ0). congruence. } subst q'.
  assert (q = q0); [|subst; assumption].
  destruct W as [W _], W0 as [W0 _]. destruct (W FTag eq_refl) as (f1 & X1 & Y1). destruct (W0 FTag eq_refl) as (f2 & X2 & Y2).
  destruct (W FVerb eq_refl) as (f3 & X3 & Y3). destruct (W0 FVerb eq_refl) as (f4 & X4 & Y4). cbn [content] in *.
  destruct q, q0. cbn [fst snd] in *. congruence.
Qed.
End P.

(** C29 *)
Section Q.
Variable en : env.
Variable w : world.
Hypothesis NF : no_faults w.
Hypothesis ID : identity_ok en.
Hypothesis SANE : forall p, sane w p -> format_ok en p.
Variable cl : nat -> client.
Hypothesis BR : forall i l, cl i <> Session l.
Variable s0 : st.
Hypothesis FK : fresh_key s0.
Notation reached g := (reach w true (start en cl s0) g).
Notation II := (II en True False).
Lemma careful_good g : reached g -> good w II (fun _ => client_post False) g.
Proof. intros R. eapply (reach_good en w True False); try (intros X; now destruct X); eauto. Qed.
Lemma was_frozen g1 g : reached g1 -> par (cst g1) NFinal <> None -> reach w true g1 g -> exists d, frozen (cst g) d = true.
Proof.
  intros R1 P R. destruct (careful_good g1 R1) as [(IV & _) _]. destruct (final_dir en (cst g1) IV P) as (d & p & PD & _).
  exists d. assert (FMM : fm (cst g1) (cst g)) by (eapply (reach_fm en w True False) with (cl := cl); try (intros X; now destruct X); eauto).
  apply (fm_frozen _ _ FMM). now apply (inv_final _ _ IV).
Qed.
Lemma reach_app g0 g1 g2 : reach w true g0 g1 -> reach w true g1 g2 -> reach w true g0 g2.
Proof. intros A B. induction B; [assumption|]. eapply reach_step; eauto. Qed.
Lemma was_bundle g p : reached g -> published (cst g) p -> exists g2, reached g2 /\ reach w true g2 g /\ bundle_is en (cst g2) p.
Proof. intros R H. eapply (published_was en w True False) with (cl := cl); try (intros Y; now destruct Y); eauto. Qed.
Lemma never_lost g1 g me : reached g1 -> par (cst g1) NFinal <> None -> reach w true g1 g -> lock (cst g) = None ->
  forall r s', runs w me (build_fst en false) (cst g) r s' ->
  built s' = built (cst g) /\ exists p, r = inr p /\ bundle_is en s' p /\ exists g2, reached g2 /\ reach w true g2 g /\ bundle_is en (cst g2) p.
Proof.
  intros R1 P R L r s' RR. pose proof (was_frozen g1 g R1 P R) as FZ. assert (RG : reached g) by (eapply reach_app; eauto).
  destruct (careful_good g RG) as [Ig _].
  destruct (alone_build en w True False (fun _ => NF) (fun _ => ID) (fun _ => SANE) (fun X => match X with end) (fun X => match X with end) me (cst g) r s' Logic.I Ig L FZ RR) as (B & p & E & W & PB).
  split; [assumption|]. exists p. split; [assumption|]. split; [assumption|]. now apply was_bundle.
Qed.
Lemma recovered g1 g me : reached g1 -> par (cst g1) NFinal <> None -> reach w true g1 g -> lock (cst g) = None ->
  forall r s', runs w me (recover_residuals en) (upd_lock (cst g) (Some me)) r s' ->
  r = inr tt /\ exists p, bundle_is en s' p /\ exists g2, reached g2 /\ reach w true g2 g /\ bundle_is en (cst g2) p.
Proof.
  intros R1 P R L r s' RR. pose proof (was_frozen g1 g R1 P R) as FZ. assert (RG : reached g) by (eapply reach_app; eauto).
  destruct (careful_good g RG) as [Ig _].
  assert (I2 : II (upd_lock (cst g) (Some me))) by (apply (I_lock en True False); [intros X; discriminate|exact Ig]).
  destruct (alone_recover en w True False (fun _ => NF) (fun _ => ID) me _ r s' Logic.I I2 eq_refl FZ RR) as (E & B & p & W & PB).
  split; [assumption|]. exists p. split; [assumption|]. now apply was_bundle.
Qed.
End Q.
(** Everything can go on. *)
Lemma can_finish en w crashes cl s0 g me p : fresh_key s0 -> reach w crashes (start en cl s0) g -> (exists q, sane w q) ->
  wf p -> exists (r : exn + pub) s', runs w me p (cst g) r s'.
Proof. intros F R (q & S) W. apply (runs_total w me q S); [assumption|]. now apply (reach_live en w crashes cl s0 g). Qed.

(** C31 *)
Section O.
Variable en : env.
Variable w : world.
Hypothesis NF : no_faults w.
Hypothesis ST : stable_sources w = true.
Hypothesis ID : identity_ok en.
Hypothesis SANE : forall p, sane w p -> format_ok en p.
Variable cl : nat -> client.
Hypothesis BR : forall i, cl i = Reader \/ cl i = Builder false.
Variable s0 : st.
Hypothesis FK : fresh_key s0.
Lemma quiet_good g : reach w false (start en cl s0) g -> good w (II en True True) (fun _ => client_post True) g.
Proof.
  intros R. eapply (reach_good en w True True) with (cl := cl) (crashes := false); eauto.
  - intros _ i l E. destruct (BR i) as [X|X]; rewrite X in E; discriminate.
  - intros _ i E. destruct (BR i) as [X|X]; rewrite X in E; discriminate.
Qed.
Lemma one_build g : reach w false (start en cl s0) g ->
  List.length (built (cst g)) <= 1 /\
  forall i r, finished g i r -> r = inl XTimeout \/ r = inr None \/ exists p, r = inr (Some p) /\ built (cst g) = [p].
Proof.
  intros R. pose proof (quiet_good g R) as G. destruct G as [(IV & JV & KV) TT]. destruct (KV Logic.I) as [LE _]. split; [assumption|].
  intros i r F. destruct (TT i _ F) as (s1 & RL & X & Y). destruct (Y Logic.I) as [-> | ([p|] & ->)]; [auto| |auto].
  right. right. exists p. split; [reflexivity|]. specialize (X p eq_refl). destruct (published_fm _ _ _ (rely_fm _ _ _ RL) X) as (d & _ & PB).
  pose proof (proj1 (inv_pub _ _ IV _ _ PB)) as B. destruct (built (cst g)) as [|a [|b l]]; cbn in *; [destruct B|destruct B as [->|[]]; reflexivity|lia].
Qed.
End O.
