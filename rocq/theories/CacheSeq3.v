(** recover_residuals, remove_invalid and the locked part of build_fst. *)
From Coq Require Import List NArith ZArith Bool Arith Lia Permutation String.
From Verif Require Import Text TextFacts CacheModel CacheSpec CacheRG CacheInv CacheLoad CacheSeq CacheSeq2.
Import ListNotations.
Local Open Scope list_scope.

Section L.
Variable en : env.
Variable w : world.
Variable me : nat.
Hypothesis NF : no_faults w.

(** Without faults load raises nothing on a directory of regular files. *)
Lemma read_open_exn f es ms s r s' : runs w me (read_open_regular en (Some f) es ms) s r s' -> forall e, r = inl e -> e = XIntegrity.
Proof.
  intros R e ->. unfold read_open_regular in R. apply runs_bind in R. cbn [runs] in R.
  destruct R as [(e' & (x & s1 & ST & E1 & ->) & _)|(sz & s1 & (x & s2 & ST & E1 & ->) & R)];
    (cbn [step] in ST; destruct ST as [(F & _)|(-> & ->)]; [rewrite NF in F; discriminate|]); [discriminate E1|].
  injection E1 as ->.
  destruct (Z.ltb _ _); [cbn [runs throw] in R; destruct R as [E _]; congruence|].
  destruct (match es with Some z => _ | None => _ end); [cbn [runs throw] in R; destruct R as [E _]; congruence|].
  destruct (match ms with Some z => _ | None => _ end); [cbn [runs throw] in R; destruct R as [E _]; congruence|].
  apply runs_bind in R. destruct R as [(e' & R & X)|(b & s1 & R1 & R)].
  { apply runs_read_loop in R; [|reflexivity|lia|reflexivity]. destruct R as (_ & _ & A). specialize (A NF ltac:(lia)). discriminate. }
  apply runs_read_loop in R1; [|reflexivity|lia|reflexivity]. destruct R1 as (-> & _).
  apply runs_bind in R. cbn [runs] in R.
  destruct R as [(e' & (x & s1 & ST & E1 & ->) & _)|(more & s1 & (x & s2 & ST & E1 & ->) & R)];
    (cbn [step] in ST; destruct ST as [(F & _)|(-> & b' & rest & -> & _)]; [rewrite NF in F; discriminate|]); [discriminate E1|].
  destruct more; [|cbn [runs throw] in R; destruct R as [E _]; congruence].
  apply runs_bind in R. cbn [runs] in R.
  destruct R as [(e' & (x & s1 & ST & E2 & ->) & _)|(more & s1 & (x & s2 & ST & E2 & ->) & R)];
    (cbn [step] in ST; destruct ST as [(F & _)|(-> & ->)]; [rewrite NF in F; discriminate|]); [discriminate E2|].
  destruct (more =? _); cbn [runs throw ok] in R; destruct R as [E _]; congruence.
Qed.
Lemma read_at_exn d fn es ms s r s' : (forall e, dirs s d fn = Some e -> exists f, e = FReg f) ->
  runs w me (read_regular_at en d fn es ms) s r s' -> forall e, r = inl e -> e = XIntegrity \/ e = XNotFound.
Proof.
  intros D R e E. unfold read_regular_at in R. cbn [runs] in R. destruct R as (x & s1 & ST & R).
  cbn [step] in ST. destruct ST as [(F & _)|(-> & ->)]; [rewrite NF in F; discriminate|].
  destruct (dirs s d fn) as [fe|].
  - destruct (D fe eq_refl) as (f & ->). left. eapply read_open_exn; eauto.
  - right. cbn [runs throw os_exn] in R. destruct R as [X _]. congruence.
Qed.
Lemma load_file_total d fs fn s r s' : (forall e, dirs s d fn = Some e -> exists f, e = FReg f) ->
  runs w me (load_file en d fs fn) s r s' -> s' = s /\ exists o, r = inr o.
Proof.
  intros D R. split; [eapply (pure_same w me); [apply pure_load_file|exact R]|]. unfold load_file in R.
  destruct (file_meta en fs fn) as [[size digest]|]; [|cbn [runs ok] in R; destruct R as [-> _]; eauto].
  apply runs_bind in R. destruct R as [(e & R & _)|(o & s1 & R1 & R)].
  - apply runs_catch in R. destruct R as [(b & _ & X)|(e' & s1 & R & R2)]; [discriminate|].
    apply runs_bind in R. destruct R as [(e2 & R & X)|(b & s2 & _ & R)].
    + injection X as <-. destruct (read_at_exn _ _ _ _ _ _ _ D R e' eq_refl) as [-> | ->]; cbn [runs ok] in R2; destruct R2 as [X _]; discriminate.
    + cbn [runs ok] in R. destruct R as [X _]. discriminate.
  - destruct o as [b|]; [|cbn [runs ok] in R; destruct R as [-> _]; eauto].
    destruct digest as [[| | |h| |]|]; try (cbn [runs ok] in R; destruct R as [-> _]; eauto; fail).
    destruct (_ && _); cbn [runs ok] in R; destruct R as [-> _]; eauto.
Qed.
Lemma load_total n s r s' :
  (forall d, par s n = Some (EDir d) -> forall fn e, dirs s d fn = Some e -> exists f, e = FReg f) ->
  (forall e, par s n = Some e -> exists d, e = EDir d) ->
  runs w me (load_path en n) s r s' -> s' = s /\ exists o, r = inr o.
Proof.
  intros DD PP R. split; [eapply (pure_same w me); [apply pure_load_path|exact R]|].
  destruct (par s n) as [pe|] eqn:P.
  2:{ apply runs_load_path_absent in R; [|assumption|assumption]. destruct R as [_ ->]. eauto. }
  destruct (PP pe eq_refl) as (d & ->). specialize (DD d eq_refl).
  unfold load_path in R. apply runs_catch in R. destruct R as [(b & _ & ->)|(e & s1 & R & R2)]; [eauto|].
  assert (X : e = XNotFound); [|subst e; cbn [runs ok] in R2; destruct R2 as [-> _]; eauto]. clear R2.
  exfalso. apply runs_bind in R. unfold open_directory_chain in R. cbn [runs] in R.
  destruct R as [(e' & (x & s2 & ST & R) & _)|(d' & s2 & (x & s3 & ST & R1) & R)];
    (cbn [step] in ST; destruct ST as [(F & _)|(-> & ->)]; [rewrite NF in F; discriminate|]; rewrite P in *).
  { cbn [runs ok] in R. destruct R as [X _]. discriminate. }
  cbn [runs ok] in R1. destruct R1 as [X ->]. injection X as ->.
  apply runs_bind in R. cbn [runs] in R.
  destruct R as [(e' & (x & s2 & ST & E & ->) & _)|(l & s2 & (x & s3 & ST & E & ->) & R)];
    (cbn [step] in ST; destruct ST as [(F & _)|(-> & l' & -> & _)]; [rewrite NF in F; discriminate|]); [discriminate E|].
  injection E as ->. destruct (same_names l').
  2:{ cbn [runs ok] in R. destruct R as [X _]. discriminate. }
  apply runs_bind in R. destruct R as [(e' & R & X)|(m & s2 & R1 & R)].
  { apply runs_catch in R. destruct R as [(b & _ & Y)|(e2 & s2 & R & R2)]; [discriminate|].
    apply runs_bind in R. destruct R as [(e3 & R & Y)|(b & s4 & _ & R)].
    - injection Y as <-. destruct (read_at_exn _ _ _ _ _ _ _ (DD FMan) R e2 eq_refl) as [-> | ->]; cbn [runs ok] in R2; destruct R2 as [Y _]; discriminate.
    - cbn [runs ok] in R. destruct R as [Y _]. discriminate. }
  assert (s2 = s).
  { eapply (pure_same w me); [|exact R1]. apply pure_catch; [apply pure_bind; [apply pure_read_at|intros; exact Logic.I]|]. intros []; exact Logic.I. }
  subst s2. destruct m as [m|]; [|cbn [runs ok] in R; destruct R as [X _]; discriminate].
  destruct (manifest_files en m) as [fs|]; [|cbn [runs ok] in R; destruct R as [X _]; discriminate].
  apply runs_bind in R. destruct R as [(e' & R & X)|(t & s2 & R2 & R)].
  { apply load_file_total in R; [|apply DD]. destruct R as [_ (o & Y)]. discriminate. }
  apply load_file_total in R2; [|apply DD]. destruct R2 as [-> _].
  destruct t as [t|]; [|cbn [runs ok] in R; destruct R as [X _]; discriminate].
  apply runs_bind in R. destruct R as [(e' & R & X)|(v & s2 & R2 & R)].
  { apply load_file_total in R; [|apply DD]. destruct R as [_ (o & Y)]. discriminate. }
  destruct v as [v|]; cbn [runs ok] in R; destruct R as [X _]; discriminate.
Qed.

Lemma scan_total : forall l s r s', (forall n, In n l -> par s n <> None) ->
  runs w me (scan_residuals l) s r s' ->
  exists l', r = inr l' /\ (forall n d, In n l -> is_residual n = true -> par s n = Some (EDir d) -> In n l').
Proof.
  induction l as [|n l IH]; intros s r s' PP R; cbn [scan_residuals] in R.
  - cbn [runs ok] in R. destruct R as [-> _]. exists []. split; [reflexivity|]. intros n d [].
  - destruct (is_residual n) eqn:RN.
    + apply runs_bind in R. cbn [runs] in R.
      destruct R as [(e & (x & s1 & ST & E & ->) & ->)|(k & s1 & (x & s2 & ST & E & ->) & R)];
        (cbn [step] in ST; destruct ST as [(F & _)|(-> & ->)]; [rewrite NF in F; discriminate|]).
      { destruct (par s n) eqn:P; [discriminate|]. exfalso. apply (PP n); [left; reflexivity|assumption]. }
      destruct (par s n) as [pe|] eqn:P; [|discriminate]. injection E as ->.
      assert (PL : forall m, In m l -> par s m <> None) by (intros m M; apply PP; right; assumption).
      apply runs_bind in R. destruct R as [(e & R & X)|(rest & s1 & R1 & R)].
      * destruct (IH _ _ _ PL R) as (l' & Y & _). discriminate.
      * destruct (IH _ _ _ PL R1) as (l' & Y & K). injection Y as <-.
        destruct pe; cbn [entry_kind fst] in R; cbn [runs ok] in R; destruct R as [-> _]; eexists; (split; [reflexivity|]).
        -- intros m d' [<-|M] RM PM; [left; reflexivity|right; eauto].
        -- intros m d' [<-|M] RM PM; [congruence|eauto].
        -- intros m d' [<-|M] RM PM; [congruence|eauto].
        -- intros m d' [<-|M] RM PM; [congruence|eauto].
    + destruct (IH _ _ _ (fun m M => PP m (or_intror M)) R) as (l' & -> & K). exists l'. split; [reflexivity|].
      intros m d [<-|M] RM PM; [congruence|eauto].
Qed.
End L.

Section S.
Variable en : env.
Variable w : world.
Variable me : nat.
Variables careful quiet : Prop.
Notation I := (II en careful quiet).
Notation Inv := (Inv en).
Notation sp := (CacheSeq.sp en w me careful quiet).
Notation spare := (CacheSeq.spare en).
Hypothesis C_nf : careful -> no_faults w.
Hypothesis C_id : careful -> identity_ok en.
Hypothesis C_sane : careful -> forall p, sane w p -> format_ok en p.
Hypothesis Q_c : quiet -> careful.

Lemma genuine_holds s d p q : Inv s -> frozen s d = true -> pub_of s d = Some q -> genuine en s d p -> holds en s d q.
Proof.
  intros IV F PB (O & ft & fv & fmn & o & fs & D1 & D2 & D3 & _). split; [|exact O].
  intros fn K. destruct fn; [exists ft|exists fv|exists fmn|discriminate]; (split; [assumption|]).
  - destruct (inv_ent _ _ IV _ _ _ _ PB D1) as (f & E & _ & _ & _ & X). injection E as <-. auto.
  - destruct (inv_ent _ _ IV _ _ _ _ PB D2) as (f & E & _ & _ & _ & X). injection E as <-. auto.
  - destruct (inv_ent _ _ IV _ _ _ _ PB D3) as (f & E & _ & _ & _ & X). injection E as <-. auto.
Qed.
Lemma regular_dirs n d s : Inv s -> par s n = Some (EDir d) -> is_residual n = true \/ n = NFinal ->
  forall fn e, dirs s d fn = Some e -> exists f, e = FReg f.
Proof.
  intros IV P R fn e E. pose proof (own_pub en n d s IV P R) as X. destruct (pub_of s d) as [p|] eqn:PB; [|congruence].
  destruct (inv_ent _ _ IV _ _ _ _ PB E) as (f & -> & _). eauto.
Qed.
Lemma own_dir n s : Inv s -> is_residual n = true \/ n = NFinal -> forall e, par s n = Some e -> exists d, e = EDir d.
Proof. intros IV R e P. pose proof (inv_own _ _ IV _ _ P) as X. destruct n; try (destruct X as (d & -> & _); eauto). destruct R; discriminate. Qed.

Lemma scan_sub : forall l s r s', runs w me (scan_residuals l) s r s' ->
  forall l', r = inr l' -> forall n, In n l' -> is_residual n = true /\ In n l.
Proof.
  induction l as [|n l IH]; intros s r s' R l' E m M; cbn [scan_residuals] in R.
  - cbn [runs ok] in R. destruct R as [-> _]. injection E as <-. destruct M.
  - destruct (is_residual n) eqn:RN.
    + apply runs_bind in R. destruct R as [(e & _ & ->)|(k & s1 & _ & R)]; [discriminate|].
      apply runs_bind in R. destruct R as [(e & _ & ->)|(rest & s2 & R1 & R)]; [discriminate|].
      specialize (IH _ _ _ R1 _ eq_refl).
      destruct (fst k); cbn [runs ok] in R; destruct R as [-> _]; injection E as <-;
        [destruct M as [<-|M]; [split; [assumption|left; reflexivity]|]|..]; destruct (IH m M); (split; [assumption|right; assumption]).
    + destruct (IH _ _ _ R l' E m M). split; [assumption|right; assumption].
Qed.
Lemma pure_scan : forall l, pure (scan_residuals l).
Proof.
  induction l as [|n l IH]; cbn [scan_residuals]; [exact Logic.I|]. destruct (is_residual n); [|assumption].
  apply pure_bind; [split; [exact Logic.I|intros; exact Logic.I]|]. intros k. apply pure_bind; [assumption|]. intros rest. destruct (fst k); exact Logic.I.
Qed.

(** ** The restoring loop *)
Lemma sp_restore_first : forall l s, (forall n, In n l -> is_previous n = true) ->
  sp (restore_first en l) (fun r s' =>
    match r with
    | inl _ => s' = s
    | inr None => s' = s /\ (careful -> forall n d, In n l -> par s n = Some (EDir d) -> whole en s d -> False)
    | inr (Some n) => exists d, s' = moved s n NFinal (EDir d) /\ par s n = Some (EDir d) /\ par s NFinal = None /\ In n l
    end /\ (careful -> par s NFinal = None -> exists o, r = inr o)) s.
Proof.
  induction l as [|n l IH]; intros s PP; cbn [restore_first].
  { apply sp_ret. intros _ _. split; [|eauto]. split; [reflexivity|]. intros _ n d []. }
  assert (PN : is_previous n = true) by (apply PP; left; reflexivity).
  assert (RN : is_residual n = true) by (destruct n; try discriminate; reflexivity).
  apply sp_bind. apply sp_pure; [apply pure_load_path|]. intros Is L a R.
  destruct a as [e|[p|]].
  - split; [reflexivity|]. intros C _. exfalso. destruct Is as (IV & _).
    destruct (load_total en w me (C_nf C) _ _ _ _ (fun d P => regular_dirs n d s IV P (or_introl RN)) (own_dir n s IV (or_introl RN)) R) as (_ & o & X). discriminate.
  - apply runs_load_path in R. destruct R as (_ & G). destruct (G p eq_refl) as (d & P & GN). clear G.
    assert (FZ : frozen s d = true) by (pose proof (inv_old _ _ (proj1 Is) _ _ P) as X; destruct n; try discriminate; exact X).
    destruct (pub_of s d) as [q|] eqn:PB; [|exfalso; now apply (inv_frozen _ _ (proj1 Is) _ FZ)].
    pose proof (genuine_holds s d p q (proj1 Is) FZ PB GN) as W.
    apply sp_bind. apply sp_op. intros _ _ r s2 ST.
    assert (ALT : (s2 = s /\ (exists e, r = inl e) /\ (careful -> par s NFinal = None -> False)) \/ (s2 = moved s n NFinal (EDir d) /\ r = inr tt /\ par s NFinal = None)).
    { cbn [step] in ST. destruct ST as [(F & -> & ->)|ST].
      - left. split; [reflexivity|]. split; [eauto|]. intros C. rewrite (C_nf C) in F. discriminate.
      - rewrite P in ST. destruct (par s NFinal) as [e|] eqn:E.
        + destruct (final_dir en s (proj1 Is) ltac:(congruence)) as (d' & q' & PD & _ & HW). rewrite E in PD. injection PD as ->.
          destruct ST as [(EM & _)|(_ & -> & ->)]; [|left; split; [reflexivity|]; split; [eauto|]; congruence].
          destruct HW as [HW _]. destruct (HW FTag eq_refl) as (f & HF & _). rewrite EM in HF. discriminate.
        + destruct ST as [-> ->]. right. auto. }
    clear ST. destruct ALT as [(-> & (e & ->) & X)|(-> & -> & X)].
    + split; [apply held_refl; assumption|]. apply sp_ret. intros _ _. cbn [lift]. split; [reflexivity|]. intros C N. destruct (X C N).
    + split; [eapply hold_promote; eassumption|]. apply sp_ret. intros _ _. cbn [lift]. apply sp_ret. intros _ _. split; [|eauto]. exists d. split; [reflexivity|]. split; [assumption|]. split; [assumption|left; reflexivity].
  - eapply sp_mono; [|apply IH; intros m M; apply PP; right; assumption].
    intros r s' _ _ [A B]. split; [|exact B]. destruct r as [e|[m|]]; auto; [destruct A as (d & A1 & A2 & A3 & A4); exists d; split; [assumption|]; split; [assumption|]; split; [assumption|right; assumption]|]. destruct A as [-> A]. split; [reflexivity|].
    intros C m d [<-|M]; [|eauto]. intros P (q & PB & W).
    assert (FO : format_ok en q). { destruct Is as (IV & JV & _). apply (JV C). apply (inv_pub _ _ IV _ _ PB). }
    destruct (runs_load_path_whole en w me _ _ _ _ _ _ (C_nf C) (C_id C) FO P W R) as [_ X]. discriminate.
Qed.

(** ** Removing the residuals *)
Definition solid (s : st) : Prop := par s NFinal <> None \/ forall d, frozen s d = false.
Lemma solid_spare n s : n <> NFinal -> solid s -> spare n s.
Proof. intros N [A|A] (d & F); [left; auto|]. rewrite A in F. discriminate. Qed.
Definition frame (s s' : st) : Prop := par s' NFinal = par s NFinal /\ (forall d, frozen s' d = frozen s d) /\ built s' = built s.
Lemma sp_remove_all : forall l s, (forall n, In n l -> is_residual n = true) -> (careful -> solid s) ->
  sp (remove_all l) (fun r s' => frame s s' /\ r = inr tt) s.
Proof.
  induction l as [|n l IH]; intros s RR SO; cbn [remove_all].
  { apply sp_ret. intros _ _. repeat split. }
  assert (RN : is_residual n = true) by (apply RR; left; reflexivity).
  assert (NN : n <> NFinal) by (intros ->; discriminate).
  apply sp_bind. eapply sp_mono; [|apply sp_remove_residual; [exact RN|intros C; apply solid_spare; auto]].
  intros r s1 _ _ (T & _ & ->).
  assert (FR : frame s s1).
  { destruct T as [->|(d & _ & O)]; [repeat split|]. split; [apply (o_par _ _ _ _ O); congruence|]. split; [apply (o_frozen _ _ _ _ O)|apply (o_built _ _ _ _ O)]. }
  destruct FR as (F1 & F2 & F3).
  eapply sp_mono; [|apply IH; [intros m M; apply RR; right; assumption|]].
  - intros r s' _ _ [(G1 & G2 & G3) ->]. split; [|reflexivity]. split; [congruence|]. split; [intros d; now rewrite G2|congruence].
  - intros C. destruct (SO C) as [A|A]; [left; congruence|right]. intros d. now rewrite F2.
Qed.

(** ** recover_residuals *)
Definition recover_post (s : st) (r : exn + unit) (s' : st) : Prop :=
  built s' = built s /\ (par s NFinal <> None -> par s' NFinal = par s NFinal) /\
  (forall d, frozen s d = true -> frozen s' d = true) /\
  (forall d, par s' NFinal = Some (EDir d) -> frozen s d = true) /\
  (careful -> r = inr tt /\ solid s').
Lemma sp_recover s : sp (recover_residuals en) (recover_post s) s.
Proof.
  apply sp_pre. intros I0 L0. unfold recover_residuals.
  assert (FD : forall d, par s NFinal = Some (EDir d) -> frozen s d = true) by (intros d; apply (inv_final _ _ (proj1 I0))).
  assert (BAD : forall e, (careful -> False) -> recover_post s (inl e) s).
  { intros e N. split; [reflexivity|]. split; [reflexivity|]. split; [auto|]. split; [exact FD|]. intros C. destruct (N C). }
  apply sp_bind. apply sp_read; [exact Logic.I|]. intros _ _ r ST. apply sp_ret. intros _ _.
  destruct r as [e|[]]; cbn [lift].
  { apply BAD. intros C. cbn [step] in ST. destruct ST as [(F & _)|(X & _)]; [rewrite (C_nf C) in F; discriminate|discriminate]. }
  clear ST. apply sp_bind. apply sp_read; [exact Logic.I|]. intros _ _ r ST. apply sp_ret. intros _ _.
  destruct r as [e|children]; cbn [lift].
  { apply BAD. intros C. cbn [step] in ST. destruct ST as [(F & _)|(_ & l & X & _)]; [rewrite (C_nf C) in F; discriminate|discriminate]. }
  assert (LS : lists children (fun n => par s n <> None)).
  { cbn [step] in ST. destruct ST as [(_ & X & _)|(_ & l & X & Y)]; [discriminate|]. injection X as ->. exact Y. }
  clear ST. apply sp_bind. apply sp_pure; [apply pure_scan|]. intros _ _ a R.
  assert (SC : careful -> exists l', a = inr l' /\ (forall n d, is_residual n = true -> par s n = Some (EDir d) -> In n l')).
  { intros C. destruct (scan_total w me (C_nf C) children s a s) as (l' & -> & K); [intros n M; now apply LS|exact R|].
    exists l'. split; [reflexivity|]. intros n d RN P. eapply K; eauto. apply LS. congruence. }
  pose proof (scan_sub _ _ _ _ R) as SS. destruct a as [e|residuals].
  { apply BAD. intros C. destruct (SC C) as (l' & X & _). discriminate. }
  specialize (SS residuals eq_refl). clear R.
  apply sp_bind. apply sp_read; [exact Logic.I|]. intros _ _ here ST. apply sp_ret. intros _ _. cbn [step] in ST. destruct ST as (_ & ST).
  apply sp_bind. destruct here.
  - apply sp_ret. intros _ _. cbn [drop_name].
    assert (PF : par s NFinal <> None).
    { destruct ST as [(_ & X)|X]; [discriminate|]. destruct (par s NFinal); congruence. }
    eapply sp_mono; [|apply sp_remove_all; [intros n M; now apply SS|intros _; left; exact PF]].
    intros r s' _ _ [(F1 & F2 & F3) ->]. split; [assumption|]. split; [auto|]. split; [intros d; now rewrite F2|].
    split; [intros d; rewrite F1; apply FD|]. intros _. split; [reflexivity|left; congruence].
  - assert (PF : careful -> par s NFinal = None).
    { intros C. destruct ST as [(F & _)|X]; [rewrite (C_nf C) in F; discriminate|]. destruct (par s NFinal); congruence. }
    clear ST. apply sp_bind. apply sp_read; [exact Logic.I|]. intros _ _ r ST. apply sp_ret. intros _ _.
    destruct r as [e|previous]; cbn [lift].
    { apply BAD. intros C. cbn [step] in ST. destruct ST as [(F & _)|(_ & l & X & _)]; [rewrite (C_nf C) in F; discriminate|discriminate]. }
    assert (PM : Permutation (filter is_previous residuals) previous).
    { cbn [step] in ST. destruct ST as [(_ & X & _)|(_ & l & X & Y)]; [discriminate|]. injection X as ->. exact Y. }
    clear ST. assert (PV : forall n, In n previous <-> In n residuals /\ is_previous n = true).
    { intros n. rewrite <- filter_In. split; intros M; [eapply Permutation_in; [apply Permutation_sym; exact PM|exact M]|eapply Permutation_in; eauto]. }
    eapply sp_mono; [|apply sp_restore_first; intros n M; now apply PV].
    intros r s1 I1 L1 [A B]. destruct r as [e|[n|]].
    + subst s1. apply BAD. intros C. destruct (B C (PF C)) as (o & X). discriminate.
    + destruct A as (d & -> & P & PN & RM). cbn [drop_name].
      set (s1 := moved s n NFinal (EDir d)) in *.
      assert (P1 : par s1 NFinal <> None). { subst s1. cbn. destruct (name_eq_dec NFinal NFinal); congruence. }
      eapply sp_mono; [|apply sp_remove_all; [intros m M; apply filter_In in M; now apply SS|intros _; left; exact P1]].
      intros r s' _ _ [(F1 & F2 & F3) ->]. split; [now rewrite F3|]. split; [congruence|]. split.
      { intros d' X. rewrite F2. subst s1. cbn. destruct (Nat.eq_dec d' d); auto. }
      split.
      { intros d'. rewrite F1. subst s1. cbn. destruct (name_eq_dec NFinal NFinal); [|congruence]. intros E. injection E as <-.
        assert (IP : is_previous n = true) by (apply PV; exact RM). pose proof (inv_old _ _ (proj1 I0) _ _ P) as X. destruct n; try discriminate; exact X. }
      intros _. split; [reflexivity|left; congruence].
    + destruct A as [-> NW]. cbn [drop_name].
      assert (SO : careful -> solid s).
      { intros C. right. intros d. destruct (frozen s d) eqn:FZ; [exfalso|reflexivity].
        destruct I0 as (IV & JV & _). destruct (proj2 (JV C) (ex_intro _ d FZ)) as [X|(i & d' & P & W)]; [rewrite (PF C) in X; congruence|].
        destruct (SC C) as (l' & X & K). injection X as <-.
        apply (NW C (NPrev i) d'); [|exact P|exact W]. apply PV. split; [|reflexivity]. eapply K; [reflexivity|exact P]. }
      eapply sp_mono; [|apply sp_remove_all; [intros m M; now apply SS|exact SO]].
      intros r s' _ _ [(F1 & F2 & F3) ->]. split; [assumption|]. split; [auto|]. split; [intros d; now rewrite F2|]. split; [intros d; rewrite F1; apply FD|]. intros C. split; [reflexivity|].
      destruct (SO C) as [X|X]; [left; congruence|right; intros d; now rewrite F2].
Qed.

(** ** remove_invalid *)
Lemma sp_remove_invalid s : (careful -> par s NFinal = None) ->
  sp remove_invalid (fun r s' => built s' = built s /\ (careful -> r = inr tt /\ par s' NFinal = None)) s.
Proof.
  intros CN. unfold remove_invalid. apply sp_read; [exact Logic.I|]. intros Is L r ST.
  assert (RR : careful -> r = inl ENOENT).
  { intros C. cbn [step] in ST. destruct ST as [(F & _)|(_ & ->)]; [rewrite (C_nf C) in F; discriminate|]. now rewrite (CN C). }
  destruct r as [e|[k ino]].
  { destruct e; apply sp_ret; intros _ _; (split; [reflexivity|]); intros C; try discriminate (RR C). auto. }
  assert (NC : careful -> False) by (intros C; discriminate (RR C)).
  destruct k; try (apply sp_ret; intros _ _; split; [reflexivity|intros C; destruct (NC C)]).
  assert (PD : par s NFinal = Some (EDir ino)).
  { cbn [step] in ST. destruct ST as [(_ & X & _)|(_ & X)]; [discriminate|]. destruct (par s NFinal) as [[]|]; cbn in X; try discriminate X.
    injection X as ->. reflexivity. }
  apply sp_bind. apply sp_read; [exact Logic.I|]. intros _ _ j STj. apply sp_ret. intros _ _. cbn [step] in STj. destruct STj as (_ & _ & NP).
  apply sp_bind. apply sp_op. intros _ _ r s2 ST2. cbn [step] in ST2. destruct ST2 as [(F & -> & ->)|ST2].
  { split; [apply held_refl; assumption|]. apply sp_ret. intros _ _. cbn [lift]. split; [reflexivity|intros C; destruct (NC C)]. }
  rewrite PD, NP in ST2. destruct ST2 as [-> ->]. split.
  { apply hold_retire; auto. right. eauto. }
  apply sp_ret. intros _ _. cbn [lift].
  eapply sp_mono; [|apply sp_remove_residual; [reflexivity|intros C; destruct (NC C)]].
  intros r s' _ _ (T & _ & ->). split; [|intros C; destruct (NC C)].
  destruct T as [->|(d & _ & O)]; [reflexivity|]. now rewrite (o_built _ _ _ _ O).
Qed.

(** ** load, nobody else running *)
Definition load_post (s : st) (r : exn + option pub) : Prop :=
  (forall p, r = inr (Some p) -> exists d, par s NFinal = Some (EDir d) /\ pub_of s d = Some p) /\
  (r = inr None -> careful -> par s NFinal = None) /\ (careful -> exists o, r = inr o).
Lemma runs_load s a s' : I s -> runs w me (load en) s a s' -> s' = s /\ load_post s a.
Proof.
  intros Is R. assert (s' = s) by (eapply (pure_same w me); [apply pure_load_path|exact R]). subst s'.
  split; [reflexivity|]. unfold load in R. split; [|split].
  - intros p E. apply runs_load_path in R. destruct R as (_ & G). destruct (G p E) as (d & P & GN). exists d. split; [assumption|].
    destruct (inv_final _ _ (proj1 Is) _ P) as (_ & q & PB & [W _]).
    destruct GN as (_ & ft & fv & fmn & o & fs & D1 & D2 & D3 & E1 & E2 & _).
    destruct (W FTag eq_refl) as (f1 & X1 & Y1). destruct (W FVerb eq_refl) as (f2 & X2 & Y2). cbn [content] in *.
    rewrite PB. f_equal. destruct p, q. cbn [fst snd] in *. congruence.
  - intros E C. destruct (par s NFinal) as [e|] eqn:PE; [exfalso|reflexivity].
    destruct (final_dir en s (proj1 Is) ltac:(congruence)) as (d & q & PD & PB & W).
    assert (FO : format_ok en q). { destruct Is as (IV & JV & _). apply (JV C). apply (inv_pub _ _ IV _ _ PB). }
    destruct (runs_load_path_whole en w me _ _ _ _ _ _ (C_nf C) (C_id C) FO PD W R) as [_ X]. congruence.
  - intros C. destruct Is as (IV & _).
    destruct (load_total en w me (C_nf C) _ _ _ _ (fun d P => regular_dirs NFinal d s IV P (or_intror eq_refl)) (own_dir NFinal s IV (or_intror eq_refl)) R) as (_ & o & X). eauto.
Qed.
Lemma sp_load s : sp (load en) (fun r s' => s' = s /\ load_post s r) s.
Proof. apply sp_pre. intros Is L. apply sp_pure; [apply pure_load_path|]. intros _ _ a R. now apply runs_load in R. Qed.

(** ** build_fst under the lock *)
Hypothesis Q_stable : quiet -> stable_sources w = true.
Definition ready (s : st) : Prop := quiet -> built s <> [] -> par s NFinal <> None.
Definition build_post (o : bool) (s : st) (r : exn + pub) (s' : st) : Prop :=
  (forall p, r = inr p -> exists d, par s' NFinal = Some (EDir d) /\ pub_of s' d = Some p) /\
  (o = false -> careful -> (exists d, frozen s d = true) -> built s' = built s /\ (exists p, r = inr p) /\ forall d, par s' NFinal = Some (EDir d) -> frozen s d = true) /\
  (quiet -> ready s' /\ exists p, r = inr p).
Lemma hold_built s p : I s -> lock s = Some me -> sane w p -> (quiet -> built s = []) -> held me I s (upd_built s p).
Proof.
  intros (IV & JV & KV) L SN QB. split; [|split; [apply fm_upd_built|exact L]].
  split; [now apply inv_upd_built|]. split.
  - intros C. destruct (JV C) as [F H]. split.
    + intros q [<-|X]; [now apply C_sane|now apply F].
    + intros X. destruct (H X) as [A|A]; [left; exact A|right; exact A].
  - intros Q. split; [cbn; rewrite (QB Q); cbn; lia|]. cbn. congruence.
Qed.
Lemma sp_build_locked o s : (quiet -> o = false) -> ready s -> sp (build_locked en o) (build_post o s) s.
Proof.
  intros QO RD. unfold build_locked. apply sp_bind. eapply sp_mono; [|apply sp_recover].
  intros r s1 I1 L1 (B1 & P1 & F1 & D1 & S1). destruct r as [e|[]].
  { split; [discriminate|]. split; [intros _ C; destruct (S1 C); discriminate|]. intros Q. destruct (S1 (Q_c Q)); discriminate. }
  apply sp_bind.
  assert (R1 : quiet -> built s1 <> [] -> par s1 NFinal <> None).
  { intros Q X. rewrite B1 in X. pose proof (RD Q X) as Y. now rewrite (P1 Y). }
  apply (sp_mono en w me careful quiet _ _ (fun r s' => s' = s1 /\ (o = true -> r = inr None) /\
    (o = false -> (forall p, r = inr (Some p) -> exists d, par s1 NFinal = Some (EDir d) /\ pub_of s1 d = Some p) /\
      (r = inr None -> careful -> par s1 NFinal = None) /\ (careful -> exists x, r = inr x)))).
  2:{ destruct o; [apply sp_ret; intros _ _; split; [reflexivity|split; [reflexivity|discriminate]]|].
      eapply sp_mono; [|apply sp_load]. intros a s' _ _ (E & A). split; [assumption|]. split; [discriminate|auto]. }
  intros again s1' _ _ (-> & O1 & O2). destruct again as [e|[p|]].
  - destruct o; [specialize (O1 eq_refl); discriminate|]. destruct (O2 eq_refl) as (_ & _ & X).
    assert (N : careful -> False) by (intros C; destruct (X C); discriminate).
    split; [discriminate|]. split; [intros _ C; destruct (N C)|]. intros Q. destruct (N (Q_c Q)).
  - destruct o; [specialize (O1 eq_refl); discriminate|]. destruct (O2 eq_refl) as (X & _).
    apply sp_ret. intros _ _. split; [intros q E; injection E as <-; auto|].
    split; [intros _ _ _; split; [assumption|]; split; [eauto|exact D1]|]. intros Q. split; [|eauto]. intros _. now apply R1.
  - assert (AB : o = false -> careful -> par s1 NFinal = None) by (intros E; now apply (O2 E)).
    assert (NF : o = false -> careful -> (exists d, frozen s d = true) -> False).
    { intros E C (d & F). destruct (proj2 (S1 C)) as [X|X]; [now apply X, AB|]. specialize (F1 d F). rewrite X in F1. discriminate. }
    assert (NQ : quiet -> built s1 = []).
    { intros Q. destruct (built s1) as [|x l] eqn:E; [reflexivity|]. exfalso. apply (R1 Q); [congruence|]. apply AB; auto. }
    clear O1 O2 S1 P1.
    assert (FAIL : forall e s', (quiet -> False) -> build_post o s (inl e) s').
    { intros e s' Q. split; [discriminate|]. split; [intros E C X; destruct (NF E C X)|]. intros q. destruct (Q q). }
    apply sp_bind. apply (sp_mono en w me careful quiet _ _ (fun r s' => built s' = built s1 /\ (quiet -> r = inr tt))).
    2:{ destruct o; [apply sp_ret; intros _ _; auto|]. eapply sp_mono; [|apply sp_remove_invalid; auto].
        intros a s' _ _ (E & A). split; [assumption|]. intros Q. now apply A, Q_c. }
    intros r s2 I2 L2 (B2 & R2). destruct r as [e|[]]; [apply FAIL; intros Q; discriminate (R2 Q)|]. clear R2.
    apply sp_bind. apply sp_op. intros _ _ r s3 ST. cbn [step] in ST. destruct ST as [(F & -> & ->)|(p & SN & -> & ->)].
    { split; [apply held_refl; assumption|]. apply sp_ret. intros _ _. cbn [lift]. apply FAIL. intros Q. rewrite (C_nf (Q_c Q)) in F. discriminate. }
    split; [apply hold_built; auto; intros Q; rewrite B2; auto|]. apply sp_ret. intros I3 L3. cbn [lift].
    apply sp_bind. apply sp_read; [exact Logic.I|]. intros _ _ same ST. apply sp_ret. intros _ _. cbn [step] in ST. destruct ST as (_ & ST).
    destruct same; [|apply sp_ret; intros _ _; apply FAIL; intros Q; discriminate (ST (Q_stable Q))].
    apply sp_bind. eapply sp_mono; [|apply sp_publish; left; reflexivity].
    intros r s4 I4 L4 (B4 & P4 & _ & N4). destruct r as [e|[]].
    { apply FAIL. intros Q. assert (X : inl e = inr tt) by (apply N4; [now apply C_nf, Q_c|now apply C_sane; auto]). discriminate. }
    apply sp_bind. eapply sp_mono; [|apply sp_load]. intros r s5 _ _ (-> & A & B & C). destruct r as [e|[q|]].
    + apply FAIL. intros Q. destruct (C (Q_c Q)); discriminate.
    + apply sp_ret. intros _ _. split; [intros q' E; injection E as <-; now apply A|]. split; [intros E c X; destruct (NF E c X)|].
      intros Q. split; [|eauto]. intros _ _. destruct (P4 eq_refl) as (d & -> & _). discriminate.
    + apply sp_ret. intros _ _. apply FAIL. intros Q. destruct (P4 eq_refl) as (d & X & _). rewrite (B eq_refl (Q_c Q)) in X. discriminate.
Qed.

(** ** Sessions *)
Lemma sp_act a s : (careful -> False) -> sp (act en a) (fun r s' => True) s.
Proof.
  intros NC. assert (NQ : quiet -> False) by auto. destruct a; cbn [act].
  - apply sp_bind. eapply sp_mono; [|apply sp_load]. intros [e|x] s' _ _ _; [exact Logic.I|]. now apply sp_ret.
  - eapply sp_mono; [|apply sp_recover]. auto.
  - eapply sp_mono; [|apply sp_remove_invalid; intros C; destruct (NC C)]. auto.
  - apply sp_bind. apply sp_op. intros Is L r s3 ST. cbn [step] in ST. destruct ST as [(F & -> & ->)|(p & SN & -> & ->)].
    + split; [apply held_refl; assumption|]. now apply sp_ret.
    + split; [apply hold_built; auto; intros Q; destruct (NQ Q)|]. apply sp_ret. intros _ _. cbn [lift].
      eapply sp_mono; [|apply sp_publish; left; reflexivity]. auto.
Qed.
Lemma sp_acts : forall l s, (careful -> False) -> sp (acts en l) (fun r s' => True) s.
Proof.
  induction l as [|a l IH]; intros s NC; cbn [acts]; [now apply sp_ret|].
  apply sp_bind. eapply sp_mono; [|apply sp_act; assumption]. intros [e|x] s' _ _ _; [exact Logic.I|]. now apply IH.
Qed.
End S.
