(** publish, recover_residuals, remove_invalid and build_fst under the lock. *)
From Coq Require Import List NArith ZArith Bool Arith Lia Permutation String.
From Verif Require Import Text TextFacts CacheModel CacheSpec CacheRG CacheInv CacheLoad CacheSeq.
Import ListNotations.
Local Open Scope list_scope.

Section S.
Variable en : env.
Variable w : world.
Variable me : nat.
Variables careful quiet : Prop.
Notation I := (II en careful quiet).
Notation Inv := (Inv en).
Notation sp := (CacheSeq.sp en w me careful quiet).
Notation spare := (CacheSeq.spare en).

(** ** Writing into a directory that is not published *)
Record ext (d0 : nat) (s s' : st) : Prop := {
  x_par : forall n, par s' n = par s n;
  x_dirs : forall d fn, d <> d0 -> dirs s' d fn = dirs s d fn;
  x_files : forall g, g < next s -> files s' g = files s g;
  x_next : next s <= next s';
  x_pub : forall d, pub_of s' d = pub_of s d;
  x_frozen : forall d, frozen s' d = frozen s d;
  x_sealed : forall f, sealed s' f = sealed s f;
  x_built : built s' = built s }.
Lemma ext_refl d s : ext d s s. Proof. constructor; auto. Qed.
Lemma ext_trans d a b c : ext d a b -> ext d b c -> ext d a c.
Proof.
  intros [A1 A2 A3 A4 A5 A6 A7 A8] [B1 B2 B3 B4 B5 B6 B7 B8]. constructor; intros; try congruence.
  - rewrite B2 by assumption. auto.
  - rewrite B3 by lia. auto.
  - lia.
Qed.
Lemma holds_lt s d p : Inv s -> pub_of s d = Some p -> forall fn f, dirs s d fn = Some (FReg f) -> f < next s.
Proof. intros IV P fn f E. destruct (inv_ent _ _ IV _ _ _ _ P E) as (f' & X & _ & Y & _). injection X as <-. exact Y. Qed.
Lemma holds_ext' d0 s s' d p : Inv s -> ext d0 s s' -> d <> d0 -> pub_of s d = Some p -> holds en s d p -> holds en s' d p.
Proof.
  intros IV X D P. apply holds_ext; intros.
  - now apply (x_dirs _ _ _ X).
  - apply (x_files _ _ _ X). eapply holds_lt; eauto.
Qed.
Lemma at_hand_ext d0 s s' : Inv s -> frozen s d0 = false -> ext d0 s s' -> at_hand en s -> at_hand en s'.
Proof.
  intros IV F X [A|(i & d & P & p & PB & W)]; [left; now rewrite (x_par _ _ _ X)|right].
  exists i, d. rewrite (x_par _ _ _ X). split; [assumption|]. exists p. rewrite (x_pub _ _ _ X). split; [assumption|].
  eapply holds_ext'; eauto. intros ->. pose proof (inv_old _ _ IV _ _ P). cbn in H. congruence.
Qed.
Lemma hold_ext d0 s0 s s2 : I s0 -> frozen s0 d0 = false -> Inv s2 -> fm s s2 -> lock s2 = Some me -> ext d0 s0 s2 -> held me I s s2.
Proof.
  intros (IV & JV & KV) F I2 FM L X. split; [|auto]. split; [assumption|]. split.
  - intros C. split; [intros q; rewrite (x_built _ _ _ X); apply (JV C)|]. intros (d & Fd). rewrite (x_frozen _ _ _ X) in Fd. apply (at_hand_ext d0 s0); auto. apply (JV C). eauto.
  - intros q. eapply KK_same; [exact L|apply (x_built _ _ _ X)|auto].
Qed.

Lemma sp_write_loop s0 d0 f : I s0 -> frozen s0 d0 = false -> next s0 <= f -> forall fuel b s,
  ext d0 s0 s -> sealed s f = false ->
  sp (write_loop fuel f b) (fun r s' => ext d0 s0 s' /\ (forall d fn, dirs s' d fn = dirs s d fn) /\
     (r = inr tt -> files s' f = files s f ++ b) /\ (forall g, g <> f -> files s' g = files s g) /\
     next s' = next s /\ (no_faults w -> List.length b <= fuel -> r = inr tt)) s.
Proof.
  intros I0 F0 NX. induction fuel as [|fuel IH]; intros b s X SE; (destruct b as [|b0 b]; cbn [write_loop];
    [apply sp_ret; intros _ _; split; [assumption|]; split; [reflexivity|]; split; [intros; now rewrite app_nil_r|]; auto|]).
  { apply sp_ret. intros _ _. split; [assumption|]. split; [reflexivity|]. split; [discriminate|].
    split; [reflexivity|]. split; [reflexivity|]. cbn. lia. }
  apply sp_bind. apply sp_op. intros Is L r s2 ST. cbn [step] in ST.
  destruct ST as [(F & -> & ->)|(k & K & -> & ->)].
  - split; [split; [assumption|split; [apply fm_refl|assumption]]|]. apply sp_ret. intros _ _. cbn [lift].
    split; [assumption|]. split; [reflexivity|]. split; [discriminate|]. split; [reflexivity|]. split; [reflexivity|].
    intros NF. rewrite NF in F. discriminate.
  - set (s2 := upd_file s f (files s f ++ firstn k (b0 :: b))).
    assert (X2 : ext d0 s0 s2).
    { destruct X as [A1 A2 A3 A4 A5 A6 A7 A8]. constructor; auto. intros g G. subst s2. cbn.
      destruct (Nat.eq_dec g f); [lia|]. auto. }
    split.
    { apply (hold_ext d0 s0); auto; [apply inv_upd_file; [apply Is|assumption]|now apply fm_upd_file]. }
    apply sp_ret. intros _ _. cbn [lift].
    eapply sp_mono; [|apply (IH (skipn k (b0 :: b)) s2 X2); subst s2; cbn; assumption].
    intros r s' _ _ (A1 & A2 & A3 & A4 & A5 & A6). split; [assumption|]. split; [exact A2|]. split.
    { intros E. rewrite (A3 E). subst s2. cbn [files upd_file]. destruct (Nat.eq_dec f f); [|congruence].
      now rewrite <- app_assoc, firstn_skipn. }
    split. { intros g G. rewrite (A4 g G). subst s2. cbn. destruct (Nat.eq_dec g f); [congruence|reflexivity]. }
    split; [exact A5|]. intros NF LE. apply A6; [assumption|]. rewrite skipn_length. lia.
Qed.

Lemma sp_write_file i fn b d0 p s : par s (NTmp i) = Some (EDir d0) -> pub_of s d0 = Some p -> dirs s d0 fn = None -> known fn = true ->
  sp (write_file (NTmp i) fn b) (fun r s' => ext d0 s s' /\
     (forall fn', fn' <> fn -> dirs s' d0 fn' = dirs s d0 fn') /\
     (r = inr tt -> exists f, dirs s' d0 fn = Some (FReg f) /\ files s' f = b) /\
     (no_faults w -> r = inr tt)) s.
Proof.
  intros P PB D KN. apply sp_pre. intros I0 L0.
  assert (F0 : frozen s d0 = false) by apply (inv_old _ _ (proj1 I0) _ _ P).
  unfold write_file. apply sp_bind. apply sp_op. intros _ _ r s2 ST.
  cbn [step] in ST. destruct ST as [(F & -> & ->)|ST].
  - split; [split; [assumption|split; [apply fm_refl|assumption]]|]. apply sp_ret. intros _ _. cbn [lift].
    split; [apply ext_refl|]. split; [reflexivity|]. split; [discriminate|]. intros NF. rewrite NF in F. discriminate.
  - rewrite P, D in ST. destruct ST as [-> ->].
    set (s2 := upd_next (upd_file (upd_dir s d0 fn (Some (FReg (next s)))) (next s) [])).
    assert (X2 : ext d0 s s2).
    { subst s2. constructor; cbn; auto.
      - intros d fn' N. destruct (Nat.eq_dec d d0); [congruence|reflexivity].
      - intros g G. destruct (Nat.eq_dec g (next s)); [lia|reflexivity]. }
    split.
    { apply (hold_ext d0 s); auto; [eapply inv_create; eauto; apply I0|apply (fm_create en); [apply I0|assumption]]. }
    apply sp_ret. intros (IV2 & _) _. cbn [lift].
    assert (SE : sealed s2 (next s) = false).
    { destruct (sealed s2 (next s)) eqn:E; [|reflexivity]. cbn in E. apply (inv_sealed _ _ (proj1 I0)) in E. lia. }
    apply sp_bind. eapply sp_mono; [|apply (sp_write_loop s d0 (next s) I0 F0 (le_n _) _ b s2 X2 SE)].
    intros r s' _ _ (A1 & A2 & A3 & A4 & A5 & A6).
    assert (DD : forall fn', fn' <> fn -> dirs s' d0 fn' = dirs s d0 fn').
    { intros fn' N. rewrite A2. subst s2. cbn. destruct (Nat.eq_dec d0 d0); [|congruence]. destruct (fname_eq_dec fn' fn); [congruence|reflexivity]. }
    destruct r as [e|[]].
    + split; [assumption|]. split; [assumption|]. split; [discriminate|]. intros NF. apply A6; [assumption|lia].
    + apply sp_read; [exact Logic.I|]. intros _ _ r ST. apply sp_ret. intros _ _.
      split; [assumption|]. split; [assumption|]. split.
      * intros _. exists (next s). rewrite A2, (A3 eq_refl). subst s2. cbn.
        destruct (Nat.eq_dec d0 d0); [|congruence]. destruct (fname_eq_dec fn fn); [|congruence].
        destruct (Nat.eq_dec (next s) (next s)); [|congruence]. auto.
      * intros NF. cbn [step] in ST. destruct ST as [(F & _)|(-> & _)]; [rewrite NF in F; discriminate|reflexivity].
Qed.

Lemma runs_read_regular_file n fn s r s' : runs w me (read_regular_file en n fn) s r s' ->
  (forall b, r = inr b -> exists d f, par s n = Some (EDir d) /\ dirs s d fn = Some (FReg f) /\ b = files s f) /\
  (no_faults w -> forall d f, par s n = Some (EDir d) -> dirs s d fn = Some (FReg f) -> (size_of (files s f) <= maxsize en)%Z -> r = inr (files s f)).
Proof.
  intros R. unfold read_regular_file in R. apply runs_bind in R. cbn [runs] in R.
  destruct R as [(e & (x & s1 & ST & E1 & ->) & ->)|(before & s1 & (x & s2 & ST & E1 & ->) & R)].
  { split; [discriminate|]. intros NF d f P D _. cbn [step] in ST. destruct ST as [(F & _)|(_ & ->)]; [rewrite NF in F; discriminate|].
    rewrite P, D in E1. discriminate. }
  cbn [step] in ST. destruct ST as [(F & -> & _)|(-> & ->)]; [discriminate|].
  destruct (par s n) as [[d| | |]|] eqn:P; try discriminate E1.
  destruct (dirs s d fn) as [fe|] eqn:D; [|discriminate]. injection E1 as ->.
  assert (BAD : (exists e, r = inl e) -> (forall f, fe <> FReg f) ->
    (forall b, r = inr b -> exists d0 f, Some (EDir d) = Some (EDir d0) /\ dirs s d0 fn = Some (FReg f) /\ b = files s f) /\
    (no_faults w -> forall d0 f, Some (EDir d) = Some (EDir d0) -> dirs s d0 fn = Some (FReg f) -> (size_of (files s f) <= maxsize en)%Z -> r = inr (files s f))).
  { intros (e & ->) N. split; [discriminate|]. intros _ d0 f X. injection X as <-. rewrite D. intros X. injection X as ->. exfalso. eapply N. reflexivity. }
  destruct fe as [f| | |]; cbn [fentry_kind] in R;
    try (cbn [runs throw] in R; destruct R as [-> ->]; apply BAD; [eauto|discriminate]).
  apply runs_bind in R. cbn [runs] in R.
  destruct R as [(e & (x & s1 & ST & E1 & ->) & ->)|(d' & s1 & (x & s2 & ST & E1 & ->) & R)].
  { split; [discriminate|]. intros NF d0 f0 _ _ _. cbn [step] in ST. destruct ST as [(F & _)|(_ & ->)]; [rewrite NF in F; discriminate|].
    rewrite P in E1. discriminate. }
  cbn [step] in ST. destruct ST as [(F & -> & _)|(-> & ->)]; [discriminate|]. rewrite P in E1. injection E1 as ->.
  apply runs_bind in R. cbn [runs] in R.
  destruct R as [(e & (x & s1 & ST & E1 & ->) & ->)|(h & s1 & (x & s2 & ST & E1 & ->) & R)].
  { split; [discriminate|]. intros NF d0 f0 _ _ _. cbn [step] in ST. destruct ST as [(F & _)|(_ & ->)]; [rewrite NF in F; discriminate|].
    rewrite D in E1. discriminate. }
  cbn [step] in ST. destruct ST as [(F & -> & _)|(-> & ->)]; [discriminate|]. rewrite D in E1. injection E1 as ->.
  rewrite Nat.eqb_refl in R. apply runs_read_open_regular in R. destruct R as (-> & A2 & A3). split.
  - intros b E. destruct (A2 b E) as (f' & X & -> & _). injection X as <-. exists d, f. auto.
  - intros NF d0 f0 X. injection X as <-. rewrite D. intros X SZ. injection X as <-. apply A3; auto; discriminate.
Qed.

Definition restore_works : Prop :=
  (forall n, faulty w (CLexists n) = false) /\ forall j, faulty w (CRename (NPrev j) NFinal) = false.

Definition prepared (i d0 : nat) (p : pub) (s : st) (r : exn + option name) (s' : st) : Prop :=
  match r with
  | inl _ => ext d0 s s'
  | inr None => ext d0 s s' /\ holds en s' d0 p /\ ((forall n, faulty w (CLexists n) = false) -> par s NFinal = None)
  | inr (Some prev) => exists s1 d1 j, ext d0 s s1 /\ holds en s1 d0 p /\ par s NFinal = Some (EDir d1) /\ prev = NPrev j /\
      par s1 (NPrev j) = None /\ s' = moved s1 NFinal (NPrev j) (EDir d1) /\ Inv s1
  end /\ (no_faults w -> format_ok en p -> exists o, r = inr o).

Lemma final_dir s : Inv s -> par s NFinal <> None -> exists d p, par s NFinal = Some (EDir d) /\ pub_of s d = Some p /\ holds en s d p.
Proof.
  intros IV N. destruct (par s NFinal) as [e|] eqn:E; [|congruence]. destruct (inv_own _ _ IV _ _ E) as (d & -> & _).
  destruct (inv_final _ _ IV _ E) as (_ & p & P & H). eauto.
Qed.
Lemma held_refl s : I s -> lock s = Some me -> held me I s s.
Proof. intros. split; [assumption|split; [apply fm_refl|assumption]]. Qed.

(** Moving the bundle aside. *)
Lemma hold_retire s d n : I s -> lock s = Some me -> par s NFinal = Some (EDir d) -> par s n = None ->
  (exists j, n = NPrev j) \/ ((exists j, n = NCorrupt j) /\ (careful -> False)) -> held me I s (moved s NFinal n (EDir d)).
Proof.
  intros (IV & JV & KV) L P N K.
  destruct (inv_retire en s d n IV P N) as [I2 F2].
  { destruct K as [(j & ->)|((j & ->) & _)]; eauto. }
  assert (NF : n <> NFinal) by (destruct K as [(j & ->)|((j & ->) & _)]; discriminate).
  destruct (inv_final _ _ IV _ P) as (F & p & PB & W).
  split; [|split; [assumption|]].
  - split; [assumption|]. split.
    + intros C. destruct K as [(j & ->)|(_ & X)]; [|destruct (X C)]. split; [exact (proj1 (JV C))|]. intros _. right. exists j, d.
      cbn. destruct (name_eq_dec (NPrev j) (NPrev j)); [|congruence]. split; [reflexivity|]. exists p. split; [assumption|].
      apply (holds_ext en s); [reflexivity|reflexivity|assumption].
    + intros q. apply (KK_same me s); [destruct K as [(j & ->)|((j & ->) & _)]; exact L|destruct K as [(j & ->)|((j & ->) & _)]; reflexivity|auto].
  - destruct K as [(j & ->)|((j & ->) & _)]; exact L.
Qed.
(** Moving a complete directory to the bundle path. *)
Lemma hold_promote s d n p : I s -> lock s = Some me -> par s n = Some (EDir d) -> par s NFinal = None ->
  pub_of s d = Some p -> holds en s d p -> held me I s (moved s n NFinal (EDir d)).
Proof.
  intros (IV & JV & KV) L P N PB W.
  destruct (inv_promote en s d n p IV P N PB W) as [I2 F2]. split; [|split; [assumption|exact L]].
  split; [assumption|]. split.
  - intros C. split; [exact (proj1 (JV C))|]. intros _. left. cbn. destruct (name_eq_dec NFinal NFinal); [discriminate|congruence].
  - intros q. apply (KK_same me s); [exact L|reflexivity|auto].
Qed.

Lemma sp_prepare i d0 p s : par s (NTmp i) = Some (EDir d0) -> pub_of s d0 = Some p -> (forall fn, dirs s d0 fn = None) ->
  sp (prepare en p (NTmp i)) (prepared i d0 p s) s.
Proof.
  intros P PB D. apply sp_pre. intros I0 L0.
  unfold prepare. apply sp_bind.
  eapply sp_mono; [|apply (sp_write_file i FTag (fst p) d0 p s P PB (D FTag) eq_refl)].
  intros [e|[]] s1 I1 L1 (X1 & D1 & W1 & S1).
  { split; [assumption|]. intros NF _. discriminate (S1 NF). }
  destruct (W1 eq_refl) as (ft & E1 & C1). clear W1 S1. apply sp_bind.
  assert (P1 : par s1 (NTmp i) = Some (EDir d0)) by now rewrite (x_par _ _ _ X1).
  assert (PB1 : pub_of s1 d0 = Some p) by now rewrite (x_pub _ _ _ X1).
  assert (DV : dirs s1 d0 FVerb = None) by (rewrite D1 by discriminate; apply D).
  assert (LT1 : ft < next s1) by exact (holds_lt s1 d0 p (proj1 I1) PB1 _ _ E1).
  eapply sp_mono; [|apply (sp_write_file i FVerb (snd p) d0 p s1 P1 PB1 DV eq_refl)].
  intros [e|[]] s2 I2 L2 (X2 & D2 & W2 & S2).
  { split; [eapply ext_trans; eassumption|]. intros NF _. discriminate (S2 NF). }
  destruct (W2 eq_refl) as (fv & E2 & C2). clear W2 S2.
  assert (P2 : par s2 (NTmp i) = Some (EDir d0)) by now rewrite (x_par _ _ _ X2).
  assert (PB2 : pub_of s2 d0 = Some p) by now rewrite (x_pub _ _ _ X2).
  assert (T2 : dirs s2 d0 FTag = Some (FReg ft)) by (rewrite D2 by discriminate; exact E1).
  assert (CT2 : files s2 ft = fst p) by (rewrite (x_files _ _ _ X2) by assumption; exact C1).
  pose proof (ext_trans _ _ _ _ X1 X2) as X12.
  apply sp_bind. apply sp_pure; [apply pure_read_file|]. intros _ _ a R. apply runs_read_regular_file in R. destruct R as [A1 A2].
  destruct a as [e|t].
  { split; [assumption|]. intros NF (_ & _ & _ & FF). destruct (FF FTag (or_introl eq_refl)) as (_ & _ & Z).
    cbn [content] in Z. rewrite <- CT2 in Z. discriminate (A2 NF d0 ft P2 T2 Z). }
  assert (t = fst p).
  { destruct (A1 t eq_refl) as (d' & f' & Y1 & Y2 & ->). rewrite P2 in Y1. injection Y1 as <-. rewrite T2 in Y2. injection Y2 as <-. exact CT2. }
  subst t. clear A1 A2. apply sp_bind. destruct (fst_ok en (fst p)) eqn:FO1.
  2:{ apply sp_ret. intros _ _. split; [assumption|]. intros NF (_ & _ & _ & FF). destruct (FF FTag (or_introl eq_refl)) as (Z & _). cbn [content] in Z. congruence. }
  apply sp_ret. intros _ _.
  apply sp_bind. apply sp_pure; [apply pure_read_file|]. intros _ _ a R. apply runs_read_regular_file in R. destruct R as [A1 A2].
  destruct a as [e|v].
  { split; [assumption|]. intros NF (_ & _ & _ & FF). destruct (FF FVerb (or_intror eq_refl)) as (_ & _ & Z).
    cbn [content] in Z. rewrite <- C2 in Z. discriminate (A2 NF d0 fv P2 E2 Z). }
  assert (v = snd p).
  { destruct (A1 v eq_refl) as (d' & f' & Y1 & Y2 & ->). rewrite P2 in Y1. injection Y1 as <-. rewrite E2 in Y2. injection Y2 as <-. exact C2. }
  subst v. clear A1 A2. apply sp_bind. destruct (fst_ok en (snd p)) eqn:FO2.
  2:{ apply sp_ret. intros _ _. split; [assumption|]. intros NF (_ & _ & _ & FF). destruct (FF FVerb (or_intror eq_refl)) as (Z & _). cbn [content] in Z. congruence. }
  apply sp_ret. intros _ _. apply sp_bind.
  assert (DM : dirs s2 d0 FMan = None) by (rewrite D2, D1 by discriminate; apply D).
  assert (LT2 : fv < next s2) by exact (holds_lt s2 d0 p (proj1 I2) PB2 _ _ E2).
  assert (LT2' : ft < next s2) by exact (holds_lt s2 d0 p (proj1 I2) PB2 _ _ T2).
  eapply sp_mono; [|apply (sp_write_file i FMan (dumps en (manifest_of en (fst p) (snd p))) d0 p s2 P2 PB2 DM eq_refl)].
  intros [e|[]] s3 I3 L3 (X3 & D3 & W3 & S3).
  { split; [eapply ext_trans; eassumption|]. intros NF _. discriminate (S3 NF). }
  destruct (W3 eq_refl) as (fmn & E3 & C3). clear W3 S3.
  pose proof (ext_trans _ _ _ _ X12 X3) as X13.
  assert (P3 : par s3 (NTmp i) = Some (EDir d0)) by now rewrite (x_par _ _ _ X3).
  assert (PB3 : pub_of s3 d0 = Some p) by now rewrite (x_pub _ _ _ X3).
  assert (W : holds en s3 d0 p).
  { split.
    - intros fn K. destruct fn; [exists ft|exists fv|exists fmn|discriminate].
      + rewrite D3 by discriminate. rewrite (x_files _ _ _ X3) by assumption. auto.
      + rewrite D3 by discriminate. rewrite (x_files _ _ _ X3) by assumption. auto.
      + auto.
    - intros j. rewrite D3, D2, D1 by discriminate. apply D. }
  assert (PF : par s3 NFinal = par s NFinal) by apply (x_par _ _ _ X13).
  apply sp_bind. apply sp_read; [exact Logic.I|]. intros _ _ here ST. apply sp_ret. intros _ _.
  cbn [step] in ST. destruct ST as (_ & ST).
  destruct here.
  2:{ apply sp_ret. intros _ _. split; [|eauto]. split; [assumption|]. split; [assumption|]. intros NF. rewrite <- PF.
      destruct ST as [(F & _)|E]; [rewrite NF in F; discriminate|]. destruct (par s3 NFinal); [discriminate|reflexivity]. }
  assert (NN : par s3 NFinal <> None).
  { destruct ST as [(_ & E)|E]; [discriminate|]. destruct (par s3 NFinal); congruence. }
  destruct (final_dir s3 (proj1 I3) NN) as (d1 & p1 & PD & PB' & W').
  apply sp_bind. apply sp_pure; [apply pure_check|]. intros _ _ a R.
  assert (CK : no_faults w -> a = inr tt).
  { intros NF. unfold check_bundle_directory in R. apply runs_bind in R. cbn [runs] in R.
    destruct R as [(e & (x & sx & STx & E & _) & ->)|(k & sx & (x & sy & STx & E & ->) & R)];
      (cbn [step] in STx; destruct STx as [(F & _)|(_ & ->)]; [rewrite NF in F; discriminate|]; rewrite PD in E; cbn in E; try discriminate E).
    injection E as ->. cbn [fst runs ok] in R. apply R. }
  destruct a as [e|[]].
  { split; [assumption|]. intros NF _. discriminate (CK NF). }
  apply sp_bind. apply sp_read; [exact Logic.I|]. intros _ _ j STj. apply sp_ret. intros _ _.
  cbn [step] in STj. destruct STj as (_ & NP & _).
  apply sp_bind. apply sp_op. intros _ _ r s4 ST4. cbn [step] in ST4. destruct ST4 as [(F & -> & ->)|ST4].
  { split; [apply held_refl; assumption|]. apply sp_ret. intros _ _. cbn [lift]. split; [assumption|]. intros NF. rewrite NF in F. discriminate. }
  rewrite PD, NP in ST4. destruct ST4 as [-> ->]. split.
  { apply hold_retire; auto. left. eauto. }
  apply sp_ret. intros _ _. cbn [lift]. apply sp_ret. intros _ _. split; [|eauto].
  exists s3, d1, j. rewrite <- PF. do 6 (split; [assumption || reflexivity|]). exact (proj1 I3).
Qed.

Definition move_post (p : pub) (s : st) (fr : bool * (exn + unit)) (s' : st) (fin0 : option entry) : Prop :=
  built s' = built s /\
  (fst fr = true -> snd fr = inr tt /\ exists d, par s' NFinal = Some (EDir d) /\ pub_of s' d = Some p) /\
  (fst fr = false -> (exists e, snd fr = inl e) /\ (restore_works -> par s' NFinal = fin0)).

Lemma sp_move_in i d0 p s s' previous : prepared i d0 p s (inr previous) s' -> I s -> par s (NTmp i) = Some (EDir d0) -> pub_of s d0 = Some p ->
  sp (move_in (NTmp i) previous) (fun fr s2 => move_post p s' fr s2 (par s NFinal) /\ (no_faults w -> fst fr = true)) s'.
Proof.
  intros [PR _] I0 P PB. apply sp_pre. intros Is L. unfold move_in. apply sp_bindp.
  destruct previous as [prev|].
  - destruct PR as (s1 & d1 & j & X & W & PD & -> & NP & -> & IV1).
    assert (D01 : d0 <> d1).
    { intros ->. pose proof (inv_inj _ _ (proj1 I0) _ _ _ P PD ltac:(congruence)). discriminate. }
    set (s3 := moved s1 NFinal (NPrev j) (EDir d1)) in *.
    assert (Q1 : par s3 (NTmp i) = Some (EDir d0)).
    { subst s3. cbn. destruct (name_eq_dec (NTmp i) (NPrev j)); [discriminate|]. destruct (name_eq_dec (NTmp i) NFinal); [discriminate|].
      now rewrite (x_par _ _ _ X). }
    assert (Q2 : par s3 NFinal = None).
    { subst s3. cbn. destruct (name_eq_dec NFinal (NPrev j)); [discriminate|]. destruct (name_eq_dec NFinal NFinal); [reflexivity|congruence]. }
    assert (Q3 : par s3 (NPrev j) = Some (EDir d1)).
    { subst s3. cbn. destruct (name_eq_dec (NPrev j) (NPrev j)); [reflexivity|congruence]. }
    assert (Q4 : pub_of s3 d0 = Some p) by (subst s3; cbn; now rewrite (x_pub _ _ _ X)).
    assert (Q5 : holds en s3 d0 p) by (apply (holds_ext en s1); [reflexivity|reflexivity|exact W]).
    destruct (inv_final _ _ IV1 d1 ltac:(now rewrite (x_par _ _ _ X))) as (Z1 & p1 & Z2 & Z3).
    assert (Q6 : holds en s3 d1 p1) by (apply (holds_ext en s1); [reflexivity|reflexivity|exact Z3]).
    assert (Q7 : pub_of s3 d1 = Some p1) by exact Z2.
    clearbody s3. apply sp_op. intros _ _ r s4 ST. cbn [step] in ST. destruct ST as [(F & -> & ->)|ST].
    + split; [apply held_refl; assumption|]. apply sp_ret. intros _ _. cbn [lift]. apply sp_bindp.
      unfold restore_previous. apply sp_bind. apply sp_read; [exact Logic.I|]. intros _ _ a STa. apply sp_ret. intros _ _.
      cbn [step] in STa. destruct STa as (_ & STa). rewrite Q3 in STa.
      assert (BAD : (restore_works -> False) -> sp (Ret (false, inl (os_exn EIO)) : prog (bool * (exn + unit)))
         (fun fr s2 => move_post p s3 fr s2 (par s NFinal) /\ (no_faults w -> fst fr = true)) s3).
      { intros N. apply sp_ret. intros _ _. split.
        - split; [reflexivity|]. split; [discriminate|]. cbn. intros _. split; [eauto|]. intros R. destruct (N R).
        - intros NF. rewrite NF in F. discriminate. }
      apply sp_bind. destruct a.
      2:{ apply sp_ret. intros _ _. apply sp_ret. intros _ _. apply BAD. intros (R & _).
          destruct STa as [(Fa & _)|E]; [rewrite R in Fa; discriminate|discriminate]. }
      apply sp_read; [exact Logic.I|]. intros _ _ b STb. apply sp_ret. intros _ _. cbn [step] in STb. destruct STb as (_ & STb). rewrite Q2 in STb.
      destruct b; [destruct STb as [(_ & E)|E]; discriminate|]. clear STb.
      apply sp_bind. apply sp_op. intros _ _ r s4 ST. cbn [step] in ST. destruct ST as [(F2 & -> & ->)|ST].
      { split; [apply held_refl; assumption|]. apply sp_ret. intros _ _. cbn [lift]. apply BAD. intros (_ & R). rewrite R in F2. discriminate. }
      rewrite Q3, Q2 in ST. destruct ST as [-> ->]. split; [eapply hold_promote; eassumption|].
      apply sp_ret. intros _ _. cbn [lift]. apply sp_ret. intros _ _. apply sp_ret. intros _ _. split.
      * split; [reflexivity|]. split; [discriminate|]. cbn [fst snd]. intros _. split; [eauto|]. intros _. cbn.
        destruct (name_eq_dec NFinal NFinal); [now rewrite PD|congruence].
      * intros NF. rewrite NF in F. discriminate.
    + rewrite Q1, Q2 in ST. destruct ST as [-> ->]. split; [eapply hold_promote; eassumption|].
      apply sp_ret. intros I4 L4. cbn [lift]. apply sp_bindp.
      set (s4 := moved s3 (NTmp i) NFinal (EDir d0)) in *.
      assert (PF : par s4 NFinal = Some (EDir d0)) by (subst s4; cbn; destruct (name_eq_dec NFinal NFinal); [reflexivity|congruence]).
      eapply sp_mono; [|apply sp_remove_residual; [reflexivity|]].
      2:{ intros _ _. left. split; [congruence|discriminate]. }
      intros r s5 I5 L5 (T & _ & ->). apply sp_ret. intros _ _. split; [|reflexivity].
      assert (TT : built s5 = built s4 /\ par s5 NFinal = par s4 NFinal /\ pub_of s5 d0 = pub_of s4 d0).
      { destruct T as [->|(dx & _ & O)]; [auto|]. split; [apply (o_built _ _ _ _ O)|]. split; [apply (o_par _ _ _ _ O); discriminate|apply (o_pub _ _ _ _ O)]. }
      destruct TT as (T1 & T2 & T3). split; [now rewrite T1|]. split; [|discriminate].
      intros _. split; [reflexivity|]. exists d0. rewrite T2, T3. split; [assumption|exact Q4].
  - destruct PR as (X & W & NN).
    assert (Q1 : par s' (NTmp i) = Some (EDir d0)) by now rewrite (x_par _ _ _ X).
    assert (Q4 : pub_of s' d0 = Some p) by now rewrite (x_pub _ _ _ X).
    apply sp_op. intros _ _ r s4 ST.
    assert (ALT : (s4 = s' /\ (exists e, r = inl e) /\ (no_faults w -> False)) \/ (s4 = moved s' (NTmp i) NFinal (EDir d0) /\ r = inr tt /\ par s' NFinal = None)).
    { cbn [step] in ST. destruct ST as [(F & -> & ->)|ST].
      - left. split; [reflexivity|]. split; [eauto|]. intros NF. rewrite NF in F. discriminate.
      - rewrite Q1 in ST. destruct (par s' NFinal) as [e|] eqn:E.
        + assert (BF : no_faults w -> False). { intros NF. rewrite (x_par _ _ _ X) in E. rewrite NN in E; [discriminate|]. intros n. apply NF. }
          destruct (final_dir s' (proj1 Is) ltac:(congruence)) as (d & q & PD & _ & HW). rewrite E in PD. injection PD as ->.
          destruct ST as [(EM & _)|(_ & -> & ->)]; [|left; eauto].
          destruct HW as [HW _]. destruct (HW FTag eq_refl) as (f & HF & _). rewrite EM in HF. discriminate.
        + destruct ST as [-> ->]. right. auto. }
    clear ST. destruct ALT as [(-> & (e & ->) & NF)|(-> & -> & PN)].
    + split; [apply held_refl; assumption|]. apply sp_ret. intros _ _. cbn [lift]. apply sp_bindp. apply sp_ret. intros _ _.
      apply sp_ret. intros _ _. split; [|intros Z; destruct (NF Z)]. split; [reflexivity|]. split; [discriminate|].
      intros _. split; [cbn; eauto|]. intros _. apply (x_par _ _ _ X).
    + split; [eapply hold_promote; eassumption|]. apply sp_ret. intros _ _. cbn [lift]. apply sp_bindp, sp_ret. intros _ _. apply sp_ret. intros _ _.
      split; [|reflexivity]. split; [reflexivity|]. split; [|discriminate]. intros _. split; [reflexivity|]. exists d0. cbn.
      destruct (name_eq_dec NFinal NFinal); [|congruence]. auto.
Qed.

Definition publish_post (p : pub) (s : st) (r : exn + unit) (s' : st) : Prop :=
  built s' = built s /\
  (r = inr tt -> exists d, par s' NFinal = Some (EDir d) /\ pub_of s' d = Some p) /\
  (forall e, r = inl e -> restore_works -> par s' NFinal = par s NFinal) /\
  (no_faults w -> format_ok en p -> r = inr tt).

Lemma sp_publish p s : In p (built s) -> sp (publish en p) (publish_post p s) s.
Proof.
  intros B. apply sp_pre. intros I0 L0. unfold publish. apply sp_bind.
  apply sp_read; [exact Logic.I|]. intros _ _ r ST. apply sp_ret. intros _ _.
  destruct r as [e|[]]; cbn [lift].
  { split; [reflexivity|]. split; [discriminate|]. split; [reflexivity|]. intros NF. cbn [step] in ST.
    destruct ST as [(F & _)|(E & _)]; [rewrite NF in F; discriminate|discriminate]. }
  clear ST. apply sp_bind. apply sp_op. intros _ _ r s1 ST. cbn [step] in ST. destruct ST as [(F & -> & ->)|(i & NT & -> & ->)].
  { split; [apply held_refl; assumption|]. apply sp_ret. intros _ _. cbn [lift]. split; [reflexivity|]. split; [discriminate|]. split; [reflexivity|].
    intros NF. rewrite NF in F. discriminate. }
  set (d0 := next s). set (s1 := new_dir s (NTmp i) p).
  assert (OTH : forall m, m <> NTmp i -> par s1 m = par s m).
  { intros m M. subst s1. cbn. destruct (name_eq_dec m (NTmp i)); [congruence|reflexivity]. }
  assert (PFN : par s1 NFinal = par s NFinal) by (apply OTH; discriminate).
  assert (HLD : held me I s s1).
  { destruct I0 as (IV & JV & KV). split; [|split; [apply (fm_new_dir en); assumption|exact L0]].
    split; [apply inv_new_dir; assumption|]. split.
    - intros C. split; [exact (proj1 (JV C))|]. intros (d & Fd). destruct (proj2 (JV C) (ex_intro _ d Fd)) as [A|(j & d' & P & q & PB & W)].
      + left. now rewrite PFN.
      + right. exists j, d'. rewrite OTH by discriminate. split; [assumption|]. exists q.
        destruct (inv_pub _ _ IV _ _ PB) as [_ LT]. split.
        * subst s1. cbn. destruct (Nat.eq_dec d' (next s)); [lia|assumption].
        * apply (holds_ext en s); [|reflexivity|assumption]. intros fn. subst s1. cbn. destruct (Nat.eq_dec d' (next s)); [lia|reflexivity].
    - intros q. apply (KK_same me s); [exact L0|reflexivity|auto]. }
  split; [exact HLD|]. apply sp_ret. intros I1 L1. cbn [lift].
  assert (P1 : par s1 (NTmp i) = Some (EDir d0)).
  { subst s1. cbn. destruct (name_eq_dec (NTmp i) (NTmp i)); [reflexivity|congruence]. }
  assert (PB1 : pub_of s1 d0 = Some p).
  { subst s1 d0. cbn. destruct (Nat.eq_dec (next s) (next s)); [reflexivity|congruence]. }
  assert (D1 : forall fn, dirs s1 d0 fn = None).
  { intros fn. subst s1 d0. cbn. destruct (Nat.eq_dec (next s) (next s)); [reflexivity|congruence]. }
  apply sp_bindp, sp_bindp. eapply sp_mono; [|apply (sp_prepare i d0 p s1 P1 PB1 D1)].
  intros r s2 I2 L2 PR.
  assert (CLN : forall s3 r', built s3 = built s -> (restore_works -> par s3 NFinal = par s NFinal) -> (exists e, r' = inl e) -> (no_faults w -> format_ok en p -> False) ->
     sp (bindp (cleanup_tmp (NTmp i)) (fun c => match c with inl e => throw e | inr _ => Ret r' end)) (publish_post p s) s3).
  { intros s3 r' B3 PF3 (e & ->) NF3. apply sp_bindp. unfold cleanup_tmp. apply sp_bind. apply sp_read; [exact Logic.I|].
    intros I3 L3 here _. apply sp_ret. intros _ _. destruct here.
    - eapply sp_mono; [|apply sp_remove_residual; [reflexivity|]].
      2:{ intros C X. destruct I3 as (IV3 & JV3 & _). destruct (proj2 (JV3 C) X) as [A|(j & d' & A)]; [left; split; [assumption|discriminate]|right].
          exists j, d'. split; [discriminate|assumption]. }
      intros r'' s4 I4 L4 (T & _ & ->). apply sp_ret. intros _ _.
      assert (TT : built s4 = built s3 /\ par s4 NFinal = par s3 NFinal).
      { destruct T as [->|(dx & _ & O)]; [auto|]. split; [apply (o_built _ _ _ _ O)|apply (o_par _ _ _ _ O); discriminate]. }
      destruct TT as (T1 & T2). split; [congruence|]. split; [discriminate|]. split; [|intros; exfalso; auto].
      intros e' _ RW. rewrite T2. auto.
    - apply sp_ret. intros _ _. apply sp_ret. intros _ _. split; [assumption|]. split; [discriminate|]. split; [auto|intros; exfalso; auto]. }
  destruct r as [e|previous].
  - apply sp_ret. intros _ _. cbn [fst snd]. destruct PR as [X S]. apply CLN.
    + now rewrite (x_built _ _ _ X).
    + intros _. now rewrite (x_par _ _ _ X).
    + eauto.
    + intros NF FO. destruct (S NF FO). discriminate.
  - eapply sp_mono; [|apply (sp_move_in i d0 p s1 s2 previous PR I1 P1 PB1)].
    intros [fl r] s3 I3 L3 ((B3 & T1 & T2) & S). cbn [fst snd] in *.
    assert (B2 : built s2 = built s).
    { destruct PR as [PR _]. destruct previous as [prev|].
      - destruct PR as (sx & d1 & j & X & _ & _ & _ & _ & -> & _). cbn. now rewrite (x_built _ _ _ X).
      - destruct PR as (X & _). now rewrite (x_built _ _ _ X). }
    destruct fl.
    + destruct (T1 eq_refl) as [-> BI]. apply sp_ret. intros _ _. split; [congruence|]. split; [auto|]. split; [discriminate|reflexivity].
    + destruct (T2 eq_refl) as [(e & ->) RW]. apply CLN.
      * congruence.
      * intros R. rewrite <- PFN. auto.
      * eauto.
      * intros NF _. discriminate (S NF).
Qed.
End S.
