(** Lock-free readers, the lock, and all clients together. *)
From Coq Require Import List NArith ZArith Bool Arith Lia Permutation String.
From Verif Require Import Text TextFacts CacheModel CacheSpec CacheRG CacheInv CacheLoad CacheSeq CacheSeq2 CacheSeq3.
Import ListNotations.
Local Open Scope list_scope.

Lemma swp_elim w me G T (p : prog T) (Q : T -> st -> Prop) :
  forall s, swp w me always G p Q s -> forall a s', runs w me p s a s' -> Q a s'.
Proof.
  induction p as [a|c k IH]; cbn [swp runs]; intros s H b s' R; [now destruct R as [-> ->]|].
  destruct R as (r & s1 & ST & R). destruct (H r s1 ST Logic.I) as [_ W]. eauto.
Qed.

Section C.
Variable en : env.
Variable w : world.
Variables careful quiet : Prop.
Notation I := (II en careful quiet).
Notation Inv := (Inv en).
Hypothesis C_nf : careful -> no_faults w.
Hypothesis C_id : careful -> identity_ok en.
Hypothesis C_sane : careful -> forall p, sane w p -> format_ok en p.
Hypothesis Q_c : quiet -> careful.
Hypothesis Q_stable : quiet -> stable_sources w = true.

Lemma wp_read me T c (k : ret c -> prog T) (Q : T -> st -> Prop) s :
  reads c -> (forall s1, I s1 -> rely me s s1 -> forall r, step w me c s1 r s1 -> wp w I me (k r) Q s1) -> wp w I me (Op c k) Q s.
Proof.
  intros R H. cbn [wp]. intros s1 I1 RL r s2 ST. pose proof (reads_pure w me c s1 r s2 R ST). subst s2.
  split; [assumption|]. split; [apply guar_refl|]. auto.
Qed.

(** ** A reader of a directory that has been the bundle *)
Section R.
Variable me : nat.
Notation wp := (wp w I me).
Definition filed (f : nat) (b : bytes) (s : st) : Prop := sealed s f = true /\ files s f = b.
Lemma filed_rely f b s s' : rely me s s' -> filed f b s -> filed f b s'.
Proof. intros R [A B]. destruct (fm_sealed _ _ (rely_fm _ _ _ R) f A) as [C D]. split; [assumption|congruence]. Qed.
Definition kept (d : nat) (p : pub) (s : st) : Prop := frozen s d = true /\ pub_of s d = Some p.
Lemma kept_fm d p s s' : fm s s' -> kept d p s -> kept d p s'.
Proof. intros R [A B]. split; [now apply (fm_frozen _ _ R)|now apply (fm_pub _ _ R)]. Qed.
Lemma kept_rely d p s s' : rely me s s' -> kept d p s -> kept d p s'.
Proof. intros R. apply kept_fm, (rely_fm _ _ _ R). Qed.

(** Without faults a reader meets no exception but the two that load turns into None. *)
Definition mild (e : exn) : Prop := e = XIntegrity \/ e = XNotFound \/ (e = XOs /\ (careful -> False)).
Lemma mild_fault c : faulty w c = true -> mild XOs.
Proof. intros F. right. right. split; [reflexivity|]. intros C. rewrite (C_nf C) in F. discriminate. Qed.
Lemma mild_int : mild XIntegrity. Proof. now left. Qed.
Lemma mild_nf : mild XNotFound. Proof. right. now left. Qed.
Ltac bad := cbn [CacheRG.wp throw ok os_exn lift]; split; [solve [auto]|]; split;
  [intros ? EE; try discriminate EE; injection EE as <-; first [apply mild_int|apply mild_nf|eapply mild_fault; eassumption|assumption]|discriminate].

Lemma wp_read_loop f c d p size : size = List.length c -> forall fuel off acc s, filed f c s -> kept d p s -> off <= size -> size <= fuel + off -> acc = firstn off c ->
  wp (read_loop fuel f off size acc) (fun r s' => (kept d p s' /\ filed f c s') /\ (forall e, r = inl e -> mild e) /\ forall b, r = inr b -> b = c) s.
Proof.
  intros SZ. induction fuel as [|fuel IH]; intros off acc s FL K LE FU AC; cbn [read_loop].
  - destruct (Nat.ltb_spec off size); [lia|]. cbn [CacheRG.wp ok]. split; [auto|]. split; [discriminate|].
    intros b E. injection E as <-. subst. apply firstn_all2. lia.
  - destruct (Nat.ltb_spec off size).
    2:{ cbn [CacheRG.wp throw ok]. split; [auto|]. split; [discriminate|]. intros b E. injection E as <-. subst. apply firstn_all2. lia. }
    apply wp_bind. apply wp_read; [exact Logic.I|]. intros s1 I1 R1 r ST. cbn [CacheRG.wp].
    pose proof (filed_rely _ _ _ _ R1 FL) as FL1. pose proof (kept_rely _ _ _ _ R1 K) as K1.
    cbn [step] in ST. destruct ST as [(F & -> & _)|(_ & b & rest & -> & E & LB & EM)]; cbn [lift]; [bad|].
    destruct b as [|x b]; [bad|].
    rewrite (proj2 FL1) in E.
    assert (LN : List.length (x :: b) <= List.length c - off).
    { rewrite <- skipn_length, E, app_length. lia. }
    apply IH; auto; try (cbn [List.length] in *; lia).
    rewrite firstn_add, AC. f_equal. rewrite E, firstn_app.
    rewrite Nat.sub_diag, firstn_all. cbn [firstn]. now rewrite app_nil_r.
Qed.
Lemma wp_read_open f c d p es ms s : filed f c s -> kept d p s ->
  wp (read_open_regular en (Some f) es ms) (fun r s' => kept d p s' /\ (forall e, r = inl e -> mild e) /\ forall b, r = inr b -> b = c) s.
Proof.
  intros FL K. unfold read_open_regular. apply wp_bind. apply wp_read; [exact Logic.I|]. intros s1 I1 R1 r ST. cbn [CacheRG.wp].
  pose proof (filed_rely _ _ _ _ R1 FL) as FL1. pose proof (kept_rely _ _ _ _ R1 K) as K1. clear FL K R1 s.
  cbn [step] in ST. destruct ST as [(F & -> & _)|(_ & ->)]; cbn [lift]; [bad|]. rewrite (proj2 FL1).
  destruct (Z.ltb _ _); [bad|].
  destruct (match es with Some z => _ | None => _ end); [bad|].
  destruct (match ms with Some z => _ | None => _ end); [bad|].
  apply wp_bind. eapply wp_mono; [|apply (wp_read_loop f c d p _ eq_refl); auto; lia].
  intros [e|b] s2 [[K2 FL2] [M B]]; [specialize (M e eq_refl); bad|]. specialize (B b eq_refl). subst b.
  apply wp_bind. apply wp_read; [exact Logic.I|]. intros s3 I3 R3 r ST. cbn [CacheRG.wp].
  pose proof (kept_rely _ _ _ _ R3 K2) as K3. cbn [step] in ST. destruct ST as [(F & -> & _)|(_ & more & rest & -> & _)]; cbn [lift]; [bad|].
  destruct more; [|bad].
  apply wp_bind. apply wp_read; [exact Logic.I|]. intros s4 I4 R4 r ST4. cbn [CacheRG.wp].
  pose proof (kept_rely _ _ _ _ R4 K3) as K4. cbn [step] in ST4. destruct ST4 as [(F & -> & _)|(_ & ->)]; cbn [lift]; [bad|].
  destruct (_ =? _); [|bad]. cbn [CacheRG.wp ok]. split; [auto|]. split; [discriminate|]. intros b E. now injection E as <-.
Qed.
Lemma wp_read_at fn d p es ms s : kept d p s ->
  wp (read_regular_at en d fn es ms) (fun r s' => kept d p s' /\ (forall e, r = inl e -> mild e) /\ forall b, r = inr b -> b = content en p fn) s.
Proof.
  intros K. unfold read_regular_at. apply wp_read; [exact Logic.I|]. intros s1 I1 R1 r ST.
  pose proof (kept_rely _ _ _ _ R1 K) as K1. cbn [step] in ST. destruct ST as [(F & -> & _)|(_ & ->)]; [bad|].
  destruct (dirs s1 d fn) as [fe|] eqn:D; [|bad].
  destruct K1 as [KF KP]. destruct (inv_ent _ _ (proj1 I1) _ _ _ _ KP D) as (f & -> & KN & _ & SE & CT).
  apply wp_read_open; [|split; assumption]. split; [congruence|auto].
Qed.
Lemma wp_load_file fs fn d p s : kept d p s ->
  wp (load_file en d fs fn) (fun r s' => kept d p s' /\ (forall e, r = inl e -> e = XOs /\ (careful -> False)) /\ forall b, r = inr (Some b) -> b = content en p fn) s.
Proof.
  assert (OKN : forall s', kept d p s' -> wp (ok None) (fun (r : exn + option bytes) s' => kept d p s' /\ (forall e, r = inl e -> e = XOs /\ (careful -> False)) /\ forall b, r = inr (Some b) -> b = content en p fn) s').
  { intros s' K'. cbn. split; [assumption|]. split; discriminate. }
  intros K. unfold load_file. destruct (file_meta en fs fn) as [[size digest]|]; [|now apply OKN].
  apply wp_bind. apply wp_catch. apply wp_bind. eapply wp_mono; [|apply (wp_read_at _ _ p); assumption].
  intros [e|b] s1 [K1 [M E]]; cbn [CacheRG.wp ok].
  - destruct (M e eq_refl) as [-> | [-> | [-> _]]]; cbn [CacheRG.wp ok throw]; now apply OKN.
  - specialize (E b eq_refl). subst b.
    destruct digest as [[| | |h| |]|]; try now apply OKN.
    destruct (_ && _); [|now apply OKN]. cbn [CacheRG.wp ok]. split; [assumption|]. split; [discriminate|].
    intros b X. now injection X as <-.
Qed.
Definition load_post (r : exn + option pub) (s' : st) : Prop :=
  (forall e, r = inl e -> e = XOs /\ (careful -> False)) /\ forall p, r = inr (Some p) -> published s' p.
Lemma wp_load s : wp (load en) load_post s.
Proof.
  assert (OKN : forall s', load_post (inr None) s') by (intros s'; split; discriminate).
  assert (FLT : forall c s', faulty w c = true -> load_post (inl XOs) s').
  { intros c s' F. split; [|discriminate]. intros e E. injection E as <-. split; [reflexivity|]. intros C. rewrite (C_nf C) in F. discriminate. }
  unfold load, load_path. apply wp_catch. apply wp_bind. unfold open_directory_chain.
  apply wp_read; [exact Logic.I|]. intros s1 I1 R1 r ST. cbn [step] in ST.
  destruct ST as [(F & -> & _)|(_ & ->)].
  { cbn [CacheRG.wp throw os_exn ok]. now apply (FLT _ _ F). }
  destruct (par s1 NFinal) as [pe|] eqn:PN; [|cbn [CacheRG.wp throw ok os_exn]; apply OKN].
  destruct (own_dir en NFinal s1 (proj1 I1) (or_intror eq_refl) _ PN) as (d & ->). cbn [CacheRG.wp throw ok os_exn].
  destruct (inv_final _ _ (proj1 I1) _ PN) as (FZ & q & PB & _). assert (K1 : kept d q s1) by (split; assumption). clear PN FZ PB s R1.
  apply wp_bind. apply wp_read; [exact Logic.I|]. intros s2 I2 R2 r ST2. cbn [CacheRG.wp].
  pose proof (kept_rely _ _ _ _ R2 K1) as K2. cbn [step] in ST2. destruct ST2 as [(F & -> & _)|(_ & l & -> & _)]; cbn [lift os_exn CacheRG.wp throw]; [now apply (FLT _ _ F)|].
  destruct (same_names l); [|cbn [CacheRG.wp ok]; apply OKN].
  apply wp_bind. apply wp_catch. apply wp_bind. eapply wp_mono; [|apply (wp_read_at _ _ q); exact K2].
  intros [e|b] s3 [K3 [M _]]; cbn [CacheRG.wp ok].
  { destruct (M e eq_refl) as [-> | [-> | [-> _]]]; cbn [CacheRG.wp ok throw]; apply OKN. }
  destruct (loads en b) as [m|]; [|cbn [CacheRG.wp ok]; apply OKN].
  destruct (manifest_files en m) as [fs|]; [|cbn [CacheRG.wp ok]; apply OKN].
  apply wp_bind. eapply wp_mono; [|apply (wp_load_file _ _ _ q); exact K3].
  intros [e|[t|]] s4 [K4 [M4 T]]; [destruct (M4 e eq_refl) as [-> N]; cbn [CacheRG.wp throw]; split; [intros e E; injection E as <-; auto|discriminate]| |cbn [CacheRG.wp ok]; apply OKN].
  apply wp_bind. eapply wp_mono; [|apply (wp_load_file _ _ _ q); exact K4].
  intros [e|[v|]] s5 [K5 [M5 V]]; [destruct (M5 e eq_refl) as [-> N]; cbn [CacheRG.wp throw]; split; [intros e E; injection E as <-; auto|discriminate]| |cbn [CacheRG.wp ok]; apply OKN].
  cbn [CacheRG.wp ok]. split; [discriminate|]. intros p E. injection E as <-. specialize (T t eq_refl). specialize (V v eq_refl). cbn [content] in *. subst t v.
  exists d. destruct K5 as [A B]. split; [assumption|]. rewrite B. now destruct q.
Qed.

(** ** The lock *)
Lemma published_fm s s' p : fm s s' -> published s p -> published s' p.
Proof. intros F (d & A & B). exists d. split; [now apply (fm_frozen _ _ F)|now apply (fm_pub _ _ F)]. Qed.
Lemma I_lock s l : (l = None -> ready quiet s) -> I s -> I (upd_lock s l).
Proof.
  intros RD (IV & JV & KV). split; [now apply inv_upd_lock|]. split.
  - intros C. destruct (JV C) as [F H]. split; [exact F|]. intros X. destruct (H X) as [A|A]; [left; exact A|right; exact A].
  - intros Q. destruct (KV Q) as [A B]. split; [exact A|]. cbn. intros E X. now apply RD.
Qed.
Lemma wp_with_lock A (body : io A) (Q : exn + A -> st -> Prop) s :
  (forall s1, ready quiet s1 -> CacheSeq.sp en w me careful quiet body (fun r s' => ready quiet s' /\ forall s2, fm s' s2 -> Q r s2) s1) ->
  (forall s' , Q (inl XTimeout) s') -> ((careful -> False) -> forall s', Q (inl XOs) s') ->
  wp (with_lock body) Q s.
Proof.
  intros BODY TO FL. unfold with_lock. apply wp_bind. apply wp_read; [exact Logic.I|]. intros s1 I1 R1 r ST. cbn [CacheRG.wp].
  cbn [step] in ST. destruct ST as [(F & -> & _)|(-> & _)]; cbn [lift].
  { apply FL. intros C. rewrite (C_nf C) in F. discriminate. }
  apply wp_bind. cbn [CacheRG.wp]. intros s2 I2 R2 got s3 ST. cbn [step] in ST. destruct ST as [(L2 & -> & ->)|(L2 & -> & ->)].
  2:{ split; [assumption|]. split; [apply guar_refl|]. cbn [CacheRG.wp throw]. apply TO. }
  assert (RD : ready quiet s2) by (intros QQ; apply I2; assumption).
  assert (I3 : I (upd_lock s2 (Some me))) by (apply I_lock; [discriminate|assumption]).
  split; [exact I3|]. split.
  { constructor; [apply fm_upd_lock| | |]; cbn; [intros o N E; congruence..|auto]. }
  unfold finally. apply wp_bindp. apply wp_locked; [reflexivity|].
  assert (SP : CacheSeq.sp en w me careful quiet (sys COwner ;;; body) (fun r s' => ready quiet s' /\ forall s2, fm s' s2 -> Q r s2) (upd_lock s2 (Some me))).
  { apply sp_bind. apply sp_read; [exact Logic.I|]. intros _ _ r ST. apply sp_ret. intros _ _. cbn [step] in ST.
    destruct ST as [(F & -> & _)|(-> & _)]; cbn [lift os_exn].
    - split; [exact RD|]. intros s4 _. apply FL. intros C. rewrite (C_nf C) in F. discriminate.
    - apply BODY. exact RD. }
  eapply swp_mono; [|apply swp_keep; [apply (SP I3 eq_refl)|exact I3|reflexivity]].
  cbn beta. intros r s4 ((I4 & L4 & _) & H) _. destruct (H I4 L4) as [RD4 Q4]. clear H SP.
  cbn [bindp CacheRG.wp]. intros s5 I5 R5 [] s6 ST. assert (s5 = s4) by (now apply (rely_lock _ _ _ R5)). subst s5.
  cbn [step] in ST. rewrite L4, Nat.eqb_refl in ST. subst s6. split; [apply I_lock; auto|]. split.
  - constructor; [apply fm_upd_lock| | |]; cbn; [intros o N E; congruence..|congruence].
  - apply Q4. apply fm_upd_lock.
Qed.

(** ** build_fst and the clients *)
Definition client_post (r : exn + option pub) (s' : st) : Prop :=
  (forall p, r = inr (Some p) -> published s' p) /\ (quiet -> r = inl XTimeout \/ exists o, r = inr o).
Lemma final_published s d p : Inv s -> par s NFinal = Some (EDir d) -> pub_of s d = Some p -> published s p.
Proof. intros IV P B. exists d. split; [now apply (inv_final _ _ IV)|assumption]. Qed.
Lemma wp_build o s : (quiet -> o = false) ->
  wp (build_fst en o) (fun r s' => (forall p, r = inr p -> published s' p) /\ (quiet -> r = inl XTimeout \/ exists p, r = inr p)) s.
Proof.
  intros QO. unfold build_fst. apply wp_bind.
  apply (wp_mono w I me _ _ load_post); [|destruct o; [cbn; split; discriminate|apply wp_load]].
  intros [e|[p|]] s1 [E P].
  - destruct (E e eq_refl) as [_ N]. split; [discriminate|]. intros Q. destruct (N (Q_c Q)).
  - cbn [CacheRG.wp ok]. split; [|eauto]. intros q X. injection X as <-. auto.
  - apply wp_with_lock.
    + intros s2 RD. eapply sp_mono; [|apply sp_build_locked; eauto].
      intros r s3 I3 L3 (A & _ & C). split; [intros Q; now apply C|]. intros s4 F. split.
      * intros p X. destruct (A p X) as (d & PN & PB). eapply published_fm; [exact F|]. eapply final_published; [apply I3|eassumption|eassumption].
      * intros Q. right. now apply C.
    + intros s'. split; [discriminate|auto].
    + intros N s'. split; [discriminate|]. intros Q. destruct (N (Q_c Q)).
Qed.
Lemma wp_client c s :
  (careful -> match c with Session _ => False | _ => True end) -> (quiet -> match c with Builder o => o = false | _ => True end) ->
  wp (client_prog en c) client_post s.
Proof.
  intros CC QC. destruct c as [|o|l]; cbn [client_prog].
  - eapply wp_mono; [|apply wp_load]. intros r s' [A B]. split; [assumption|]. intros Q.
    destruct r as [e|x]; [destruct (A e eq_refl) as [_ N]; destruct (N (Q_c Q))|eauto].
  - apply wp_bind. eapply wp_mono; [|apply (wp_build o); exact QC]. intros [e|p] s' [A B].
    + split; [discriminate|]. intros Q. destruct (B Q) as [X|(q & X)]; [injection X as ->; auto|discriminate].
    + cbn [CacheRG.wp ok]. split; [|eauto]. intros q X. injection X as <-. auto.
  - apply wp_bind. assert (NC : careful -> False) by assumption. apply wp_with_lock.
    + intros s1 RD. eapply sp_mono; [|apply sp_acts; assumption].
      intros r s2 I2 L2 _. split; [intros Q; destruct (NC (Q_c Q))|]. intros s3 _. destruct r as [e|x]; cbn [CacheRG.wp ok];
        (split; [discriminate|]; intros Q; destruct (NC (Q_c Q))).
    + intros s'. split; [discriminate|auto].
    + intros _ s'. split; [discriminate|]. intros Q. destruct (NC (Q_c Q)).
Qed.
End R.

(** ** Every reachable configuration *)
Variable cl : nat -> client.
Variable crashes : bool.
Hypothesis C_cl : careful -> forall i l, cl i <> Session l.
Hypothesis Q_cl : quiet -> forall i, cl i <> Builder true.
Hypothesis Q_crash : quiet -> crashes = false.
Lemma crash_ok : crashes = true -> forall i s, I s -> I (release i s).
Proof.
  intros C i s (IV & JV & KV). assert (NQ : quiet -> False) by (intros Q; specialize (Q_crash Q); congruence).
  split; [now apply inv_release|]. split; [|intros Q; destruct (NQ Q)].
  intros CC. destruct (JV CC) as [F H]. unfold release. destruct (lock s) as [o|]; [|exact (JV CC)]. destruct (o =? i); [|exact (JV CC)].
  split; [exact F|]. intros X. destruct (H X) as [A|A]; [left; exact A|right; exact A].
Qed.
Lemma start_good s : fresh_key s -> good w I (fun _ => client_post) (start en cl s).
Proof.
  intros F. split.
  - cbn. pose proof (inv_fresh en s F) as IV. destruct F as (_ & _ & _ & LK & PF & _ & B). split; [assumption|]. split.
    + intros _. split; [intros p X; rewrite B in X; destruct X|]. intros (d & X). destruct (PF d). congruence.
    + intros _. split; [rewrite B; cbn; lia|congruence].
  - intros i p E. cbn in E. injection E as <-. exists s. split; [apply rely_refl|]. apply wp_client.
    + intros C. destruct (cl i) eqn:X; auto. exact (C_cl C _ _ X).
    + intros Q. destruct (cl i) as [|[]|] eqn:X; auto. destruct (Q_cl Q _ X).
Qed.
Lemma reach_good s g : fresh_key s -> reach w crashes (start en cl s) g -> good w I (fun _ => client_post) g.
Proof. intros F R. eapply good_reach; [apply crash_ok|apply start_good, F|exact R]. Qed.

Lemma reach_fm s g g' : fresh_key s -> reach w crashes (start en cl s) g -> reach w crashes g g' -> fm (cst g) (cst g').
Proof.
  intros F R R'. induction R' as [|g1 g2 R1 IH ST]; [apply fm_refl|]. eapply fm_trans; [exact IH|].
  assert (G1 : good w I (fun _ => client_post) g1).
  { eapply good_reach; [apply crash_ok|eapply reach_good; eauto|exact R1]. }
  destruct (good_guar w I crashes _ _ _ G1 ST) as [(i & c & k & r & _ & _ & G)|(_ & i & ->)]; [apply G|].
  unfold release. destruct (lock (cst g1)) as [o|]; [|apply fm_refl]. destruct (o =? i); [apply fm_upd_lock|apply fm_refl].
Qed.
Lemma final_bundle s d p : Inv s -> par s NFinal = Some (EDir d) -> pub_of s d = Some p -> bundle_is en s p.
Proof. intros IV P B. exists d. split; [assumption|]. destruct (inv_final _ _ IV _ P) as (_ & q & PQ & W). assert (q = p) by congruence. now subst q. Qed.
(** What has become the bundle was the bundle at some moment. *)
Lemma froze c s me' r s' d : step w me' c s r s' -> frozen s' d = true -> frozen s d = true \/ par s' NFinal = Some (EDir d).
Proof.
  intros ST. destruct c; cbn [step] in ST; unfold fault in ST;
    repeat match goal with
    | H : _ /\ _ |- _ => destruct H
    | H : _ \/ _ |- _ => destruct H
    | H : exists _, _ |- _ => destruct H
    | H : context [match par s ?n with _ => _ end] |- _ => destruct (par s n) as [[]|]
    | H : context [match dirs s ?d ?n with _ => _ end] |- _ => destruct (dirs s d n) as [[]|]
    end; subst; auto;
    try (unfold moved; destruct b; cbn; auto; destruct (Nat.eq_dec d d0) as [->|]; auto; right; destruct (name_eq_dec NFinal NFinal); congruence);
    try (unfold moved; destruct b; cbn; auto; destruct (Nat.eq_dec d d1) as [->|]; auto; right; destruct (name_eq_dec NFinal NFinal); congruence).
  destruct (lock s); [destruct (_ =? _)|]; auto.
Qed.
Lemma published_was s g p : fresh_key s -> reach w crashes (start en cl s) g -> published (cst g) p ->
  exists g1, reach w crashes (start en cl s) g1 /\ reach w crashes g1 g /\ bundle_is en (cst g1) p.
Proof.
  intros F R. induction R as [|g g' R IH ST]; intros (d & FZ & PB).
  - cbn in FZ. destruct F as (_ & _ & _ & _ & PF & _). destruct (PF d). congruence.
  - assert (G : good w I (fun _ => client_post) g) by (eapply reach_good; eauto).
    assert (R' : reach w crashes (start en cl s) g') by (eapply reach_step; eauto).
    assert (G' : good w I (fun _ => client_post) g') by (eapply reach_good; eauto).
    assert (X : frozen (cst g) d = true \/ par (cst g') NFinal = Some (EDir d)).
    { destruct (good_guar w I crashes _ _ _ G ST) as [(i & c & k & r & _ & ST' & _)|(_ & i & E)].
      - eapply froze; eauto.
      - left. rewrite E in FZ. unfold release in FZ. destruct (lock (cst g)) as [o|]; [destruct (o =? i)|]; exact FZ. }
    destruct X as [X|X].
    + assert (FMM : fm (cst g) (cst g')) by (eapply reach_fm; [exact F|exact R|eapply reach_step; [apply reach_refl|exact ST]]).
      destruct (pub_of (cst g) d) as [p0|] eqn:P0.
      * assert (p0 = p) by (pose proof (fm_pub _ _ FMM _ _ P0); congruence). subst p0.
        destruct (IH (ex_intro _ d (conj X P0))) as (g1 & A & B & C). exists g1. split; [assumption|]. split; [eapply reach_step; eauto|assumption].
      * exfalso. apply (inv_frozen _ _ (proj1 (proj1 G)) _ X P0).
    + exists g'. split; [assumption|]. split; [apply reach_refl|]. eapply final_bundle; [apply G'|eassumption|assumption].
Qed.

(** ** Alone, from a reachable state *)
Lemma alone_build me s r s' : careful -> I s -> lock s = None -> (exists d, frozen s d = true) ->
  runs w me (build_fst en false) s r s' -> built s' = built s /\ exists p, r = inr p /\ bundle_is en s' p /\ published s p.
Proof.
  intros C Is LK FZ R. unfold build_fst in R. apply runs_bind in R.
  destruct R as [(e & R & ->)|(first & s1 & R1 & R)].
  { apply (runs_load en w me careful quiet) in R; auto. destruct R as (-> & _ & _ & X). destruct (X C). discriminate. }
  apply (runs_load en w me careful quiet) in R1; auto. destruct R1 as (-> & A & B & _). destruct first as [p|].
  { cbn [runs ok] in R. destruct R as [-> ->]. split; [reflexivity|]. exists p. split; [reflexivity|].
    destruct (A p eq_refl) as (d & PN & PB). split; [exact (final_bundle s d p (proj1 Is) PN PB)|]. exact (final_published s d p (proj1 Is) PN PB). }
  clear A B. unfold with_lock in R. apply runs_bind in R. cbn [runs] in R.
  destruct R as [(e & (x & s1 & ST & E & ->) & _)|(u & s1 & (x & s2 & ST & E & ->) & R)];
    (cbn [step] in ST; destruct ST as [(F & _)|(-> & ->)]; [rewrite (C_nf C) in F; discriminate|]); [discriminate E|]. clear E u.
  apply runs_bind in R. cbn [runs] in R.
  destruct R as [(e & (x & s1 & ST & E & ->) & _)|(u & s1 & (x & s2 & ST & E & ->) & R)]; [discriminate|].
  cbn [step] in ST. destruct ST as [(_ & -> & ->)|(X & _)]; [|congruence]. injection E as ->.
  unfold finally in R. apply runs_bindp in R. destruct R as (b & s1 & R & RU).
  cbn [bindp runs] in RU. destruct RU as ([] & s2 & ST & -> & ->).
  assert (I1 : I (upd_lock s (Some me))) by (apply I_lock; [discriminate|assumption]).
  apply runs_bind in R. cbn [runs] in R.
  destruct R as [(e & (x & s3 & ST2 & E & ->) & _)|(u & s3 & (x & s4 & ST2 & E & ->) & R)];
    (cbn [step] in ST2; destruct ST2 as [(F & _)|(-> & ->)]; [rewrite (C_nf C) in F; discriminate|]); [discriminate E|]. clear E u.
  assert (RD : ready quiet (upd_lock s (Some me))).
  { intros Q X. apply Is; assumption. }
  pose proof (sp_build_locked en w me careful quiet C_nf C_id C_sane Q_c Q_stable false _ (fun _ => eq_refl) RD I1 eq_refl) as W.
  eapply swp_elim in R; [|apply swp_keep; [exact W|exact I1|reflexivity]]. cbn beta in R. destruct R as ((I3 & L3 & F3) & W2).
  destruct (W2 I3 L3) as (A & B & _). destruct (B eq_refl C FZ) as (B1 & (p & ->) & D1).
  cbn [step] in ST. rewrite L3, Nat.eqb_refl in ST. subst s2. split; [exact B1|]. exists p. split; [reflexivity|].
  destruct (A p eq_refl) as (d & PN & PB). split; [exact (final_bundle s1 d p (proj1 I3) PN PB)|].
  specialize (D1 d PN). cbn in D1. exists d. split; [exact D1|].
  destruct (pub_of s d) as [q|] eqn:PQ; [|exfalso; apply (inv_frozen _ _ (proj1 Is) _ D1 PQ)].
  pose proof (fm_pub _ _ F3 d q PQ). congruence.
Qed.
(** recover_residuals under the lock *)
Lemma alone_recover me s r s' : careful -> I s -> lock s = Some me -> (exists d, frozen s d = true) ->
  runs w me (recover_residuals en) s r s' -> r = inr tt /\ built s' = built s /\ exists p, bundle_is en s' p /\ published s p.
Proof.
  intros C Is LK (d & FZ) R.
  eapply swp_elim in R; [|apply swp_keep; [apply (sp_recover en w me careful quiet C_nf C_id s Is LK)|assumption|assumption]].
  cbn beta in R. destruct R as ((I3 & L3 & F3) & W2). destruct (W2 I3 L3) as (B & _ & F & D1 & X). destruct (X C) as [-> SO].
  split; [reflexivity|]. split; [assumption|]. destruct SO as [PN|N]; [|specialize (F d FZ); rewrite N in F; discriminate].
  destruct (final_dir en s' (proj1 I3) PN) as (d' & p & P & PB & W). exists p. split; [exists d'; auto|]. exists d'. specialize (D1 d' P). split; [assumption|].
  destruct (pub_of s d') as [q|] eqn:PQ; [|exfalso; apply (inv_frozen _ _ (proj1 Is) _ D1 PQ)].
  pose proof (fm_pub _ _ F3 d' q PQ). congruence.
Qed.
(** publish under the lock *)
Lemma alone_publish me p s r s' : I s -> lock s = Some me -> In p (built s) ->
  runs w me (publish en p) s r s' ->
  built s' = built s /\ (r = inr tt -> bundle_is en s' p) /\
  (forall e, r = inl e -> restore_works w -> par s' NFinal = par s NFinal) /\
  (no_faults w -> format_ok en p -> r = inr tt) /\ I s' /\ fm s s'.
Proof.
  intros Is LK B R.
  eapply swp_elim in R; [|apply swp_keep; [apply (sp_publish en w me careful quiet p s B Is LK)|assumption|assumption]].
  cbn beta in R. destruct R as ((I3 & L3 & F3) & W2). destruct (W2 I3 L3) as (B1 & P1 & N1 & O1).
  split; [assumption|]. split.
  - intros E. destruct (P1 E) as (d & PN & PB). destruct (inv_final _ _ (proj1 I3) _ PN) as (_ & q & PQ & W). exists d. split; [assumption|].
    assert (q = p) by congruence. now subst q.
  - split; [assumption|]. split; [assumption|]. split; assumption.
Qed.
End C.
