(** The programs that change the cache, run under the lock: each step keeps the
    invariant, with or without faults. *)
From Coq Require Import List NArith ZArith Bool Arith Lia Permutation String.
From Verif Require Import Text TextFacts CacheModel CacheSpec CacheRG CacheInv CacheLoad.
Import ListNotations.
Local Open Scope list_scope.

(** A complete bundle is at hand: at the bundle path or set aside. *)
Definition whole (en : env) (s : st) (d : nat) : Prop := exists p, pub_of s d = Some p /\ holds en s d p.
Definition at_hand (en : env) (s : st) : Prop :=
  par s NFinal <> None \/ exists i d, par s (NPrev i) = Some (EDir d) /\ whole en s d.
Definition formats (en : env) (s : st) : Prop := forall p, In p (built s) -> format_ok en p.
Definition JJ (en : env) (s : st) : Prop := formats en s /\ ((exists d, frozen s d = true) -> at_hand en s).
(** At most one build, and it is published when the lock is free. *)
Definition KK (s : st) : Prop :=
  List.length (built s) <= 1 /\ (lock s = None -> built s <> [] -> par s NFinal <> None).
Definition II (en : env) (careful quiet : Prop) (s : st) : Prop :=
  Inv en s /\ (careful -> JJ en s) /\ (quiet -> KK s).

Section S.
Variable en : env.
Variable w : world.
Variable me : nat.
Variables careful quiet : Prop.
Notation I := (II en careful quiet).
Notation Inv := (Inv en).

Definition sp {T} (p : prog T) (Q : T -> st -> Prop) (s : st) : Prop :=
  I s -> lock s = Some me -> swp w me always (held me I) p (fun a s' => I s' -> lock s' = Some me -> Q a s') s.
Lemma sp_ret T (a : T) (Q : T -> st -> Prop) s : (I s -> lock s = Some me -> Q a s) -> sp (Ret a) Q s.
Proof. intros H Is L. cbn. auto. Qed.
Lemma sp_op T c (k : ret c -> prog T) (Q : T -> st -> Prop) s :
  (I s -> lock s = Some me -> forall r s2, step w me c s r s2 -> held me I s s2 /\ sp (k r) Q s2) -> sp (Op c k) Q s.
Proof.
  intros H Is L. cbn [swp]. intros r s2 ST _. destruct (H Is L r s2 ST) as [HD S]. split; [exact HD|].
  destruct HD as (I2 & F & L2). now apply S.
Qed.
Lemma sp_read T c (k : ret c -> prog T) (Q : T -> st -> Prop) s :
  reads c -> (I s -> lock s = Some me -> forall r, step w me c s r s -> sp (k r) Q s) -> sp (Op c k) Q s.
Proof.
  intros R H. apply sp_op. intros Is L r s2 ST. pose proof (reads_pure w me c s r s2 R ST). subst s2.
  split; [split; [assumption|split; [apply fm_refl|assumption]]|]. auto.
Qed.
Lemma sp_mono T (p : prog T) (Q Q' : T -> st -> Prop) s :
  (forall a s', I s' -> lock s' = Some me -> Q a s' -> Q' a s') -> sp p Q s -> sp p Q' s.
Proof. intros M H Is L. eapply swp_mono; [|apply (H Is L)]. cbn. auto. Qed.
Lemma sp_pre T (p : prog T) (Q : T -> st -> Prop) s : (I s -> lock s = Some me -> sp p Q s) -> sp p Q s.
Proof. intros H Is L. now apply H. Qed.
Lemma swp_keep T (p : prog T) (Q : T -> st -> Prop) : forall s,
  swp w me always (held me I) p Q s -> I s -> lock s = Some me ->
  swp w me always (held me I) p (fun a s' => (I s' /\ lock s' = Some me /\ fm s s') /\ Q a s') s.
Proof.
  induction p as [a|c k IH]; cbn [swp]; intros s H Is L; [auto using fm_refl|].
  intros r s2 ST _. destruct (H r s2 ST Logic.I) as [(I2 & F & L2) S]. split; [exact (conj I2 (conj F L2))|].
  eapply swp_mono; [|apply IH; eauto]. cbn. intros a s' ((A & B & C) & D). eauto using fm_trans.
Qed.
Lemma sp_bindp T U (p : prog T) (f : T -> prog U) (Q : U -> st -> Prop) s :
  sp p (fun a s' => sp (f a) Q s') s -> sp (bindp p f) Q s.
Proof.
  intros H Is L. apply swp_bindp. eapply swp_mono; [|apply swp_keep; [apply (H Is L)|assumption|assumption]].
  cbn. intros a s' ((I' & L' & _) & X). now apply X.
Qed.
Lemma sp_bind T U (p : io T) (f : T -> io U) (Q : exn + U -> st -> Prop) s :
  sp p (fun r s' => match r with inl e => Q (inl e) s' | inr a => sp (f a) Q s' end) s -> sp (bind p f) Q s.
Proof. intros H. apply sp_bindp. eapply sp_mono; [|exact H]. intros [e|a] s' Is L X; [now apply sp_ret|assumption]. Qed.
Lemma sp_catch T (p : io T) (h : exn -> io T) (Q : exn + T -> st -> Prop) s :
  sp p (fun r s' => match r with inl e => sp (h e) Q s' | inr a => Q (inr a) s' end) s -> sp (catch p h) Q s.
Proof. intros H. apply sp_bindp. eapply sp_mono; [|exact H]. intros [e|a] s' Is L X; [assumption|now apply sp_ret]. Qed.
(** Programs that only read. *)
Fixpoint pure {T} (p : prog T) : Prop :=
  match p with Ret _ => True | Op c k => reads c /\ forall r, pure (k r) end.
Lemma pure_bindp T U (p : prog T) (f : T -> prog U) : pure p -> (forall a, pure (f a)) -> pure (bindp p f).
Proof. intros H K. induction p as [a|c k IH]; cbn [bindp pure] in *; [auto|]. destruct H. auto. Qed.
Lemma pure_bind T U (p : io T) (f : T -> io U) : pure p -> (forall a, pure (f a)) -> pure (bind p f).
Proof. intros H K. apply pure_bindp; [assumption|]. intros [e|a]; [exact Logic.I|auto]. Qed.
Lemma pure_catch T (p : io T) (h : exn -> io T) : pure p -> (forall e, pure (h e)) -> pure (catch p h).
Proof. intros H K. apply pure_bindp; [assumption|]. intros [e|a]; [auto|exact Logic.I]. Qed.
Lemma pure_same T (p : prog T) : pure p -> forall s a s', runs w me p s a s' -> s' = s.
Proof.
  induction p as [a|c k IH]; cbn [pure runs]; intros P s b s' R; [apply R|].
  destruct P as [P1 P2]. destruct R as (r & s1 & ST & R). apply (reads_pure w me) in ST; [|assumption]. subst s1. eauto.
Qed.
Lemma sp_pure T (p : prog T) (Q : T -> st -> Prop) s :
  pure p -> (I s -> lock s = Some me -> forall a, runs w me p s a s -> Q a s) -> sp p Q s.
Proof.
  revert s. induction p as [a|c k IH]; cbn [pure]; intros s P H.
  - apply sp_ret. intros Is L. apply H; auto. cbn. auto.
  - destruct P as [P1 P2]. apply sp_read; [assumption|]. intros Is L r ST. apply IH; [auto|].
    intros _ _ a R. apply H; auto. exists r, s. auto.
Qed.
Ltac pure_tac :=
  repeat first
    [ exact Logic.I
    | apply pure_bind; [|intros ?]
    | apply pure_catch; [|intros ?]
    | progress cbn [pure reads]
    | split; [exact Logic.I|intros ?]
    | match goal with |- pure (match ?x with _ => _ end) => destruct x end
    | match goal with |- pure (if ?x then _ else _) => destruct x end ].
Lemma pure_read_loop f size : forall fuel off acc, pure (read_loop fuel f off size acc).
Proof. induction fuel; intros; cbn [read_loop]; destruct (off <? size); pure_tac. apply IHfuel. Qed.
Lemma pure_read_open h es ms : pure (read_open_regular en h es ms).
Proof. unfold read_open_regular. pure_tac. apply pure_read_loop. Qed.
Lemma pure_read_at d fn es ms : pure (read_regular_at en d fn es ms).
Proof. unfold read_regular_at. pure_tac; first [apply pure_read_open|apply pure_read_loop]. Qed.
Lemma pure_read_file n fn : pure (read_regular_file en n fn).
Proof. unfold read_regular_file. pure_tac; first [apply pure_read_open|apply pure_read_loop]. Qed.
Lemma pure_load_file d fs fn : pure (load_file en d fs fn).
Proof. unfold load_file. pure_tac; first [apply pure_read_at|apply pure_read_open|apply pure_read_loop]. Qed.
Lemma pure_load_path n : pure (load_path en n).
Proof. unfold load_path, open_directory_chain. pure_tac; first [apply pure_read_at|apply pure_load_file|apply pure_read_open|apply pure_read_loop]. Qed.
Lemma pure_check n : pure (check_bundle_directory n).
Proof. unfold check_bundle_directory. pure_tac. Qed.

(** ** Removing a residual *)
Record only (n : name) (d0 : nat) (s s' : st) : Prop := {
  o_par : forall m, m <> n -> par s' m = par s m;
  o_parn : par s' n = par s n \/ par s' n = None;
  o_dirs : forall d fn, d <> d0 -> dirs s' d fn = dirs s d fn;
  o_files : forall f, files s' f = files s f;
  o_pub : forall d, pub_of s' d = pub_of s d;
  o_frozen : forall d, frozen s' d = frozen s d;
  o_built : built s' = built s }.
Lemma only_refl n d s : only n d s s. Proof. constructor; auto. Qed.
Lemma only_trans n d a b c : only n d a b -> only n d b c -> only n d a c.
Proof.
  intros [A1 A2 A3 A4 A5 A6 A7] [B1 B2 B3 B4 B5 B6 B7]. constructor; intros; try congruence.
  - rewrite B1 by assumption. auto.
  - destruct B2 as [-> | ->]; auto.
  - rewrite B3 by assumption. auto.
Qed.
Definition spare (n : name) (s : st) : Prop :=
  (exists d, frozen s d = true) ->
  (par s NFinal <> None /\ n <> NFinal) \/ exists i d, NPrev i <> n /\ par s (NPrev i) = Some (EDir d) /\ whole en s d.
Lemma holds_only n d0 s s' d p : only n d0 s s' -> d <> d0 -> holds en s d p -> holds en s' d p.
Proof. intros O D. apply holds_ext; intros; [now apply (o_dirs _ _ _ _ O)|apply (o_files _ _ _ _ O)]. Qed.
Lemma spare_only n d0 s s' : Inv s -> par s n = Some (EDir d0) -> pub_of s d0 <> None -> only n d0 s s' -> spare n s -> spare n s'.
Proof.
  intros IV P PB O SP (d & F). rewrite (o_frozen _ _ _ _ O) in F. destruct (SP (ex_intro _ d F)) as [[A B]|(i & d' & A & B & p & C & W)].
  - left. rewrite (o_par _ _ _ _ O) by congruence. auto.
  - right. exists i, d'. rewrite (o_par _ _ _ _ O) by congruence. split; [assumption|]. split; [assumption|].
    exists p. rewrite (o_pub _ _ _ _ O). split; [assumption|]. eapply holds_only; [exact O| |exact W].
    intros ->. apply A. eapply (inv_inj _ _ IV); eassumption.
Qed.
Lemma spare_JJ n s : formats en s -> spare n s -> JJ en s.
Proof. intros FO SP. split; [assumption|]. intros X. destruct (SP X) as [[A _]|(i & d & _ & B & C)]; [left; assumption|right; eauto]. Qed.
Lemma KK_same s s2 : lock s2 = Some me -> built s2 = built s -> KK s -> KK s2.
Proof. intros L B [A _]. split; [now rewrite B|congruence]. Qed.
Lemma own_pub n d s : Inv s -> par s n = Some (EDir d) -> is_residual n = true \/ n = NFinal -> pub_of s d <> None.
Proof.
  intros IV P R. pose proof (inv_own _ _ IV _ _ P) as X.
  destruct n; try (destruct X as (d' & E & X); injection E as <-; assumption). destruct R; discriminate.
Qed.
Lemma hold_only n d0 s s2 : I s -> par s n = Some (EDir d0) -> is_residual n = true ->
  (careful -> spare n s) -> Inv s2 -> fm s s2 -> lock s2 = Some me -> only n d0 s s2 -> held me I s s2.
Proof.
  intros (IV & JV & KV) P R SP I2 F L O. split; [|auto]. split; [assumption|]. split.
  - intros C. apply (spare_JJ n). { intros q. rewrite (o_built _ _ _ _ O). apply (JV C). } apply (spare_only n d0 s s2); auto. apply (own_pub n d0 s); auto.
  - intros q. eapply KK_same; [assumption|apply (o_built _ _ _ _ O)|auto].
Qed.

Lemma sp_unlink_all n d0 s0 : is_residual n = true -> forall l s,
  par s n = Some (EDir d0) -> (careful -> spare n s) -> only n d0 s0 s ->
  sp (unlink_all d0 l) (fun r s' => only n d0 s0 s' /\ par s' n = Some (EDir d0) /\ (careful -> spare n s') /\ (forall e, r = inl e -> is_os e = true)) s.
Proof.
  intros RN. induction l as [|fn l IH]; intros s P SP O; cbn [unlink_all].
  - apply sp_ret. intros. repeat split; auto; try apply O. discriminate.
  - apply sp_bind, sp_catch. apply sp_op. intros (IV & JV & KV) L r s2 ST.
    assert (ND : par s NFinal <> Some (EDir d0)).
    { intros X. assert (n = NFinal); [|subst n; discriminate]. apply (inv_inj _ _ IV n NFinal d0); auto. apply (own_pub n d0 s); auto. }
    assert (ALT : (s2 = s /\ exists e, r = inl e) \/ (s2 = upd_dir s d0 fn None /\ r = inr tt)).
    { cbn [step] in ST. destruct ST as [(F & -> & ->)|ST]; [eauto|].
      destruct (dirs s d0 fn) as [[| | |]|]; destruct ST as [-> ->]; eauto. }
    clear ST. destruct ALT as [[-> (e & ->)]|[-> ->]].
    + split; [split; [exact (conj IV (conj JV KV))|split; [apply fm_refl|assumption]]|].
      apply sp_ret. intros Is _. cbn [lift].
      destruct e; cbn [os_exn]; apply sp_ret; intros _ _; try (apply IH; auto);
        (split; [assumption|split; [assumption|split; [assumption|intros e E; injection E as <-; reflexivity]]]).
    + assert (O2 : only n d0 s (upd_dir s d0 fn None)).
      { constructor; cbn; auto. intros d fn' D. destruct (Nat.eq_dec d d0); [congruence|reflexivity]. }
      split.
      { apply (hold_only n d0); auto; [split; auto|apply inv_unlink; auto|apply fm_unlink]. }
      apply sp_ret. intros _ _. cbn [lift]. apply IH; auto.
      * intros C. apply (spare_only n d0 s); auto. apply (own_pub n d0 s); auto.
      * eapply only_trans; eassumption.
Qed.

Definition touched (n : name) (s s' : st) : Prop :=
  s' = s \/ exists d0, par s n = Some (EDir d0) /\ only n d0 s s'.
Lemma pure_removable n : forall l, pure (removable n l).
Proof. induction l; cbn [removable]; pure_tac; assumption. Qed.
Lemma removable_exn n s s' : forall l r, runs w me (removable n l) s r s' -> forall e, r = inl e -> is_os e = true.
Proof.
  induction l as [|fn l IH]; intros r R e E; cbn [removable] in R.
  - cbn [runs ok] in R. destruct R as [-> _]. discriminate.
  - apply runs_bind in R. cbn [runs] in R. destruct R as [(e' & (x & s1 & ST & E1 & _) & ->)|(k & s1 & (x & s2 & ST & E1 & E2) & R)].
    + injection E as <-. destruct x as [[]|]; cbn in E1; try discriminate E1; injection E1 as ->; reflexivity.
    + subst s1. assert (s2 = s) by (eapply reads_pure; [|exact ST]; exact Logic.I). subst s2.
      destruct (fst k); [|destruct (known fn)| |]; try (eapply IH; eassumption); cbn [runs ok] in R; destruct R as [-> _]; discriminate.
Qed.
Lemma sp_remove_flat n s : is_residual n = true -> (careful -> spare n s) ->
  sp (remove_flat_bundle n true) (fun r s' => touched n s s' /\ (careful -> spare n s') /\ exists b, r = inr b) s.
Proof.
  intros RN SP. unfold remove_flat_bundle. apply sp_catch.
  eapply (sp_mono _ _ (fun r s' => touched n s s' /\ (careful -> spare n s') /\ forall e, r = inl e -> is_os e = true \/ e = XPath)).
  { intros [e|b] s' _ _ (T & S & E).
    - destruct (E e eq_refl) as [X| ->]; [destruct e; try discriminate X|]; apply sp_ret; intros _ _; eauto.
    - eauto. }
  assert (RT : forall r, (forall e, r = inl e -> is_os e = true \/ e = XPath) ->
     sp (Ret r : io bool) (fun r s' => touched n s s' /\ (careful -> spare n s') /\ forall e, r = inl e -> is_os e = true \/ e = XPath) s).
  { intros r E. apply sp_ret. intros _ _. split; [left; reflexivity|]. auto. }
  unfold remove_flat_bundle_impl. apply sp_read; [exact Logic.I|]. intros (IV & JV & KV) L r ST.
  destruct r as [e|[k ino]].
  { destruct e; apply RT; intros e E; [discriminate| |]; injection E as <-; auto. }
  destruct k; try (apply RT; intros e E; discriminate E).
  assert (PD : par s n = Some (EDir ino)).
  { cbn [step] in ST. destruct ST as [(_ & X & _)|(_ & X)]; [discriminate|]. destruct (par s n) as [[]|]; cbn in X; try discriminate X.
    injection X as ->. reflexivity. }
  apply sp_bind. apply sp_read; [exact Logic.I|]. intros _ _ r ST1. apply sp_ret. intros _ _.
  destruct r as [e|entries]; cbn [lift].
  { split; [left; reflexivity|]. split; [assumption|]. intros e' E. injection E as <-. left. destruct e; reflexivity. }
  apply sp_bind. apply sp_pure; [apply pure_removable|]. intros _ _ a R.
  destruct a as [e|good].
  { split; [left; reflexivity|]. split; [assumption|]. intros e' E. injection E as <-. left. eapply removable_exn; eauto. }
  destruct good; [|apply RT; discriminate].
  apply sp_bind, sp_catch, sp_bind. apply sp_read; [exact Logic.I|]. intros _ _ r ST2. apply sp_ret. intros _ _.
  destruct r as [e|d]; cbn [lift]; [apply sp_ret; intros _ _; apply RT; discriminate|].
  destruct (Nat.eqb_spec d ino) as [->|D].
  2:{ apply sp_ret. intros _ _. apply sp_ret. intros _ _. apply RT. discriminate. }
  apply sp_ret. intros _ _. apply sp_catch, sp_bind.
  eapply sp_mono; [|apply (sp_unlink_all n ino s RN entries s PD SP (only_refl _ _ _))].
  intros [e|tt'] s' (IV' & JV' & KV') L' (O & P' & S' & _).
  { apply sp_ret. intros _ _. split; [right; eauto|]. split; [assumption|discriminate]. }
  apply sp_bind. apply sp_op. intros _ _ r s2 ST3.
  assert (ALT : (s2 = s' /\ exists e, r = inl e) \/ (s2 = upd_par s' n None /\ r = inr tt)).
  { cbn [step] in ST3. destruct ST3 as [(F & -> & ->)|ST3]; [eauto|]. rewrite P' in ST3. destruct ST3 as [(_ & -> & ->)|(_ & -> & ->)]; eauto. }
  clear ST3. destruct ALT as [[-> (e & ->)]|[-> ->]].
  - split; [split; [exact (conj IV' (conj JV' KV'))|split; [apply fm_refl|assumption]]|].
    apply sp_ret. intros _ _. cbn [lift]. apply sp_ret. intros _ _. split; [right; eauto|]. split; [assumption|discriminate].
  - assert (O2 : only n ino s' (upd_par s' n None)).
    { constructor; cbn; auto.
      - intros m M. destruct (name_eq_dec m n); [congruence|reflexivity].
      - right. destruct (name_eq_dec n n); congruence. }
    split.
    { apply (hold_only n ino); auto; [exact (conj IV' (conj JV' KV'))|now apply inv_rmdir|apply fm_rmdir]. }
    apply sp_ret. intros _ _. cbn [lift]. apply sp_ret. intros _ _. split; [right; exists ino; split; [assumption|eapply only_trans; eassumption]|].
    split; [|discriminate]. intros C. apply (spare_only n ino s'); auto. apply (own_pub n ino s'); auto.
Qed.
Lemma sp_remove_residual n s : is_residual n = true -> (careful -> spare n s) ->
  sp (remove_residual n) (fun r s' => touched n s s' /\ (careful -> spare n s') /\ r = inr tt) s.
Proof.
  intros RN SP. apply sp_bind. eapply sp_mono; [|apply sp_remove_flat; assumption].
  intros r s' _ _ (T & S & b & ->). apply sp_ret. auto.
Qed.
End S.
