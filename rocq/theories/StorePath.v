(** Proofs for C33 and C37: names of cache bundles. *)
From Coq Require Import List NArith ZArith Bool Arith Lia String.
From Verif Require Import Text TextFacts AlignModel AlignSpec AlignBytes CacheModel JsonSpec JsonModel JsonProofs JsonDict StoreModel StoreSpec.
Import ListNotations.
Local Open Scope list_scope.

(** ** Plain components. *)
Lemma split_plain t : ~ In 47%N t -> split_on SLASH t = [t].
Proof.
  induction t as [|c t IH]; intros H; [reflexivity|]. cbn [split_on In] in *.
  destruct (N.eqb_spec c SLASH) as [->|_]; [exfalso; apply H; now left|]. rewrite IH by tauto. reflexivity.
Qed.
Lemma real_plain p : plain p -> real_part p = true.
Proof. intros (A & _ & B & _). unfold real_part. now rewrite !text_eqb_neq. Qed.
Lemma parse_plain p : plain p -> parse_path p = Path false [p].
Proof.
  intros P. pose proof (real_plain p P) as R. destruct P as (A & B & _). unfold parse_path. rewrite (split_plain p B). cbn [filter]. rewrite R.
  destruct p as [|c p]; [congruence|]. f_equal. destruct (N.eqb_spec c SLASH) as [->|]; [exfalso; apply B; now left|reflexivity].
Qed.
Lemma div_plain d p : plain p -> path_div d p = Path (absolute d) (parts d ++ [p]).
Proof. intros P. unfold path_div. now rewrite (parse_plain p P). Qed.

Lemma safe_char_spec c : safe_char c = true <-> In c prefix_alphabet.
Proof.
  assert (E : safe_char c = existsb (N.eqb c) prefix_alphabet).
  { assert (B : forall n, existsb (fun k => negb (Bool.eqb (safe_char (N.of_nat k)) (existsb (N.eqb (N.of_nat k)) prefix_alphabet))) (seq 0 n) = false ->
        (N.to_nat c < n)%nat -> safe_char c = existsb (N.eqb c) prefix_alphabet).
    { intros n H L. assert (I : In (N.to_nat c) (seq 0 n)) by (apply in_seq; lia).
      assert (X : negb (Bool.eqb (safe_char (N.of_nat (N.to_nat c))) (existsb (N.eqb (N.of_nat (N.to_nat c))) prefix_alphabet)) = false).
      { destruct (negb _) eqn:D; [|reflexivity]. rewrite <- H. symmetry. apply existsb_exists. eauto. }
      rewrite N2Nat.id in X. apply negb_false_iff in X. now apply eqb_prop in X. }
    destruct (N.ltb_spec c 128) as [L|L]; [apply (B 128); [vm_compute; reflexivity|lia]|]. clear B.
    transitivity false.
    - unfold safe_char. lia.
    - symmetry. destruct (existsb _ _) eqn:D; [|reflexivity]. apply existsb_exists in D as (x & I & D). apply N.eqb_eq in D as <-.
      assert (Y : forallb (fun y => (y <? 128)%N) prefix_alphabet = true) by (vm_compute; reflexivity). rewrite forallb_forall in Y. apply Y in I. lia. }
  rewrite E. split.
  - intros H. apply existsb_exists in H as (x & I & D). apply N.eqb_eq in D as <-. assumption.
  - intros I. apply existsb_exists. exists c. split; [exact I|apply N.eqb_refl].
Qed.
Opaque prefix_alphabet.
Lemma safe_no_slash p : (forall c, In c p -> In c prefix_alphabet) -> ~ In 47%N p.
Proof. intros H I. apply H in I. apply safe_char_spec in I. vm_compute in I. discriminate. Qed.
Lemma safe_plain p : safe_prefix p -> plain p.
Proof. intros (A & B & C & D). repeat split; auto. now apply safe_no_slash. Qed.
Lemma prefix_ok_spec p : prefix_ok p = true <-> safe_prefix p.
Proof.
  unfold prefix_ok, safe_match. rewrite !andb_true_iff, !negb_true_iff. split.
  - intros (((A & B) & C & D) & _). repeat split.
    + intros ->. discriminate.
    + rewrite forallb_forall in D. intros c I. now apply safe_char_spec, D.
    + intros ->. now rewrite text_eqb_refl in A.
    + intros ->. now rewrite text_eqb_refl in B.
  - intros S. pose proof (safe_plain p S) as P. destruct S as (A & B & C & D). unfold dot, dotdot. rewrite !text_eqb_neq by assumption.
    repeat split. + apply forallb_forall. intros c I. now apply safe_char_spec, B.
    + rewrite (parse_plain p P). apply text_eqb_refl.
Qed.

Lemma hex_plain t : List.length t = 64 -> Forall (fun c => In c (u "0123456789abcdef")) t -> plain t.
Proof.
  intros L F. split; [|split; [|split]].
  - intros ->. discriminate.
  - rewrite Forall_forall in F. intros I. apply F in I. revert I. vm_compute. intuition discriminate.
  - intros ->. discriminate.
  - intros ->. discriminate.
Qed.
(** "." followed by a digest and something without a slash. *)
Lemma dotted_plain t x : List.length t = 64 -> Forall (fun c => In c (u "0123456789abcdef")) t -> ~ In 47%N x -> plain (u "." ++ t ++ x).
Proof.
  intros L F X. split; [|split; [|split]].
  - discriminate.
  - rewrite !in_app_iff. intros [I|[I|I]]; [destruct I as [I|[]]; discriminate| |auto].
    rewrite Forall_forall in F. apply F in I. revert I. vm_compute. intuition discriminate.
  - intros E. apply (f_equal (@List.length N)) in E. rewrite !app_length, L in E. vm_compute in E. lia.
  - intros E. apply (f_equal (@List.length N)) in E. rewrite !app_length, L in E. vm_compute in E. lia.
Qed.

(** ** Normal paths. *)
Lemma normal_plain ps : forall acc, Forall plain ps -> normal acc ps = acc ++ ps.
Proof.
  induction ps as [|p r IH]; intros acc F; cbn [normal]; [now rewrite app_nil_r|]. inversion F as [|? ? (_ & _ & _ & D) F']; subst.
  unfold dotdot. rewrite text_eqb_neq by assumption. rewrite IH by assumption. now rewrite <- app_assoc.
Qed.
Lemma normal_leads ps : forall acc, leads acc ps (normal acc ps).
Proof.
  induction ps as [|p r IH]; intros acc; cbn [normal]; [constructor|].
  destruct (text_eqb_spec p dotdot) as [->|D]; [|now constructor].
  destruct acc as [|x acc _] using rev_ind; [apply leads_top, IH|]. rewrite removelast_last. apply leads_up, IH.
Qed.
Lemma leads_unique d ps e e' : leads d ps e -> leads d ps e' -> e = e'.
Proof.
  intros H; revert e'; induction H; intros e' H'; inversion H'; subst; auto; try congruence.
  - apply IHleads. match goal with E : _ ++ [_] = _ ++ [_] |- _ => apply app_inj_tail in E as [-> ->] end. assumption.
  - match goal with E : [] = _ ++ [_] |- _ => destruct d; discriminate | E : _ ++ [_] = [] |- _ => destruct d; discriminate end.
  - match goal with E : [] = ?d ++ [_] |- _ => destruct d; discriminate | E : ?d ++ [_] = [] |- _ => destruct d; discriminate end.
Qed.
Lemma abspath_located cwd p e : abspath cwd p = e <-> located cwd p e.
Proof.
  unfold abspath, located. split.
  - intros <-. destruct (absolute p); apply normal_leads.
  - intros H. destruct (absolute p); eapply leads_unique; try eassumption; apply normal_leads.
Qed.
Lemma common_prefix a b : common a b = a <-> exists q, b = a ++ q.
Proof.
  revert b; induction a as [|x a IH]; intros b; cbn [common].
  - split; [intros _; now exists b|reflexivity].
  - destruct b as [|y b]; [split; [discriminate|intros (q & E); discriminate]|].
    destruct (text_eqb_spec x y) as [->|D].
    + split.
      * intros [= E]. apply IH in E as (q & ->). now exists q.
      * intros (q & [= ->]). f_equal. apply IH. now exists q.
    + split; [discriminate|]. intros (q & [= -> _]). congruence.
Qed.
Lemma parts_eqb_spec a b : parts_eqb a b = true <-> a = b.
Proof.
  revert b; induction a as [|x a IH]; intros [|y b]; cbn [parts_eqb]; try (split; congruence).
  rewrite andb_true_iff, IH. destruct (text_eqb_spec x y); split; [intros [_ ->]; congruence|intros [= -> ->]; auto|intros [? _]; discriminate|congruence].
Qed.
Lemma resolved_abspath cwd root : resolved root -> abspath cwd root = parts root.
Proof. intros (A & F). unfold abspath. rewrite A. now rewrite normal_plain. Qed.
Lemma under_root_spec cwd root p : resolved root -> (under_root cwd root p = true <-> exists q, located cwd p (parts root ++ q)).
Proof.
  intros R. unfold under_root. rewrite parts_eqb_spec, (resolved_abspath cwd root R), common_prefix.
  split; intros (q & E); exists q; now apply abspath_located.
Qed.
Lemma reached_under cwd root q p : resolved root -> reached root q p -> under_root cwd root p = true.
Proof.
  intros R (A & E & F). apply (under_root_spec cwd root p R). exists q. apply abspath_located. unfold abspath. destruct R as (R1 & R2). rewrite A, R1, E.
  rewrite normal_plain; [reflexivity|]. apply Forall_app. auto.
Qed.

(** ** Bundles. *)
Section Bundles.
Variable sha : bytes -> text.
Hypothesis HS : hex_digests sha.
Lemma config_digest_hex k c : config_digest sha k = Some c -> List.length c = 64 /\ Forall (fun x => In x (u "0123456789abcdef")) c.
Proof. unfold config_digest. destruct (canonical_json _); [|discriminate]. intros [= <-]. apply HS. Qed.
Lemma bundle_digest_hex k c : bundle_digest sha k = Some c -> List.length c = 64 /\ Forall (fun x => In x (u "0123456789abcdef")) c.
Proof. unfold bundle_digest. destruct (config_digest sha k); [|discriminate]. destruct (canonical_json _); [|discriminate]. intros [= <-]. apply HS. Qed.

Lemma make_inv cwd root k b : make_bundle sha cwd root k = inr b ->
  prefix_ok (k_prefix k) = true /\ config_digest sha k = Some (b_config_digest b) /\ bundle_digest sha k = Some (b_digest b)
  /\ b_parent b = path_div (path_div root (k_prefix k)) (b_config_digest b) /\ b_path b = path_div (b_parent b) (b_digest b)
  /\ b_lock b = path_div (b_parent b) (u "." ++ b_digest b ++ u ".lock").
Proof.
  unfold make_bundle. destruct (prefix_ok _); [|discriminate]. destruct (config_digest sha k) as [c|]; [|discriminate]. destruct (bundle_digest sha k) as [d|]; [|discriminate].
  cbv zeta. destruct (_ && _); [|discriminate]. intros [= <-]. cbn [b_config_digest b_digest b_parent b_path b_lock]. auto 6.
Qed.
Lemma no_slash_lock : ~ In 47%N (u ".lock").
Proof. vm_compute. intuition discriminate. Qed.

Lemma make_paths cwd root k b : make_bundle sha cwd root k = inr b ->
  exists c d, List.length c = 64 /\ List.length d = 64 /\ c = b_config_digest b /\ d = b_digest b /\
  reached root [k_prefix k; c] (b_parent b) /\ reached root [k_prefix k; c; d] (b_path b)
  /\ reached root [k_prefix k; c; u "." ++ d ++ u ".lock"] (b_lock b)
  /\ forall mid x, ~ In 47%N mid -> ~ In 47%N x -> reached root [k_prefix k; c; u "." ++ d ++ mid ++ x] (residual_path b mid x).
Proof.
  intros M. apply make_inv in M as (P & C & D & E1 & E2 & E3). apply prefix_ok_spec, safe_plain in P.
  pose proof (config_digest_hex _ _ C) as (LC & FC). pose proof (bundle_digest_hex _ _ D) as (LD & FD).
  pose proof (hex_plain _ LC FC) as PC. pose proof (hex_plain _ LD FD) as PD.
  assert (R1 : reached root [k_prefix k; b_config_digest b] (b_parent b)).
  { rewrite E1, !div_plain by assumption. cbn [absolute parts]. split; [reflexivity|]. split; [now rewrite <- app_assoc|]. auto. }
  assert (R2 : forall x, plain x -> reached root [k_prefix k; b_config_digest b; x] (path_div (b_parent b) x)).
  { intros x Px. destruct R1 as (A1 & A2 & A3). rewrite div_plain by assumption. split; [assumption|]. cbn [parts]. rewrite A2, <- app_assoc. auto. }
  exists (b_config_digest b), (b_digest b). repeat (split; [first [assumption|reflexivity]|]).
  split; [rewrite E2; now apply R2|]. split; [rewrite E3; apply R2, dotted_plain; auto using no_slash_lock|].
  intros mid x Hm Hx. apply R2. apply dotted_plain; auto. rewrite in_app_iff. tauto.
Qed.

Lemma prefix_encodable p : safe_prefix p -> encodable p.
Proof.
  intros (_ & B & _). apply ascii_encodable. apply forallb_forall. intros c I. apply B in I.
  assert (Y : forallb (fun y => (y <? 128)%N) prefix_alphabet = true) by (vm_compute; reflexivity). rewrite forallb_forall in Y. now apply Y.
Qed.
Lemma u_encodable_config : Forall encodable [u "config"; u "ordertype"; u "prefix"].
Proof. repeat constructor; now apply ascii_encodable. Qed.
Lemma u_encodable_bundle : Forall encodable [u "builder"; u "config_digest"; u "source_fingerprint"].
Proof. repeat constructor; now apply ascii_encodable. Qed.
Lemma hex_encodable c : Forall (fun x => In x (u "0123456789abcdef")) c -> encodable c.
Proof.
  intros F. apply ascii_encodable, forallb_forall. rewrite Forall_forall in F. intros x I. apply F in I.
  assert (Y : forallb (fun y => (y <? 128)%N) (u "0123456789abcdef") = true) by (vm_compute; reflexivity). rewrite forallb_forall in Y. now apply Y.
Qed.
Lemma digests_total k : key_encodable k -> exists c d, config_digest sha k = Some c /\ bundle_digest sha k = Some d.
Proof.
  intros (A & B & C & D & E).
  assert (X : exists c, config_digest sha k = Some c).
  { unfold config_digest. destruct (canonical_total (config_identity (k_prefix k) (k_ordertype k) (k_config k))) as (b & ->); [|eauto].
    unfold config_identity. constructor; cbn [map fst snd]; [apply u_encodable_config|]. constructor; [assumption|]. constructor; [now constructor|]. constructor; [now constructor|constructor]. }
  destruct X as (c & X). exists c. unfold bundle_digest. rewrite X.
  destruct (canonical_total (bundle_identity (k_builder k) c (k_fingerprint k))) as (b & ->); [|eauto].
  unfold bundle_identity. constructor; cbn [map fst snd]; [apply u_encodable_bundle|]. constructor; [assumption|]. constructor; [|constructor; [now constructor|constructor]].
  constructor. apply hex_encodable. now apply config_digest_hex in X.
Qed.
Lemma make_total cwd root k : resolved root -> key_encodable k -> safe_prefix (k_prefix k) -> exists b, make_bundle sha cwd root k = inr b.
Proof.
  intros R E P. destruct (digests_total k E) as (c & d & C & D). unfold make_bundle. rewrite (proj2 (prefix_ok_spec _) P), C, D. cbv zeta.
  pose proof (config_digest_hex _ _ C) as (LC & FC). pose proof (bundle_digest_hex _ _ D) as (LD & FD).
  pose proof (hex_plain _ LC FC) as PC. pose proof (hex_plain _ LD FD) as PD. pose proof (safe_plain _ P) as PP.
  pose proof (dotted_plain d (u ".lock") LD FD no_slash_lock) as PL.
  assert (U : under_root cwd root (path_div (path_div root (k_prefix k)) c) = true).
  { apply reached_under with (q := [k_prefix k; c]); [assumption|]. rewrite !div_plain by assumption. split; [reflexivity|]. cbn [parts absolute]. rewrite <- app_assoc. auto. }
  assert (V : forall x, plain x -> under_root cwd root (path_div (path_div (path_div root (k_prefix k)) c) x) = true).
  { intros x Px. apply reached_under with (q := [k_prefix k; c; x]); [assumption|]. rewrite !div_plain by assumption. split; [reflexivity|]. cbn [parts absolute]. rewrite <- !app_assoc. auto. }
  rewrite U, !V by assumption. cbn [andb]. eauto.
Qed.
Lemma make_refuses cwd root k : ~ safe_prefix (k_prefix k) -> make_bundle sha cwd root k = inl EValue.
Proof. intros P. unfold make_bundle. destruct (prefix_ok _) eqn:E; [|reflexivity]. exfalso. now apply P, prefix_ok_spec. Qed.

(** ** Equal paths, equal keys. *)
Lemma config_wf p o v : json_wf v -> json_wf (config_identity p o v).
Proof.
  intros W. constructor; cbn [map fst snd].
  - repeat constructor; cbn [In]; intuition discriminate.
  - repeat constructor; assumption.
Qed.
Lemma bundle_wf v c f : json_wf v -> json_wf (bundle_identity v c f).
Proof.
  intros W. constructor; cbn [map fst snd].
  - repeat constructor; cbn [In]; intuition discriminate.
  - repeat constructor; assumption.
Qed.
Lemma same_field l m k v : json_same (JObj l) (JObj m) -> json_wf (JObj m) -> obj_get k m = Some v -> exists x, obj_get k l = Some x /\ json_same x v.
Proof. intros S W. inversion W; subst. now apply same_get. Qed.
Lemma same_str_eq a b : json_same (JStr a) (JStr b) -> a = b.
Proof. intros S. now inversion S. Qed.
Lemma config_same p o v p' o' v' : json_wf v' -> json_same (config_identity p o v) (config_identity p' o' v') -> p = p' /\ o = o' /\ json_same v v'.
Proof.
  intros W S. pose proof (config_wf p' o' v' W) as W'.
  destruct (same_field _ _ (u "prefix") (JStr p') S W' eq_refl) as (x & X & Sx). injection X as <-. apply same_str_eq in Sx.
  destruct (same_field _ _ (u "ordertype") (JStr o') S W' eq_refl) as (y & Y & Sy). injection Y as <-. apply same_str_eq in Sy.
  destruct (same_field _ _ (u "config") v' S W' eq_refl) as (z & Z & Sz). injection Z as <-. auto.
Qed.
Lemma bundle_same v c f v' c' f' : json_wf v' -> json_same (bundle_identity v c f) (bundle_identity v' c' f') -> json_same v v' /\ c = c' /\ f = f'.
Proof.
  intros W S. pose proof (bundle_wf v' c' f' W) as W'.
  destruct (same_field _ _ (u "builder") v' S W' eq_refl) as (x & X & Sx). injection X as <-.
  destruct (same_field _ _ (u "config_digest") (JStr c') S W' eq_refl) as (y & Y & Sy). injection Y as <-. apply same_str_eq in Sy.
  destruct (same_field _ _ (u "source_fingerprint") (JStr f') S W' eq_refl) as (z & Z & Sz). injection Z as <-. apply same_str_eq in Sz. auto.
Qed.

Lemma path_inj root b b' q q' : reached root q b -> reached root q' b' -> b = b' -> q = q'.
Proof. intros (_ & E & _) (_ & E' & _) <-. rewrite E in E'. now apply app_inv_head in E'. Qed.

Lemma keys_differ cwd root k k' b b' : key_wf k -> key_wf k' -> make_bundle sha cwd root k = inr b -> make_bundle sha cwd root k' = inr b' ->
  b_path b = b_path b' ->
  same_key k k' \/
  (exists x y, canonical_json (config_identity (k_prefix k) (k_ordertype k) (k_config k)) = Some x
     /\ canonical_json (config_identity (k_prefix k') (k_ordertype k') (k_config k')) = Some y /\ clash sha x y) \/
  (exists x y, canonical_json (bundle_identity (k_builder k) (b_config_digest b) (k_fingerprint k)) = Some x
     /\ canonical_json (bundle_identity (k_builder k') (b_config_digest b') (k_fingerprint k')) = Some y /\ clash sha x y).
Proof.
  intros (W1 & W2) (W1' & W2') M M' E.
  destruct (make_paths _ _ _ _ M) as (c & d & _ & _ & Ec & Ed & _ & R & _). destruct (make_paths _ _ _ _ M') as (c' & d' & _ & _ & Ec' & Ed' & _ & R' & _).
  pose proof (path_inj _ _ _ _ _ R R' E) as Q. injection Q as Qp Qc Qd. clear R R'.
  apply make_inv in M as (_ & C & D & _). apply make_inv in M' as (_ & C' & D' & _). subst c d c' d'.
  unfold bundle_digest in D, D'. rewrite C in D. rewrite C' in D'.
  unfold config_digest in C, C'.
  destruct (canonical_json (config_identity (k_prefix k) _ _)) as [x|] eqn:X; [|discriminate]. destruct (canonical_json (config_identity (k_prefix k') _ _)) as [x'|] eqn:X'; [|discriminate].
  destruct (canonical_json (bundle_identity (k_builder k) _ _)) as [y|] eqn:Y; [|discriminate]. destruct (canonical_json (bundle_identity (k_builder k') _ _)) as [y'|] eqn:Y'; [|discriminate].
  injection C as C. injection C' as C'. injection D as D. injection D' as D'.
  destruct (text_eq_dec x x') as [->|N]; [|right; left; exists x, x'; repeat split; congruence].
  destruct (text_eq_dec y y') as [->|N]; [|right; right; exists y, y'; repeat split; congruence].
  left. pose proof (canonical_inj _ _ _ (config_wf _ _ _ W1) (config_wf _ _ _ W1') X X') as S. apply config_same in S as (S1 & S2 & S3); [|assumption].
  pose proof (canonical_inj _ _ _ (bundle_wf _ _ _ W2) (bundle_wf _ _ _ W2') Y Y') as T. apply bundle_same in T as (T1 & T2 & T3); [|assumption].
  repeat split; auto.
Qed.

Lemma same_make cwd root k k' : key_wf k -> key_wf k' -> same_key k k' -> make_bundle sha cwd root k = make_bundle sha cwd root k'.
Proof.
  intros (W1 & W2) (W1' & W2') (P & O & C & B & F).
  assert (EC : config_digest sha k = config_digest sha k').
  { unfold config_digest. rewrite (canonical_same (config_identity (k_prefix k) (k_ordertype k) (k_config k)) (config_identity (k_prefix k') (k_ordertype k') (k_config k'))); auto using config_wf.
    unfold config_identity. rewrite P, O. eapply same_obj; [reflexivity|]. repeat constructor; assumption. }
  assert (EB : bundle_digest sha k = bundle_digest sha k').
  { unfold bundle_digest. rewrite EC. destruct (config_digest sha k') as [c|]; [|reflexivity].
    rewrite (canonical_same (bundle_identity (k_builder k) c (k_fingerprint k)) (bundle_identity (k_builder k') c (k_fingerprint k'))); auto using bundle_wf.
    unfold bundle_identity. rewrite F. eapply same_obj; [reflexivity|]. repeat constructor; assumption. }
  unfold make_bundle. now rewrite P, EC, EB.
Qed.

(** Names used by one key are never names used by another. *)
Lemma app_head_eq {A} (a b x y : list A) : List.length a = List.length b -> a ++ x = b ++ y -> a = b /\ x = y.
Proof. revert b; induction a as [|h a IH]; intros [|h' b] L E; try discriminate; [auto|]. injection L as L. injection E as -> E. destruct (IH b L E) as [-> ->]. auto. Qed.
Lemma names_apart cwd root k k' b b' : make_bundle sha cwd root k = inr b -> make_bundle sha cwd root k' = inr b' ->
  (b_lock b = b_lock b' -> b_path b = b_path b')
  /\ (forall m x m' x', ~ In 47%N m -> ~ In 47%N x -> ~ In 47%N m' -> ~ In 47%N x' ->
        residual_path b m x = residual_path b' m' x' -> b_path b = b_path b')
  /\ (forall m x, ~ In 47%N m -> ~ In 47%N x -> residual_path b m x <> b_path b')
  /\ b_lock b <> b_path b'.
Proof.
  intros M M'.
  destruct (make_paths _ _ _ _ M) as (c & d & Lc & Ld & Ec & Ed & _ & R & RL & RR). destruct (make_paths _ _ _ _ M') as (c' & d' & Lc' & Ld' & Ec' & Ed' & _ & R' & RL' & RR').
  assert (F : k_prefix k = k_prefix k' -> c = c' -> d = d' -> b_path b = b_path b').
  { intros E1 E2 E3. rewrite E1, E2, E3 in R. destruct R as (A1 & A2 & _), R' as (A1' & A2' & _). destruct (b_path b), (b_path b'). cbn in *. congruence. }
  assert (T : forall x y, u "." ++ d ++ x = u "." ++ d' ++ y -> d = d').
  { intros x y E. apply app_inv_head in E. apply app_head_eq in E; [tauto|congruence]. }
  assert (H : forall x, u "." ++ d ++ x <> d').
  { intros x E. apply (f_equal (@List.length N)) in E. rewrite !app_length, Ld, Ld' in E. vm_compute (List.length (u ".")) in E. lia. }
  repeat split.
  - intros E. pose proof (path_inj _ _ _ _ _ RL RL' E) as Q. injection Q as Q1 Q2 Q3. apply app_head_eq in Q3; [|congruence]. apply F; tauto.
  - intros m x m' x' H1 H2 H3 H4 E. pose proof (path_inj _ _ _ _ _ (RR _ _ H1 H2) (RR' _ _ H3 H4) E) as Q. injection Q as Q1 Q2 Q3. apply app_head_eq in Q3; [|congruence]. apply F; tauto.
  - intros m x H1 H2 E. pose proof (path_inj _ _ _ _ _ (RR _ _ H1 H2) R' E) as Q. injection Q as Q1 Q2 Q3. now apply H in Q3.
  - intros E. pose proof (path_inj _ _ _ _ _ RL R' E) as Q. injection Q as Q1 Q2 Q3. now apply H in Q3.
Qed.
End Bundles.
