(** Proofs for C39 (the default cache directory) and C52 (pipeline keys). *)
From Coq Require Import List NArith ZArith Bool Arith Lia String.
From Verif Require Import Text TextFacts AlignModel AlignSpec AlignBytes CacheModel JsonSpec JsonModel JsonProofs JsonDict StoreModel StoreSpec StorePath.
Import ListNotations.
Local Open Scope list_scope.

Lemma parse_absolute t : absolute (parse_path t) = true <-> exists r, t = 47%N :: r.
Proof.
  unfold parse_path. cbn [absolute]. destruct t as [|c t]; [split; [discriminate|intros (r & E); discriminate]|].
  unfold SLASH. rewrite N.eqb_eq. split; [intros ->; eauto|]. intros (r & [= -> _]). reflexivity.
Qed.
Lemma rev_drop t : exists k, t = rstrip_slash t ++ repeat 47%N k.
Proof.
  unfold rstrip_slash.
  assert (H : forall x, exists k, x = repeat 47%N k ++ drop_slashes x).
  { induction x as [|c x (k & IH)]; [now exists 0|]. cbn [drop_slashes]. destruct (N.eqb_spec c SLASH) as [->|].
    - exists (S k). cbn [repeat List.app]. unfold SLASH. congruence.
    - now exists 0. }
  destruct (H (rev t)) as (k & E). exists k. rewrite <- (rev_involutive t) at 1. rewrite E at 1. rewrite rev_app_distr. f_equal.
  clear. induction k as [|k IH]; [reflexivity|]. cbn [repeat rev]. rewrite IH. clear IH. induction k as [|k IH]; [reflexivity|]. cbn [repeat List.app]. now rewrite IH.
Qed.
Lemma home_text_absolute h : absolute_text h -> exists r, home_text h = 47%N :: r.
Proof.
  intros A. unfold home_text. destruct (rev_drop h) as (k & E). destruct (rstrip_slash h) as [|c r]; [now exists []|].
  destruct A as [->|(q & ->)]; [discriminate|]. injection E as <- _. eauto.
Qed.
Lemma expand_absolute e n p : (forall h, home_of e = Some h -> absolute_text h) -> (forall n h, user_home e n = Some h -> absolute_text h) ->
  expand_tilde e (126%N :: n) = Some p -> exists r, p = 47%N :: r.
Proof.
  intros H U. unfold expand_tilde. cbn [tl].
  assert (G : forall o, (forall h, o = Some h -> absolute_text h) ->
     match o with None => None | Some h => Some (home_text h) end = Some p -> exists r, p = 47%N :: r).
  { intros [h|] A; [|discriminate]. intros [= <-]. now apply home_text_absolute, A. }
  destruct n as [|c n]; apply G; [exact H|apply U].
Qed.
Lemma expanduser_absolute e p q : (forall h, home_of e = Some h -> absolute_text h) -> (forall n h, user_home e n = Some h -> absolute_text h) ->
  expanduser e p = Some q -> q = p \/ absolute q = true.
Proof.
  intros H U. unfold expanduser. destruct (parts p) as [|first rest]; [intros [= <-]; auto|].
  destruct (negb (absolute p) && tilde first) eqn:T; [|intros [= <-]; auto]. apply andb_true_iff in T as [_ T].
  destruct first as [|c name]; [discriminate|]. cbn [tilde] in T. apply N.eqb_eq in T as ->.
  destruct (expand_tilde e (126%N :: name)) as [h|] eqn:E; [|discriminate].
  destruct (expand_absolute e name h H U E) as (r & ->). intros [= <-]. right. reflexivity.
Qed.
Lemma home_absolute e h : (forall h, home_of e = Some h -> absolute_text h) -> (forall n h, user_home e n = Some h -> absolute_text h) ->
  path_home e = Some h -> absolute h = true.
Proof.
  intros H U E. unfold path_home, expanduser in E. change (parts (parse_path (u "~"))) with [[126%N]] in E. cbv iota in E. change (negb (absolute (parse_path (u "~"))) && tilde [126%N]) with true in E. cbv iota in E.
  destruct (expand_tilde e [126%N]) as [x|] eqn:X; [|discriminate]. destruct (expand_absolute e [] x H U X) as (r & ->). injection E as <-. reflexivity.
Qed.
Lemma div_name d t : plain t -> absolute (path_div d t) = absolute d /\ path_name (path_div d t) = t.
Proof. intros P. rewrite (div_plain d t P). split; [reflexivity|]. unfold path_name. cbn [parts]. apply last_last. Qed.
Ltac plain_lit := split; [discriminate|split; [vm_compute; intuition discriminate|split; discriminate]].
Lemma home_cache_absolute e p : (forall h, home_of e = Some h -> absolute_text h) -> (forall n h, user_home e n = Some h -> absolute_text h) ->
  home_cache e = Some p -> absolute p = true.
Proof.
  intros H U. unfold home_cache. destruct (path_home e) as [h|] eqn:E; [|discriminate]. apply home_absolute in E; try assumption.
  intros [= <-]. destruct (darwin e); rewrite !div_plain by plain_lit; exact E.
Qed.
Lemma default_absolute e p : (forall h, home_of e = Some h -> absolute_text h) -> (forall n h, user_home e n = Some h -> absolute_text h) ->
  default_cache_dir e = Some p -> absolute p = true /\ path_name p = u "wetextprocessing".
Proof.
  intros H U. unfold default_cache_dir. cbv zeta.
  assert (G : forall b, match b with Some b => Some (path_div b (u "wetextprocessing")) | None => None end = Some p ->
     (forall q, b = Some q -> absolute q = true) -> absolute p = true /\ path_name p = u "wetextprocessing").
  { intros [b|] E A; [|discriminate]. injection E as <-. destruct (div_name b (u "wetextprocessing") ltac:(plain_lit)) as (-> & ->). split; [auto|reflexivity]. }
  intros E. apply G in E; [assumption|]. intros q Q. revert Q.
  destruct (xdg_cache_home e) as [[|c x]|]; try (now apply home_cache_absolute).
  destruct (expanduser e _) as [y|]; [|discriminate]. destruct (absolute y) eqn:A; [intros [= <-]; assumption|now apply home_cache_absolute].
Qed.

Lemma expand_no_tilde e p : (forall t, In t (parts p) -> hd_error t <> Some 126%N) -> expanduser e p = Some p.
Proof.
  intros N. unfold expanduser. destruct (parts p) as [|first rest] eqn:E; [reflexivity|].
  assert (T : tilde first = false).
  { destruct first as [|c name]; [reflexivity|]. cbn [tilde]. apply N.eqb_neq. intros ->. apply (N (126%N :: name)); [now left|reflexivity]. }
  now rewrite T, andb_false_r.
Qed.
Lemma expand_abs e p : absolute p = true -> expanduser e p = Some p.
Proof. intros A. unfold expanduser. rewrite A. cbn [negb andb]. now destruct (parts p). Qed.
Lemma default_xdg e r : xdg_cache_home e = Some (47%N :: r) -> default_cache_dir e = Some (Path true (parts (parse_path (47%N :: r)) ++ [u "wetextprocessing"])).
Proof.
  intros X. unfold default_cache_dir. rewrite X. cbv zeta iota.
  assert (A : absolute (parse_path (47%N :: r)) = true) by (apply parse_absolute; eauto).
  rewrite (expand_abs e _ A), A. rewrite div_plain by plain_lit. now rewrite A.
Qed.
Definition without_xdg (e : environ) : environ := Environ None (home_var e) (own_home e) (user_home e) (darwin e).
Lemma default_relative e x : xdg_cache_home e = Some x -> hd_error x <> Some 47%N ->
  (forall t, In t (parts (parse_path x)) -> hd_error t <> Some 126%N) ->
  default_cache_dir e = default_cache_dir (without_xdg e).
Proof.
  intros X S N. unfold default_cache_dir. rewrite X. cbn [without_xdg xdg_cache_home]. cbv zeta.
  assert (HC : home_cache (without_xdg e) = home_cache e) by reflexivity. rewrite HC. destruct x as [|c x]; [reflexivity|]. rewrite (expand_no_tilde e _ N).
  destruct (absolute (parse_path (c :: x))) eqn:A; [|reflexivity]. apply parse_absolute in A as (r & [= -> _]). now cbn in S.
Qed.
Lemma split_slash t r : split_on SLASH (t ++ 47%N :: r) = split_on SLASH t ++ split_on SLASH r.
Proof.
  induction t as [|c t IH]; [reflexivity|]. cbn [List.app split_on]. rewrite IH. destruct (c =? SLASH)%N; [reflexivity|]. destruct (split_on SLASH t) as [|p q] eqn:E; [|reflexivity].
  exfalso. clear -E. destruct t as [|d t]; [discriminate|]. cbn [split_on] in E. destruct (d =? SLASH)%N; [discriminate|]. destruct (split_on SLASH t); discriminate.
Qed.
Lemma trailing_slashes t k : filter real_part (split_on SLASH (t ++ repeat 47%N k)) = filter real_part (split_on SLASH t).
Proof.
  revert t; induction k as [|k IH]; intros t; [cbn [repeat]; now rewrite app_nil_r|]. cbn [repeat]. rewrite split_slash, filter_app.
  pose proof (IH []) as Z. cbn [List.app] in Z. rewrite Z. cbn [split_on filter]. apply app_nil_r.
Qed.
Lemma default_home e h : xdg_cache_home e = None -> home_of e = Some h -> absolute_text h ->
  default_cache_dir e = Some (Path true (parts (parse_path h) ++ (if darwin e then [u "Library"; u "Caches"] else [u ".cache"]) ++ [u "wetextprocessing"])).
Proof.
  intros X H A. unfold default_cache_dir. rewrite X. cbv zeta iota. unfold home_cache, path_home, expanduser.
  change (parts (parse_path (u "~"))) with [[126%N]]. cbv iota. change (negb (absolute (parse_path (u "~"))) && tilde [126%N]) with true. cbv iota.
  unfold expand_tilde. cbn [tl]. fold (home_of e). rewrite H. destruct (home_text_absolute h A) as (r & E). rewrite E. change (tilde (47%N :: r)) with false. cbv iota zeta. change (absolute (parse_path (47%N :: r))) with true.
  assert (P : parts (parse_path (47%N :: r)) = parts (parse_path h)).
  { rewrite <- E. unfold home_text. destruct (rev_drop h) as (k & K). unfold parse_path. cbn [parts]. rewrite K at 2. rewrite trailing_slashes. destruct (rstrip_slash h); reflexivity. }
  destruct (darwin e); rewrite !div_plain by plain_lit; cbn [absolute parts]; rewrite P; cbn [List.app]; rewrite <- !app_assoc; reflexivity.
Qed.

Lemma split_none t : ~ In 47%N t -> split_on SLASH t = [t].
Proof.
  induction t as [|c t IH]; intros N; [reflexivity|]. cbn [split_on].
  destruct (N.eqb_spec c SLASH) as [->|_]; [exfalso; apply N; now left|]. rewrite IH; [reflexivity|]. intros I. apply N. now right.
Qed.
Lemma default_tilde e n r h : xdg_cache_home e = Some (126%N :: n ++ 47%N :: r) -> ~ In 47%N n ->
  (n = [] /\ home_of e = Some h) \/ (n <> [] /\ user_home e n = Some h) -> absolute_text h ->
  default_cache_dir e = Some (Path true (parts (parse_path h) ++ parts (parse_path r) ++ [u "wetextprocessing"])).
Proof.
  intros X N H A. unfold default_cache_dir. rewrite X. cbv zeta iota. unfold expanduser.
  assert (Q : parts (parse_path (126%N :: n ++ 47%N :: r)) = (126%N :: n) :: parts (parse_path r)).
  { unfold parse_path. cbn [parts]. change (126%N :: n ++ 47%N :: r) with ((126%N :: n) ++ 47%N :: r).
    rewrite split_slash, filter_app, split_none; [|intros [I|I]; [discriminate|auto]]. reflexivity. }
  rewrite Q. change (negb (absolute (parse_path (126%N :: n ++ 47%N :: r))) && tilde (126%N :: n)) with true. cbv iota.
  assert (E : expand_tilde e (126%N :: n) = Some (home_text h)).
  { unfold expand_tilde. cbn [tl]. destruct H as [(-> & H)|(Nn & H)]; [fold (home_of e); now rewrite H|].
    destruct n; [congruence|]. now rewrite H. }
  rewrite E. destruct (home_text_absolute h A) as (r' & E'). rewrite E'. change (tilde (47%N :: r')) with false. cbv iota zeta.
  assert (P : parts (parse_path (47%N :: r')) = parts (parse_path h)).
  { rewrite <- E'. unfold home_text. destruct (rev_drop h) as (k & K). unfold parse_path. cbn [parts]. rewrite K at 2. rewrite trailing_slashes. destruct (rstrip_slash h); reflexivity. }
  change (absolute (parse_path (47%N :: r'))) with true. cbn [absolute]. cbv iota. rewrite div_plain by plain_lit. cbn [absolute parts].
  now rewrite P, <- app_assoc.
Qed.

(** ** Pipelines. *)
Lemma fields_same l m : json_same (JObj l) (JObj m) -> json_wf (JObj m) -> forall k v, obj_get k m = Some v -> exists x, obj_get k l = Some x /\ json_same x v.
Proof. intros S W k v. now apply same_field. Qed.
Ltac take k S W H := destruct (fields_same _ _ S W (u k) _ eq_refl) as (?x & H & ?Sx); vm_compute in H; injection H as <-.
Lemma pipeline_wf p f v : Forall json_wf (options p) -> json_wf v -> key_wf (pipeline_key p v f).
Proof.
  intros F V. split; [|destruct p; exact V].
  destruct p; cbn [options] in F; repeat match goal with H : Forall _ (_ :: _) |- _ => inversion H; subst; clear H end; cbn [pipeline_key cache_arguments k_config];
    (constructor; cbn [map fst snd]; [repeat constructor; cbn [In]; intuition discriminate|repeat constructor; assumption]).
Qed.
Lemma pipeline_same p q f f' v v' : Forall json_wf (options q) -> same_key (pipeline_key p v f) (pipeline_key q v' f') ->
  same_grammar p q /\ json_same v v' /\ f = f'.
Proof.
  intros Wq (P & O & C & B & F).
  assert (W : json_wf (k_config (pipeline_key q JNull []))) by (apply pipeline_wf; [assumption|constructor]).
  destruct p, q; cbn [pipeline_key cache_arguments k_prefix k_ordertype k_config k_builder k_fingerprint] in *; try (vm_compute in P; discriminate).
  all: split; [|auto]; split; [reflexivity|]; cbn [grammar_reads].
  - take ("full_to_half"%string) C W H1. take ("remove_erhua"%string) C W H2. take ("remove_interjections"%string) C W H3.
    take ("remove_puncts"%string) C W H4. take ("tag_oov"%string) C W H5. take ("traditional_to_simple"%string) C W H6. repeat constructor; assumption.
  - take ("full_to_half"%string) C W H1. take ("remove_interjections"%string) C W H3.
    take ("remove_puncts"%string) C W H4. take ("tag_oov"%string) C W H5. take ("transliterate"%string) C W H6. repeat constructor; assumption.
  - constructor.
  - take ("enable_0_to_9"%string) C W H1. take ("enable_million"%string) C W H3.
    take ("enable_standalone_number"%string) C W H4. take ("remove_interjections"%string) C W H5. repeat constructor; assumption.
  - take ("enable_0_to_9"%string) C W H1. take ("enable_million"%string) C W H3.
    take ("enable_standalone_number"%string) C W H4. take ("full_to_half"%string) C W H5. repeat constructor; assumption.
  - constructor.
Qed.
