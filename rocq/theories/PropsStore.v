(** C33, C34, C37, C39 and C52: how the cache names things. *)
From Coq Require Import List NArith ZArith Bool Arith Lia Permutation String.
From Verif Require Import Text TextFacts AlignModel AlignSpec CacheModel JsonModel JsonSpec JsonProofs StoreModel StoreSpec StorePath StoreFinger StoreHome.
Import ListNotations.
Local Open Scope list_scope.

(** A digest for the witnesses: the sum of the bytes, as one letter 64 times. *)
Definition sum_sha (b : bytes) : text := repeat (nth (N.to_nat (fold_right N.add 0%N b mod 16)) (u "0123456789abcdef") 48%N) 64.
Lemma sum_sha_hex : hex_digests sum_sha.
Proof.
  intros b. split; [apply repeat_length|]. apply Forall_forall. intros c H. apply repeat_spec in H as ->. apply nth_In.
  change (List.length (u "0123456789abcdef")) with 16. pose proof (N.mod_lt (fold_right N.add 0%N b) 16). lia.
Qed.
Definition root_w : path := Path true [u "home"; u "me"; u "cache"].
Lemma root_w_resolved : resolved root_w.
Proof. split; [reflexivity|]. repeat constructor; try discriminate; vm_compute; intuition discriminate. Qed.
Definition config_w : json := JObj [(u "a", JBool true); (u "b", JInt 1)].
Definition config_w' : json := JObj [(u "b", JInt 1); (u "a", JBool true)].
Definition config_x : json := JObj [(u "a", JBool true); (u "b", JInt 2)].
Definition key_w (c : json) : key := Key (u "zh_tn") (u "tn") c (JObj [(u "abi", JInt 1)]) (u "00ff").
Lemma config_ok n m x y : n <> m -> json_wf (JObj [(n, JBool x); (m, JInt y)]) /\ json_wf (JObj [(m, JInt y); (n, JBool x)]).
Proof. intros H. split; constructor; cbn; repeat constructor; cbn; intuition congruence. Qed.
Lemma key_w_wf c : json_wf c -> key_wf (key_w c).
Proof. intros H. split; [assumption|]. repeat constructor. intros []. Qed.

(** C33: two keys whose bundles have the same path have the same prefix, order type,
    configuration, builder identity and fingerprint, unless SHA-256 collides on one of
    the two named pairs of byte strings. *)
Theorem C33_keys_apart : forall sha, hex_digests sha -> forall cwd root k k' b b', key_wf k -> key_wf k' ->
  make_bundle sha cwd root k = inr b -> make_bundle sha cwd root k' = inr b' -> b_path b = b_path b' ->
  same_key k k' \/
  (exists x y, canonical_json (config_identity (k_prefix k) (k_ordertype k) (k_config k)) = Some x
     /\ canonical_json (config_identity (k_prefix k') (k_ordertype k') (k_config k')) = Some y /\ clash sha x y) \/
  (exists x y, canonical_json (bundle_identity (k_builder k) (b_config_digest b) (k_fingerprint k)) = Some x
     /\ canonical_json (bundle_identity (k_builder k') (b_config_digest b') (k_fingerprint k')) = Some y /\ clash sha x y).
Proof. exact keys_differ. Qed.
Print Assumptions C33_keys_apart.
(** C33: the same data gives the same paths, whatever the order of the keys. *)
Theorem C33_same_data : forall sha cwd root k k', key_wf k -> key_wf k' -> same_key k k' ->
  make_bundle sha cwd root k = make_bundle sha cwd root k'.
Proof. exact same_make. Qed.
Print Assumptions C33_same_data.
(** C33: locks and residuals of bundles with different paths are different as well, and
    none of them is the path of a bundle. *)
Theorem C33_names_apart : forall sha, hex_digests sha -> forall cwd root k k' b b',
  make_bundle sha cwd root k = inr b -> make_bundle sha cwd root k' = inr b' ->
  (b_lock b = b_lock b' -> b_path b = b_path b')
  /\ (forall m x m' x', ~ In 47%N m -> ~ In 47%N x -> ~ In 47%N m' -> ~ In 47%N x' ->
        residual_path b m x = residual_path b' m' x' -> b_path b = b_path b')
  /\ (forall m x, ~ In 47%N m -> ~ In 47%N x -> residual_path b m x <> b_path b')
  /\ b_lock b <> b_path b'.
Proof. exact names_apart. Qed.
Print Assumptions C33_names_apart.
(** Three keys: the first two differ in the order of their configuration only. *)
Definition path_of (k : key) : option path := match make_bundle sum_sha [] root_w k with inr b => Some (b_path b) | inl _ => None end.
Example C33_witness : key_wf (key_w config_w) /\ key_wf (key_w config_w') /\ key_wf (key_w config_x) /\
  same_key (key_w config_w) (key_w config_w') /\ config_w <> config_w' /\ ~ same_key (key_w config_w) (key_w config_x) /\
  path_of (key_w config_w) <> None /\ path_of (key_w config_w) = path_of (key_w config_w') /\
  path_of (key_w config_x) <> None /\ path_of (key_w config_w) <> path_of (key_w config_x).
Proof.
  assert (N : u "a" <> u "b") by discriminate.
  split; [apply key_w_wf, (config_ok _ _ true 1%Z N)|]. split; [apply key_w_wf, (config_ok _ _ true 1%Z N)|].
  split; [apply key_w_wf, (config_ok _ _ true 2%Z N)|].
  split.
  { split; [reflexivity|]. split; [reflexivity|]. split.
    { apply same_obj with (m' := [(u "a", JBool true); (u "b", JInt 1)]); [apply perm_swap|]. repeat constructor. }
    split; [|reflexivity]. eapply same_obj; [apply Permutation_refl|]. repeat constructor. }
  split; [discriminate|]. split.
  { intros (_ & _ & S & _). cbn in S. inversion S as [| | | | |l m m' P F]; subst.
    assert (I : In (u "b", JInt 2) m') by (apply Permutation_in with (1 := P); right; now left).
    clear -F I. inversion F as [|? ? ? ? (E1 & J1) F1]; subst. inversion F1 as [|? ? ? ? (E2 & J2) F2]; subst. inversion F2; subst.
    destruct I as [I|[I|[]]]; subst; cbn in *; [discriminate|]. inversion J2. }
  repeat split; vm_compute; discriminate.
Qed.

(** C37: every accepted key has its bundle, its lock and its residuals strictly below the
    root, in the directory named by the prefix and the configuration digest. *)
Theorem C37_below_root : forall sha, hex_digests sha -> forall cwd root k b, make_bundle sha cwd root k = inr b ->
  exists c d, List.length c = 64 /\ List.length d = 64 /\ c = b_config_digest b /\ d = b_digest b /\
  reached root [k_prefix k; c] (b_parent b) /\ reached root [k_prefix k; c; d] (b_path b)
  /\ reached root [k_prefix k; c; u "." ++ d ++ u ".lock"] (b_lock b)
  /\ forall mid x, ~ In 47%N mid -> ~ In 47%N x -> reached root [k_prefix k; c; u "." ++ d ++ mid ++ x] (residual_path b mid x).
Proof. exact make_paths. Qed.
Print Assumptions C37_below_root.
(** C37: exactly the safe prefixes are accepted. *)
Theorem C37_prefixes : forall sha, hex_digests sha -> forall cwd root k,
  (~ safe_prefix (k_prefix k) -> make_bundle sha cwd root k = inl EValue)
  /\ (safe_prefix (k_prefix k) -> resolved root -> key_encodable k -> exists b, make_bundle sha cwd root k = inr b).
Proof. intros sha H cwd root k. split; [exact (make_refuses sha cwd root k)|]. intros S R E. exact (make_total sha H cwd root k R E S). Qed.
Print Assumptions C37_prefixes.
(** C37: the check of every path the cache is about to use accepts exactly the paths
    that lie at or below the root once ".." is resolved. *)
Theorem C37_check : forall cwd root p, resolved root -> (under_root cwd root p = true <-> exists q, located cwd p (parts root ++ q)).
Proof. exact under_root_spec. Qed.
Print Assumptions C37_check.
Example C37_witness : resolved root_w /\ path_of (key_w config_w) <> None /\ safe_prefix (u "zh_tn") /\
  ~ safe_prefix (u "..") /\ ~ safe_prefix (u "a/b") /\ ~ safe_prefix [] /\
  under_root [] root_w (parse_path (u "/home/me/cache/x/../../cache/y")) = true /\
  under_root [] root_w (parse_path (u "/home/me/cache/../other")) = false /\
  under_root [u "home"; u "me"] root_w (parse_path (u "cache/y")) = true.
Proof.
  split; [exact root_w_resolved|]. split; [vm_compute; discriminate|]. split; [apply prefix_ok_spec; reflexivity|].
  split; [intros (_ & _ & _ & H); now apply H|]. split.
  { intros H. apply prefix_ok_spec in H. vm_compute in H. discriminate H. }
  split; [intros (H & _); now apply H|]. repeat split; vm_compute; reflexivity.
Qed.

(** C34: the stream under the digest depends on the participating files only, not on
    the order in which the file system lists them nor on any other file. *)
Theorem C34_stable : forall a b, tree_ok a -> tree_ok b -> same_sources a b -> fingerprint_stream a = fingerprint_stream b.
Proof. exact stream_stable. Qed.
Print Assumptions C34_stable.
(** C34: editing or renaming one participating file changes the stream, and so does
    adding one. *)
Theorem C34_edit : forall a b R s s', tree_ok a -> tree_ok b -> takes_part s -> takes_part s' ->
  Permutation a (s :: R) -> Permutation b (s' :: R) -> s <> s' -> fingerprint_stream a <> fingerprint_stream b.
Proof. exact stream_replace. Qed.
Print Assumptions C34_edit.
Theorem C34_add : forall a b s, tree_ok a -> tree_ok b -> takes_part s -> Permutation b (s :: a) ->
  fingerprint_stream a <> fingerprint_stream b.
Proof. exact stream_add. Qed.
Print Assumptions C34_add.
(** C34: between trees whose participating files contain no zero byte (as Python and TSV
    sources do not) any difference at all changes the stream. *)
Theorem C34_text_trees : forall a b, tree_ok a -> tree_ok b -> (forall s, In s a \/ In s b -> takes_part s -> ~ In 0%N (snd s)) ->
  fingerprint_stream a = fingerprint_stream b -> same_sources a b.
Proof. exact stream_inj. Qed.
Print Assumptions C34_text_trees.
(** Every tree of encodable names has a stream. *)
Theorem C34_total : forall t, tree_ok t -> exists x, fingerprint_stream t = Some x.
Proof. exact stream_some. Qed.
Print Assumptions C34_total.
(** Small trees for the witnesses. *)
Definition plainb (n : text) : bool :=
  negb (text_eqb n []) && negb (text_eqb n (u ".")) && negb (text_eqb n (u "..")) && forallb (fun c => negb (c =? 47)%N) n.
Lemma plainb_plain n : plainb n = true -> plain n.
Proof.
  unfold plainb. rewrite !andb_true_iff, !negb_true_iff. intros (((A & B) & C) & D).
  split; [intros ->; now rewrite text_eqb_refl in A|]. split.
  { intros I. rewrite forallb_forall in D. specialize (D _ I). cbn in D. discriminate D. }
  split; intros ->; [now rewrite text_eqb_refl in B|now rewrite text_eqb_refl in C].
Qed.
Definition source_okb (s : source) : bool :=
  negb (parts_eqb (fst s) []) && forallb plainb (fst s)
  && match encode (join [47%N] (fst s)) with Some b => (N.of_nat (List.length b) <? 2 ^ 56)%N | None => false end.
Lemma tree_okb t : NoDup (map fst t) -> forallb source_okb t = true -> tree_ok t.
Proof.
  intros N H. split; [assumption|]. apply Forall_forall. intros s I. rewrite forallb_forall in H. specialize (H s I).
  unfold source_okb in H. rewrite !andb_true_iff, negb_true_iff in H. destruct H as ((A & B) & C).
  split; [intros E; rewrite E in A; discriminate A|]. split.
  - apply Forall_forall. intros p J. apply plainb_plain. rewrite forallb_forall in B. exact (B p J).
  - destruct (encode (join [47%N] (fst s))) as [b|]; [|discriminate]. exists b. split; [reflexivity|]. now apply N.ltb_lt.
Qed.
Lemma takes_partb t s : tree_ok t -> In s t -> included s = true -> takes_part s.
Proof. intros T I H. apply included_spec; [exact (ok_plain t s T I)|exact H]. Qed.
Definition a_py : list text := [u "tn"; u "a.py"].
Definition b_far : list text := [u "itn"; u "x"; u "b.far"].
Definition readme : list text := [u "README.md"].
Definition tree1 : list source := [(readme, u "hello"); (b_far, [1; 0; 2]%N); (a_py, u "import x")].
Definition tree2 : list source := [(a_py, u "import x"); (b_far, [1; 0; 2]%N); (readme, u "changed")].
Definition tree3 : list source := [(a_py, u "import y"); (b_far, [1; 0; 2]%N); (readme, u "changed")].
Ltac distinct := cbn; repeat constructor; cbn; intuition discriminate.
Lemma tree1_ok : tree_ok tree1. Proof. apply tree_okb; [distinct|vm_compute; reflexivity]. Qed.
Lemma tree2_ok : tree_ok tree2. Proof. apply tree_okb; [distinct|vm_compute; reflexivity]. Qed.
Lemma tree3_ok : tree_ok tree3. Proof. apply tree_okb; [distinct|vm_compute; reflexivity]. Qed.
Example C34_witness : tree_ok tree1 /\ tree_ok tree2 /\ tree_ok tree3 /\ same_sources tree1 tree2 /\ ~ same_sources tree2 tree3 /\
  takes_part (a_py, u "import x") /\ fingerprint_stream tree1 = fingerprint_stream tree2 /\ fingerprint_stream tree2 <> fingerprint_stream tree3.
Proof.
  assert (P : takes_part (a_py, u "import x")) by (apply takes_partb with tree2; [exact tree2_ok|now left|vm_compute; reflexivity]).
  split; [exact tree1_ok|]. split; [exact tree2_ok|]. split; [exact tree3_ok|]. split.
  { apply same_filter; [exact tree1_ok|exact tree2_ok|]. apply perm_swap. }
  split. { intros H. apply H in P. destruct P as (P & _). specialize (P (or_introl eq_refl)).
    destruct P as [P|[P|[P|[]]]]; discriminate P. }
  split; [exact P|]. split; [vm_compute; reflexivity|vm_compute; discriminate].
Qed.
(** C34 fails in general: the content lengths are not hashed, so a file can be cut in two
    without a change of the stream, wherever its content spells the header of the
    second file. *)
Theorem C34_framing_refuted : exists a b, tree_ok a /\ tree_ok b /\ ~ same_sources a b /\ fingerprint_stream a = fingerprint_stream b.
Proof.
  exists [([u "tn"; u "a.far"], u "one" ++ len8 8 ++ u "tn/b.far" ++ u "two")],
         [([u "tn"; u "a.far"], u "one"); ([u "tn"; u "b.far"], u "two")].
  assert (A : tree_ok [([u "tn"; u "a.far"], u "one" ++ len8 8 ++ u "tn/b.far" ++ u "two")]) by (apply tree_okb; [distinct|vm_compute; reflexivity]).
  assert (B : tree_ok [([u "tn"; u "a.far"], u "one"); ([u "tn"; u "b.far"], u "two")]) by (apply tree_okb; [distinct|vm_compute; reflexivity]).
  split; [exact A|]. split; [exact B|]. split; [|vm_compute; reflexivity].
  intros H. assert (P : takes_part ([u "tn"; u "b.far"], u "two")) by (apply (takes_partb _ _ B); [right; now left|vm_compute; reflexivity]).
  apply H in P. destruct P as (_ & P). specialize (P (or_intror (or_introl eq_refl))). destruct P as [P|[]]. discriminate P.
Qed.
Print Assumptions C34_framing_refuted.

(** C39: where the home directories are absolute, as pwd and HOME should have them, the
    default directory is absolute; a failure to find a home is the only other result. *)
Theorem C39_absolute : forall e p, (forall h, home_of e = Some h -> absolute_text h) ->
  (forall n h, user_home e n = Some h -> absolute_text h) ->
  default_cache_dir e = Some p -> absolute p = true /\ path_name p = u "wetextprocessing".
Proof. exact default_absolute. Qed.
Print Assumptions C39_absolute.
(** C39: an absolute XDG_CACHE_HOME is used, a relative one is ignored (one that starts
    with a tilde is expanded first: "~/r" is r below the home, "~name/r" below that user's
    home), and without one the directory is below the home. *)
Theorem C39_override : forall e,
  (forall r, xdg_cache_home e = Some (47%N :: r) ->
     default_cache_dir e = Some (Path true (parts (parse_path (47%N :: r)) ++ [u "wetextprocessing"]))) /\
  (forall x, xdg_cache_home e = Some x -> hd_error x <> Some 47%N -> (forall t, In t (parts (parse_path x)) -> hd_error t <> Some 126%N) ->
     default_cache_dir e = default_cache_dir (without_xdg e)) /\
  (forall h, xdg_cache_home e = None -> home_of e = Some h -> absolute_text h ->
     default_cache_dir e = Some (Path true (parts (parse_path h) ++ (if darwin e then [u "Library"; u "Caches"] else [u ".cache"]) ++ [u "wetextprocessing"]))) /\
  (forall n r h, xdg_cache_home e = Some (126%N :: n ++ 47%N :: r) -> ~ In 47%N n ->
     (n = [] /\ home_of e = Some h) \/ (n <> [] /\ user_home e n = Some h) -> absolute_text h ->
     default_cache_dir e = Some (Path true (parts (parse_path h) ++ parts (parse_path r) ++ [u "wetextprocessing"]))).
Proof.
  intros e. split; [exact (default_xdg e)|]. split; [exact (default_relative e)|].
  split; [exact (default_home e)|exact (default_tilde e)].
Qed.
Print Assumptions C39_override.
Definition env_h (x h : option text) : environ := Environ x h (Some (u "/root")) (fun n => if text_eqb n (u "you") then Some (u "/home/you") else None) false.
Example C39_witness :
  (forall x h, h = None \/ h = Some (u "/home/me/") -> (forall t, home_of (env_h x h) = Some t -> absolute_text t)
     /\ forall n t, user_home (env_h x h) n = Some t -> absolute_text t) /\
  default_cache_dir (env_h None (Some (u "/home/me/"))) = Some (parse_path (u "/home/me/.cache/wetextprocessing")) /\
  default_cache_dir (env_h (Some (u "rel/x")) None) = Some (parse_path (u "/root/.cache/wetextprocessing")) /\
  default_cache_dir (env_h (Some (u "~you/x")) None) = Some (parse_path (u "/home/you/x/wetextprocessing")) /\
  default_cache_dir (env_h (Some (u "/x//y/")) None) = Some (parse_path (u "/x/y/wetextprocessing")).
Proof.
  split; [|repeat split; vm_compute; reflexivity]. intros x h H. split.
  - intros t. unfold home_of, env_h. cbn [home_var own_home]. destruct H as [->| ->]; intros E; injection E as <-; right; eexists; reflexivity.
  - intros n t. unfold env_h. cbn [user_home]. destruct (text_eqb n (u "you")); [|discriminate]. intros E. injection E as <-. right. eexists. reflexivity.
Qed.
(** C39 fails for a relative HOME: the cache then moves with the working directory. *)
Theorem C39_relative_home_refuted : exists e p, default_cache_dir e = Some p /\ absolute p = false.
Proof. exists (env_h None (Some (u "me"))). eexists. split; [vm_compute; reflexivity|reflexivity]. Qed.
Print Assumptions C39_relative_home_refuted.

(** C52: two pipelines whose bundles have the same path are the same pipeline with the
    same values of every option its grammar reads, and were built by the same builder
    from the same sources, unless SHA-256 collides on one of the two named pairs. *)
Theorem C52_options_in_key : forall sha, hex_digests sha -> forall cwd root p q v v' f f' b b',
  Forall json_wf (options p) -> Forall json_wf (options q) -> json_wf v -> json_wf v' ->
  make_bundle sha cwd root (pipeline_key p v f) = inr b -> make_bundle sha cwd root (pipeline_key q v' f') = inr b' ->
  b_path b = b_path b' ->
  let k := pipeline_key p v f in let k' := pipeline_key q v' f' in
  (same_grammar p q /\ json_same v v' /\ f = f') \/
  (exists x y, canonical_json (config_identity (k_prefix k) (k_ordertype k) (k_config k)) = Some x
     /\ canonical_json (config_identity (k_prefix k') (k_ordertype k') (k_config k')) = Some y /\ clash sha x y) \/
  (exists x y, canonical_json (bundle_identity v (b_config_digest b) f) = Some x
     /\ canonical_json (bundle_identity v' (b_config_digest b') f') = Some y /\ clash sha x y).
Proof.
  intros sha HS cwd root p q v v' f f' b b' Wp Wq Wv Wv' Mb Mb' E k k'.
  assert (Ek : k_builder k = v /\ k_fingerprint k = f) by (destruct p; split; reflexivity).
  assert (Ek' : k_builder k' = v' /\ k_fingerprint k' = f') by (destruct q; split; reflexivity).
  destruct (keys_differ sha HS cwd root k k' b b' (pipeline_wf p f v Wp Wv) (pipeline_wf q f' v' Wq Wv') Mb Mb' E) as [S|[C|C]].
  - left. exact (pipeline_same p q f f' v v' Wq S).
  - right. left. exact C.
  - right. right. destruct Ek as (E1 & E2), Ek' as (E3 & E4). rewrite E1, E2, E3, E4 in C. exact C.
Qed.
Print Assumptions C52_options_in_key.
(** Two Chinese normalizers that differ in one option. *)
Definition zh (erhua : bool) : pipeline := ZhTn (JBool true) (JBool erhua) (JBool true) (JBool false) (JBool true) (JBool false).
Example C52_witness : Forall json_wf (options (zh true)) /\ ~ same_grammar (zh true) (zh false) /\
  path_of (pipeline_key (zh true) JNull (u "00")) <> None /\ path_of (pipeline_key (zh false) JNull (u "00")) <> None /\
  path_of (pipeline_key (zh true) JNull (u "00")) <> path_of (pipeline_key (zh false) JNull (u "00")).
Proof.
  split; [repeat constructor|]. split.
  { intros (_ & F). cbn in F. inversion F as [|? ? ? ? (_ & J) _]; subst. cbn in J. inversion J. }
  repeat split; vm_compute; discriminate.
Qed.
