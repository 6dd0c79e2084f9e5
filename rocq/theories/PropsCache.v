(** C26-C31: the on-disk cache bundle. *)
From Coq Require Import List NArith ZArith Bool Arith Lia String.
From Verif Require Import Text TextFacts CacheModel JsonSpec JsonModel JsonProofs CacheSpec CacheSeq2 CacheLive CacheProofs CacheJson CacheRun CacheWitness.
Import ListNotations.
Local Open Scope list_scope.

(** C26: load, from every state of the file system whatsoever, changes nothing, and
    returns graphs only when the bundle directory passes every check of [genuine]. *)
Theorem C26_load_checks : forall en w me s r s', runs w me (load en) s r s' ->
  s' = s /\ forall p, r = inr (Some p) -> exists d, par s NFinal = Some (EDir d) /\ genuine en s d p.
Proof. exact load_sound. Qed.
Print Assumptions C26_load_checks.
(** C26: with the manifest of publication [q] in the directory, nothing but [q] is
    returned, whatever happened to the other files, unless a graph of the same size and
    the same SHA-256 digest has been put in its place. *)
Theorem C26_load_published : forall en w me s r s' q d f m, runs w me (load en) s r s' ->
  identity_ok en -> loads en (content en q FMan) = Some m -> json_same m (manifest_of en (fst q) (snd q)) ->
  par s NFinal = Some (EDir d) -> dirs s d FMan = Some (FReg f) -> files s f = content en q FMan ->
  forall p, r = inr (Some p) -> p = q \/
    exists a b, a <> b /\ size_of a = size_of b /\ sha en a = sha en b /\ ((a = fst p /\ b = fst q) \/ (a = snd p /\ b = snd q)).
Proof. exact load_unaltered. Qed.
Print Assumptions C26_load_published.
(** C26: and an intact publication is loaded, when no call fails. *)
Theorem C26_load_complete : forall en w me s r s' p, no_faults w -> identity_ok en -> format_ok en p -> bundle_is en s p ->
  runs w me (load en) s r s' -> r = inr (Some p).
Proof. exact load_complete. Qed.
Print Assumptions C26_load_complete.
(** C26: the manifest that is written, as JSON text in UTF-8, is what is read back, up to
    the order of keys. *)
Theorem C26_manifest_read_back : forall en p, loads en = json_loads -> dumps en = write_manifest -> identity_ok en -> identity_encodable en ->
  exists m, loads en (content en p FMan) = Some m /\ json_same m (manifest_of en (fst p) (snd p)).
Proof. exact manifest_read_back. Qed.
Print Assumptions C26_manifest_read_back.
(** The state after one build, and the same with one byte of the tagger altered. *)
Definition after_build : st := cst (played w0 cl_w [Run 0 1000]).
Definition altered : st := match dirs after_build 1 FTag with Some (FReg f) => upd_file after_build f [1; 2; 4]%N | _ => s_w end.
Definition loaded (s : st) : option (exn + option pub) :=
  match go w0 builds_w 1000 7 (load en_w) s [NFinal] with (Ret r, _, _) => Some r | _ => None end.
Example C26_witness : loaded after_build = Some (inr (Some p0)) /\ loaded altered = Some (inr None) /\
  identity_ok en_w /\ format_ok en_w p0 /\ identity_encodable en_w.
Proof.
  split; [vm_compute; reflexivity|]. split; [vm_compute; reflexivity|]. split; [apply en_w_identity|]. split; [apply w0_formats; now left|].
  apply en_w_encodable.
Qed.

(** C27: at every moment of every execution of any number of processes reading,
    building, overwriting, recovering, repairing and publishing, with failing system
    calls and crashes anywhere, the bundle path is absent or is a directory with
    exactly the three files of one build. *)
Theorem C27_never_partial : forall en w cl crashes s0, fresh_key s0 -> forall g, reach w crashes (start en cl s0) g ->
  par (cst g) NFinal = None \/ exists p, In p (built (cst g)) /\ bundle_is en (cst g) p.
Proof. exact always_complete. Qed.
Print Assumptions C27_never_partial.
(** A process killed between the two renames of an overwriting publish, beside a reader
    that has opened the old directory. *)
Definition torn : config := played w0 cl_w [Run 0 1000; Run 3 4; Run 1 111; Crash 1].
Example C27_witness : exists g, reach w0 true (start en_w cl_w s_w) g /\ cst g = cst torn /\
  par (cst torn) NFinal = None /\ par (cst torn) (NPrev 3) = Some (EDir 1) /\ par (cst torn) (NTmp 2) = Some (EDir 5) /\ lock (cst torn) = None.
Proof.
  destruct (played_ok w0 cl_w [Run 0 1000; Run 3 4; Run 1 111; Crash 1] sane_builds) as (g & R & E & _).
  exists g. split; [assumption|]. split; [assumption|]. repeat split; vm_compute; reflexivity.
Qed.

(** C28: whatever graphs a process returns, with or without the lock, were together at
    the bundle path at one earlier moment. *)
Theorem C28_one_publication : forall en w cl crashes s0, fresh_key s0 -> forall g i p,
  reach w crashes (start en cl s0) g -> finished g i (inr (Some p)) ->
  exists g1, reach w crashes (start en cl s0) g1 /\ reach w crashes g1 g /\ bundle_is en (cst g1) p.
Proof. exact result_published. Qed.
Print Assumptions C28_one_publication.
(** The reader opens the first bundle and reads it while it is being replaced; another
    finds its files removed under its hands. *)
Example C28_witness :
  (exists g, reach w0 true (start en_w cl_w s_w) g /\ finished g 3 (inr (Some p0)) /\ bundle_is en_w (cst g) p1) /\
  (exists g, reach w0 true (start en_w cl_w s_w) g /\ finished g 3 (inr None) /\ bundle_is en_w (cst g) p1).
Proof.
  split.
  - destruct (played_ok w0 cl_w [Run 0 1000; Run 3 4; Run 1 112; Run 3 1000; Run 1 1000] sane_builds) as (g & R & E & T).
    exists g. split; [assumption|]. split; [unfold finished; rewrite T; vm_compute; reflexivity|].
    rewrite E. exists 5. split; [vm_compute; reflexivity|]. split; [|intros i; vm_compute; reflexivity].
    intros [] K; try discriminate K; (eexists; split; [vm_compute; reflexivity|vm_compute; reflexivity]).
  - destruct (played_ok w0 cl_w [Run 0 1000; Run 3 4; Run 1 1000; Run 3 1000] sane_builds) as (g & R & E & T).
    exists g. split; [assumption|]. split; [unfold finished; rewrite T; vm_compute; reflexivity|].
    rewrite E. exists 5. split; [vm_compute; reflexivity|]. split; [|intros i; vm_compute; reflexivity].
    intros [] K; try discriminate K; (eexists; split; [vm_compute; reflexivity|vm_compute; reflexivity]).
Qed.

(** C29: no system call fails, but processes are killed anywhere.  Once there has been
    a bundle, whenever the lock is free recovery under the lock puts back a bundle that
    was published, and build_fst without overwrite returns one without building. *)
Theorem C29_never_lost : forall en w, no_faults w -> identity_ok en -> (forall p, sane w p -> format_ok en p) ->
  forall cl, (forall i l, cl i <> Session l) -> forall s0, fresh_key s0 -> forall g1 g me,
  reach w true (start en cl s0) g1 -> par (cst g1) NFinal <> None -> reach w true g1 g -> lock (cst g) = None ->
  forall r s', runs w me (build_fst en false) (cst g) r s' ->
  built s' = built (cst g) /\ exists p, r = inr p /\ bundle_is en s' p /\
    exists g2, reach w true (start en cl s0) g2 /\ reach w true g2 g /\ bundle_is en (cst g2) p.
Proof. exact never_lost. Qed.
Print Assumptions C29_never_lost.
Theorem C29_recovered : forall en w, no_faults w -> identity_ok en -> (forall p, sane w p -> format_ok en p) ->
  forall cl, (forall i l, cl i <> Session l) -> forall s0, fresh_key s0 -> forall g1 g me,
  reach w true (start en cl s0) g1 -> par (cst g1) NFinal <> None -> reach w true g1 g -> lock (cst g) = None ->
  forall r s', runs w me (recover_residuals en) (upd_lock (cst g) (Some me)) r s' ->
  r = inr tt /\ exists p, bundle_is en s' p /\
    exists g2, reach w true (start en cl s0) g2 /\ reach w true g2 g /\ bundle_is en (cst g2) p.
Proof. exact recovered. Qed.
Print Assumptions C29_recovered.
(** C29: such a run exists from every reachable configuration: build_fst gets stuck
    nowhere. *)
Theorem C29_not_stuck : forall en w crashes cl s0 g me o, fresh_key s0 -> reach w crashes (start en cl s0) g ->
  (exists q, sane w q) -> exists r s', runs w me (build_fst en o) (cst g) r s'.
Proof. intros en w crashes cl s0 g me o F R S. exact (can_finish en w crashes cl s0 g me _ F R S (wf_build_fst en o)). Qed.
Print Assumptions C29_not_stuck.
Example C29_witness :
  (exists g1 g, reach w0 true (start en_w cl_w s_w) g1 /\ par (cst g1) NFinal <> None /\ reach w0 true g1 g /\
     lock (cst g) = None /\ par (cst g) NFinal = None) /\
  match thr (played w0 cl_w [Run 0 1000; Run 1 111; Crash 1; Run 2 1000]) 2 with Some (Ret r) => r = inr (Some p0) | _ => False end /\
  built (cst (played w0 cl_w [Run 0 1000; Run 1 111; Crash 1; Run 2 1000])) = [p1; p0].
Proof.
  split; [|split; vm_compute; reflexivity].
  destruct (played_on_ok w0 cl_w [Run 0 1000] [Run 1 111; Crash 1] sane_builds) as (g1 & g & R1 & [E1 _] & R & [E _]).
  exists g1, g. split; [assumption|]. split; [rewrite E1; vm_compute; discriminate|]. split; [assumption|].
  rewrite E. split; vm_compute; reflexivity.
Qed.

(** C30: publish under the lock, from any reachable state, with any failing calls:
    success means that the new graphs are the bundle; an exception means that the
    bundle is what it was, unless putting it back fails itself ([restore_works]: the
    existence tests and the rename back do not fail); and without failing calls publish
    succeeds. *)
Theorem C30_publish_atomic : forall en w cl crashes s0, fresh_key s0 -> forall g me p r s',
  reach w crashes (start en cl s0) g -> lock (cst g) = None ->
  runs w me (publish en p) (upd_built (upd_lock (cst g) (Some me)) p) r s' ->
  (r = inr tt -> bundle_is en s' p) /\
  (forall e, r = inl e -> restore_works w ->
     (par (cst g) NFinal = None -> par s' NFinal = None) /\ (forall q, bundle_is en (cst g) q -> bundle_is en s' q)) /\
  (no_faults w -> format_ok en p -> r = inr tt).
Proof. exact publish_atomic. Qed.
Print Assumptions C30_publish_atomic.
(** The rename of the new directory fails: the old bundle is back. *)
Definition failed : exn + unit * st :=
  match go w1 builds_w 1000 7 (publish en_w p1) (upd_built (upd_lock after_build (Some 7)) p1) [NFinal; NOther 0] with
  | (Ret (inl e), s, _) => inr (tt, s)
  | _ => inl XFuel
  end.
Example C30_witness : restore_works w1 /\
  match failed with
  | inr (_, s) => par s NFinal = Some (EDir 1) /\ par s (NTmp 1) = None /\ par s (NPrev 2) = None
  | inl _ => False
  end.
Proof. split; [split; intros; reflexivity|]. vm_compute. repeat split; reflexivity. Qed.

(** C31: a process that does not hold the lock changes nothing, except by taking the
    free lock; so while one process holds it no other process changes anything. *)
Theorem C31_mutual_exclusion : forall en w cl crashes s0, fresh_key s0 -> forall g i c k r s',
  reach w crashes (start en cl s0) g -> thr g i = Some (Op c k) -> step w i c (cst g) r s' ->
  lock (cst g) <> Some i -> s' = cst g \/ (lock (cst g) = None /\ s' = upd_lock (cst g) (Some i)).
Proof. exact only_holder. Qed.
Print Assumptions C31_mutual_exclusion.
(** C31: any number of processes ask for the same unused key without overwrite and none
    crashes: at most one build is ever made, and every process that has come back has
    the graphs of that build, or found nothing (a mere load), or gave up waiting for
    the lock. *)
Theorem C31_built_once : forall en w, no_faults w -> stable_sources w = true -> identity_ok en ->
  (forall p, sane w p -> format_ok en p) ->
  forall cl, (forall i, cl i = Reader \/ cl i = Builder false) -> forall s0, fresh_key s0 -> forall g,
  reach w false (start en cl s0) g ->
  List.length (built (cst g)) <= 1 /\
  forall i r, finished g i r -> r = inl XTimeout \/ r = inr None \/ exists p, r = inr (Some p) /\ built (cst g) = [p].
Proof. exact one_build. Qed.
Print Assumptions C31_built_once.
(** Three builders: one looks before the first has built and waits for the lock. *)
Definition cl_b (i : nat) : client := Builder false.
Definition crowd : config := played w0 cl_b [Run 0 4; Run 1 1; Run 0 1000; Run 1 1000; Run 2 1000].
Example C31_witness : built (cst crowd) = [p0] /\
  (forall i, i < 3 -> match thr crowd i with Some (Ret r) => r = inr (Some p0) | _ => False end) /\
  match thr (played w0 cl_b [Run 0 10; Run 1 1000]) 1 with Some (Ret r) => r = inl XTimeout | _ => False end.
Proof.
  split; [vm_compute; reflexivity|]. split; [|vm_compute; reflexivity].
  intros [|[|[|i]]] H; try lia; vm_compute; reflexivity.
Qed.
