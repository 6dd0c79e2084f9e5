(** The manifest as the code writes and reads it is read back (first part of
    [format_ok]). *)
From Coq Require Import List NArith ZArith Bool Arith Lia String.
From Verif Require Import Text TextFacts AlignSpec CacheModel JsonSpec JsonModel JsonProofs JsonDict CacheSpec CacheLoad.
Import ListNotations.
Local Open Scope list_scope.

(** _write_manifest (cache.py:816-822); what it writes when a string cannot be encoded
    is never used. *)
Definition write_manifest (j : json) : bytes := match manifest_bytes j with Some b => b | None => [] end.
(** The strings in a manifest are UTF-8 encodable: the hexadecimal digests and the
    identity. *)
Definition identity_encodable (en : env) : Prop :=
  (forall b, encodable (sha en b)) /\ forall k v, In (k, v) (identity en) -> encodable k /\ json_encodable v.
Lemma manifest_read_back en p : loads en = json_loads -> dumps en = write_manifest -> identity_ok en -> identity_encodable en ->
  exists m, loads en (content en p FMan) = Some m /\ json_same m (manifest_of en (fst p) (snd p)).
Proof.
  intros L D IO [ES EI]. cbn [content]. rewrite L, D. unfold write_manifest.
  pose proof (manifest_wf en (fst p) (snd p) IO) as W.
  assert (E : json_encodable (manifest_of en (fst p) (snd p))).
  { assert (FE : forall b, json_encodable (file_entry en b)).
    { intros b. constructor; cbn [map fst snd]; constructor; try constructor; try constructor; try constructor; try (apply ascii_encodable; reflexivity); apply ES. }
    constructor; rewrite map_app, Forall_app; split.
    - apply Forall_forall. intros k I. apply in_map_iff in I as ([k' v] & <- & I). apply (EI _ _ I).
    - constructor; [apply ascii_encodable; reflexivity|constructor].
    - apply Forall_forall. intros k I. apply in_map_iff in I as ([k' v] & <- & I). apply (EI _ _ I).
    - constructor; [|constructor]. cbn [snd]. constructor; cbn [map fst snd].
      + constructor; [apply ascii_encodable; reflexivity|]. constructor; [apply ascii_encodable; reflexivity|constructor].
      + constructor; [apply FE|]. constructor; [apply FE|constructor]. }
  destruct (manifest_total _ E) as [b Eb]. rewrite Eb. exists (sorted (manifest_of en (fst p) (snd p))). split; [|apply sorted_same].
  now apply manifest_loads.
Qed.
