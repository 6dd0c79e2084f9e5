(** Concrete caches and schedules for PropsCache.v, computed. *)
From Coq Require Import List NArith ZArith Bool Arith Lia Permutation String.
From Verif Require Import Text TextFacts CacheModel AlignSpec JsonModel JsonSpec JsonProofs CacheSpec CacheLoad CacheJson CacheRG CacheInv CacheLive CacheRun.
Import ListNotations.
Local Open Scope list_scope.

Definition p0 : pub := ([1; 2; 3]%N, [4; 5]%N).
Definition p1 : pub := ([6; 7; 8; 9]%N, [4; 5; 5]%N).
Definition ident : list (text * json) := [(u "schema_version", JInt 2); (u "prefix", JStr (u "zh_tn"))].
(** One letter per byte. *)
Definition toy_sha (b : bytes) : text := map (fun x => 97 + N.min x 25)%N b.
Definition en_w : env := Env toy_sha json_loads write_manifest (fun b => negb (List.length b =? 0)) ident 1000 1000 1000.
Definition sane_w (p : pub) : Prop := p = p0 \/ p = p1.
Definition w0 : world := World (fun _ => false) sane_w true.
(** A world in which moving a new directory in may fail. *)
Definition w1 : world := World (fun c => match c with CRename (NTmp _) NFinal => true | _ => false end) sane_w true.
Definition builds_w (i : nat) : pub := match i with 0 => p0 | _ => p1 end.
Lemma sane_builds i : sane_w (builds_w i). Proof. destruct i; [now left|now right]. Qed.
Lemma w0_no_faults : no_faults w0. Proof. intros c. reflexivity. Qed.
Lemma en_w_identity : identity_ok en_w.
Proof.
  split; [|split].
  - cbn [en_w identity ident map fst]. repeat constructor; cbn; vm_compute; intuition discriminate.
  - intros [E|[E|[]]]; vm_compute in E; discriminate E.
  - intros k v [E|[E|[]]]; injection E as <- <-; constructor.
Qed.
Lemma en_w_encodable : identity_encodable en_w.
Proof.
  split.
  - intros b. apply ascii_encodable. cbn [en_w sha]. unfold toy_sha. induction b as [|x b IH]; [reflexivity|]. cbn [map forallb]. rewrite IH, andb_true_r.
    apply N.ltb_lt. lia.
  - intros k v [E|[E|[]]]; injection E as <- <-; (split; [apply ascii_encodable; reflexivity|constructor]). apply ascii_encodable; reflexivity.
Qed.
Lemma w0_formats : forall p, sane w0 p -> format_ok en_w p.
Proof.
  intros p H. split; [apply manifest_read_back; [reflexivity|reflexivity|apply en_w_identity|apply en_w_encodable]|]. revert H. intros [->| ->]; (split; [vm_compute; discriminate|]; split; [vm_compute; discriminate|];
    intros fn [->| ->]; (split; [reflexivity|]; split; vm_compute; discriminate)).
Qed.
(** An unused key, beside an unrelated file. *)
Definition s_w : st :=
  St (fun n => match n with NOther 0 => Some EReg | _ => None end) (fun _ _ => None) (fun _ => []) 1 None (fun _ => None) (fun _ => false) (fun _ => false) [].
Lemma s_w_fresh : fresh_key s_w.
Proof.
  split; [intros []; cbn; auto|]. split.
  { split; [exists [NOther 0]; intros [| | | |[|i]]; cbn; try congruence; auto|]. intros d. exists []. cbn. congruence. }
  split; [intros [|i] d; cbn; discriminate|]. repeat split.
Qed.
Lemma s_w_covers : covers [NOther 0] s_w.
Proof. split; [intros [| | | |[|i]]; cbn; try congruence; auto|]. cbn. congruence. Qed.

(** What a schedule reaches. *)
Definition played w cl l : config := fst (play w builds_w l (start en_w cl s_w) [NOther 0]).
Lemma played_ok w cl l : (forall i, sane w (builds_w i)) -> exists g, reach w true (start en_w cl s_w) g /\ same g (played w cl l).
Proof.
  intros S. destruct (play_ok w builds_w S l (start en_w cl s_w) [NOther 0]) as (g & R & E & _); [|apply s_w_covers|eauto].
  intros i p E. cbn in E. injection E as <-. apply wf_client.
Qed.
Definition played_on w cl l l' : config :=
  fst (play w builds_w l' (played w cl l) (snd (play w builds_w l (start en_w cl s_w) [NOther 0]))).
Lemma played_on_ok w cl l l' : (forall i, sane w (builds_w i)) -> exists g1 g, reach w true (start en_w cl s_w) g1 /\ same g1 (played w cl l) /\
  reach w true g1 g /\ same g (played_on w cl l l').
Proof.
  intros S. destruct (play_ok w builds_w S l (start en_w cl s_w) [NOther 0]) as (g1 & R1 & E1 & C1); [|apply s_w_covers|].
  { intros i p E. cbn in E. injection E as <-. apply wf_client. }
  assert (W1 : forall i p, thr g1 i = Some p -> wf p) by (intros i p; apply (reach_live en_w w true cl s_w g1 s_w_fresh R1)).
  destruct (play_ok w builds_w S l' (fst (play w builds_w l (start en_w cl s_w) [NOther 0])) (snd (play w builds_w l (start en_w cl s_w) [NOther 0]))) as (g2 & R2 & E2 & _); [|exact C1|].
  { intros i p H. apply (W1 i). rewrite (proj2 E1). exact H. }
  destruct (same_reach w true _ g1 g2 (CacheRun.same_sym _ _ E1) R2) as (g3 & R3 & E3).
  exists g1, g3. split; [assumption|]. split; [assumption|]. split; [assumption|]. eapply CacheRun.same_trans; [apply CacheRun.same_sym; exact E3|exact E2].
Qed.

(** Process 0 builds, process 1 overwrites and is killed between the two renames. *)
Definition cl_w (i : nat) : client := match i with 0 => Builder false | 1 => Builder true | 2 => Builder false | _ => Reader end.
