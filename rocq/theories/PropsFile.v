(** C32, C35, C36 and C38: cleaning up, reading, writing and waiting. *)
From Coq Require Import List NArith ZArith QArith Bool Arith Lia String.
From Coq Require Import Floats.SpecFloat.
From Verif Require Import Text TextFacts CacheModel AlignSpec CacheSpec CacheRG CacheLoad CacheLive CacheRun CacheWitness FileSpec FileProofs LockModel LockSpec LockProofs.
Import ListNotations.
Local Open Scope nat_scope.
Local Open Scope list_scope.

(** C32: cleaning up [n] changes nothing, or [n] is a directory with nothing but links
    and regular bundle files in it and entries of this directory are gone, and at most
    then [n] itself.  Without failing calls: a missing [n] is a success, a flat
    directory is removed, anything else is left and refused. *)
Theorem C32_cleanup_effect : forall w me n best_effort s r s', runs w me (remove_flat_bundle n best_effort) s r s' ->
  (s' = s \/ exists d, par s n = Some (EDir d) /\ flat s d /\ trimmed n d s s') /\
  (r = inr true -> par s' n = None) /\
  (no_faults w -> match par s n with
                  | None => r = inr true
                  | Some (EDir d) => (flat s d -> r = inr true) /\ (~ flat s d -> r = inr false)
                  | Some _ => r = refused best_effort
                  end) /\
  (best_effort = true -> exists b, r = inr b).
Proof. exact cleanup_effect. Qed.
Print Assumptions C32_cleanup_effect.
(** C32: whatever other processes do meanwhile, so whatever the answers of the system
    calls are, only a directory that was seen, listed, checked entry by entry and opened
    again is touched: its listed entries are unlinked through the descriptor, and it is
    removed, which the system refuses if anything is left in it. *)
Theorem C32_cleanup_calls : forall n best_effort t c, calls_next (remove_flat_bundle n best_effort) t c -> allowed n t c.
Proof. exact cleanup_calls. Qed.
Print Assumptions C32_cleanup_calls.
(** Runs computed by CacheRun.v are runs. *)
Lemma go_runs w b me : (forall i, sane w (b i)) -> forall n T (p : prog T) s U a s' U', wf p -> covers U s ->
  go w b n me p s U = (Ret a, s', U') -> runs w me p s a s'.
Proof.
  intros S. induction n as [|n IH]; intros T p s U a s' U' W C G; destruct p as [x|c k]; cbn [go] in G.
  - injection G as -> -> ->. now split.
  - discriminate.
  - injection G as -> -> ->. now split.
  - destruct W as (W1 & W2). pose proof (CacheRun.answer_ok w b S me c s U C W1) as A. destruct (CacheRun.answer w b me c s U) as [[r s1] U1]. destruct A as (ST & C1).
    exists r, s1. split; [assumption|]. eapply IH; eauto.
Qed.
(** A set-aside bundle of three files, and one with a directory among them. *)
Definition prev_entries (bad : bool) (d : nat) (fn : fname) : option fentry :=
  if d =? 5 then match fn with FTag => Some (FReg 1) | FVerb => Some (if bad then FDir else FLink) | FMan => Some (FReg 2) | FOther _ => None end
  else if d =? 6 then match fn with FMan => Some (FReg 3) | _ => None end else None.
Definition s_prev (bad : bool) : st :=
  St (fun n => match n with NPrev 0 => Some (EDir 5) | NOther 0 => Some (EDir 6) | NPrev 1 => Some ELink | _ => None end) (prev_entries bad) (fun f => [1; 2]%N) 9 None
     (fun _ => None) (fun _ => false) (fun _ => false) [].
Definition U_prev : list name := [NPrev 0; NPrev 1; NOther 0].
Lemma covers_prev bad : covers U_prev (s_prev bad).
Proof.
  split.
  - intros [|i|[|[|i]]|i|[|i]]; cbn; intros H; try contradiction; auto.
  - intros d fn. cbn. unfold prev_entries. destruct (d =? 5), (d =? 6), fn; cbn; congruence.
Qed.
Definition cleaned (bad : bool) (n : name) : prog (exn + bool) * st * list name := go w0 builds_w 100 0 (remove_flat_bundle n true) (s_prev bad) U_prev.
Lemma wf_flat n be : wf (remove_flat_bundle n be).
Proof. unfold remove_flat_bundle, remove_flat_bundle_impl. wf_tac; first [apply wf_unlink_all|apply wf_removable]. Qed.
Example C32_witness : flat (s_prev false) 5 /\ ~ flat (s_prev true) 5 /\
  (exists s', runs w0 0 (remove_flat_bundle (NPrev 0) true) (s_prev false) (inr true) s' /\ par s' (NPrev 0) = None /\ dirs s' 6 FMan = Some (FReg 3)) /\
  runs w0 0 (remove_flat_bundle (NPrev 0) true) (s_prev true) (inr false) (s_prev true) /\
  runs w0 0 (remove_flat_bundle (NPrev 1) true) (s_prev true) (inr false) (s_prev true).
Proof.
  split. { intros [| | |i] e E; vm_compute in E; try discriminate E; injection E as <-; vm_compute; auto. }
  split. { intros F. destruct (F FVerb FDir eq_refl) as [X|(X & _)]; discriminate X. }
  split.
  { eexists. split; [eapply (go_runs w0 builds_w 0 sane_builds 100); [apply wf_flat|apply (covers_prev false)|vm_compute; reflexivity]|]. split; reflexivity. }
  split; (eapply (go_runs w0 builds_w 0 sane_builds 100); [apply wf_flat|apply (covers_prev true)|vm_compute; reflexivity]).
Qed.

(** C35: alone, for every series of short reads: the result is the content of the file
    exactly if the size is acceptable, and an integrity error otherwise. *)
Theorem C35_read_alone : forall en w me f expected limit s r s', runs w me (read_open_regular en (Some f) expected limit) s r s' ->
  s' = s /\ (forall b, r = inr b -> b = files s f /\ fits en expected limit b) /\
  (no_faults w -> fits en expected limit (files s f) -> r = inr (files s f)) /\
  (no_faults w -> ~ fits en expected limit (files s f) -> r = inl XIntegrity).
Proof. exact read_alone. Qed.
Print Assumptions C35_read_alone.
(** C35: while other processes do anything at all to the file: what is returned has the
    size of the file at the first and at the last call and is acceptable, and every byte
    of it was in its place at one of the calls between. *)
Theorem C35_read_among : forall en w me (E : st -> st -> Prop) f expected limit s calls b s',
  among E w me (read_open_regular en (Some f) expected limit) s calls (inr b) s' ->
  exists s1 mid s2, calls = s1 :: mid ++ [s2] /\
    List.length (files s1 f) = List.length b /\ List.length (files s2 f) = List.length b /\
    (size_of b <= maxsize en)%Z /\ (forall z, expected = Some z -> z = size_of b) /\ (forall m, limit = Some m -> (size_of b <= m)%Z) /\
    forall i x, nth_error b i = Some x -> exists s0, In s0 mid /\ nth_error (files s0 f) i = Some x.
Proof. exact read_concurrent. Qed.
Print Assumptions C35_read_among.
(** C35: in particular a file that only grows is returned as it was, and had not grown. *)
Theorem C35_read_growing : forall en w me (E : st -> st -> Prop) f expected limit s calls b s',
  (forall a a', E a a' -> appends f a a') ->
  among E w me (read_open_regular en (Some f) expected limit) s calls (inr b) s' ->
  exists s1 mid s2, calls = s1 :: mid ++ [s2] /\ files s1 f = b /\ files s2 f = b.
Proof. exact read_appends. Qed.
Print Assumptions C35_read_growing.
(** C35: the loop comes to an end, whatever the kernel answers. *)
Theorem C35_read_ends : forall en w me E f expected limit s calls r s',
  among E w me (read_open_regular en (Some f) expected limit) s calls r s' -> r <> inl XFuel.
Proof. exact read_no_fuel. Qed.
Print Assumptions C35_read_ends.
(** Three bytes in two reads; then the same with a writer that appends at the end. *)
Definition grown (s : st) : st := upd_file s 1 (files s 1 ++ [9%N]).
Definition writer (s s' : st) : Prop := s' = s \/ s' = grown s.
Definition s_read : st := upd_file (s_prev false) 1 [7; 8; 9]%N.
Ltac read_step s := exists s; eexists; exists s; eexists; split; [reflexivity|]; split; [now left|]; split.
Example C35_witness :
  (exists s', among writer w0 0 (read_open_regular en_w (Some 1) (Some 3%Z) None) s_read (repeat s_read 5) (inr [7; 8; 9]%N) s' /\ s' = grown s_read) /\
  (forall a a', writer a a' -> appends 1 a a') /\
  fits en_w (Some 3%Z) None (files s_read 1).
Proof.
  split; [|split].
  - exists (grown s_read). split; [|reflexivity].
    read_step s_read; [right; split; reflexivity|]. cbn.
    read_step s_read; [right; split; [reflexivity|]; exists [7; 8]%N, [9]%N; repeat split; [cbn; lia|discriminate]|]. cbn.
    read_step s_read; [right; split; [reflexivity|]; exists [9]%N, []; repeat split; [cbn; lia|discriminate]|]. cbn.
    read_step s_read; [right; split; [reflexivity|]; exists [], []; repeat split; [cbn; lia|now left]|]. cbn.
    read_step s_read; [right; split; reflexivity|]. cbn. repeat split. now right.
  - intros a a' [->| ->]; [exists []; now rewrite app_nil_r|]. exists [9%N]. reflexivity.
  - split; [vm_compute; discriminate|]. split; [intros z E; injection E as <-; reflexivity|discriminate].
Qed.

(** C36: whatever the numbers os.write returns, exactly a prefix of the data is in the
    file at the offset of the descriptor, the whole data if and only if the call returns,
    and nothing else in the file has changed.  If every write makes progress the call
    returns after at most as many writes as bytes. *)
Theorem C36_write_all : forall l data pos c w c', pos <= List.length c -> honest_writes (List.length data) l ->
  write_all l data 0 pos c = (w, c') ->
  exists k, k <= List.length data /\ written_at pos (firstn k data) c c' /\ (w = Complete <-> k = List.length data) /\
  (Forall progress l -> List.length data <= List.length l -> w = Complete) /\
  (Forall progress l -> w = Complete \/ w = InWrite).
Proof. exact write_all_exact. Qed.
Print Assumptions C36_write_all.
(** C36: a write without progress raises at once; and never are more writes made than
    there are bytes. *)
Theorem C36_no_loop : forall data off pos c,
  (forall k rest, off < List.length data -> (k <= 0)%Z -> fst (write_all (Wrote k :: rest) data off pos c) = ShortWrite) /\
  (forall l n, honest_writes (List.length data - off) l -> List.length data - off <= n ->
     write_all (firstn n l) data off pos c = write_all l data off pos c).
Proof. intros data off pos c. split; [intros k rest L K; exact (write_all_stops _ k rest data off pos c L K eq_refl)|]. intros l n H. exact (write_all_calls l data off pos c H n). Qed.
Print Assumptions C36_no_loop.
(** C36: the lock file after the owner has been written: the anchor byte, then exactly
    the payload, whatever was there before. *)
Theorem C36_owner_written : forall la lb data c c1 c2, open_anchor la c = (Complete, c1) -> honest_writes 1 la ->
  honest_writes (List.length data) lb -> write_owner lb data c1 = Some (Complete, c2) ->
  exists x, (c = [] -> x = 0%N) /\ (forall y r, c = y :: r -> x = y) /\ c2 = x :: data.
Proof. exact owner_written. Qed.
Print Assumptions C36_owner_written.
Example C36_witness : honest_writes 5 [Wrote 2; Wrote 3] /\
  write_all [Wrote 2; Wrote 3] [1; 2; 3; 4; 5]%N 0 1 [0; 9]%N = (Complete, [0; 1; 2; 3; 4; 5]%N) /\
  write_all [Wrote 2; Wrote 0] [1; 2; 3; 4; 5]%N 0 1 [0; 9]%N = (ShortWrite, [0; 1; 2]%N) /\
  write_owner [Wrote 1; Wrote 1] [5; 6]%N [0; 7; 8; 9]%N = Some (Complete, [0; 5; 6]%N).
Proof. repeat split; vm_compute; try reflexivity; discriminate. Qed.

(** C38: exactly the finite non-negative timeouts are accepted, from the argument or the
    environment; the default is ten minutes. *)
Theorem C38_timeout : forall parse var a t, checked_timeout parse var a = Some t <->
  proper t /\ match a with
              | Timeout f => f = Some t
              | NoTimeout => match var with None => t = default_timeout | Some v => parse v = Some t end
              end.
Proof. exact timeout_checked. Qed.
Print Assumptions C38_timeout.
Example C38_default : (value default_timeout == 600)%Q.
Proof. exact default_value. Qed.
(** C38: what comes out of the wait, for every sequence of attempts and clock readings
    and every rounding: the lock as soon as an attempt gets it; an error as soon as one
    fails otherwise; a timeout only after an attempt that found the lock busy and a
    clock reading at or after the deadline; until then it waits. *)
Theorem C38_honest : forall rnd start t l o naps, lock_wait rnd start t l = (o, naps) ->
  let deadline := rnd (start + value t)%Q in
  match o with
  | Acquired => exists r, after_waiting deadline l r /\ tried r = Got
  | LockError => exists r, after_waiting deadline l r /\ tried r = Broken
  | TimedOut now => exists r, after_waiting deadline l r /\ tried r = Busy /\ (deadline <= now1 r)%Q /\ now = now1 r
  | Waiting => Forall (fun x => tried x = Busy /\ (now1 x < deadline)%Q) l
  end.
Proof. intros rnd start t. exact (wait_story rnd (rnd (start + value t)%Q)). Qed.
Print Assumptions C38_honest.
(** C38: it sleeps for at most 50 ms at a time, and with an exact clock arithmetic the
    number of attempts without a result is bounded by the timeout. *)
Theorem C38_bounded : forall start t l,
  (forall rnd o naps, lock_wait rnd start t l = (o, naps) -> Forall (fun d => 0 <= d /\ d <= 1 # 20)%Q naps) /\
  (forall naps, lock_wait (fun x => x) start t l = (Waiting, naps) -> honest_clock start l naps ->
     l = [] \/ ((1 # 20) * inject_Z (Z.of_nat (List.length l) - 1) < value t)%Q).
Proof. intros start t l. split; [intros rnd; exact (wait_naps rnd _ l)|exact (wait_bounded start t l)]. Qed.
Print Assumptions C38_bounded.
(** C38: the description of the owner never gets in the way of the timeout error, as long
    as json.loads raises nothing but ValueError; a completely written owner is shown. *)
Theorem C38_diagnostic : forall loads,
  (forall size got, (forall b, loads b <> Uncaught) -> exists d, owner_diagnostic loads size got = Some d) /\
  (forall x data l, data <> [] -> (size_of data <= owner_max)%Z -> loads data = Value (JObj l) ->
     owner_diagnostic loads (Some (List.length (x :: data))) (Some data) = Some (DPayload l)).
Proof. intros loads. split; [exact (owner_total loads)|exact (owner_read_back loads)]. Qed.
Print Assumptions C38_diagnostic.
(** A timeout of 1/16 s: two sleeps, then the third attempt is after the deadline. *)
Definition sixteenth : spec_float := S754_finite false 1 (-4).
Definition story (last : attempt) : list round :=
  [Round Busy (0 # 1) (1 # 100); Round Busy (61 # 1000) (62 # 1000); Round last (63 # 1000) (63 # 1000)]%Q.
Example C38_witness : proper sixteenth /\ checked_timeout (fun _ => Some (S754_infinity false)) (Some []) NoTimeout = None /\
  fst (lock_wait (fun x => x) 0 sixteenth (story Busy)) = TimedOut (63 # 1000) /\
  fst (lock_wait (fun x => x) 0 sixteenth (story Got)) = Acquired /\
  honest_clock 0 (story Busy) (snd (lock_wait (fun x => x) 0 sixteenth (story Busy))).
Proof.
  split. { split; [discriminate|]. split; [discriminate|]. vm_compute. discriminate. }
  repeat split; vm_compute; try reflexivity; try discriminate.
Qed.
