(** Proofs for C36 and C38. *)
From Coq Require Import List NArith ZArith QArith Bool Arith Lia Lqa Qminmax.
From Coq Require Import Floats.SpecFloat.
From Verif Require Import Text TextFacts CacheModel LockModel LockSpec.
Import ListNotations.
Local Open Scope nat_scope.
Local Open Scope list_scope.

(** ** Writing. *)
Lemma nth_skipn {A} (l : list A) : forall n i, nth_error (skipn n l) i = nth_error l (n + i).
Proof. induction l as [|x l IH]; intros [|n] i; cbn [skipn Nat.add nth_error]; auto. destruct i; reflexivity. Qed.
Lemma nth_firstn {A} (l : list A) : forall n i, nth_error (firstn n l) i = if i <? n then nth_error l i else None.
Proof.
  induction l as [|x l IH]; intros [|n] i; cbn [firstn].
  - destruct i; reflexivity.
  - destruct i; cbn [nth_error]; [reflexivity|]. now destruct (S i <? S n).
  - destruct i; reflexivity.
  - destruct i; cbn [nth_error]; [reflexivity|]. rewrite IH. reflexivity.
Qed.
Lemma overwrite_at c pos b : pos <= List.length c -> written_at pos b c (overwrite c pos b).
Proof.
  intros L i. unfold overwrite. replace (pos - List.length c) with 0 by lia. cbn [repeat app].
  destruct (Nat.leb_spec pos i) as [P|P]; cbn [andb].
  - rewrite nth_error_app2 by (rewrite firstn_length; lia). rewrite firstn_length. replace (Nat.min pos (List.length c)) with pos by lia.
    destruct (Nat.ltb_spec i (pos + List.length b)).
    + rewrite nth_error_app1 by lia. reflexivity.
    + rewrite nth_error_app2 by lia. rewrite nth_skipn. f_equal. lia.
  - rewrite nth_error_app1 by (rewrite firstn_length; lia). rewrite nth_firstn. destruct (Nat.ltb_spec i pos); [reflexivity|lia].
Qed.
Lemma list_ext {A} (l m : list A) : (forall i, nth_error l i = nth_error m i) -> l = m.
Proof.
  revert m. induction l as [|x l IH]; intros [|y m] H; auto; try (specialize (H 0); discriminate H).
  pose proof (H 0) as H0. cbn in H0. injection H0 as ->. f_equal. apply IH. intros i. exact (H (S i)).
Qed.
Lemma written_unique pos b c x y : written_at pos b c x -> written_at pos b c y -> x = y.
Proof. intros X Y. apply list_ext. intros i. now rewrite X, Y. Qed.
Lemma overwrite_length c pos b : pos <= List.length c -> List.length (overwrite c pos b) = Nat.max (List.length c) (pos + List.length b).
Proof. intros L. unfold overwrite. rewrite !app_length, firstn_length, skipn_length, repeat_length. lia. Qed.
Lemma overwrite_app c pos a b : pos <= List.length c -> overwrite (overwrite c pos a) (pos + List.length a) b = overwrite c pos (a ++ b).
Proof.
  intros L. apply (written_unique pos (a ++ b) c); [|now apply overwrite_at].
  intros i. rewrite (overwrite_at (overwrite c pos a) (pos + List.length a) b) by (rewrite overwrite_length by assumption; lia).
  rewrite (overwrite_at c pos a) by assumption. rewrite app_length.
  destruct (Nat.leb_spec pos i), (Nat.leb_spec (pos + List.length a) i), (Nat.ltb_spec i (pos + List.length a + List.length b)), (Nat.ltb_spec i (pos + List.length a)),
    (Nat.ltb_spec i (pos + (List.length a + List.length b))); cbn [andb]; try lia; try reflexivity.
  - rewrite nth_error_app2 by lia. f_equal. lia.
  - rewrite nth_error_app1 by lia. reflexivity.
Qed.
Lemma overwrite_nil c pos : pos <= List.length c -> overwrite c pos [] = c.
Proof. intros L. apply (written_unique pos [] c); [now apply overwrite_at|]. intros i. cbn [List.length].
  destruct (Nat.leb_spec pos i), (Nat.ltb_spec i (pos + 0)); cbn [andb]; try reflexivity; lia. Qed.

Lemma firstn_skipn_app {A} (l : list A) n k : firstn n l ++ firstn k (skipn n l) = firstn (n + k) l.
Proof. revert n. induction l as [|x l IH]; intros [|n]; cbn; auto; [now rewrite firstn_nil|]. now rewrite IH. Qed.
Lemma write_all_from data c pos : pos <= List.length c -> forall l off w c',
  off <= List.length data -> honest_writes (List.length data - off) l ->
  write_all l data off (pos + off) (overwrite c pos (firstn off data)) = (w, c') ->
  exists k, off <= k <= List.length data /\ c' = overwrite c pos (firstn k data) /\ (w = Complete <-> k = List.length data) /\
  (Forall progress l -> List.length data - off <= List.length l -> w = Complete) /\
  (Forall progress l -> w = Complete \/ w = InWrite).
Proof.
  intros LP. induction l as [|a l IH]; intros off w c' LO HW R; cbn [write_all] in R; destruct (Nat.ltb_spec off (List.length data)) as [L|L].
  - injection R as <- <-. exists off. repeat split; auto; try discriminate; try lia; cbn [List.length]; intros; exfalso; lia.
  - injection R as <- <-. exists off. repeat split; auto; lia.
  - destruct a as [|k].
    + injection R as <- <-. exists off. repeat split; auto; try discriminate; try lia; intros F; try (exfalso; lia); inversion F as [|? ? P]; destruct P.
    + cbn [honest_writes] in HW. destruct HW as (HK & HW). destruct (Z.leb_spec k 0) as [K|K].
      * injection R as <- <-. exists off. replace (Z.to_nat k) with 0 by lia. cbn [firstn].
        rewrite overwrite_nil. 2:{ rewrite overwrite_length by assumption. rewrite firstn_length. lia. }
        repeat split; auto; try discriminate; try lia; intros F; try (exfalso; lia); inversion F as [|? ? P]; cbn in P; lia.
      * set (n := Z.to_nat k) in *. assert (Hn : 1 <= n /\ off + n <= List.length data) by (unfold n; lia).
        assert (OV : overwrite (overwrite c pos (firstn off data)) (pos + off) (firstn n (skipn off data)) = overwrite c pos (firstn (off + n) data)).
        { replace (pos + off) with (pos + List.length (firstn off data)) by (rewrite firstn_length; lia).
          rewrite overwrite_app by assumption. now rewrite firstn_skipn_app. }
        rewrite OV in R. replace (pos + off + n) with (pos + (off + n)) in R by lia.
        destruct (IH (off + n) w c') as (m & M1 & M2 & M3 & M4 & M5); [lia| |exact R|].
        { replace (List.length data - (off + n)) with (List.length data - off - n) by lia. exact HW. }
        exists m. split; [lia|]. split; [assumption|]. split; [assumption|]. split; intros F; inversion F; subst; cbn [List.length]; [intros; apply M4; auto; lia|auto].
  - injection R as <- <-. exists off. repeat split; auto; lia.
Qed.
Theorem write_all_exact l data pos c w c' : pos <= List.length c -> honest_writes (List.length data) l -> write_all l data 0 pos c = (w, c') ->
  exists k, k <= List.length data /\ written_at pos (firstn k data) c c' /\ (w = Complete <-> k = List.length data) /\
  (Forall progress l -> List.length data <= List.length l -> w = Complete) /\
  (Forall progress l -> w = Complete \/ w = InWrite).
Proof.
  intros LP HW R. destruct (write_all_from data c pos LP l 0 w c') as (k & K1 & -> & K3 & K4 & K5); [lia|now rewrite Nat.sub_0_r| |].
  { rewrite Nat.add_0_r. cbn [firstn]. now rewrite overwrite_nil. }
  rewrite Nat.sub_0_r in K4. exists k. split; [lia|]. split; [now apply overwrite_at|]. auto.
Qed.
(** No more calls than bytes are made. *)
Lemma write_all_calls l data : forall off pos c, honest_writes (List.length data - off) l ->
  forall n, List.length data - off <= n -> write_all (firstn n l) data off pos c = write_all l data off pos c.
Proof.
  induction l as [|a l IH]; intros off pos c HW n L; [now rewrite firstn_nil|]. destruct n as [|n].
  { cbn [firstn write_all]. destruct (Nat.ltb_spec off (List.length data)); [lia|reflexivity]. }
  cbn [firstn write_all]. destruct (Nat.ltb_spec off (List.length data)) as [Lo|Lo]; [|reflexivity]. destruct a as [|k]; [reflexivity|].
  cbn [honest_writes] in HW. destruct HW as (HK & HW). destruct (Z.leb_spec k 0); [reflexivity|]. apply IH; [|lia].
  replace (List.length data - (off + Z.to_nat k)) with (List.length data - off - Z.to_nat k) by lia. exact HW.
Qed.
(** A write that makes no progress raises. *)
Lemma write_all_stops l k rest data off pos c : off < List.length data -> (k <= 0)%Z -> l = Wrote k :: rest -> fst (write_all l data off pos c) = ShortWrite.
Proof. intros L K ->. cbn [write_all]. destruct (Nat.ltb_spec off (List.length data)); [|lia]. destruct (Z.leb_spec k 0); [reflexivity|lia]. Qed.

(** ** The owner payload. *)
Theorem owner_written la lb data c c1 c2 : open_anchor la c = (Complete, c1) -> honest_writes 1 la ->
  honest_writes (List.length data) lb -> write_owner lb data c1 = Some (Complete, c2) ->
  exists x, (c = [] -> x = 0%N) /\ (forall y r, c = y :: r -> x = y) /\ c2 = x :: data.
Proof.
  intros A HA HB B. unfold write_owner in B. destruct (owner_max <? size_of data)%Z; [discriminate|]. injection B as B.
  assert (C1 : exists x r, c1 = x :: r /\ (c = [] -> x = 0%N) /\ (forall y q, c = y :: q -> x = y)).
  { unfold open_anchor in A. destruct c as [|y q].
    - destruct (write_all_exact la [0%N] 0 [] Complete c1) as (k & K1 & K2 & K3 & _); [cbn; lia|exact HA|exact A|].
      destruct K3 as (K3 & _). specialize (K3 eq_refl). cbn in K3. subst k. specialize (K2 0) as K20. cbn in K20. destruct c1 as [|x r]; [discriminate|].
      cbn in K20. injection K20 as ->. exists 0%N, r. repeat split; auto. discriminate.
    - injection A as <-. exists y, q. repeat split; [discriminate|]. intros y' q' E. now injection E as -> ->. }
  destruct C1 as (x & r & -> & X1 & X2). cbn [truncate1] in B.
  destruct (write_all_exact lb data 1 [x] Complete c2) as (k & K1 & K2 & K3 & _); [cbn; lia|exact HB|exact B|].
  destruct K3 as (K3 & _). specialize (K3 eq_refl). subst k. rewrite firstn_all in K2. exists x. repeat split; auto.
  apply list_ext. intros i. rewrite K2. cbn [List.length Nat.add]. destruct i as [|i]; [reflexivity|]. cbn [nth_error Nat.leb andb].
  replace (S i <? S (List.length data)) with (i <? List.length data) by reflexivity. destruct (Nat.ltb_spec i (List.length data)).
  - f_equal; lia.
  - symmetry. transitivity (@None N); [now apply nth_error_None|destruct i; reflexivity].
Qed.
Theorem owner_read_back loads x data l : data <> [] -> (size_of data <= owner_max)%Z -> loads data = Value (JObj l) ->
  owner_diagnostic loads (Some (List.length (x :: data))) (Some data) = Some (DPayload l).
Proof.
  intros N L E. unfold owner_diagnostic. cbn [List.length]. replace (Z.max 0 (Z.of_nat (S (List.length data)) - 1)) with (size_of data) by (unfold size_of; lia).
  destruct (Z.eqb_spec (size_of data) 0) as [Z0|_]. { destruct data; [contradiction|]. unfold size_of in Z0. cbn in Z0. lia. }
  destruct (Z.ltb_spec owner_max (size_of data)); [lia|]. rewrite Z.eqb_refl. cbn [negb]. now rewrite E.
Qed.
Theorem owner_total loads size got : (forall b, loads b <> Uncaught) -> exists d, owner_diagnostic loads size got = Some d.
Proof.
  intros H. unfold owner_diagnostic. destruct size as [n|]; [|eauto]. destruct (_ =? 0)%Z; [eauto|]. destruct (_ <? _)%Z; [eauto|].
  destruct got as [b|]; [|eauto]. destruct (negb _); [eauto|]. destruct (loads b) as [[| | | | |]| |] eqn:E; eauto. now destruct (H b).
Qed.

(** ** Timeouts. *)
Local Open Scope Q_scope.
Lemma value_sign f : isfinite f = true -> (negative f = false <-> 0 <= value f).
Proof.
  destruct f as [s| | |s m e]; try discriminate; intros _.
  - cbn. split; [intros _; apply Qle_refl|reflexivity].
  - cbn [negative value]. destruct s; (split; [intros H|intros H]); try discriminate; auto.
    + exfalso. unfold Qle in H. destruct e as [|p|p]; cbn [inject_Z Qnum Qden] in H; [lia| |lia].
      assert (0 < 2 ^ Z.pos p)%Z by (apply Z.pow_pos_nonneg; lia). nia.
    + unfold Qle. destruct e as [|p|p]; cbn [inject_Z Qnum Qden]; [lia| |lia].
      assert (0 < 2 ^ Z.pos p)%Z by (apply Z.pow_pos_nonneg; lia). nia.
Qed.
Lemma accepts_proper f : negb (isfinite f) || negative f = false <-> proper f.
Proof.
  unfold proper. destruct (isfinite f) eqn:F; cbn [negb orb].
  - rewrite (value_sign f F). split; [|tauto]. intros H. destruct f; try discriminate; repeat split; auto; discriminate.
  - split; [discriminate|]. intros (A & B & _). destruct f; try discriminate F; [now destruct (B s)|contradiction].
Qed.
Theorem timeout_checked parse var a t : checked_timeout parse var a = Some t <->
  proper t /\ match a with
              | Timeout f => f = Some t
              | NoTimeout => match var with None => t = default_timeout | Some v => parse v = Some t end
              end.
Proof.
  unfold checked_timeout. split.
  - intros H. destruct a as [|f].
    + unfold configured_timeout in H. destruct var as [v|].
      * destruct (parse v) as [x|] eqn:P; [|discriminate]. destruct (negb (isfinite x) || negative x) eqn:X; [discriminate|]. rewrite X in H. injection H as <-.
        split; [now apply accepts_proper|reflexivity].
      * cbn in H. injection H as <-. split; [now apply accepts_proper|reflexivity].
    + destruct f as [x|]; [|discriminate]. destruct (negb (isfinite x) || negative x) eqn:X; [discriminate|]. injection H as <-. split; [now apply accepts_proper|reflexivity].
  - intros (P & H). apply accepts_proper in P. destruct a as [|f].
    + unfold configured_timeout. destruct var as [v|]; [rewrite H, P, P; reflexivity|]. subst t. now rewrite P.
    + subst f. now rewrite P.
Qed.
Lemma default_value : value default_timeout == 600.
Proof. reflexivity. Qed.

(** ** Waiting. *)
Lemma wait_story rnd deadline : forall l o ds, wait rnd deadline l = (o, ds) ->
  match o with
  | Acquired => exists r, after_waiting deadline l r /\ tried r = Got
  | LockError => exists r, after_waiting deadline l r /\ tried r = Broken
  | TimedOut t => exists r, after_waiting deadline l r /\ tried r = Busy /\ deadline <= now1 r /\ t = now1 r
  | Waiting => Forall (fun x => tried x = Busy /\ now1 x < deadline) l
  end.
Proof.
  induction l as [|r l IH]; intros o ds H; cbn [wait] in H; [injection H as <- <-; constructor|].
  destruct (tried r) eqn:T.
  - injection H as <- <-. exists r. split; [exists [], l; split; [reflexivity|constructor]|assumption].
  - destruct (Qle_bool deadline (now1 r)) eqn:D.
    + injection H as <- <-. apply Qle_bool_iff in D. exists r. split; [exists [], l; split; [reflexivity|constructor]|auto].
    + assert (LT : now1 r < deadline). { apply Qnot_le_lt. intros X. apply Qle_bool_iff in X. congruence. }
      destruct (wait rnd deadline l) as [o' ds'] eqn:W. injection H as <- <-. specialize (IH _ _ eq_refl).
      destruct o'; [| | |constructor; auto];
        destruct IH as (x & (b & q & -> & F) & IH); exists x; (split; [exists (r :: b), q; split; [reflexivity|constructor; auto]|assumption]).
  - injection H as <- <-. exists r. split; [exists [], l; split; [reflexivity|constructor]|assumption].
Qed.
Lemma wait_naps rnd deadline : forall l o ds, wait rnd deadline l = (o, ds) -> Forall (fun d => 0 <= d /\ d <= 1 # 20) ds.
Proof.
  induction l as [|r l IH]; intros o ds H; cbn [wait] in H; [injection H as <- <-; constructor|].
  destruct (tried r); [injection H as <- <-; constructor| |injection H as <- <-; constructor].
  destruct (Qle_bool deadline (now1 r)); [injection H as <- <-; constructor|].
  destruct (wait rnd deadline l) as [o' ds'] eqn:W. injection H as <- <-. constructor; [|eauto].
  unfold nap. split; [apply Q.min_glb; [discriminate|apply Q.le_max_l]|apply Q.le_min_l].
Qed.
(** With exact arithmetic a sleep ends at the deadline at the latest. *)
Lemma nap_exact deadline now : nap (fun x => x) deadline now == (1 # 20) /\ now + (1 # 20) <= deadline \/
  (nap (fun x => x) deadline now <= (1 # 20) /\ deadline <= now + nap (fun x => x) deadline now).
Proof.
  unfold nap. destruct (Qlt_le_dec (deadline - now) (1 # 20)) as [L|L].
  - right. split; [apply Q.le_min_l|]. destruct (Q.min_spec (1 # 20) (Qmax 0 (deadline - now))) as [(_ & ->)|(_ & ->)]; [lra|].
    pose proof (Q.le_max_r 0 (deadline - now)). lra.
  - left. split; [|lra]. apply Q.min_l. pose proof (Q.le_max_r 0 (deadline - now)). lra.
Qed.
Lemma wait_bound deadline : forall l t o ds, wait (fun x => x) deadline l = (o, ds) -> honest_clock t l ds ->
  t + (1 # 20) * inject_Z (Z.of_nat (List.length ds) - 1) < deadline \/ ds = [].
Proof.
  induction l as [|r l IH]; intros t o ds H C; cbn [wait] in H; [injection H as <- <-; now right|].
  destruct (tried r); [injection H as <- <-; now right| |injection H as <- <-; now right].
  destruct (Qle_bool deadline (now1 r)) eqn:D; [injection H as <- <-; now right|].
  assert (LT : now1 r < deadline). { apply Qnot_le_lt. intros X. apply Qle_bool_iff in X. congruence. }
  destruct (wait (fun x => x) deadline l) as [o' ds'] eqn:W. injection H as <- <-. cbn [honest_clock] in C. destruct C as (C1 & C2 & C3). left.
  cbn [List.length]. replace (Z.of_nat (S (List.length ds')) - 1)%Z with (Z.of_nat (List.length ds')) by lia.
  assert (Z0 : t + (1 # 20) * inject_Z 0 < deadline) by (change (inject_Z 0) with 0; lra).
  destruct (IH _ _ _ eq_refl C3) as [B| ->].
  - destruct (nap_exact deadline (now2 r)) as [(E & L)|(E & L)].
    + replace (Z.of_nat (List.length ds')) with (1 + (Z.of_nat (List.length ds') - 1))%Z by lia. rewrite inject_Z_plus. change (inject_Z 1) with 1.
      rewrite E in B. lra.
    + (* the next round is past the deadline: no further sleep *)
      destruct l as [|r' l']; cbn [wait] in W; [injection W as <- <-; exact Z0|].
      destruct (tried r'); [injection W as <- <-; exact Z0| |injection W as <- <-; exact Z0].
      destruct (Qle_bool deadline (now1 r')) eqn:D'; [injection W as <- <-; exact Z0|]. exfalso.
      cbn [honest_clock] in C3. destruct C3 as (C3 & _). assert (deadline <= now1 r') by lra. apply Qle_bool_iff in H. congruence.
  - exact Z0.
Qed.
(** Rounds are as many as sleeps, or one more. *)
Lemma wait_rounds rnd deadline : forall l ds, wait rnd deadline l = (Waiting, ds) -> List.length ds = List.length l.
Proof.
  induction l as [|r l IH]; intros ds H; cbn [wait] in H; [now injection H as <-|].
  destruct (tried r); try discriminate. destruct (Qle_bool deadline (now1 r)); [discriminate|].
  destruct (wait rnd deadline l) as [o' ds'] eqn:W. injection H as -> <-. cbn. f_equal. now apply IH.
Qed.
Theorem wait_bounded start timeout l ds : lock_wait (fun x => x) start timeout l = (Waiting, ds) -> honest_clock start l ds ->
  l = [] \/ (1 # 20) * inject_Z (Z.of_nat (List.length l) - 1) < value timeout.
Proof.
  intros W C. unfold lock_wait in W. pose proof (wait_rounds _ _ _ _ W) as L. destruct (wait_bound _ _ _ _ _ W C) as [B| ->].
  - right. rewrite L in B. lra.
  - left. now destruct l.
Qed.
