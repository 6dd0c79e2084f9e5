(** Proofs for C34: the source fingerprint. *)
From Coq Require Import List NArith ZArith Bool Arith Lia String Permutation Sorted.
From Verif Require Import Text TextFacts AlignModel AlignSpec AlignBytes CacheModel JsonSpec JsonModel JsonProofs StoreModel StoreSpec StorePath.
Import ListNotations.
Local Open Scope list_scope.

(** ** Order of paths. *)
Lemma parts_ltb_irrefl a : parts_ltb a a = false.
Proof. induction a as [|x a IH]; [reflexivity|]. cbn [parts_ltb]. now rewrite IH, text_ltb_irrefl, text_eqb_refl. Qed.
Lemma eqb_true a b : text_eqb a b = true <-> a = b.
Proof. destruct (text_eqb_spec a b); split; congruence. Qed.
Lemma parts_ltb_trans a b c : parts_ltb a b = true -> parts_ltb b c = true -> parts_ltb a c = true.
Proof.
  revert b c; induction a as [|x a IH]; intros [|y b] [|z c]; cbn [parts_ltb]; try congruence; try reflexivity.
  rewrite !orb_true_iff, !andb_true_iff, !eqb_true.
  intros [H|[-> H]] [H'|[-> H']]; eauto using text_ltb_trans. 
Qed.
Lemma parts_ltb_total a b : parts_ltb a b = true \/ a = b \/ parts_ltb b a = true.
Proof.
  revert b; induction a as [|x a IH]; intros [|y b]; cbn [parts_ltb]; auto.
  rewrite !orb_true_iff, !andb_true_iff, !eqb_true.
  destruct (text_ltb_total x y) as [H|[->|H]]; [auto| |auto]. destruct (IH b) as [H|[->|H]]; auto.
Qed.
Definition src_lt (a b : source) : Prop := parts_ltb (fst a) (fst b) = true.
Lemma insert_source_perm s l : Permutation (insert_source s l) (s :: l).
Proof. induction l as [|s' r IH]; cbn [insert_source]; [reflexivity|]. destruct (parts_ltb _ _); [|reflexivity]. rewrite IH. apply perm_swap. Qed.
Lemma sort_sources_perm l : Permutation (sort_sources l) l.
Proof. unfold sort_sources. induction l as [|s r IH]; [reflexivity|]. cbn [fold_right]. rewrite insert_source_perm. now constructor. Qed.
Lemma insert_source_sorted s l : StronglySorted src_lt l -> ~ In (fst s) (map fst l) -> StronglySorted src_lt (insert_source s l).
Proof.
  induction 1 as [|s' r S IH H]; intros N; cbn [insert_source].
  - repeat constructor.
  - cbn [map In] in N. destruct (parts_ltb (fst s') (fst s)) eqn:E.
    + constructor; [apply IH; tauto|]. rewrite Forall_forall in *. intros x I.
      apply (Permutation_in _ (insert_source_perm s r)) in I. destruct I as [<-|I]; [exact E|auto].
    + assert (L : src_lt s s'). { unfold src_lt. destruct (parts_ltb_total (fst s) (fst s')) as [H'|[H'|H']]; [assumption| |congruence]. symmetry in H'. tauto. }
      constructor; [constructor; assumption|]. constructor; [assumption|]. rewrite Forall_forall in *. intros x I.
      unfold src_lt in *. eauto using parts_ltb_trans.
Qed.
Lemma sort_sources_sorted l : NoDup (map fst l) -> StronglySorted src_lt (sort_sources l).
Proof.
  induction l as [|s r IH]; intros N; unfold sort_sources; cbn [fold_right]; [constructor|]. inversion N; subst.
  apply insert_source_sorted; [now apply IH|]. intros I. apply H1. revert I. apply Permutation_in. apply Permutation_map, sort_sources_perm.
Qed.
Lemma src_unique l m : StronglySorted src_lt l -> StronglySorted src_lt m -> Permutation l m -> l = m.
Proof.
  intros Sl; revert m; induction Sl as [|a l Sl IH H]; intros m Sm P.
  - now apply Permutation_nil in P.
  - destruct Sm as [|b m Sm H']; [apply Permutation_sym, Permutation_nil in P; discriminate|].
    assert (a = b) as <-.
    { rewrite Forall_forall in H, H'.
      assert (I : In a (b :: m)) by (eapply Permutation_in; [exact P|now left]).
      assert (I' : In b (a :: l)) by (eapply Permutation_in; [symmetry; exact P|now left]).
      destruct I as [->|I]; [reflexivity|]. destruct I' as [->|I']; [reflexivity|].
      specialize (H _ I'). specialize (H' _ I). unfold src_lt in *.
      pose proof (parts_ltb_trans _ _ _ H H') as X. rewrite parts_ltb_irrefl in X. discriminate. }
    f_equal. apply IH; [assumption|]. eapply Permutation_cons_inv; exact P.
Qed.

(** ** Which files take part. *)
Lemma after_dot_none t : after_dot t = None <-> ~ In 46%N t.
Proof.
  induction t as [|c t IH]; cbn [after_dot In]; [tauto|]. destruct (after_dot t) as [s|].
  - split; [discriminate|]. intros H. exfalso. destruct IH as [_ IH]. discriminate IH. tauto.
  - destruct (N.eqb_spec c 46); [split; [discriminate|intros H; exfalso; auto]|]. split; [intros _|reflexivity]. intros [H|H]; [congruence|]. now apply IH.
Qed.
Lemma after_dot_some t s : after_dot t = Some s <-> exists stem x, t = stem ++ s /\ s = 46%N :: x /\ ~ In 46%N x.
Proof.
  split.
  - revert s; induction t as [|c t IH]; intros s; cbn [after_dot]; [discriminate|]. destruct (after_dot t) as [s'|] eqn:E.
    + intros [= <-]. destruct (IH _ eq_refl) as (stem & x & -> & Ex & N). exists (c :: stem), x. auto.
    + destruct (N.eqb_spec c 46) as [->|]; [|discriminate]. intros [= <-]. exists [], t. rewrite after_dot_none in E. auto.
  - intros (stem & x & -> & -> & N). induction stem as [|c stem IH]; cbn [List.app after_dot].
    + rewrite (proj2 (after_dot_none x) N). reflexivity.
    + now rewrite IH.
Qed.
Lemma suffix_spec e name x : e = 46%N :: x -> x <> [] -> ~ In 46%N x -> suffix name = e <-> ends_with e name.
Proof.
  intros -> X N. unfold suffix, ends_with. split.
  - destruct (after_dot name) as [s|] eqn:E; [|discriminate]. destruct (_ && _) eqn:L; [|discriminate]. intros ->.
    apply after_dot_some in E as (stem & y & -> & _ & _). exists stem. split; [|reflexivity]. intros ->. cbn [List.app] in L. rewrite Nat.ltb_irrefl in L. discriminate.
  - intros (stem & S & ->). rewrite (proj2 (after_dot_some (stem ++ 46%N :: x) (46%N :: x))); [|exists stem, x; auto].
    assert (L : (List.length (46%N :: x) <? List.length (stem ++ 46%N :: x)) && (1 <? List.length (46%N :: x)) = true).
    { apply andb_true_iff. rewrite !Nat.ltb_lt, app_length. cbn [List.length]. destruct stem; [congruence|]. destruct x; [congruence|]. cbn [List.length]. lia. }
    now rewrite L.
Qed.
Lemma suffix_py n : suffix n = u ".py" <-> ends_with (u ".py") n.
Proof. apply suffix_spec with (x := u "py"); [reflexivity|discriminate|vm_compute; intuition discriminate]. Qed.
Lemma suffix_tsv n : suffix n = u ".tsv" <-> ends_with (u ".tsv") n.
Proof. apply suffix_spec with (x := u "tsv"); [reflexivity|discriminate|vm_compute; intuition discriminate]. Qed.
Lemma suffix_far n : suffix n = u ".far" <-> ends_with (u ".far") n.
Proof. apply suffix_spec with (x := u "far"); [reflexivity|discriminate|vm_compute; intuition discriminate]. Qed.

Lemma mem_spec x l : text_mem x l = true <-> In x l.
Proof. destruct (text_mem_spec x l); split; congruence || tauto. Qed.
Lemma included_spec s : Forall plain (fst s) -> included s = true <-> takes_part s.
Proof.
  intros F. unfold included, takes_part. destruct (fst s) as [|package rest].
  - split; [discriminate|]. intros (p & d & n & E & _). discriminate.
  - destruct rest as [|name dirs _] using rev_ind.
    + cbn [last]. split.
      * rewrite !andb_true_iff. intros ((((_ & H) & _) & _) & _). discriminate.
      * intros (p & d & n & E & _). injection E as _ E. destruct d; discriminate.
    + rewrite last_last. rewrite !andb_true_iff, !orb_true_iff, !negb_true_iff, !eqb_true, !suffix_py, !suffix_tsv, !suffix_far, orb_false_iff.
      rewrite <- !not_true_iff_false, !mem_spec, !in_app_iff, !eqb_true. cbn [In].
      assert (NT : forall e, suffix name = e -> e <> [] -> name <> u "test" /\ name <> u "__pycache__").
      { intros e E Ne. split; intros ->; rewrite <- E in Ne; vm_compute in Ne; congruence. }
      rewrite <- suffix_py, <- suffix_tsv, <- suffix_far.
      split.
      * intros ((((P & Nn) & S) & T) & V). exists package, dirs, name. split; [reflexivity|]. split; [tauto|]. rewrite <- suffix_py, <- suffix_tsv, <- suffix_far. tauto.
      * intros (p & d & n & E & P & S & T1 & T2 & V). injection E as <- E. apply app_inj_tail in E as [<- <-].
        rewrite <- suffix_py, <- suffix_tsv, <- suffix_far in S.
        assert (Nn : name <> []). { intros ->. vm_compute in S. intuition discriminate. }
        assert (Q : name <> u "test" /\ name <> u "__pycache__"). { destruct S as [S|[S|S]]; eapply NT; try exact S; discriminate. }
        destruct Q as (Q1 & Q2). repeat split; auto; try tauto.
        all: intros [H|[H|[]]]; [tauto|congruence].
Qed.

(** ** Frames. *)
Fixpoint big (acc : N) (l : bytes) : N := match l with [] => acc | b :: r => big (acc * 256 + b)%N r end.
Lemma len8_value n : (N.of_nat n < 2 ^ 64)%N -> big 0 (len8 n) = N.of_nat n.
Proof.
  intros H. unfold len8. generalize dependent (N.of_nat n). clear n. intros m H. cbn [map big].
  change (256 ^ 7)%N with (256 * 256 * 256 * 256 * 256 * 256 * 256)%N. change (256 ^ 6)%N with (256 * 256 * 256 * 256 * 256 * 256)%N.
  change (256 ^ 5)%N with (256 * 256 * 256 * 256 * 256)%N. change (256 ^ 4)%N with (256 * 256 * 256 * 256)%N. change (256 ^ 3)%N with (256 * 256 * 256)%N.
  change (256 ^ 2)%N with (256 * 256)%N. change (256 ^ 1)%N with 256%N. change (256 ^ 0)%N with 1%N.
  change (2 ^ 64)%N with (256 * 256 * 256 * 256 * 256 * 256 * 256 * 256)%N in H.
  rewrite <- !N.div_div by lia. rewrite N.div_1_r.
  pose proof (N.div_mod m 256 ltac:(lia)) as D0. set (q1 := (m / 256)%N) in *.
  pose proof (N.div_mod q1 256 ltac:(lia)) as D1. set (q2 := (q1 / 256)%N) in *.
  pose proof (N.div_mod q2 256 ltac:(lia)) as D2. set (q3 := (q2 / 256)%N) in *.
  pose proof (N.div_mod q3 256 ltac:(lia)) as D3. set (q4 := (q3 / 256)%N) in *.
  pose proof (N.div_mod q4 256 ltac:(lia)) as D4. set (q5 := (q4 / 256)%N) in *.
  pose proof (N.div_mod q5 256 ltac:(lia)) as D5. set (q6 := (q5 / 256)%N) in *.
  pose proof (N.div_mod q6 256 ltac:(lia)) as D6. set (q7 := (q6 / 256)%N) in *.
  assert (L7 : (q7 < 256)%N) by lia. rewrite (N.mod_small q7) by assumption. lia.
Qed.
Lemma len8_inj n m : (N.of_nat n < 2 ^ 64)%N -> (N.of_nat m < 2 ^ 64)%N -> len8 n = len8 m -> n = m.
Proof. intros Hn Hm E. apply Nat2N.inj. rewrite <- (len8_value n Hn), <- (len8_value m Hm). now rewrite E. Qed.
Lemma len8_head n : (N.of_nat n < 2 ^ 56)%N -> exists r, len8 n = 0%N :: r.
Proof.
  intros H. unfold len8. cbn [map]. eexists. f_equal. rewrite N.div_small; [reflexivity|]. exact H.
Qed.
Lemma len8_length n : List.length (len8 n) = 8.
Proof. reflexivity. Qed.

Lemma join_inj sep : forall a b, Forall (fun p => ~ In sep p) a -> Forall (fun p => ~ In sep p) b -> a <> [] -> b <> [] -> join [sep] a = join [sep] b -> a = b.
Proof.
  assert (C : forall (x : text) y r r', ~ In sep x -> ~ In sep y -> x ++ sep :: r = y ++ sep :: r' -> x = y /\ r = r').
  { induction x as [|c x IH]; intros [|d y] r r' Hx Hy E; cbn [List.app] in E.
    - injection E as E. auto.
    - injection E as E _. exfalso. apply Hy. left. auto.
    - injection E as E _. exfalso. apply Hx. left. auto.
    - injection E as -> E. apply IH in E as [-> ->]; cbn [In] in *; tauto. }
  assert (D : forall (x : text) y r, ~ In sep x -> x <> y ++ sep :: r).
  { intros x y r H ->. apply H. rewrite in_app_iff. right. now left. }
  induction a as [|x a IH]; intros b Fa Fb Na Nb E; [congruence|]. destruct b as [|y b]; [congruence|].
  inversion Fa; inversion Fb; subst. destruct a as [|x' a], b as [|y' b]; cbn [join] in E.
  - now subst.
  - exfalso. eapply D; [|exact E]. assumption.
  - exfalso. symmetry in E. eapply D; [|exact E]. assumption.
  - apply C in E as [-> E]; try assumption. f_equal. apply IH; try assumption; discriminate.
Qed.
Lemma encode_inj a b x : encode a = Some x -> encode b = Some x -> a = b.
Proof. intros A B. apply encode_decode in A. apply encode_decode in B. congruence. Qed.

(** What is known of each file. *)
Definition src_ok (s : source) : Prop :=
  fst s <> [] /\ Forall plain (fst s) /\ exists b, encode (join [47%N] (fst s)) = Some b /\ (N.of_nat (List.length b) < 2 ^ 56)%N.
Lemma frame_some s : src_ok s -> exists b, encode (join [47%N] (fst s)) = Some b /\ (N.of_nat (List.length b) < 2 ^ 56)%N /\ frame s = Some (len8 (List.length b) ++ b ++ snd s).
Proof. intros (_ & _ & b & E & L). exists b. unfold frame. change [SLASH] with [47%N]. rewrite E. auto. Qed.
Lemma frames_some l : Forall src_ok l -> exists x, frames l = Some x.
Proof. induction 1 as [|s l H F (x & IH)]; cbn [frames]; [eauto|]. destruct (frame_some s H) as (b & _ & _ & ->). rewrite IH. eauto. Qed.
Lemma two56_64 n : (n < 2 ^ 56)%N -> (n < 2 ^ 64)%N.
Proof. intros H. eapply N.lt_trans; [exact H|reflexivity]. Qed.
Lemma head_inj s s' b b' x y : src_ok s -> src_ok s' -> encode (join [47%N] (fst s)) = Some b -> encode (join [47%N] (fst s')) = Some b' ->
  len8 (List.length b) ++ b ++ x = len8 (List.length b') ++ b' ++ y -> fst s = fst s' /\ x = y.
Proof.
  intros (N1 & P1 & c & E1 & L1) (N2 & P2 & c' & E2 & L2) B B' E. rewrite B in E1. rewrite B' in E2. injection E1 as <-. injection E2 as <-.
  apply app_head_eq in E as [E E']; [|reflexivity]. apply len8_inj in E; auto using two56_64.
  apply app_head_eq in E' as [<- E']; [|assumption]. split; [|assumption].
  assert (J : join [47%N] (fst s) = join [47%N] (fst s')) by (eapply encode_inj; eassumption).
  apply join_inj in J; auto; eapply Forall_impl; try eassumption; intros p Hp; apply Hp.
Qed.

(** ** No zero byte in the contents: equal streams come from equal lists of files. *)
Lemma zero_split (c c' r r' : bytes) : ~ In 0%N c -> ~ In 0%N c' -> (r = [] \/ exists q, r = 0%N :: q) -> (r' = [] \/ exists q, r' = 0%N :: q) ->
  c ++ r = c' ++ r' -> c = c' /\ r = r'.
Proof.
  revert c'; induction c as [|x c IH]; intros [|y c'] H H' R R' E; cbn [List.app In] in *.
  - auto.
  - subst r. destruct R as [R|(q & R)]; [discriminate|]. injection R as -> _. tauto.
  - subst r'. destruct R' as [R'|(q & R')]; [discriminate|]. injection R' as -> _. tauto.
  - injection E as -> E. apply IH in E as [-> ->]; auto.
Qed.
Lemma frames_head l x : Forall src_ok l -> frames l = Some x -> x = [] \/ exists q, x = 0%N :: q.
Proof.
  intros F E. destruct F as [|s l H F]; cbn [frames] in E; [injection E as <-; auto|].
  destruct (frame_some s H) as (b & _ & L & Eb). rewrite Eb in E. destruct (frames l) as [b0|]; [|discriminate]. apply some_inj in E. subst x.
  destruct (len8_head _ L) as (q & Q). right. exists ((q ++ b ++ snd s) ++ b0). now rewrite Q.
Qed.
Lemma frames_inj l : forall m x, Forall src_ok l -> Forall src_ok m -> Forall (fun s => ~ In 0%N (snd s)) l -> Forall (fun s => ~ In 0%N (snd s)) m ->
  frames l = Some x -> frames m = Some x -> l = m.
Proof.
  induction l as [|s l IH]; intros [|s' m] x Fl Fm Zl Zm El Em.
  - reflexivity.
  - exfalso. inversion Fm; subst. cbn [frames] in *. injection El as <-. destruct (frame_some s') as (b & _ & L & Eb); [assumption|]. rewrite Eb in Em. destruct (frames m); [|discriminate]. discriminate.
  - exfalso. inversion Fl; subst. cbn [frames] in *. injection Em as <-. destruct (frame_some s) as (b & _ & L & Eb); [assumption|]. rewrite Eb in El. destruct (frames l); [|discriminate]. discriminate.
  - inversion Fl as [|? ? Hs Fl']; inversion Fm as [|? ? Hs' Fm']; inversion Zl as [|? ? Z1 Zl']; inversion Zm as [|? ? Z1' Zm']; subst. cbn [frames] in *.
    destruct (frame_some s Hs) as (b & B & _ & Eb). destruct (frame_some s' Hs') as (b' & B' & _ & Eb'). rewrite Eb in El. rewrite Eb' in Em.
    destruct (frames l) as [y|] eqn:Y; [|discriminate]. destruct (frames m) as [y'|] eqn:Y'; [|discriminate]. apply some_inj in El; apply some_inj in Em; rewrite <- Em in El.
    rewrite <- !app_assoc in El. apply (head_inj s s' b b') in El as [P E]; try assumption.
    apply zero_split in E as [C E]; [|assumption|assumption|exact (frames_head l y Fl' Y)|exact (frames_head m y' Fm' Y')]. subst y'.
    destruct s, s'. cbn in P, C. subst. f_equal. eapply IH; eauto.
Qed.

(** ** Any contents: one file changed. *)
Lemma src_dec (a b : source) : {a = b} + {a <> b}.
Proof. decide equality; apply list_eq_dec; [apply N.eq_dec|apply text_eq_dec]. Qed.
Lemma frames_app l m : frames (l ++ m) = match frames l, frames m with Some x, Some y => Some (x ++ y) | _, _ => None end.
Proof.
  induction l as [|s l IH]; cbn [List.app frames]; [now destruct (frames m)|]. rewrite IH. destruct (frame s); [|reflexivity].
  destruct (frames l); [|reflexivity]. destruct (frames m); [|reflexivity]. now rewrite app_assoc.
Qed.
Lemma first_difference (l : list source) : forall m, List.length l = List.length m -> l <> m -> exists p x y r r', l = p ++ x :: r /\ m = p ++ y :: r' /\ x <> y.
Proof.
  induction l as [|x l IH]; intros [|y m] L N; try discriminate; [congruence|]. destruct (src_dec x y) as [->|D].
  - destruct (IH m) as (p & a & b & r & r' & -> & -> & D); [cbn in L; lia|congruence|]. exists (y :: p), a, b, r, r'. auto.
  - exists [], x, y, l, m. auto.
Qed.
Lemma NoDup_paths_In l (a b : source) : NoDup (map fst l) -> In a l -> In b l -> fst a = fst b -> a = b.
Proof.
  induction l as [|s l IH]; cbn [map In]; intros N Ia Ib E; [contradiction|]. inversion N as [|? ? N1 N2]; subst.
  destruct Ia as [->|Ia], Ib as [->|Ib]; auto; exfalso; apply N1; [rewrite E|rewrite <- E]; now apply in_map.
Qed.
Lemma sorted_app_r (l m : list source) : StronglySorted src_lt (l ++ m) -> StronglySorted src_lt m.
Proof. induction l as [|s l IH]; [auto|]. intros S. inversion S; subst. auto. Qed.
Lemma sorted_nodup (l : list source) : StronglySorted src_lt l -> NoDup (map fst l).
Proof.
  induction 1 as [|s l S IH H]; cbn [map]; constructor; auto. intros I. apply in_map_iff in I as (s' & E & I).
  rewrite Forall_forall in H. apply H in I. unfold src_lt in I. rewrite E, parts_ltb_irrefl in I. discriminate.
Qed.
Lemma frames_replace l m R s s' x : Forall src_ok l -> Forall src_ok m -> StronglySorted src_lt l -> StronglySorted src_lt m ->
  Permutation l (s :: R) -> Permutation m (s' :: R) -> s <> s' -> frames l = Some x -> frames m = Some x -> False.
Proof.
  intros Fl Fm Sl Sm Pl Pm D El Em.
  assert (Le : List.length l = List.length m) by (rewrite (Permutation_length Pl), (Permutation_length Pm); reflexivity).
  assert (Nlm : l <> m).
  { intros ->. rewrite Pl in Pm. pose proof (sorted_nodup _ Sl) as N. pose proof (Permutation_NoDup (Permutation_map fst Pl) N) as N'. cbn [map] in N'. inversion N' as [|? ? N1 N2]; subst.
    assert (I : In s (s' :: R)) by (apply (Permutation_in _ Pm); now left). destruct I as [I|I]; [congruence|]. apply N1. now apply in_map. }
  destruct (first_difference l m Le Nlm) as (p & a & b & r & r' & -> & -> & Dab).
  rewrite frames_app in El, Em. destruct (frames p) as [fp|]; [|discriminate].
  apply Forall_app in Fl as [_ Fl]. apply Forall_app in Fm as [_ Fm]. inversion Fl as [|? ? Ha Fr]; inversion Fm as [|? ? Hb Fr']; subst.
  cbn [frames] in El, Em. destruct (frame_some a Ha) as (ba & Ba & _ & Fa). destruct (frame_some b Hb) as (bb & Bb & _ & Fb). rewrite Fa in El. rewrite Fb in Em.
  destruct (frames r) as [y|] eqn:Y; [|discriminate]. destruct (frames r') as [y'|] eqn:Y'; [|discriminate]. apply some_inj in El; apply some_inj in Em; rewrite <- Em in El.
  apply app_inv_head in El. rewrite <- !app_assoc in El. apply (head_inj a b ba bb) in El as [Eab E]; try assumption.
  pose proof (sorted_nodup _ Sl) as Nl. pose proof (sorted_nodup _ Sm) as Nm.
  assert (Ia : In a (p ++ a :: r)) by (apply in_elt). assert (Ib : In b (p ++ b :: r')) by (apply in_elt).
  assert (a = s) as ->.
  { apply (Permutation_in _ Pl) in Ia. destruct Ia as [Ia|Ia]; [auto|]. exfalso. apply Dab.
    eapply NoDup_paths_In; [exact Nm| |exact Ib|exact Eab]. apply (Permutation_in _ (Permutation_sym Pm)). now right. }
  assert (b = s') as ->.
  { apply (Permutation_in _ Pm) in Ib. destruct Ib as [Ib|Ib]; [auto|]. exfalso. apply Dab.
    eapply NoDup_paths_In; [exact Nl|apply in_elt| |exact Eab]. apply (Permutation_in _ (Permutation_sym Pl)). now right. }
  assert (Prr : Permutation r r').
  { assert (A1 : Permutation (p ++ r) R) by (apply Permutation_cons_inv with (a := s); rewrite <- Pl; apply Permutation_middle).
    assert (A2 : Permutation (p ++ r') R) by (apply Permutation_cons_inv with (a := s'); rewrite <- Pm; apply Permutation_middle).
    apply Permutation_app_inv_l with (l := p). now rewrite A1, A2. }
  assert (r = r') as <-.
  { apply src_unique; [| |exact Prr]; [apply sorted_app_r in Sl; now inversion Sl|apply sorted_app_r in Sm; now inversion Sm]. }
  rewrite Y in Y'. injection Y' as <-. apply app_inv_tail in E. apply Dab. destruct s, s'. cbn in *. congruence.
Qed.

(** ** Trees. *)
Lemma filter_nodup {A B} (f : A -> B) g (l : list A) : NoDup (map f l) -> NoDup (map f (filter g l)).
Proof.
  induction l as [|x l IH]; cbn [map filter]; intros N; [constructor|]. inversion N; subst. destruct (g x); [|auto]. cbn [map]. constructor; [|auto].
  intros I. apply H1. apply in_map_iff in I as (y & <- & I). apply filter_In in I as [I _]. now apply in_map.
Qed.
Lemma filter_ok t : tree_ok t -> Forall src_ok (filter included t).
Proof. intros (_ & F). rewrite Forall_forall in *. intros s I. apply filter_In in I as [I _]. now apply F. Qed.
Lemma sort_ok l : Forall src_ok l -> Forall src_ok (sort_sources l).
Proof. intros F. eapply Permutation_Forall; [symmetry; apply sort_sources_perm|assumption]. Qed.
Lemma stream_some t : tree_ok t -> exists x, fingerprint_stream t = Some x.
Proof. intros T. apply frames_some, sort_ok, filter_ok, T. Qed.
Lemma filter_perm {A} (f : A -> bool) l m : Permutation l m -> Permutation (filter f l) (filter f m).
Proof. induction 1; cbn [filter]; auto; repeat destruct (f _); auto; [apply perm_swap|etransitivity; eassumption]. Qed.
Lemma nodup_of {A B} (f : A -> B) (l : list A) : NoDup (map f l) -> NoDup l.
Proof. apply NoDup_map_inv. Qed.
Lemma ok_plain t s : tree_ok t -> In s t -> Forall plain (fst s).
Proof. intros (_ & F) I. rewrite Forall_forall in F. now apply F in I as (_ & P & _). Qed.
Lemma same_filter a b : tree_ok a -> tree_ok b -> same_sources a b <-> Permutation (filter included a) (filter included b).
Proof.
  intros A B. split.
  - intros S. apply NoDup_Permutation; [eapply nodup_of, filter_nodup, A|eapply nodup_of, filter_nodup, B|].
    intros s. rewrite !filter_In. split; intros (I & H).
    + split; [|assumption]. apply S; [|assumption]. apply included_spec; [|assumption]. exact (ok_plain a s A I).
    + split; [|assumption]. apply S; [|assumption]. apply included_spec; [|assumption]. exact (ok_plain b s B I).
  - intros P s T. split; intros I.
    + assert (J : In s (filter included a)) by (apply filter_In; split; [assumption|apply included_spec; [exact (ok_plain a s A I)|assumption]]).
      apply (Permutation_in _ P) in J. now apply filter_In in J.
    + assert (J : In s (filter included b)) by (apply filter_In; split; [assumption|apply included_spec; [exact (ok_plain b s B I)|assumption]]).
      apply (Permutation_in _ (Permutation_sym P)) in J. now apply filter_In in J.
Qed.
Lemma stream_stable a b : tree_ok a -> tree_ok b -> same_sources a b -> fingerprint_stream a = fingerprint_stream b.
Proof.
  intros A B S. apply same_filter in S; try assumption. unfold fingerprint_stream. f_equal.
  apply src_unique; [apply sort_sources_sorted, filter_nodup, A|apply sort_sources_sorted, filter_nodup, B|]. now rewrite !sort_sources_perm.
Qed.
Lemma stream_inj a b : tree_ok a -> tree_ok b -> (forall s, In s a \/ In s b -> takes_part s -> ~ In 0%N (snd s)) ->
  fingerprint_stream a = fingerprint_stream b -> same_sources a b.
Proof.
  intros A B Z E. apply same_filter; try assumption. destruct (stream_some a A) as (x & X). pose proof X as Y. rewrite E in Y.
  assert (G : forall t, tree_ok t -> (forall s, In s t -> takes_part s -> ~ In 0%N (snd s)) -> Forall (fun s => ~ In 0%N (snd s)) (sort_sources (filter included t))).
  { intros t T H. eapply Permutation_Forall; [symmetry; apply sort_sources_perm|]. rewrite Forall_forall. intros s I. apply filter_In in I as (I & Hs). apply H; [assumption|].
    apply included_spec; [exact (ok_plain t s T I)|assumption]. }
  rewrite <- (sort_sources_perm (filter included a)), <- (sort_sources_perm (filter included b)).
  erewrite (frames_inj (sort_sources (filter included a)) (sort_sources (filter included b))); [reflexivity|..].
  - now apply sort_ok, filter_ok. - now apply sort_ok, filter_ok. - apply G; auto. - apply G; auto. - exact X. - exact Y.
Qed.
Lemma stream_replace a b R s s' : tree_ok a -> tree_ok b -> takes_part s -> takes_part s' -> Permutation a (s :: R) -> Permutation b (s' :: R) -> s <> s' ->
  fingerprint_stream a <> fingerprint_stream b.
Proof.
  intros A B T T' Pa Pb D E. destruct (stream_some a A) as (x & X). pose proof X as Y. rewrite E in Y.
  assert (Is : included s = true) by (apply included_spec; [eapply ok_plain; [exact A|apply (Permutation_in _ (Permutation_sym Pa)); now left]|assumption]).
  assert (Is' : included s' = true) by (apply included_spec; [eapply ok_plain; [exact B|apply (Permutation_in _ (Permutation_sym Pb)); now left]|assumption]).
  eapply (frames_replace (sort_sources (filter included a)) (sort_sources (filter included b)) (filter included R) s s').
  - now apply sort_ok, filter_ok. - now apply sort_ok, filter_ok.
  - apply sort_sources_sorted, filter_nodup, A. - apply sort_sources_sorted, filter_nodup, B.
  - rewrite sort_sources_perm. rewrite (filter_perm included _ _ Pa). cbn [filter]. rewrite Is. reflexivity.
  - rewrite sort_sources_perm. rewrite (filter_perm included _ _ Pb). cbn [filter]. rewrite Is'. reflexivity.
  - assumption. - exact X. - exact Y.
Qed.
Lemma frames_length l m x y : Forall src_ok m -> Permutation l m -> frames l = Some x -> frames m = Some y -> List.length x = List.length y.
Proof.
  intros F P; revert x y; induction P as [|s l m P IH|s s' l|l l' m P IH P' IH']; intros x y X Y.
  - congruence.
  - cbn [frames] in *. destruct (frame s); [|discriminate]. destruct (frames l); [|discriminate]. destruct (frames m); [|discriminate]. inversion F; subst.
    injection X as <-. injection Y as <-. rewrite !app_length. f_equal. now apply IH.
  - cbn [frames] in *. destruct (frame s); [|discriminate]. destruct (frame s'); [|discriminate]. destruct (frames l); [|discriminate]. injection X as <-. injection Y as <-. rewrite !app_length. lia.
  - destruct (frames_some l') as (z & Z); [eapply Permutation_Forall; [symmetry; exact P'|assumption]|]. rewrite (IH ltac:(eapply Permutation_Forall; [symmetry; exact P'|assumption]) x z X Z). now apply IH'.
Qed.
Lemma stream_add a b s : tree_ok a -> tree_ok b -> takes_part s -> Permutation b (s :: a) -> fingerprint_stream a <> fingerprint_stream b.
Proof.
  intros A B T P E. destruct (stream_some a A) as (x & X). pose proof X as Y. rewrite E in Y.
  assert (Is : included s = true) by (apply included_spec; [eapply ok_plain; [exact B|apply (Permutation_in _ (Permutation_sym P)); now left]|assumption]).
  unfold fingerprint_stream in *.
  assert (Fb : Forall src_ok (s :: sort_sources (filter included a))).
  { constructor; [|now apply sort_ok, filter_ok]. destruct B as (_ & B). rewrite Forall_forall in B. apply (B s). apply (Permutation_in _ (Permutation_sym P)). now left. }
  destruct (frames_some _ Fb) as (z & Z).
  assert (L : List.length x = List.length z).
  { eapply frames_length; [exact Fb| |exact Y|exact Z]. rewrite sort_sources_perm, (filter_perm included _ _ P). cbn [filter]. rewrite Is. constructor. now rewrite sort_sources_perm. }
  cbn [frames] in Z. inversion Fb as [|? ? Hs _]; subst. destruct (frame_some s Hs) as (b0 & _ & _ & F). rewrite F in Z. rewrite X in Z. apply some_inj in Z. rewrite <- Z, !app_length, len8_length in L. lia.
Qed.
