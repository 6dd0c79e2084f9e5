(** Proofs for C32 and C35. *)
From Coq Require Import List NArith ZArith Bool Arith Lia.
From Verif Require Import Text TextFacts CacheModel CacheSpec CacheRG CacheLoad FileSpec.
Import ListNotations.
Local Open Scope list_scope.

(** ** C35: reading while the file may change. *)
Section Read.
Variable en : env.
Variable w : world.
Variable me : nat.
Variable E : st -> st -> Prop.
Notation among := (among E w me).

Definition seen_at (f : nat) (vis : list st) (b : bytes) : Prop :=
  forall i x, nth_error b i = Some x -> exists s, In s vis /\ nth_error (files s f) i = Some x.
Lemma seen_incl f vis vis' b : incl vis vis' -> seen_at f vis b -> seen_at f vis' b.
Proof. intros I S i x H. destruct (S i x H) as (s & ? & ?). exists s. auto. Qed.

(** What the program has done when it goes on with [k]: it may not have been interfered
    with since. *)
Fixpoint among0 {A} (p : prog A) (s : st) (vis : list st) (a : A) (s' : st) : Prop :=
  match p with
  | Ret x => a = x /\ vis = [] /\ s' = s
  | Op c k => exists s1 r s2 rest, vis = s1 :: rest /\ E s s1 /\ step w me c s1 r s2 /\ among0 (k r) s2 rest a s'
  end.
(** Reads leave the state alone: what the rest of the program starts from. *)
Lemma among_loop f size : forall fuel off acc s vis r s', List.length acc = off -> off <= size ->
  among0 (read_loop fuel f off size acc) s vis r s' -> forall b, r = inr b -> List.length b = size /\
  (forall past, seen_at f past acc -> seen_at f (past ++ vis) b).
Proof.
  induction fuel as [|fuel IH]; intros off acc s vis r s' LA LE R b ->; cbn [read_loop] in R.
  - destruct (Nat.ltb_spec off size); [cbn in R; destruct R as (R & _); discriminate|].
    cbn in R. destruct R as (R & -> & _). injection R as ->. split; [lia|]. intros past S. now rewrite app_nil_r.
  - destruct (Nat.ltb_spec off size) as [L|L].
    + unfold bind in R. cbn [bindp] in R. destruct R as (s1 & x & s2 & rest & -> & HE & ST & R).
      cbn [step] in ST. destruct ST as [(F & -> & _)|(-> & b0 & tail & -> & SK & LB & Z)]; [cbn in R; destruct R as (R & _); discriminate|].
      cbn [lift] in R. destruct b0 as [|x0 b0]; [cbn in R; destruct R as (R & _); discriminate|].
      destruct (IH (off + List.length (x0 :: b0)) (acc ++ x0 :: b0) s1 rest (inr b) s') with (b := b) as (B1 & B2).
      * rewrite app_length. lia.
      * lia.
      * exact R.
      * reflexivity.
      * split; [assumption|]. intros past S. change (s1 :: rest) with ([s1] ++ rest). rewrite app_assoc. apply B2.
        intros i y Hy. destruct (Nat.lt_ge_cases i off) as [Hi|Hi].
        -- rewrite nth_error_app1 in Hy by lia. destruct (S i y Hy) as (s0 & I0 & N0). exists s0. rewrite in_app_iff. auto.
        -- rewrite nth_error_app2 in Hy by lia. exists s1. rewrite in_app_iff. split; [right; now left|].
           assert (Q : nth_error (skipn off (files s1 f)) (i - off) = Some y).
           { rewrite SK. rewrite nth_error_app1; [now rewrite <- LA|]. apply nth_error_Some. rewrite LA in Hy. congruence. }
           rewrite <- Q. clear -Hi. revert i Hi. generalize (files s1 f) as l. induction off as [|o IHo]; intros l i Hi; [now rewrite Nat.sub_0_r|].
           destruct l as [|a l]; [cbn [skipn]; rewrite (proj2 (nth_error_None _ _)); [|cbn; lia]; symmetry; apply nth_error_None; cbn; lia|].
           destruct i as [|i]; [lia|]. cbn [skipn nth_error Nat.sub]. apply IHo. lia.
    + cbn in R. destruct R as (R & -> & _). injection R as ->. split; [lia|]. intros past S. now rewrite app_nil_r.
Qed.
Lemma among_bindp A B (p : prog A) (k : A -> prog B) : forall s vis b s', among (bindp p k) s vis b s' ->
  exists a s1 v1 v2, vis = v1 ++ v2 /\ among0 p s v1 a s1 /\ among (k a) s1 v2 b s'.
Proof.
  induction p as [a|c p IH]; intros s vis b s' R; cbn [bindp] in R.
  - exists a, s, [], vis. now repeat split.
  - destruct R as (s1 & r & s2 & rest & -> & HE & ST & R). destruct (IH r _ _ _ _ R) as (a & s3 & v1 & v2 & -> & R1 & R2).
    exists a, s3, (s1 :: v1), v2. split; [reflexivity|]. split; [|assumption]. exists s1, r, s2, v1. now repeat split.
Qed.
Lemma among_bind A B (p : io A) (k : A -> io B) s vis b s' : among (bind p k) s vis (inr b) s' ->
  exists a s1 v1 v2, vis = v1 ++ v2 /\ among0 p s v1 (inr a) s1 /\ among (k a) s1 v2 (inr b) s'.
Proof.
  intros R. apply among_bindp in R. destruct R as ([e|a] & s1 & v1 & v2 & -> & R1 & R2).
  - cbn in R2. destruct R2 as (R2 & _). discriminate.
  - exists a, s1, v1, v2. now repeat split.
Qed.
(** Programs that only look, among processes that keep [P]. *)
Fixpoint pure_prog {A} (p : prog A) : Prop :=
  match p with Ret _ => True | Op c k => reads c /\ forall r, pure_prog (k r) end.
Lemma pure_bindp A B (p : prog A) (k : A -> prog B) : pure_prog p -> (forall a, pure_prog (k a)) -> pure_prog (bindp p k).
Proof. induction p as [a|c p IH]; intros H K; cbn; [apply K|]. destruct H as (H1 & H2). split; [assumption|]. intros r. apply IH; auto. Qed.
Lemma pure_bind A B (p : io A) (k : A -> io B) : pure_prog p -> (forall a, pure_prog (k a)) -> pure_prog (bind p k).
Proof. intros H K. apply pure_bindp; [assumption|]. intros [e|a]; [exact Logic.I|apply K]. Qed.
Lemma pure_loop f size : forall fuel off acc, pure_prog (read_loop fuel f off size acc).
Proof.
  induction fuel as [|fuel IH]; intros off acc; cbn [read_loop]; (destruct (off <? size); [|exact Logic.I]); [exact Logic.I|].
  apply pure_bind; [split; [exact Logic.I|intros r; exact Logic.I]|]. intros [|x b]; [exact Logic.I|apply IH].
Qed.
Lemma pure_read h es ms : pure_prog (read_open_regular en h es ms).
Proof.
  unfold read_open_regular. destruct h as [f|]; [|exact Logic.I]. apply pure_bind; [split; [exact Logic.I|intros r; exact Logic.I]|]. intros size.
  destruct (_ <? _)%Z; [exact Logic.I|]. destruct (match es with Some e => _ | None => _ end); [exact Logic.I|].
  destruct (match ms with Some e => _ | None => _ end); [exact Logic.I|].
  apply pure_bind; [apply pure_loop|]. intros b. apply pure_bind; [split; [exact Logic.I|intros r; exact Logic.I]|]. intros [|x m]; [|exact Logic.I].
  apply pure_bind; [split; [exact Logic.I|intros r; exact Logic.I]|]. intros n. destruct (n =? size); exact Logic.I.
Qed.
Lemma pure_keeps (P : st -> Prop) A (p : prog A) : (forall s s', P s -> E s s' -> P s') -> pure_prog p ->
  forall s vis a s', P s -> among p s vis a s' -> Forall P vis /\ P s'.
Proof.
  intros HE. induction p as [x|c p IH]; intros PP s vis a s' H R; cbn in R.
  - destruct R as (_ & -> & R). split; [constructor|eauto].
  - destruct PP as (PC & PK). destruct R as (s1 & r & s2 & rest & -> & R1 & ST & R). apply (reads_pure w me c s1) in ST; [|assumption]. subst s2.
    assert (P1 : P s1) by eauto. destruct (IH r (PK r) s1 rest a s' P1 R) as (F & Ps). split; [constructor; assumption|assumption].
Qed.

Theorem read_concurrent f es ms s vis b s' : among (read_open_regular en (Some f) es ms) s vis (inr b) s' ->
  exists s1 mid s2, vis = s1 :: mid ++ [s2] /\
    List.length (files s1 f) = List.length b /\ List.length (files s2 f) = List.length b /\
    (size_of b <= maxsize en)%Z /\ (forall z, es = Some z -> z = size_of b) /\ (forall m, ms = Some m -> (size_of b <= m)%Z) /\
    forall i x, nth_error b i = Some x -> exists s0, In s0 mid /\ nth_error (files s0 f) i = Some x.
Proof.
  intros R. unfold read_open_regular in R. apply among_bind in R. destruct R as (size & sa & v1 & v2 & -> & R1 & R).
  cbn in R1. destruct R1 as (s1 & r & s2 & rest & -> & HE & ST & R1 & -> & ->).
  destruct ST as [(F & -> & _)|(-> & ->)]; [discriminate|]. cbn in R1. injection R1 as ->.
  fold (size_of (files s1 f)) in R.
  destruct (Z.ltb_spec (maxsize en) (size_of (files s1 f))) as [L|L]; [cbn in R; destruct R as (R & _); discriminate|].
  destruct (match es with Some e => _ | None => _ end) eqn:E1 in R; [cbn in R; destruct R as (R & _); discriminate|].
  destruct (match ms with Some e => _ | None => _ end) eqn:E2 in R; [cbn in R; destruct R as (R & _); discriminate|].
  apply among_bind in R. destruct R as (b1 & sb & v3 & v4 & -> & R1 & R).
  destruct (among_loop f (List.length (files s1 f)) _ 0 [] s1 v3 _ sb eq_refl (Nat.le_0_l _) R1 b1 eq_refl) as (LB & SB).
  apply among_bind in R. destruct R as (more & sc & v5 & v6 & -> & R2 & R).
  cbn in R2. destruct R2 as (s5 & r5 & s6 & rest5 & -> & _ & ST5 & R2 & -> & ->).
  destruct more as [|x m]; [|cbn in R; destruct R as (R & _); discriminate].
  apply among_bind in R. destruct R as (after & sd & v7 & v8 & -> & R3 & R).
  cbn in R3. destruct R3 as (s7 & r7 & s8 & rest7 & -> & _ & ST7 & R3 & -> & ->).
  destruct ST7 as [(F & -> & _)|(-> & ->)]; [discriminate|]. cbn in R3. injection R3 as ->.
  destruct (Nat.eqb_spec (List.length (files s7 f)) (List.length (files s1 f))) as [EL|]; [|cbn in R; destruct R as (R & _); discriminate].
  cbn in R. destruct R as (R & -> & _). injection R as ->.
  exists s1, (v3 ++ [s5]), s7. split; [cbn; now rewrite <- app_assoc|]. split; [now rewrite LB|]. split; [now rewrite LB|].
  unfold size_of in *. rewrite LB. split; [exact L|]. split.
  { intros z ->. apply negb_false_iff, Z.eqb_eq in E1. now symmetry. }
  split. { intros m ->. now apply Z.ltb_ge in E2. }
  intros i x Hx. assert (S0 : seen_at f [] []) by (intros [|?] ? ?; discriminate).
  destruct (SB [] S0 i x Hx) as (s0 & I0 & N0). exists s0. rewrite in_app_iff. auto.
Qed.
End Read.

Theorem read_appends en w me (E : st -> st -> Prop) f es ms s vis b s' : (forall a a', E a a' -> appends f a a') ->
  among E w me (read_open_regular en (Some f) es ms) s vis (inr b) s' ->
  exists s1 mid s2, vis = s1 :: mid ++ [s2] /\ files s1 f = b /\ files s2 f = b.
Proof.
  intros HE R. pose proof R as R0. unfold read_open_regular in R0. cbn in R0. destruct R0 as (s1 & r & s2 & rest & EV & E1 & ST & R0).
  destruct (read_concurrent en w me E f es ms s vis b s' R) as (t1 & mid & t2 & EV' & L1 & L2 & _ & _ & _ & SB).
  rewrite EV in EV'. injection EV' as <- ->.
  assert (X : Forall (fun t => exists more, files t f = files s1 f ++ more) (mid ++ [t2])).
  { apply (reads_pure w me (CSize f) s1) in ST; [subst s2|exact Logic.I]. refine (proj1 (pure_keeps _ _ _ _ _ _ _ _ s1 _ _ _ _ R0)).
    - intros a a' (m & H) HA. destruct (HE a a' HA) as (m' & ->). rewrite H. exists (m ++ m'). now rewrite app_assoc.
    - pose proof (pure_read en (Some f) es ms) as PR. destruct PR as (_ & PR). exact (PR r).
    - exists []. now rewrite app_nil_r. }
  apply Forall_app in X. destruct X as (Xm & X2). inversion X2 as [|? ? (m2 & H2) _]; subst.
  assert (m2 = []). { destruct m2; [reflexivity|]. rewrite H2, app_length in L2. cbn in L2. lia. } subst m2. rewrite app_nil_r in H2.
  assert (B : files s1 f = b).
  { assert (L : List.length b = List.length (files s1 f)) by lia. clear -SB Xm L.
    assert (Q : forall i, nth_error b i = nth_error (files s1 f) i).
    { intros i. destruct (nth_error b i) as [x|] eqn:Ex.
      - destruct (SB i x Ex) as (s0 & I0 & N0). rewrite Forall_forall in Xm. destruct (Xm s0 I0) as (m & Hm). rewrite Hm in N0.
        rewrite nth_error_app1 in N0; [now symmetry|]. rewrite <- L. apply nth_error_Some. congruence.
      - symmetry. apply nth_error_None. rewrite <- L. now apply nth_error_None. }
    clear -Q. revert Q. generalize (files s1 f) as l. induction b as [|x b IH]; intros [|y l] Q; auto; try (specialize (Q 0); discriminate Q).
    pose proof (Q 0) as Q0. cbn in Q0. injection Q0 as ->. f_equal. apply IH. intros i. exact (Q (S i)). }
  exists s1, mid, t2. split; [reflexivity|]. split; [exact B|]. now rewrite H2.
Qed.

(** ** C35: alone. *)
Theorem read_alone en w me f es ms s r s' : runs w me (read_open_regular en (Some f) es ms) s r s' ->
  s' = s /\ (forall b, r = inr b -> b = files s f /\ fits en es ms b) /\
  (no_faults w -> fits en es ms (files s f) -> r = inr (files s f)) /\
  (no_faults w -> ~ fits en es ms (files s f) -> r = inl XIntegrity).
Proof.
  intros R. pose proof (runs_read_open_regular en w me (Some f) es ms s r s' R) as (A1 & A2 & A3).
  split; [assumption|]. split.
  { intros b ->. destruct (A2 b eq_refl) as (f' & X & -> & Y1 & Y2). injection X as <-. split; [reflexivity|]. split; [|now split].
    unfold read_open_regular in R. apply runs_bind in R. destruct R as [(e & _ & X)|(n & s1 & R1 & R)]; [discriminate|].
    cbn in R1. destruct R1 as (x & s2 & ST & X & ->). destruct ST as [(F & -> & _)|(-> & ->)]; [discriminate|]. injection X as ->.
    unfold size_of. destruct (Z.ltb_spec (maxsize en) (Z.of_nat (List.length (files s f)))) as [L|L]; [cbn in R; destruct R; discriminate|exact L]. }
  split. { intros NF (F1 & F2 & F3). exact (A3 NF f eq_refl F1 F2 F3). }
  intros NF NFit. unfold read_open_regular in R. apply runs_bind in R. destruct R as [(e & R1 & X)|(n & s1 & R1 & R)].
  { cbn in R1. destruct R1 as (x & s2 & ST & X' & ->). destruct ST as [(F & _)|(-> & ->)]; [rewrite NF in F; discriminate|discriminate]. }
  cbn in R1. destruct R1 as (x & s2 & ST & X & ->). destruct ST as [(F & _)|(-> & ->)]; [rewrite NF in F; discriminate|]. injection X as ->.
  fold (size_of (files s f)) in R.
  destruct (Z.ltb_spec (maxsize en) (size_of (files s f))) as [L|L]; [cbn in R; apply R|].
  destruct (match es with Some e => _ | None => _ end) eqn:E1 in R; [cbn in R; apply R|].
  destruct (match ms with Some e => _ | None => _ end) eqn:E2 in R; [cbn in R; apply R|].
  contradict NFit. split; [assumption|]. split.
  { intros z ->. apply negb_false_iff, Z.eqb_eq in E1. now symmetry. }
  intros m ->. now apply Z.ltb_ge in E2.
Qed.
(** No answer of the kernel makes the loop run out of fuel. *)
Lemma read_no_fuel en w me E f es ms s vis r s' : among E w me (read_open_regular en (Some f) es ms) s vis r s' -> r <> inl XFuel.
Proof.
  assert (L : forall size fuel off acc s vis r s', size - off <= fuel -> among0 w me E (read_loop fuel f off size acc) s vis r s' -> r <> inl XFuel).
  { induction fuel as [|fuel IH]; intros off acc s0 v0 r0 s0' LE R; cbn [read_loop] in R; (destruct (Nat.ltb_spec off size) as [L|L]; [|cbn in R; destruct R as (-> & _); discriminate]); [lia|].
    cbn in R. destruct R as (s1 & x & s2 & rest & _ & _ & ST & R). destruct x as [e|[|y b]].
    - cbn in R. destruct R as (-> & _). destruct e; discriminate.
    - cbn in R. destruct R as (-> & _). discriminate.
    - apply IH in R; [assumption|]. cbn [List.length]. lia. }
  intros R. unfold read_open_regular in R. apply among_bindp in R. destruct R as (a & s1 & v1 & v2 & _ & R1 & R).
  cbn in R1. destruct R1 as (t1 & x & t2 & rest & _ & _ & _ & -> & _ & _). destruct x as [e|size]; cbn [lift] in R.
  { cbn in R. destruct R as (-> & _). destruct e; discriminate. }
  destruct (_ <? _)%Z; [cbn in R; destruct R as (-> & _); discriminate|].
  destruct (match es with Some e => _ | None => _ end); [cbn in R; destruct R as (-> & _); discriminate|].
  destruct (match ms with Some e => _ | None => _ end); [cbn in R; destruct R as (-> & _); discriminate|].
  apply among_bindp in R. destruct R as (a & s2 & v3 & v4 & _ & R1 & R). apply L in R1; [|lia].
  destruct a as [e|b]; [cbn in R; destruct R as (-> & _); congruence|].
  cbn in R. destruct R as (t3 & x & t4 & rest2 & _ & _ & _ & R). destruct x as [e|[|y m]]; cbn [lift] in R;
    [cbn in R; destruct R as (-> & _); destruct e; discriminate| |cbn in R; destruct R as (-> & _); discriminate].
  cbn in R. destruct R as (t5 & x & t6 & rest3 & _ & _ & _ & R). destruct x as [e|after]; cbn [lift] in R;
    [cbn in R; destruct R as (-> & _); destruct e; discriminate|].
  destruct (after =? size); cbn in R; destruct R as (-> & _); discriminate.
Qed.

(** ** C32: effect. *)
Section Remove.
Variable w : world.
Variable me : nat.
Notation runs := (runs w me).
Definition listed (s : st) (d : nat) (l : list fname) : Prop := forall fn, In fn l -> exists e, dirs s d fn = Some e /\ expendable fn (fst (fentry_kind e)).
Lemma removable_runs n d s : par s n = Some (EDir d) -> forall l r s', runs (removable n l) s r s' ->
  s' = s /\ (r = inr true -> listed s d l) /\ (no_faults w -> listed s d l -> r = inr true) /\
  (no_faults w -> (forall fn, In fn l -> dirs s d fn <> None) -> ~ listed s d l -> r = inr false) /\ (forall e, r = inl e -> is_os e = true).
Proof.
  intros P. induction l as [|fn l IH]; intros r s' R; cbn [removable] in R.
  { cbn in R. destruct R as (-> & ->). split; [reflexivity|]. split; [intros _ fn []|]. split; [auto|]. split; [|discriminate]. intros _ _ N. contradict N. intros fn []. }
  apply runs_bind in R. destruct R as [(e & R1 & ->)|(k & s1 & R1 & R)].
  { cbn in R1. destruct R1 as (x & s1 & ST & X & ->). destruct ST as [(F & -> & ->)|(-> & ->)].
    - cbn in X. injection X as ->. split; [reflexivity|]. split; [discriminate|]. split; [intros NF; rewrite NF in F; discriminate|].
      split; [intros NF; rewrite NF in F; discriminate|]. intros e E. injection E as <-. reflexivity.
    - rewrite P in X. destruct (dirs s d fn) as [e0|] eqn:Ed; [discriminate|]. cbn in X. injection X as ->.
      split; [reflexivity|]. split; [discriminate|]. split.
      + intros _ Lx. destruct (Lx fn (or_introl eq_refl)) as (e & He & _). congruence.
      + split; [|intros e E; injection E as <-; reflexivity]. intros _ A. exfalso. apply (A fn (or_introl eq_refl)). assumption. }
  cbn in R1. destruct R1 as (x & s2 & ST & X & ->). destruct ST as [(F & -> & ->)|(-> & ->)]; [discriminate|].
  rewrite P in X. destruct (dirs s d fn) as [e0|] eqn:Ed; [|discriminate]. cbn in X. injection X as ->.
  assert (GO : expendable fn (fst (fentry_kind e0)) -> runs (removable n l) s r s' ->
    s' = s /\ (r = inr true -> listed s d (fn :: l)) /\ (no_faults w -> listed s d (fn :: l) -> r = inr true) /\
    (no_faults w -> (forall fn0, In fn0 (fn :: l) -> dirs s d fn0 <> None) -> ~ listed s d (fn :: l) -> r = inr false) /\ (forall e, r = inl e -> is_os e = true)).
  { intros X R'. destruct (IH r s' R') as (A1 & A2 & A3 & A4 & A5). split; [assumption|]. split.
    - intros Hr fn' [<-|I]; [eauto|exact (A2 Hr fn' I)].
    - split; [intros NF Lx; apply A3; [assumption|]; intros fn' I; apply Lx; now right|]. split; [|assumption].
      intros NF A N. apply A4; [assumption|intros fn' I; apply A; now right|]. intros Ly. apply N. intros fn' [<-|I]; [eauto|exact (Ly fn' I)]. }
  assert (STOP : ~ expendable fn (fst (fentry_kind e0)) -> runs (ok false) s r s' ->
    s' = s /\ (r = inr true -> listed s d (fn :: l)) /\ (no_faults w -> listed s d (fn :: l) -> r = inr true) /\
    (no_faults w -> (forall fn0, In fn0 (fn :: l) -> dirs s d fn0 <> None) -> ~ listed s d (fn :: l) -> r = inr false) /\ (forall e, r = inl e -> is_os e = true)).
  { intros X R'. cbn in R'. destruct R' as (-> & ->). split; [reflexivity|]. split; [discriminate|]. split; [|split; [auto|discriminate]].
    intros _ Lx. destruct (Lx fn (or_introl eq_refl)) as (e & He & HX). assert (e = e0) by congruence. subst e. contradiction. }
  unfold expendable in GO, STOP. destruct (fst (fentry_kind e0)) eqn:Ek; cbn [fst] in *.
  - apply STOP; [|assumption]. intros [?|(? & _)]; discriminate.
  - destruct (known fn) eqn:Kn; [apply GO; auto|apply STOP; auto]. intros [?|(_ & ?)]; discriminate.
  - apply GO; auto.
  - apply STOP; [|assumption]. intros [?|(? & _)]; discriminate.
Qed.
Lemma unlink_runs d : forall l s r s', runs (unlink_all d l) s r s' ->
  (forall d' fn, d' <> d -> dirs s' d' fn = dirs s d' fn) /\ (forall fn, dirs s' d fn = dirs s d fn \/ dirs s' d fn = None) /\
  par s' = par s /\ files s' = files s /\ next s' = next s /\ lock s' = lock s /\
  (r = inr tt -> forall fn, In fn l -> dirs s' d fn = None) /\
  (no_faults w -> (forall fn, In fn l -> dirs s d fn <> Some FDir) -> r = inr tt) /\
  (forall e, r = inl e -> is_os e = true).
Proof.
  induction l as [|fn l IH]; intros s r s' R; cbn [unlink_all] in R.
  { cbn in R. destruct R as (-> & ->). repeat split; auto; try discriminate. intros _ fn []. }
  apply runs_bind in R.
  assert (ONE : forall x s1, runs (catch (sys (CUnlinkAt d fn)) (fun e => match e with XNotFound => ok tt | _ => throw e end)) s x s1 ->
    (x = inr tt /\ s1 = upd_dir s d fn None) \/ (x = inr tt /\ s1 = s /\ dirs s d fn = None) \/
    (x = inl XOs /\ s1 = s /\ (faulty w (CUnlinkAt d fn) = true \/ dirs s d fn = Some FDir))).
  { intros x s1 R1. apply runs_catch in R1. destruct R1 as [(b & R1 & ->)|(e & s2 & R1 & R2)].
    - cbn in R1. destruct R1 as (y & s2 & ST & Y & ->). destruct ST as [(F & -> & ->)|ST]; [discriminate|].
      destruct b. left. split; [reflexivity|]. destruct (dirs s d fn) as [[]|]; destruct ST as (-> & ->); try discriminate; reflexivity.
    - cbn in R1. destruct R1 as (y & s3 & ST & Y & ->). destruct ST as [(F & -> & ->)|ST].
      + injection Y as ->. cbn in R2. destruct R2 as (-> & ->). right. right. auto 10.
      + destruct (dirs s d fn) as [[]|] eqn:Ed; destruct ST as (-> & ->); try discriminate Y; injection Y as ->; cbn in R2; destruct R2 as (-> & ->); auto 10. }
  destruct R as [(e & R1 & ->)|([] & s1 & R1 & R)]; apply ONE in R1; clear ONE.
  { destruct R1 as [(X & _)|[(X & _)|(X & -> & Y)]]; try discriminate X. injection X as ->. repeat split; auto; try discriminate.
    - intros NF A. destruct Y as [Y|Y]; [rewrite NF in Y; discriminate|]. exfalso. exact (A fn (or_introl eq_refl) Y).
    - intros e E. injection E as <-. reflexivity. }
  destruct R1 as [(_ & ->)|[(_ & -> & N)|(X & _)]]; [| |discriminate X].
  - destruct (IH _ _ _ R) as (A1 & A2 & A3 & A4 & A5 & A6 & A7 & A8 & A9). split; [|split; [|split; [|split; [|split; [|split; [|split; [|split]]]]]]].
    + intros d' fn' D. rewrite A1 by assumption. cbn. destruct (Nat.eq_dec d' d); [contradiction|reflexivity].
    + intros fn'. destruct (A2 fn') as [Q|Q]; [|auto]. rewrite Q. cbn. destruct (Nat.eq_dec d d); [|contradiction]. destruct (fname_eq_dec fn' fn); auto.
    + assumption.
    + assumption.
    + assumption.
    + assumption.
    + intros Hr fn' [<-|I]; [|exact (A7 Hr fn' I)]. destruct (A2 fn) as [Q|Q]; [|assumption]. rewrite Q. cbn.
      destruct (Nat.eq_dec d d); [|contradiction]. destruct (fname_eq_dec fn fn); [reflexivity|contradiction].
    + intros NF A. apply A8; [assumption|]. intros fn' I. cbn. destruct (Nat.eq_dec d d); [|contradiction]. destruct (fname_eq_dec fn' fn); [discriminate|]. apply A. now right.
    + assumption.
  - destruct (IH _ _ _ R) as (A1 & A2 & A3 & A4 & A5 & A6 & A7 & A8 & A9). split; [assumption|]. split; [assumption|]. split; [assumption|]. split; [assumption|].
    split; [assumption|]. split; [assumption|]. split; [|split; [|assumption]].
    + intros Hr fn' [<-|I]; [|exact (A7 Hr fn' I)]. destruct (A2 fn) as [Q|Q]; [|assumption]. now rewrite Q.
    + intros NF A. apply A8; [assumption|]. intros fn' I. apply A. now right.
Qed.

Lemma trimmed_refl n d s : trimmed n d s s.
Proof. constructor; auto. Qed.
Lemma flat_listed s d l : lists l (fun fn => dirs s d fn <> None) -> (flat s d <-> listed s d l).
Proof.
  intros (_ & H). split.
  - intros F fn I. apply H in I. destruct (dirs s d fn) as [e|] eqn:Ed; [|contradiction]. exists e. split; [reflexivity|]. exact (F fn e Ed).
  - intros L fn e Ed. destruct (L fn) as (e' & Ee & X); [apply H; congruence|]. congruence.
Qed.
Lemma impl_runs n be s r s' : runs (remove_flat_bundle_impl n be) s r s' ->
  (s' = s \/ exists d, par s n = Some (EDir d) /\ flat s d /\ trimmed n d s s') /\
  (r = inr true -> par s' n = None) /\
  (no_faults w -> match par s n with
                  | None => r = inr true
                  | Some (EDir d) => (flat s d -> r = inr true) /\ (~ flat s d -> r = inr false)
                  | Some _ => r = refused be
                  end) /\
  (forall e, r = inl e -> is_os e = true \/ e = XPath).
Proof.
  intros R. unfold remove_flat_bundle_impl in R. cbn [CacheSpec.runs] in R. destruct R as (x & s1 & ST & R).
  assert (s1 = s). { cbn in ST. destruct ST as [(_ & _ & ->)|(-> & _)]; reflexivity. } subst s1.
  destruct ST as [(F & -> & _)|(_ & ->)].
  { cbn in R. destruct R as (-> & ->). split; [now left|]. split; [discriminate|]. split; [intros NF; rewrite NF in F; discriminate|]. intros e E. injection E as <-. now left. }
  destruct (par s n) as [en0|] eqn:P.
  2:{ cbn in R. destruct R as (-> & ->). split; [now left|]. split; [auto|]. split; [auto|discriminate]. }
  assert (NO : forall t, runs (if be then ok false else throw XPath : io bool) s r s' -> t = refused be ->
    (s' = s \/ exists d, Some en0 = Some (EDir d) /\ flat s d /\ trimmed n d s s') /\ (r = inr true -> par s' n = None) /\ r = t /\ (forall e, r = inl e -> is_os e = true \/ e = XPath)).
  { intros t R' ->. unfold refused. destruct be; cbn in R'; destruct R' as (-> & ->); (split; [now left|]; split; [discriminate|]; split; [reflexivity|]); [discriminate|]. intros e E. injection E as <-. now right. }
  destruct en0 as [d| | |]; cbn [entry_kind] in R;
    try (destruct (NO _ R eq_refl) as (N1 & N2 & N3 & N4); split; [assumption|]; split; [assumption|]; split; [intros _; assumption|assumption]).
  clear NO. apply runs_bind in R. destruct R as [(e & R1 & ->)|(l & s1 & R1 & R)].
  { cbn in R1. destruct R1 as (x & s1 & ST & X & ->). destruct ST as [(F & -> & ->)|(-> & ST)].
    - injection X as ->. split; [now left|]. split; [discriminate|]. split; [intros NF; rewrite NF in F; discriminate|]. intros e E. injection E as <-. now left.
    - rewrite P in ST. destruct ST as (l & -> & _). discriminate X. }
  cbn in R1. destruct R1 as (x & s2 & ST & X & ->). destruct ST as [(F & -> & ->)|(-> & ST)]; [discriminate X|].
  rewrite P in ST. destruct ST as (l' & -> & LS). injection X as <-. pose proof (flat_listed s d l LS) as FL.
  apply runs_bind in R. destruct R as [(e & R1 & ->)|(good & s1 & R1 & R)]; apply (removable_runs n d s P) in R1; destruct R1 as (-> & A2 & A3 & A4 & A5).
  { split; [now left|]. split; [discriminate|]. split.
    - intros NF. split; intros F; exfalso.
      + apply FL in F. specialize (A3 NF F). discriminate.
      + assert (Y : @inl exn bool e = inr false) by (apply A4; auto; [intros fn I; now apply LS|rewrite <- FL; assumption]). discriminate.
    - intros e' E. injection E as <-. left. now apply A5. }
  destruct good.
  2:{ cbn in R. destruct R as (-> & ->). split; [now left|]. split; [discriminate|]. split; [|discriminate]. intros NF. split; [|auto]. intros F. apply FL in F. exact (A3 NF F). }
  specialize (A2 eq_refl). assert (FF : flat s d) by (apply FL; assumption). clear A3 A4 A5.
  apply runs_bind in R.
  assert (OD : forall y s1, runs (catch (d0 <- sys (COpenDir n);; (if d0 =? d then ok (Some d0) else throw XPath)) (fun e => if be then ok None else throw e)) s y s1 ->
     s1 = s /\ (y = inr (Some d) \/ (faulty w (COpenDir n) = true /\ (y = inr None \/ y = inl XOs)))).
  { intros y s1 R1. apply runs_catch in R1.
    assert (B : forall z s2, runs (d0 <- sys (COpenDir n);; (if d0 =? d then ok (Some d0) else throw XPath)) s z s2 -> s2 = s /\ (z = inr (Some d) \/ (faulty w (COpenDir n) = true /\ z = inl XOs))).
    { intros z s2 R2. cbn in R2. destruct R2 as (x & s3 & ST & R2). destruct ST as [(F & -> & ->)|(-> & ->)].
      - cbn in R2. destruct R2 as (-> & ->). auto.
      - rewrite P in R2. cbn in R2. rewrite Nat.eqb_refl in R2. cbn in R2. destruct R2 as (-> & ->). auto. }
    destruct R1 as [(b & R1 & ->)|(e & s2 & R1 & R2)]; apply B in R1; destruct R1 as (-> & [Y|(F & Y)]); try discriminate Y.
    - injection Y as ->. auto.
    - injection Y as ->. destruct be; cbn in R2; destruct R2 as (-> & ->); auto. }
  destruct R as [(e & R1 & ->)|(fd & s1 & R1 & R)]; apply OD in R1; clear OD.
  { destruct R1 as (-> & [Y|(F & [Y|Y])]); try discriminate Y. injection Y as ->. split; [now left|]. split; [discriminate|].
    split; [intros NF; rewrite NF in F; discriminate|]. intros e E. injection E as <-. now left. }
  destruct R1 as (-> & [Y|(F & [Y|Y])]); try discriminate Y; injection Y as ->.
  2:{ cbn in R. destruct R as (-> & ->). split; [now left|]. split; [discriminate|]. split; [intros NF; rewrite NF in F; discriminate|discriminate]. }
  assert (BODY : forall y s1, runs (unlink_all d l;;; (sys (CRmdir n);;; ok true)) s y s1 ->
     trimmed n d s s1 /\ (y = inr true -> par s1 n = None) /\ (no_faults w -> y = inr true) /\ (forall e, y = inl e -> is_os e = true) /\ (forall b, y = inr b -> b = true)).
  { intros y s1 R1. apply runs_bind in R1.
    destruct R1 as [(e & R1 & ->)|([] & s2 & R1 & R2)]; apply unlink_runs in R1; destruct R1 as (B1 & B2 & B3 & B4 & B5 & B6 & B7 & B8 & B9).
    - split; [constructor; auto; rewrite B3; auto|]. split; [discriminate|]. split; [|split; [intros e0 Q; injection Q as <-; exact (B9 e eq_refl)|discriminate]]. intros NF. exfalso.
      assert (Y : @inl exn unit e = inr tt); [|discriminate]. apply B8; [assumption|]. intros fn I E. destruct (A2 fn I) as (e' & E' & [Z|(Z & _)]); rewrite E in E'; injection E' as <-; discriminate Z.
    - assert (EM : empty_dir s2 d).
      { intros fn. destruct (dirs s d fn) eqn:Ed; [apply (B7 eq_refl), LS; congruence|]. destruct (B2 fn) as [Q|Q]; congruence. }
      assert (T2 : trimmed n d s s2) by (constructor; auto; rewrite B3; auto).
      apply runs_bind in R2. destruct R2 as [(e & R2 & ->)|([] & s3 & R2 & R3)]; cbn in R2; destruct R2 as (x & s4 & ST & X & ->).
      + destruct ST as [(F & -> & ->)|ST].
        * injection X as ->. split; [assumption|]. split; [discriminate|]. split; [intros NF; rewrite NF in F; discriminate|]. split; [intros e E; injection E as <-; reflexivity|discriminate].
        * rewrite B3, P in ST. destruct ST as [(_ & -> & _)|(NE & _)]; [discriminate X|contradiction].
      + destruct ST as [(F & -> & ->)|ST]; [discriminate X|]. rewrite B3, P in ST. destruct ST as [(_ & _ & ->)|(NE & _)]; [|contradiction].
        cbn in R3. destruct R3 as (-> & ->). split.
        { constructor; cbn; auto.
          - intros m Hm. destruct (name_eq_dec m n); [contradiction|]. now rewrite B3.
          - right. destruct (name_eq_dec n n); [|contradiction]. split; [reflexivity|assumption]. }
        split; [|repeat split; auto; try discriminate; intros b E; now injection E].
        intros _. cbn. destruct (name_eq_dec n n); [reflexivity|contradiction]. }
  apply runs_catch in R. destruct R as [(b & R1 & ->)|(e & s2 & R1 & R2)]; apply BODY in R1; destruct R1 as (C1 & C2 & C3 & C4 & C5).
  - split; [right; exists d; auto|]. split; [assumption|]. split; [|discriminate]. intros NF. split; [auto|contradiction].
  - specialize (C4 e eq_refl). destruct be; cbn in R2; destruct R2 as (-> & ->); (split; [right; exists d; auto|]; split; [discriminate|]; split; [intros NF; specialize (C3 NF); discriminate|]); [discriminate|].
    intros e' E. injection E as <-. now left.
Qed.
Theorem cleanup_effect n be s r s' : runs (remove_flat_bundle n be) s r s' ->
  (s' = s \/ exists d, par s n = Some (EDir d) /\ flat s d /\ trimmed n d s s') /\
  (r = inr true -> par s' n = None) /\
  (no_faults w -> match par s n with
                  | None => r = inr true
                  | Some (EDir d) => (flat s d -> r = inr true) /\ (~ flat s d -> r = inr false)
                  | Some _ => r = refused be
                  end) /\
  (be = true -> exists b, r = inr b).
Proof.
  intros R. unfold remove_flat_bundle in R. apply runs_catch in R. destruct R as [(b & R1 & ->)|(e & s1 & R1 & R2)]; apply impl_runs in R1; destruct R1 as (A1 & A2 & A3 & A4).
  - split; [assumption|]. split; [assumption|]. split; [assumption|]. eauto.
  - assert (X : s' = s1 /\ r = (if be then inr false else inl e)).
    { destruct (A4 e eq_refl) as [I| ->]; [destruct e; try discriminate I|]; destruct be; cbn in R2; destruct R2; auto. }
    destruct X as (-> & ->). split; [assumption|]. split; [destruct be; discriminate|]. split.
    + intros NF. specialize (A3 NF). destruct (par s n) as [[d| | |]|]; try discriminate A3;
        try (unfold refused in *; destruct be; [discriminate A3|assumption]).
      destruct A3 as (B1 & B2). split; intros F; exfalso; [specialize (B1 F)|specialize (B2 F)]; discriminate.
    + intros ->. eauto.
Qed.
End Remove.

(** ** C32: the calls made, whatever the answers. *)
Fixpoint ok_prog (P : list event -> call -> Prop) {A} (p : prog A) (t : list event) (Q : A -> list event -> Prop) : Prop :=
  match p with
  | Ret a => Q a t
  | Op c k => P t c /\ forall r, ok_prog P (k r) (t ++ [Event c r]) Q
  end.
Lemma ok_calls P A (p : prog A) : forall t0 Q t c, ok_prog P p t0 Q -> calls_next p t c -> P (t0 ++ t) c.
Proof.
  induction p as [a|c0 k IH]; intros t0 Q t c H N; cbn in *; [contradiction|]. destruct H as (H1 & H2). destruct t as [|e t].
  - subst c0. now rewrite app_nil_r.
  - destruct N as (r & -> & N). specialize (IH r _ _ _ _ (H2 r) N). now rewrite <- app_assoc in IH.
Qed.
Lemma ok_mono P A (p : prog A) (Q Q' : A -> list event -> Prop) : (forall a t, Q a t -> Q' a t) -> forall t, ok_prog P p t Q -> ok_prog P p t Q'.
Proof. intros M. induction p as [a|c k IH]; intros t H; cbn in *; [auto|]. destruct H as (H1 & H2). split; [assumption|]. intros r. now apply IH. Qed.
Lemma ok_bindp P A B (p : prog A) (f : A -> prog B) Q : forall t, ok_prog P p t (fun a t' => ok_prog P (f a) t' Q) -> ok_prog P (bindp p f) t Q.
Proof. induction p as [a|c k IH]; intros t H; cbn in *; [auto|]. destruct H as (H1 & H2). split; [assumption|]. intros r. now apply IH. Qed.
Lemma ok_bind P A B (p : io A) (f : A -> io B) Q t :
  ok_prog P p t (fun r t' => match r with inl e => Q (inl e) t' | inr a => ok_prog P (f a) t' Q end) -> ok_prog P (bind p f) t Q.
Proof. intros H. apply ok_bindp. eapply ok_mono; [|exact H]. now intros [e|a] t'. Qed.
Lemma ok_catch P A (p : io A) (h : exn -> io A) Q t :
  ok_prog P p t (fun r t' => match r with inl e => ok_prog P (h e) t' Q | inr a => Q (inr a) t' end) -> ok_prog P (catch p h) t Q.
Proof. intros H. apply ok_bindp. eapply ok_mono; [|exact H]. now intros [e|a] t'. Qed.

Lemma incl_snoc A (t : list A) e x : In x t -> In x (t ++ [e]). Proof. rewrite in_app_iff. auto. Qed.
Lemma ok_removable n t0 : forall l t, incl t0 t -> forall Q : exn + bool -> list event -> Prop,
  (forall r t', incl t t' -> (r = inr true -> forall fn, In fn l -> exists k i, In (Event (CStatAt n fn) (inr (k, i))) t' /\ expendable fn k) -> Q r t') ->
  ok_prog (allowed n) (removable n l) t Q.
Proof.
  induction l as [|fn l IH]; intros t I Q H; cbn [removable].
  { cbn. apply H; [apply incl_refl|]. intros _ fn []. }
  apply ok_bind. cbn. split; [left; exact Logic.I|]. intros r. destruct r as [e|[k i]]; cbn [lift].
  { apply H; [intros x Hx; now apply incl_snoc|discriminate]. }
  assert (GO : expendable fn k -> ok_prog (allowed n) (removable n l) (t ++ [Event (CStatAt n fn) (inr (k, i))]) Q).
  { intros X. apply IH; [intros x Hx; apply incl_snoc; auto|]. intros r t' It Hr. apply H; [intros x Hx; apply It; now apply incl_snoc|].
    intros -> fn' [<-|J]; [|exact (Hr eq_refl fn' J)]. exists k, i. split; [|assumption]. apply It. rewrite in_app_iff. right. now left. }
  assert (STOP : Q (inr false) (t ++ [Event (CStatAt n fn) (inr (k, i))])) by (apply H; [intros x Hx; now apply incl_snoc|discriminate]).
  cbn [fst]. destruct k; cbn; try exact STOP.
  - destruct (known fn) eqn:Kn; [apply GO; right; auto|exact STOP].
  - apply GO. now left.
Qed.
Theorem cleanup_calls n be t c : calls_next (remove_flat_bundle n be) t c -> allowed n t c.
Proof.
  apply (ok_calls (allowed n) _ _ [] (fun _ _ => True)). unfold remove_flat_bundle. apply ok_catch.
  apply ok_mono with (Q := fun _ _ => True). { intros [e|b] t' _; [|exact Logic.I]. destruct e, be; exact Logic.I. }
  unfold remove_flat_bundle_impl. cbn [ok_prog]. split; [left; exact Logic.I|]. intros r. destruct r as [e|[k ino]]; [destruct e; exact Logic.I|].
  destruct k; try (destruct be; exact Logic.I).
  apply ok_bind. cbn [ok_prog]. split; [left; exact Logic.I|]. intros r. destruct r as [e|l]; [exact Logic.I|]. cbn [lift]. cbn [app].
  set (t1 := [_; _]). apply ok_bind. apply (ok_removable n t1); [apply incl_refl|]. intros r t2 I2 Hr. destruct r as [e|good]; [exact Logic.I|].
  destruct good; [|exact Logic.I]. specialize (Hr eq_refl).
  apply ok_bind, ok_catch, ok_bind. cbn [ok_prog]. split; [left; exact Logic.I|]. intros r.
  destruct r as [e|d]; cbn [lift]; [destruct be; exact Logic.I|]. destruct (Nat.eqb_spec d ino) as [->|]; [|destruct be; exact Logic.I].
  cbn [ok_prog ok throw]. set (t3 := t2 ++ _). apply ok_catch.
  assert (OK3 : forall t', incl t3 t' -> forall c', ((exists fn, c' = CUnlinkAt ino fn /\ In fn l) \/ c' = CRmdir n) -> allowed n t' c').
  { intros t' It c' Hc. right. exists ino, l. split; [apply It; unfold t3; apply incl_snoc, I2; now left|]. split; [apply It; unfold t3; apply incl_snoc, I2; right; now left|].
    split; [apply It; unfold t3; rewrite in_app_iff; right; now left|]. split; [|assumption]. intros fn J. destruct (Hr fn J) as (k & i & In1 & X). exists k, i. split; [|assumption]. apply It. unfold t3. now apply incl_snoc. }
  assert (UN : forall l' t', incl l' l -> incl t3 t' -> forall Q : exn + unit -> list event -> Prop, (forall r t'', incl t3 t'' -> Q r t'') -> ok_prog (allowed n) (unlink_all ino l') t' Q).
  { induction l' as [|fn l' IH]; intros t' Il It Q HQ; cbn [unlink_all]; [cbn; now apply HQ|]. apply ok_bind, ok_catch. cbn [ok_prog]. split.
    { apply OK3; [assumption|]. left. exists fn. split; [reflexivity|]. apply Il. now left. }
    assert (S : forall r, incl t3 (t' ++ [Event (CUnlinkAt ino fn) r])) by (intros r x Hx; now apply incl_snoc, It).
    intros r. destruct r as [[]|[]]; cbn [lift os_exn ok_prog throw ok]; try (apply HQ, S); (apply IH; [intros x Hx; apply Il; now right|apply S|assumption]). }
  apply ok_bind. apply UN; [apply incl_refl|apply incl_refl|]. intros r t4 I4. destruct r as [e|[]]; [destruct be; exact Logic.I|].
  apply ok_bind. cbn [ok_prog]. split; [apply OK3; auto|]. intros r. destruct r as [e|[]]; cbn [lift]; [destruct be; exact Logic.I|exact Logic.I].
Qed.
