(** What load returns, for any directory contents. *)
From Coq Require Import List NArith ZArith Bool Arith Lia Permutation String.
From Verif Require Import Text TextFacts CacheModel JsonSpec JsonProofs JsonDict CacheSpec CacheRG.
Import ListNotations.
Local Open Scope list_scope.

Lemma firstn_add A a b (l : list A) : firstn (a + b) l = firstn a l ++ firstn b (skipn a l).
Proof. revert l. induction a as [|a IH]; intros l; [reflexivity|]. destruct l as [|x l]; cbn; [now rewrite firstn_nil|]. now rewrite IH. Qed.
Lemma text_eqb_eq a b : text_eqb a b = true <-> a = b.
Proof. destruct (text_eqb_spec a b); split; congruence. Qed.
Ltac inv_step H := cbn [step] in H; first [destruct H as [(?F & -> & ->)|H] | idtac].

Section S.
Variable en : env.
Variable w : world.
Variable me : nat.
Notation runs := (CacheSpec.runs w me).

Lemma runs_sys_pure A (c : call) (k : ret c -> io A) s r s' :
  (forall x s1, step w me c s x s1 -> s1 = s) ->
  runs (Op c k) s r s' -> exists x, step w me c s x s /\ runs (k x) s r s'.
Proof. intros P (x & s1 & ST & R). pose proof (P _ _ ST). subst s1. eauto. Qed.

Definition reads (c : call) : Prop :=
  match c with
  | CEnsureParent | CLstat _ | CLexists _ | COpenDir _ | CListdir _ | COpenAt _ _ | CSize _ | CRead _ _ _
  | CScandir _ | CStatAt _ _ | CFsync | CIterdir | CMtimes _ | CUuid | COwner | CFingerprint => True
  | _ => False
  end.
Lemma reads_pure c s x s1 : reads c -> step w me c s x s1 -> s1 = s.
Proof.
  destruct c; intros R ST; try destruct R; cbn [step] in ST; unfold fault in ST;
    repeat match goal with
    | H : _ \/ _ |- _ => destruct H
    | H : _ /\ _ |- _ => destruct H
    end; assumption.
Qed.

Lemma runs_read_loop f size : forall fuel off acc s r s',
  size = List.length (files s f) -> off <= size -> acc = firstn off (files s f) ->
  runs (read_loop fuel f off size acc) s r s' ->
  s' = s /\ (forall b, r = inr b -> b = files s f) /\
  (no_faults w -> size - off <= fuel -> r = inr (files s f)).
Proof.
  induction fuel as [|fuel IH]; intros off acc s r s' SZ LE AC R; cbn [read_loop] in R.
  - destruct (Nat.ltb_spec off size) as [L|L].
    + cbn [runs throw] in R. destruct R as [-> ->]. split; [reflexivity|]. split; [discriminate|].
      intros _ X. lia.
    + cbn [runs ok] in R. destruct R as [-> ->]. assert (off = size) by lia. subst off.
      rewrite SZ, firstn_all in AC. subst acc. split; [reflexivity|]. split; [congruence|reflexivity].
  - destruct (Nat.ltb_spec off size) as [L|L].
    + apply runs_bind in R. cbn [runs] in R. destruct R as [(e & (x & s1 & ST & E1 & E2) & ->)|(b & s1 & (x & s2 & ST & E1 & E2) & R)].
      * subst s'. assert (s1 = s) by (eapply reads_pure; [|exact ST]; exact Logic.I). subst s1.
        split; [reflexivity|]. split; [discriminate|]. intros NF.
        cbn [step] in ST. destruct ST as [(F & _)|(_ & b & rest & -> & _)]; [|discriminate E1].
        rewrite NF in F. discriminate.
      * subst s2. assert (s1 = s) by (eapply reads_pure; [|exact ST]; exact Logic.I). subst s1.
        cbn [step] in ST. destruct ST as [(F & -> & _)|(_ & b' & rest & -> & SK & LB & Z)]; [discriminate|].
        injection E1 as <-. destruct b as [|b0 b].
        -- destruct (Z eq_refl) as [Z1|Z1]; [|lia]. exfalso. subst rest.
           apply (f_equal (@List.length N)) in SK. rewrite skipn_length in SK. cbn in SK. lia.
        -- assert (EL : List.length (skipn off (files s f)) = List.length (b0 :: b) + List.length rest)
             by now rewrite SK, app_length.
           rewrite skipn_length in EL.
           destruct (IH (off + List.length (b0 :: b)) (acc ++ b0 :: b) s r s' SZ) as (A1 & A2 & A3).
           ++ lia.
           ++ subst acc. rewrite firstn_add, SK, firstn_app, firstn_all, Nat.sub_diag, firstn_O, app_nil_r. reflexivity.
           ++ exact R.
           ++ split; [assumption|]. split; [assumption|]. intros NF X. apply A3; [assumption|]. cbn [List.length] in *. lia.
    + cbn [runs ok] in R. destruct R as [-> ->]. assert (off = size) by lia. subst off.
      rewrite SZ, firstn_all in AC. subst acc. split; [reflexivity|]. split; [congruence|reflexivity].
Qed.

Lemma runs_read_open_regular h es ms s r s' :
  runs (read_open_regular en h es ms) s r s' ->
  s' = s /\
  (forall b, r = inr b -> exists f, h = Some f /\ b = files s f /\
     (forall z, es = Some z -> z = size_of b) /\ (forall m, ms = Some m -> (size_of b <= m)%Z)) /\
  (no_faults w -> forall f, h = Some f -> (size_of (files s f) <= maxsize en)%Z ->
     (forall z, es = Some z -> z = size_of (files s f)) -> (forall m, ms = Some m -> (size_of (files s f) <= m)%Z) ->
     r = inr (files s f)).
Proof.
  intros R. unfold read_open_regular in R. destruct h as [f|].
  2:{ cbn [runs throw] in R. destruct R as [-> ->]. repeat split; discriminate. }
  apply runs_bind in R. cbn [runs] in R.
  destruct R as [(e & (x & s1 & ST & E1 & ->) & ->)|(sz & s1 & (x & s2 & ST & E1 & ->) & R)];
    (assert (EQ : s1 = s) by (eapply reads_pure; [|exact ST]; exact Logic.I)) || (assert (EQ : s2 = s) by (eapply reads_pure; [|exact ST]; exact Logic.I)); subst.
  { split; [reflexivity|]. split; [discriminate|]. intros NF. cbn [step] in ST.
    destruct ST as [(F & _)|(_ & ->)]; [rewrite NF in F; discriminate|discriminate E1]. }
  cbn [step] in ST. destruct ST as [(F & -> & _)|(_ & ->)]; [discriminate|]. injection E1 as ->.
  fold (size_of (files s f)) in R.
  destruct (Z.ltb_spec (maxsize en) (size_of (files s f))) as [L|L].
  { cbn [runs throw] in R. destruct R as [-> ->]. split; [reflexivity|]. split; [discriminate|].
    intros _ f' X. injection X as <-. intros. lia. }
  destruct (match es with Some e => _ | None => _ end) eqn:E1 in R.
  { cbn [runs throw] in R. destruct R as [-> ->]. split; [reflexivity|]. split; [discriminate|].
    intros _ f' X. injection X as <-. intros _ Y _. destruct es as [z|]; [|discriminate].
    specialize (Y z eq_refl). subst z. rewrite Z.eqb_refl in E1. discriminate. }
  destruct (match ms with Some e => _ | None => _ end) eqn:E2 in R.
  { cbn [runs throw] in R. destruct R as [-> ->]. split; [reflexivity|]. split; [discriminate|].
    intros _ f' X. injection X as <-. intros _ _ Y. destruct ms as [z|]; [|discriminate].
    specialize (Y z eq_refl). apply Z.ltb_lt in E2. lia. }
  apply runs_bind in R. destruct R as [(e & R & ->)|(b & s1 & R1 & R)].
  { destruct (runs_read_loop f _ _ _ _ _ _ _ eq_refl (Nat.le_0_l _) eq_refl R) as (A1 & _ & A3).
    split; [assumption|]. split; [discriminate|]. intros NF. rewrite A3 by (auto; lia). intros f' X. injection X as <-. auto. }
  destruct (runs_read_loop f _ _ _ _ _ _ _ eq_refl (Nat.le_0_l _) eq_refl R1) as (-> & A2 & A3).
  specialize (A2 b eq_refl). subst b.
  assert (FIN : forall g : exn + bytes, g = inr (files s f) \/ (exists e, g = inl e) ->
    (forall b, g = inr b -> exists f0, Some f = Some f0 /\ b = files s f0 /\
     (forall z, es = Some z -> z = size_of b) /\ (forall m, ms = Some m -> (size_of b <= m)%Z))).
  { intros g [-> | (e & ->)] b X; [|discriminate]. injection X as <-. exists f. split; [reflexivity|]. split; [reflexivity|]. split.
    - intros z ->. apply negb_false_iff, Z.eqb_eq in E1. congruence.
    - intros m ->. apply Z.ltb_ge in E2. lia. }
  apply runs_bind in R. cbn [runs] in R.
  destruct R as [(e & (x & s1 & ST & E3 & ->) & ->)|(more & s1 & (x & s2 & ST & E3 & ->) & R)];
    (assert (EQ : s1 = s) by (eapply reads_pure; [|exact ST]; exact Logic.I)) || (assert (EQ : s2 = s) by (eapply reads_pure; [|exact ST]; exact Logic.I)); subst.
  { split; [reflexivity|]. split; [apply FIN; eauto|]. intros NF. cbn [step] in ST.
    destruct ST as [(F & _)|(_ & b & rest & -> & _)]; [rewrite NF in F; discriminate|discriminate E3]. }
  cbn [step] in ST. destruct ST as [(F & -> & _)|(_ & b' & rest & -> & SK & _)]; [discriminate|]. injection E3 as ->.
  rewrite skipn_all in SK. destruct b'; [|discriminate].
  apply runs_bind in R. cbn [runs] in R.
  destruct R as [(e & (x & s1 & ST & E3 & ->) & ->)|(after & s1 & (x & s2 & ST & E3 & ->) & R)];
    (assert (EQ : s1 = s) by (eapply reads_pure; [|exact ST]; exact Logic.I)) || (assert (EQ : s2 = s) by (eapply reads_pure; [|exact ST]; exact Logic.I)); subst.
  { split; [reflexivity|]. split; [apply FIN; eauto|]. intros NF. cbn [step] in ST.
    destruct ST as [(F & _)|(_ & ->)]; [rewrite NF in F; discriminate|discriminate E3]. }
  cbn [step] in ST. destruct ST as [(F & -> & _)|(_ & ->)]; [discriminate|]. injection E3 as ->.
  rewrite Nat.eqb_refl in R. cbn [runs ok] in R. destruct R as [-> ->].
  split; [reflexivity|]. split; [apply FIN; auto|]. intros NF f' X. injection X as <-. reflexivity.
Qed.

Lemma runs_read_regular_at d fn es ms s r s' :
  runs (read_regular_at en d fn es ms) s r s' ->
  s' = s /\
  (forall b, r = inr b -> exists f, dirs s d fn = Some (FReg f) /\ b = files s f /\
     (forall z, es = Some z -> z = size_of b) /\ (forall m, ms = Some m -> (size_of b <= m)%Z)) /\
  (no_faults w -> forall f, dirs s d fn = Some (FReg f) -> (size_of (files s f) <= maxsize en)%Z ->
     (forall z, es = Some z -> z = size_of (files s f)) -> (forall m, ms = Some m -> (size_of (files s f) <= m)%Z) ->
     r = inr (files s f)).
Proof.
  intros R. unfold read_regular_at in R. apply runs_sys_pure in R; [|intros; eapply reads_pure; [|eassumption]; exact Logic.I].
  destruct R as (x & ST & R). cbn [step] in ST. destruct ST as [(F & -> & _)|(_ & ->)].
  - cbn [runs throw] in R. destruct R as [-> ->]. repeat split; try discriminate. intros NF. rewrite NF in F. discriminate.
  - destruct (dirs s d fn) as [[f| | |]|] eqn:E.
    1,2,4: (apply runs_read_open_regular in R; destruct R as (A1 & A2 & A3); split; [assumption|]; split;
      [intros b Eb; destruct (A2 b Eb) as (f' & X & Y); try discriminate X; injection X as <-; eauto
      |intros NF f' X; try discriminate X; injection X as <-; auto]).
    all: cbn [runs throw] in R; destruct R as [-> ->]; repeat split; discriminate.
Qed.

Lemma runs_load_file d fs fn s r s' :
  runs (load_file en d fs fn) s r s' ->
  s' = s /\
  (forall b, r = inr (Some b) -> exists f, dirs s d fn = Some (FReg f) /\ b = files s f /\
     file_meta en fs fn = Some (size_of b, Some (JStr (sha en b))) /\ (size_of b <= fst_max en)%Z /\ fst_ok en b = true) /\
  (no_faults w -> forall f, dirs s d fn = Some (FReg f) -> (size_of (files s f) <= maxsize en)%Z ->
     file_meta en fs fn = Some (size_of (files s f), Some (JStr (sha en (files s f)))) ->
     (size_of (files s f) <= fst_max en)%Z -> fst_ok en (files s f) = true -> r = inr (Some (files s f))).
Proof.
  intros R. unfold load_file in R. destruct (file_meta en fs fn) as [[size digest]|] eqn:M.
  2:{ cbn [runs ok] in R. destruct R as [-> ->]. repeat split; discriminate. }
  apply runs_bind in R.
  assert (IN : forall x s1, runs (catch (b <- read_regular_at en d fn (Some size) (Some (fst_max en));; ok (Some b))
      (fun e => match e with XNotFound | XIntegrity | XOs => ok None | _ => throw e end)) s x s1 ->
      s1 = s /\ (forall b, x = inr (Some b) -> exists f, dirs s d fn = Some (FReg f) /\ b = files s f /\ size = size_of b /\ (size_of b <= fst_max en)%Z) /\
      (no_faults w -> forall f, dirs s d fn = Some (FReg f) -> (size_of (files s f) <= maxsize en)%Z -> size = size_of (files s f) ->
        (size_of (files s f) <= fst_max en)%Z -> x = inr (Some (files s f)))).
  { intros x s1 R1. apply runs_catch in R1. destruct R1 as [(b & R1 & ->)|(e & s2 & R1 & R2)].
    - apply runs_bind in R1. destruct R1 as [(e & R1 & X)|(b' & s2 & R1 & R2)]; [discriminate|].
      cbn [runs ok] in R2. destruct R2 as [X ->]. injection X as ->.
      apply runs_read_regular_at in R1. destruct R1 as (-> & A2 & A3). split; [reflexivity|].
      destruct (A2 b' eq_refl) as (f & B1 & B2 & B3 & B4). split.
      + intros b X. injection X as <-. exists f. repeat split; auto.
      + intros NF f' Y. assert (f' = f) by congruence. subst f'. intros _ _ _. congruence.
    - apply runs_bind in R1. destruct R1 as [(e' & R1 & X)|(b' & s3 & R1 & R3)].
      2:{ cbn [runs ok] in R3. destruct R3 as [X _]. discriminate. }
      injection X as <-. apply runs_read_regular_at in R1. destruct R1 as (-> & A2 & A3).
      assert (Z : s1 = s /\ forall b, x <> inr (Some b)).
      { destruct e; cbn [runs ok throw] in R2; destruct R2 as [-> ->]; (split; [reflexivity|discriminate]). }
      destruct Z as [-> Z]. split; [reflexivity|]. split; [intros b X; now apply Z in X|].
      intros NF f B1 B2 B3 B4. exfalso.
      assert (X : inl e = inr (files s f)); [|discriminate X].
      apply A3; auto; intros z X; injection X as <-; auto. }
  destruct R as [(e & R1 & ->)|(ob & s1 & R1 & R)].
  - destruct (IN _ _ R1) as (-> & A2 & A3). split; [reflexivity|]. split; [discriminate|].
    intros NF f B1 B2 B3 B4 B5. exfalso. injection B3 as B3 B3'.
    assert (X : inl e = inr (Some (files s f))) by (apply A3; auto). discriminate X.
  - destruct (IN _ _ R1) as (-> & A2 & A3). destruct ob as [b|].
    + destruct (A2 b eq_refl) as (f & B1 & -> & B3 & B4).
      destruct digest as [[| | |h| |]|]; try (cbn [runs ok] in R; destruct R as [-> ->];
        split; [reflexivity|]; split; [discriminate|]; intros NF f' C1; assert (f' = f) by congruence; subst f'; congruence).
      destruct (text_eqb h (sha en (files s f)) && fst_ok en (files s f)) eqn:E; cbn [runs ok] in R; destruct R as [-> ->].
      * apply andb_true_iff in E. destruct E as [E1 E2]. apply text_eqb_eq in E1. subst h.
        split; [reflexivity|]. split.
        -- intros b X. injection X as <-. exists f. subst size. auto.
        -- intros NF f' C1. assert (f' = f) by congruence. subst f'. reflexivity.
      * split; [reflexivity|]. split; [discriminate|]. intros NF f' C1. assert (f' = f) by congruence. subst f'.
        intros _ C2 _ C3. injection C2 as C2 ->. rewrite C3, (proj2 (text_eqb_eq _ _) eq_refl) in E. discriminate.
    + cbn [runs ok] in R. destruct R as [-> ->]. split; [reflexivity|]. split; [discriminate|].
      intros NF f B1 B2 B3 B4 B5. exfalso. injection B3 as B3 B3'.
      assert (X : inr None = inr (Some (files s f)) :> exn + option bytes) by (apply A3; auto). discriminate X.
Qed.

Lemma file_meta_inv fs fn z h : file_meta en fs fn = Some (z, Some (JStr h)) ->
  exists md, obj_get (fname_text fn) fs = Some (JObj md) /\ obj_get (u "size") md = Some (JInt z) /\ obj_get (u "sha256") md = Some (JStr h).
Proof.
  unfold file_meta. destruct (obj_get (fname_text fn) fs) as [[| | | | |md]|]; try discriminate.
  destruct (obj_get (u "size") md) as [[| |z'| | |]|] eqn:E; try discriminate.
  destruct ((z' <? 0)%Z || (maxsize en <? z')%Z); [discriminate|]. intros X. injection X as -> X. exists md. auto.
Qed.

Lemma lists_ext A (l : list A) (P Q : A -> Prop) : (forall x, P x <-> Q x) -> lists l P -> lists l Q.
Proof. intros E [N L]. split; [assumption|]. intros x. now rewrite L. Qed.
Lemma fn_mem_In x l : fn_mem x l = true <-> In x l.
Proof. unfold fn_mem. destruct (in_dec fname_eq_dec x l); split; auto; discriminate. Qed.
Lemma same_names_spec l P : lists l P -> same_names l = true <-> (forall fn, P fn <-> known fn = true).
Proof.
  intros [_ L]. unfold same_names. rewrite !andb_true_iff, !fn_mem_In, forallb_forall. split.
  - intros (((K & A) & B) & C) fn. rewrite <- L. split; [auto|]. destruct fn; intros; try assumption; discriminate.
  - intros K. rewrite !L, !K. repeat split; auto. intros x X. apply K. now apply L.
Qed.
Lemma manifest_files_inv m fs : manifest_files en m = Some fs ->
  exists o, m = JObj o /\ (forall k v, In (k, v) (identity en) -> exists x, obj_get k o = Some x /\ py_eq x v = true) /\
    obj_get (u "files") o = Some (JObj fs) /\
    (forall k v, In (k, v) fs -> k = u "tagger.fst" \/ k = u "verbalizer.fst").
Proof.
  unfold manifest_files. destruct m as [| | | | |o]; try discriminate.
  destruct (forallb _ (identity en)) eqn:E1; [|discriminate].
  destruct (obj_get (u "files") o) as [[| | | | |g]|] eqn:E2; try discriminate.
  destruct (_ && _) eqn:E3; [|discriminate]. intros X. injection X as <-. exists o. split; [reflexivity|].
  rewrite forallb_forall in E1. apply andb_true_iff in E3. destruct E3 as [E3 _]. rewrite forallb_forall in E3.
  split; [|split; [assumption|]].
  - intros k v I. specialize (E1 (k, v) I). cbn [fst snd] in E1. destruct (obj_get k o) as [x|]; [|discriminate]. eauto.
  - intros k v I. specialize (E3 (k, v) I). cbn [fst] in E3. apply orb_true_iff in E3. rewrite !text_eqb_eq in E3. assumption.
Qed.

(** load on a directory that nobody changes meanwhile: what it may return. *)
Lemma runs_load_path n s r s' :
  runs (load_path en n) s r s' ->
  s' = s /\ (forall p, r = inr (Some p) -> exists d, par s n = Some (EDir d) /\ genuine en s d p).
Proof.
  intros R. unfold load_path in R. apply runs_catch in R.
  assert (IN : forall x s1, runs (d <- open_directory_chain n;;
     entries <- sys (CListdir d);;
     (if same_names entries
      then
       m <- catch (b <- read_regular_at en d FMan None (Some (man_max en));; ok (loads en b))
            (fun e => match e with XNotFound | XOs | XIntegrity => ok None | _ => throw e end);;
       match m with
       | Some m0 =>
           match manifest_files en m0 with
           | Some fs =>
               t <- load_file en d fs FTag;;
               match t with
               | Some t0 => v <- load_file en d fs FVerb;; match v with Some v0 => ok (Some (t0, v0)) | None => ok None end
               | None => ok None
               end
           | None => ok None
           end
       | None => ok None
       end
      else ok None)) s x s1 -> s1 = s /\ (forall p, x = inr (Some p) -> exists d, par s n = Some (EDir d) /\ genuine en s d p)).
  { clear R. intros x s1 R. apply runs_bind in R.
    assert (OD : forall y s2, runs (open_directory_chain n) s y s2 -> s2 = s /\ (forall d, y = inr d -> par s n = Some (EDir d))).
    { clear R. intros y s2 R. unfold open_directory_chain in R.
      apply runs_sys_pure in R; [|intros; eapply reads_pure; [|eassumption]; exact Logic.I].
      destruct R as (z & ST & R). cbn [step] in ST. destruct ST as [(F & -> & _)|(_ & ->)].
      - cbn [runs throw] in R. destruct R as [-> ->]. split; [reflexivity|discriminate].
      - destruct (par s n) as [[d| | |]|]; cbn [runs throw ok] in R; destruct R as [-> ->]; (split; [reflexivity|]); try discriminate.
        intros d' X. injection X as <-. reflexivity. }
    destruct R as [(e & R & ->)|(d & s2 & R1 & R)].
    { destruct (OD _ _ R) as [-> _]. split; [reflexivity|discriminate]. }
    destruct (OD _ _ R1) as [-> PD]. specialize (PD d eq_refl). clear OD R1.
    apply runs_bind in R. cbn [runs] in R.
    destruct R as [(e & (y & s2 & ST & E1 & ->) & ->)|(entries & s2 & (y & s3 & ST & E1 & ->) & R)];
      (assert (EQ : s2 = s) by (eapply reads_pure; [|exact ST]; exact Logic.I)) || (assert (EQ : s3 = s) by (eapply reads_pure; [|exact ST]; exact Logic.I)); subst.
    { split; [reflexivity|discriminate]. }
    cbn [step] in ST. destruct ST as [(F & -> & _)|(_ & l & -> & L)]; [discriminate|]. injection E1 as ->.
    destruct (same_names l) eqn:SN.
    2:{ cbn [runs ok] in R. destruct R as [-> ->]. split; [reflexivity|discriminate]. }
    rewrite (same_names_spec _ _ L) in SN.
    apply runs_bind in R.
    assert (MM : forall y s2, runs (catch (b <- read_regular_at en d FMan None (Some (man_max en));; ok (loads en b))
            (fun e => match e with XNotFound | XOs | XIntegrity => ok None | _ => throw e end)) s y s2 ->
         s2 = s /\ (forall m, y = inr (Some m) -> exists f, dirs s d FMan = Some (FReg f) /\ loads en (files s f) = Some m)).
    { clear R. intros y s2 R. apply runs_catch in R. destruct R as [(b & R & ->)|(e & s3 & R & R2)].
      - apply runs_bind in R. destruct R as [(e & R & X)|(b' & s3 & R & R2)]; [discriminate|].
        cbn [runs ok] in R2. destruct R2 as [X ->]. injection X as ->.
        apply runs_read_regular_at in R. destruct R as (-> & A2 & _). split; [reflexivity|].
        intros m X. injection X as X. destruct (A2 b' eq_refl) as (f & B1 & -> & _). eauto.
      - apply runs_bind in R. destruct R as [(e' & R & X)|(b' & s4 & R & R3)].
        2:{ cbn [runs ok] in R3. destruct R3 as [X _]. discriminate. }
        apply runs_read_regular_at in R. destruct R as (-> & _).
        destruct e; cbn [runs ok throw] in R2; destruct R2 as [-> ->]; (split; [reflexivity|discriminate]). }
    destruct R as [(e & R & ->)|(m & s2 & R1 & R)].
    { destruct (MM _ _ R) as [-> _]. split; [reflexivity|discriminate]. }
    destruct (MM _ _ R1) as [-> A]. clear MM R1.
    destruct m as [m|]. 2:{ cbn [runs ok] in R. destruct R as [-> ->]. split; [reflexivity|discriminate]. }
    destruct (A m eq_refl) as (fmn & D3 & LM). clear A.
    destruct (manifest_files en m) as [fs|] eqn:MF. 2:{ cbn [runs ok] in R. destruct R as [-> ->]. split; [reflexivity|discriminate]. }
    apply runs_bind in R. destruct R as [(e & R & ->)|(t & s2 & R1 & R)].
    { apply runs_load_file in R. destruct R as (-> & _). split; [reflexivity|discriminate]. }
    apply runs_load_file in R1. destruct R1 as (-> & A1 & _).
    destruct t as [t|]. 2:{ cbn [runs ok] in R. destruct R as [-> ->]. split; [reflexivity|discriminate]. }
    destruct (A1 t eq_refl) as (ft & D1 & -> & M1 & Z1 & K1).
    apply runs_bind in R. destruct R as [(e & R & ->)|(v & s2 & R1 & R)].
    { apply runs_load_file in R. destruct R as (-> & _). split; [reflexivity|discriminate]. }
    apply runs_load_file in R1. destruct R1 as (-> & A2 & _).
    destruct v as [v|]. 2:{ cbn [runs ok] in R. destruct R as [-> ->]. split; [reflexivity|discriminate]. }
    destruct (A2 v eq_refl) as (fv & D2 & -> & M2 & Z2 & K2).
    cbn [runs ok] in R. destruct R as [-> ->]. split; [reflexivity|]. intros p X. injection X as <-.
    exists d. split; [assumption|].
    apply manifest_files_inv in MF. destruct MF as (o & -> & ID & OF & KS).
    split.
    { intros i. destruct (dirs s d (FOther i)) eqn:E; [|reflexivity]. exfalso.
      assert (X : dirs s d (FOther i) <> None) by congruence. apply SN in X. discriminate. }
    exists ft, fv, fmn, o, fs. cbn [fst snd]. do 9 (split; [assumption || reflexivity|]).
    intros nm b [[-> ->]|[-> ->]].
    - split; [assumption|]. split; [assumption|]. apply (file_meta_inv fs FTag), M1.
    - split; [assumption|]. split; [assumption|]. apply (file_meta_inv fs FVerb), M2. }
  destruct R as [(b & R & ->)|(e & s1 & R & R2)].
  - apply IN, R.
  - destruct (IN _ _ R) as [-> _]. destruct e; cbn [runs ok throw] in R2; destruct R2 as [-> ->]; (split; [reflexivity|discriminate]).
Qed.

Lemma obj_get_app k a b : obj_get k (a ++ b) = match obj_get k a with Some v => Some v | None => obj_get k b end.
Proof. induction a as [|[k' v] a IH]; cbn; [reflexivity|]. destruct (text_eqb k k'); [reflexivity|assumption]. Qed.
Lemma obj_get_In k v l : NoDup (map fst l) -> In (k, v) l -> obj_get k l = Some v.
Proof.
  induction l as [|[k' v'] l IH]; cbn; [contradiction|]. intros N I. inversion N as [|a b N1 N2]; subst.
  destruct (text_eqb_spec k k') as [->|D].
  - destruct I as [X|X]; [congruence|]. exfalso. apply N1. now apply (in_map fst) in X.
  - destruct I as [X|X]; [congruence|]. auto.
Qed.
Lemma obj_get_notin k l : ~ In k (map fst l) -> obj_get k l = None.
Proof.
  induction l as [|[k' v'] l IH]; cbn; [reflexivity|]. intros N.
  destruct (text_eqb_spec k k') as [->|D]; [exfalso; auto|]. auto.
Qed.

Definition two_files (t v : bytes) : list (text * json) := [(u "tagger.fst", file_entry en t); (u "verbalizer.fst", file_entry en v)].
Lemma entry_wf b : json_wf (file_entry en b).
Proof. constructor; [|repeat constructor]. cbn [map fst]. repeat constructor; cbn [In]; vm_compute; intuition discriminate. Qed.
Lemma two_files_nodup t v : NoDup (map fst (two_files t v)).
Proof. cbn [two_files map fst]. repeat constructor; cbn [In]; vm_compute; intuition discriminate. Qed.
Lemma manifest_wf t v : identity_ok en -> json_wf (manifest_of en t v).
Proof.
  intros (ND & NI & W). constructor.
  - rewrite map_app. cbn [map fst]. rewrite <- (rev_involutive (map fst (identity en) ++ _)). apply NoDup_rev.
    rewrite rev_app_distr. cbn [rev app]. constructor; [now rewrite <- in_rev|now apply NoDup_rev].
  - rewrite map_app. apply Forall_app. split.
    + apply Forall_forall. intros x I. apply in_map_iff in I as ([k y] & <- & I). cbn [snd]. eapply W, I.
    + constructor; [|constructor]. apply wf_obj; [apply (two_files_nodup t v)|]. cbn [map snd]. constructor; [apply entry_wf|]. constructor; [apply entry_wf|constructor].
Qed.
Lemma manifest_files_ok t v m : identity_ok en -> json_same m (manifest_of en t v) ->
  exists fs, manifest_files en m = Some fs /\ json_same (JObj fs) (JObj (two_files t v)).
Proof.
  intros IO S. pose proof (manifest_wf t v IO) as W. destruct (same_obj_inv_r _ _ S) as (o & _ & -> & _). unfold manifest_of in *.
  inversion W as [| | | | |? NM WM]; subst.
  assert (G : forall k x, In (k, x) (identity en) -> exists y, obj_get k o = Some y /\ json_same y x).
  { intros k x I. apply (same_get _ _ k x S NM). rewrite obj_get_app, (obj_get_In k x); [reflexivity|apply IO|assumption]. }
  assert (GF : exists y, obj_get (u "files") o = Some y /\ json_same y (JObj (two_files t v))).
  { apply (same_get _ _ (u "files") _ S NM). rewrite obj_get_app, obj_get_notin by apply IO. reflexivity. }
  destruct GF as (y & GF & SF). destruct (same_obj_inv_r _ _ SF) as (fs & _ & -> & _). exists fs. split; [|assumption].
  assert (Wo : json_wf (JObj o)).
  { assert (X : forall a b, json_same a b -> json_wf b -> json_wf a); [|exact (X _ _ S W)]. clear.
    induction a as [|b0|z0|t0|l IH|l IH] using json_ind'; intros b S W; inversion S; subst; try constructor.
    - inversion W as [| | | |? F|]; subst. match goal with H : Forall2 _ l m |- _ => rename H into F2 end. clear S W. revert IH F.
      induction F2; intros IH F; inversion IH; inversion F; subst; constructor; eauto.
    - inversion W; subst. eapply same_nodup; eassumption.
    - inversion W as [| | | | |? N F]; subst. rewrite Forall_forall in *. intros x I. apply in_map_iff in I as ([k z] & <- & I).
      match goal with H : Forall2 _ l m' |- _ => destruct (Forall2_In_l _ _ _ _ H I) as ([k' z'] & I' & K & Sz) end. cbn [fst snd] in *.
      match goal with H : Permutation m m' |- _ => apply (Permutation.Permutation_in _ (Permutation.Permutation_sym H)) in I' end.
      apply (in_map snd) in I, I'. cbn [snd] in *. eauto. }
  inversion Wo as [| | | | |? No Fo]; subst.
  unfold manifest_files. replace (forallb _ (identity en)) with true.
  2:{ symmetry. apply forallb_forall. intros [k x] I. cbn [fst snd]. destruct (G k x I) as (y & Gy & Sy). rewrite Gy.
      apply same_py_eq; [|eapply IO, I|assumption]. rewrite Forall_forall in Fo. apply Fo. apply get_In in Gy. now apply (in_map snd) in Gy. }
  rewrite GF.
  replace (forallb _ fs) with true.
  2:{ symmetry. apply forallb_forall. intros [k x] I. cbn [fst]. apply (in_map fst) in I. cbn [fst] in I.
      apply (Permutation.Permutation_in _ (same_keys _ _ SF)) in I. cbn [two_files map fst In] in I. destruct I as [<-|[<-|[]]]; rewrite text_eqb_refl; [reflexivity|apply orb_true_r]. }
  destruct (same_get _ _ (u "tagger.fst") (file_entry en t) SF (two_files_nodup t v) ltac:(reflexivity)) as (x1 & -> & _).
  destruct (same_get _ _ (u "verbalizer.fst") (file_entry en v) SF (two_files_nodup t v) ltac:(reflexivity)) as (x2 & -> & _).
  reflexivity.
Qed.
Lemma same_entry x b : json_same x (file_entry en b) ->
  exists md, x = JObj md /\ obj_get (u "size") md = Some (JInt (size_of b)) /\ obj_get (u "sha256") md = Some (JStr (sha en b)).
Proof.
  intros S. destruct (same_obj_inv_r _ _ S) as (md & _ & -> & _). exists md. split; [reflexivity|].
  pose proof (entry_wf b) as W. inversion W as [| | | | |? N _]; subst.
  destruct (same_get _ _ (u "size") (JInt (size_of b)) S N ltac:(reflexivity)) as (x1 & -> & S1). inversion S1; subst.
  destruct (same_get _ _ (u "sha256") (JStr (sha en b)) S N ltac:(reflexivity)) as (x2 & -> & S2). inversion S2; subst. auto.
Qed.

(** load of a complete publication, without faults. *)
Lemma runs_load_path_whole n d p s r s' :
  no_faults w -> identity_ok en -> format_ok en p -> par s n = Some (EDir d) -> holds en s d p ->
  runs (load_path en n) s r s' -> s' = s /\ r = inr (Some p).
Proof.
  intros NF IO ((mm & FM & SAM) & SM & SX & FF) P [W1 W2] R.
  destruct (W1 FTag eq_refl) as (ft & D1 & C1). destruct (W1 FVerb eq_refl) as (fv & D2 & C2). destruct (W1 FMan eq_refl) as (fmn & D3 & C3).
  destruct (FF FTag (or_introl eq_refl)) as (F1 & F2 & F3). destruct (FF FVerb (or_intror eq_refl)) as (G1 & G2 & G3).
  unfold load_path in R. apply runs_catch in R.
  assert (IN : forall x s1, runs (d <- open_directory_chain n;;
     entries <- sys (CListdir d);;
     (if same_names entries
      then
       m <- catch (b <- read_regular_at en d FMan None (Some (man_max en));; ok (loads en b))
            (fun e => match e with XNotFound | XOs | XIntegrity => ok None | _ => throw e end);;
       match m with
       | Some m0 =>
           match manifest_files en m0 with
           | Some fs =>
               t <- load_file en d fs FTag;;
               match t with
               | Some t0 => v <- load_file en d fs FVerb;; match v with Some v0 => ok (Some (t0, v0)) | None => ok None end
               | None => ok None
               end
           | None => ok None
           end
       | None => ok None
       end
      else ok None)) s x s1 -> s1 = s /\ x = inr (Some p)).
  { clear R. intros x s1 R. apply runs_bind in R.
    assert (OD : forall y s2, runs (open_directory_chain n) s y s2 -> s2 = s /\ y = inr d).
    { clear R. intros y s2 R. unfold open_directory_chain in R.
      apply runs_sys_pure in R; [|intros; eapply reads_pure; [|eassumption]; exact Logic.I].
      destruct R as (z & ST & R). cbn [step] in ST. destruct ST as [(F & _)|(_ & ->)]; [rewrite NF in F; discriminate|].
      rewrite P in R. cbn [runs ok] in R. destruct R as [-> ->]. auto. }
    destruct R as [(e & R & ->)|(d' & s2 & R1 & R)].
    { destruct (OD _ _ R) as [_ X]. discriminate. }
    destruct (OD _ _ R1) as [-> X]. injection X as ->. clear OD R1.
    apply runs_bind in R. cbn [runs] in R.
    destruct R as [(e & (y & s2 & ST & E1 & ->) & ->)|(entries & s2 & (y & s3 & ST & E1 & ->) & R)];
      (assert (EQ : s2 = s) by (eapply reads_pure; [|exact ST]; exact Logic.I)) || (assert (EQ : s3 = s) by (eapply reads_pure; [|exact ST]; exact Logic.I)); subst;
      cbn [step] in ST; (destruct ST as [(F & _)|(_ & l & -> & L)]; [rewrite NF in F; discriminate|]); [discriminate|].
    injection E1 as ->.
    assert (SN : same_names l = true).
    { rewrite (same_names_spec _ _ L). intros fn. destruct fn; cbn [known]; split; intros; try congruence. }
    rewrite SN in R.
    apply runs_bind in R.
    assert (MM : forall y s2, runs (catch (b <- read_regular_at en d FMan None (Some (man_max en));; ok (loads en b))
            (fun e => match e with XNotFound | XOs | XIntegrity => ok None | _ => throw e end)) s y s2 ->
         s2 = s /\ y = inr (Some mm)).
    { clear R. intros y s2 R. apply runs_catch in R.
      assert (RD : forall z s3, runs (read_regular_at en d FMan None (Some (man_max en))) s z s3 -> s3 = s /\ z = inr (files s fmn)).
      { intros z s3 R1. apply runs_read_regular_at in R1. destruct R1 as (A1 & _ & A3). split; [assumption|].
        rewrite <- C3 in SM, SX. apply A3; auto; intros q X; [discriminate|]. injection X as <-. assumption. }
      destruct R as [(b & R & ->)|(e & s3 & R & R2)]; apply runs_bind in R.
      - destruct R as [(e & R & X)|(b' & s3 & R & R2)]; [discriminate|].
        destruct (RD _ _ R) as [-> X]. injection X as ->. cbn [runs ok] in R2. destruct R2 as [X ->]. injection X as ->.
        split; [reflexivity|]. now rewrite C3, FM.
      - destruct R as [(e' & R & X)|(b' & s4 & R & R3)].
        + destruct (RD _ _ R) as [_ Y]. discriminate.
        + cbn [runs ok] in R3. destruct R3 as [X _]. discriminate. }
    destruct R as [(e & R & ->)|(m & s2 & R1 & R)]; [destruct (MM _ _ R) as [_ X]; discriminate|].
    destruct (MM _ _ R1) as [-> X]. injection X as ->. clear MM R1. destruct (manifest_files_ok _ _ _ IO SAM) as (fs & MF & SF). rewrite MF in R.
    assert (META : forall fn, fn = FTag \/ fn = FVerb -> file_meta en fs fn = Some (size_of (content en p fn), Some (JStr (sha en (content en p fn))))).
    { intros fn HF. assert (X : exists x, obj_get (fname_text fn) fs = Some x /\ json_same x (file_entry en (content en p fn))).
      { destruct HF as [-> | ->]; cbn [content fname_text]; eapply (same_get _ _ _ _ SF (two_files_nodup _ _)); reflexivity. }
      destruct X as (jx & Gx & Sx). destruct (same_entry _ _ Sx) as (md & -> & Gz & Gh). unfold file_meta. rewrite Gx, Gz, Gh.
      replace (size_of (content en p fn) <? 0)%Z with false by (symmetry; apply Z.ltb_ge; unfold size_of; lia).
      replace (maxsize en <? size_of (content en p fn))%Z with false by (symmetry; apply Z.ltb_ge; destruct HF as [-> | ->]; assumption). reflexivity. }
    pose proof (META FTag (or_introl eq_refl)) as M1. pose proof (META FVerb (or_intror eq_refl)) as M2.
    apply runs_bind in R. destruct R as [(e & R & ->)|(t & s2 & R1 & R)].
    { apply runs_load_file in R. destruct R as (-> & _ & A3). rewrite <- C1 in F1, F2, F3, M1.
      discriminate (A3 NF ft D1 F3 M1 F2 F1). }
    apply runs_load_file in R1. destruct R1 as (-> & _ & A3). rewrite <- C1 in F1, F2, F3, M1.
    pose proof (A3 NF ft D1 F3 M1 F2 F1) as X. injection X as ->. clear A3. cbv iota in R.
    apply runs_bind in R. destruct R as [(e & R & ->)|(t & s2 & R1 & R)].
    { apply runs_load_file in R. destruct R as (-> & _ & A3). rewrite <- C2 in G1, G2, G3, M2.
      discriminate (A3 NF fv D2 G3 M2 G2 G1). }
    apply runs_load_file in R1. destruct R1 as (-> & _ & A3). rewrite <- C2 in G1, G2, G3, M2.
    pose proof (A3 NF fv D2 G3 M2 G2 G1) as X. injection X as ->.
    cbn [runs ok] in R. destruct R as [-> ->]. split; [reflexivity|].
    rewrite C1, C2. cbn [content]. now rewrite <- surjective_pairing. }
  destruct R as [(b & R & ->)|(e & s1 & R & R2)].
  - apply IN, R.
  - destruct (IN _ _ R) as [_ X]. discriminate.
Qed.
Lemma runs_load_path_absent n s r s' :
  no_faults w -> par s n = None -> runs (load_path en n) s r s' -> s' = s /\ r = inr None.
Proof.
  intros NF P R. unfold load_path in R. apply runs_catch in R.
  assert (OD : forall y s2, runs (open_directory_chain n) s y s2 -> s2 = s /\ y = inl XNotFound).
  { clear R. intros y s2 R. unfold open_directory_chain in R.
    apply runs_sys_pure in R; [|intros; eapply reads_pure; [|eassumption]; exact Logic.I].
    destruct R as (z & ST & R). cbn [step] in ST. destruct ST as [(F & _)|(_ & ->)]; [rewrite NF in F; discriminate|].
    rewrite P in R. cbn [runs throw os_exn] in R. destruct R as [-> ->]. auto. }
  destruct R as [(b & R & ->)|(e & s1 & R & R2)]; apply runs_bind in R.
  - destruct R as [(e & R & X)|(b' & s3 & R & R2)]; [discriminate|]. destruct (OD _ _ R) as [_ X]. discriminate.
  - destruct R as [(e' & R & X)|(b' & s3 & R & R3)].
    + injection X as <-. destruct (OD _ _ R) as [-> Y]. injection Y as ->. cbn [runs ok] in R2. destruct R2 as [-> ->]. auto.
    + destruct (OD _ _ R) as [_ X]. discriminate.
Qed.
End S.
