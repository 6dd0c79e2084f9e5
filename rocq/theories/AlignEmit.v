(** The loop of transduce_with_spans computes the output intervals of AlignSpec.v. *)
From Coq Require Import List NArith Bool Arith Lia.
From Verif Require Import Text TextFacts AlignModel AlignSpec AlignBytes AlignTrace.
Import ListNotations.
Local Open Scope list_scope.

Section Emit.
  Variable spans : list (nat * nat).
  Variable limit : nat.
  Variable space : nat -> Prop.
  Variable ws : list bool.
  Hypothesis Inc : increasing_from 0 spans limit.
  Hypothesis Ne : nonempty_spans spans.
  Hypothesis Ws : forall b w, nth_error ws b = Some w -> (w = true <-> space b).

  Notation Emits := (emits spans space).
  Notation Hull := (output_hull spans space).

  Record einv (p : list arc) (st : ostate) : Prop := {
    e_in : o_in st = nreads p;
    e_out : o_out st = nwrites p;
    e_il : o_idx st <= length spans;
    e_idx : forall j a b, j < o_idx st -> nth_error spans j = Some (a, b) -> b <= o_in st;
    e_ls : length (o_starts st) = length spans;
    e_le : length (o_ends st) = length spans;
    e_bounds : o_bounds st = map (fun s => (s_in s, s_out s)) (steps p);
    e_k : forall k, k < length spans ->
      (nth k (o_starts st) None = None /\ nth k (o_ends st) None = None /\ forall s, In s (steps p) -> ~ Emits k s) \/
      (exists lo hi, nth k (o_starts st) None = Some lo /\ nth k (o_ends st) None = Some hi /\ Hull (steps p) k lo hi) }.

  Lemma emits_index k s ti : Emits k s -> ti <= length spans ->
    (forall j a b, j < ti -> nth_error spans j = Some (a, b) -> b <= s_in s) ->
    (forall a b, nth_error spans ti = Some (a, b) -> s_in s < b) ->
    (k = ti /\ exists a b, nth_error spans k = Some (a, b) /\
       ((s_reads s = true /\ a <= s_in s < b) \/
        (s_reads s = false /\ (a < s_in s < b \/ (k = 0 /\ s_in s = a)))))
    \/ (ti = S k /\ s_reads s = false /\ ~ space (s_out s) /\
        forall a b, nth_error spans ti = Some (a, b) -> s_in s <= a).
  Proof.
    clear Ws.
    intros (R & a & b & E & D) Lt Lo Hi. assert (I := increasing_nth _ _ _ _ _ _ Inc E). assert (N := nonempty_nth _ _ _ _ Ne E).
    assert (Bk : a <= s_in s < b -> k = ti).
    { intros B. destruct (lt_eq_lt_dec k ti) as [[L|L]|L]; auto.
      - specialize (Lo k a b L E). lia.
      - exfalso. destruct (nth_error spans ti) as [[a' b']|] eqn:E'.
        + specialize (Hi a' b' eq_refl). assert (X := increasing_lt _ _ _ ti k a' b' a b Inc L E' E). lia.
        + apply nth_error_None in E'. assert (k < length spans) by (apply nth_error_Some; congruence). lia. }
    destruct D as [D|[D|[D|D]]].
    - left. split; [apply Bk; tauto|]. exists a, b. split; auto.
    - left. split; [apply Bk; lia|]. exists a, b. split; auto. right. tauto.
    - left. split; [apply Bk; lia|]. exists a, b. split; auto. right. tauto.
    - right. destruct D as (D1 & D2 & D3 & D4). 
      assert (K : k < ti).
      { destruct (lt_eq_lt_dec k ti) as [[L|L]|L]; auto; exfalso.
        - subst k. specialize (Hi a b E). lia.
        - destruct (nth_error spans ti) as [[a' b']|] eqn:E'.
          + specialize (Hi a' b' eq_refl). assert (X := increasing_lt _ _ _ ti k a' b' a b Inc L E' E). lia.
          + apply nth_error_None in E'. assert (k < length spans) by (apply nth_error_Some; congruence). lia. }
      assert (T : ti = S k \/ S k < ti) by lia. destruct T as [T|T].
      + split; [exact T|]. split; [exact D1|]. split; [exact D2|]. subst ti. exact D4.
      + exfalso. destruct (nth_error spans (S k)) as [[a' b']|] eqn:E'.
        * specialize (D4 a' b' eq_refl). assert (X := Lo (S k) a' b' T E'). assert (Y := nonempty_nth _ _ _ _ Ne E'). lia.
        * apply nth_error_None in E'. lia.
  Qed.

  Lemma advance_le o : forall fuel ti, ti <= length spans -> advance fuel spans o ti <= length spans.
  Proof.
    clear.
    induction fuel as [|f IH]; intros ti L; cbn [advance]; auto.
    destruct (nth_error spans ti) as [[a b]|] eqn:E; auto. destruct (b <=? o); auto. apply IH.
    assert (ti < length spans) by (apply nth_error_Some; congruence). lia.
  Qed.

  Lemma emit_owner p st a s : einv p st -> nwrites (p ++ [a]) <= length ws ->
    s = Step (nreads p) (nwrites p) (lab (ilabel a)) (lab (olabel a)) ->
    exists o, (forall k, o = Some k <-> Emits k s) /\ emit_step spans ws st a =
      AOk (OState (o_in st + b2n (lab (ilabel a))) (o_out st + b2n (lab (olabel a)))
             (advance (S (length spans)) spans (o_in st) (o_idx st))
             (match o with Some k => if is_none (nth k (o_starts st) None) then set_nth k (Some (o_out st)) (o_starts st) else o_starts st
              | None => o_starts st end)
             (match o with Some k => set_nth k (Some (o_out st + 1)) (o_ends st) | None => o_ends st end)
             (o_bounds st ++ [(o_in st, o_out st)])).
  Proof.
    intros I Lw ->. set (s := Step _ _ _ _).
    unfold emit_step. destruct (advance_spec spans (o_in st) (S (length spans)) (o_idx st)) as (A1 & A2 & A3); [lia|].
    assert (Al := advance_le (o_in st) (S (length spans)) (o_idx st) (e_il _ _ I)).
    set (ti := advance _ _ _ _) in *.
    assert (Lo : forall j x y, j < ti -> nth_error spans j = Some (x, y) -> y <= s_in s).
    { intros j x y L E. cbn. rewrite <- (e_in _ _ I). destruct (Nat.lt_ge_cases j (o_idx st)).
      - apply (e_idx _ _ I j x y); auto.
      - apply (A2 j x y); auto. }
    assert (Hi : forall x y, nth_error spans ti = Some (x, y) -> s_in s < y).
    { cbn. rewrite <- (e_in _ _ I). exact A3. }
    assert (EI : forall k, Emits k s -> _) by (intros k T; exact (emits_index k s ti T Al Lo Hi)).
    assert (Wsv : lab (olabel a) = true -> exists w, nth_error ws (o_out st) = Some w /\ (w = true <-> space (s_out s))).
    { intros R. rewrite nwrites_app, nwrites_1, R in Lw. cbn in Lw. rewrite (e_out _ _ I).
      destruct (nth_error ws (nwrites p)) as [w|] eqn:E; [|apply nth_error_None in E; lia].
      exists w. split; [reflexivity|]. apply (Ws _ _ E). }
    destruct (lab (olabel a)) eqn:O.
    2:{ exists None. split.
        - intros k. split; [discriminate|]. intros (W & _). cbn in W. congruence.
        - destruct (lab (ilabel a)).
          + destruct (nth_error spans ti) as [[x y]|]; cbn [abind]; [|reflexivity]. destruct (_ && _); reflexivity.
          + cbn [abind]. destruct (nth_error spans ti) as [[x y]|]; [|reflexivity]. destruct (_ || _); reflexivity. }
    destruct (Wsv eq_refl) as (w & Ew & Hw).
    cut (exists o, (forall k, o = Some k <-> Emits k s) /\
      (if lab (ilabel a) then
      match nth_error spans ti with
      | None => AOk None
      | Some (start, end_) =>
          AOk (if (start <=? o_in st) && (o_in st <? end_) then Some ti else None)
      end
    else
      let owner :=
        match nth_error spans ti with
        | None => None
        | Some (start, end_) =>
            if ((start <? o_in st) && (o_in st <? end_))
               || ((ti =? 0) && (o_in st =? start)) then Some ti else None
        end in
        match nth_error ws (o_out st) with
        | None => AErr AIndexError
        | Some is_boundary_whitespace =>
            if is_none owner && negb is_boundary_whitespace then
              match ti with
              | O => AOk owner
              | S previous_index =>
                  match nth_error spans previous_index with
                  | None => AErr AIndexError
                  | Some (_, e) => AOk (if e <=? o_in st then Some previous_index else owner)
                  end
              end
            else AOk owner
        end) = AOk o).
    { intros (o & Ho & Heq). exists o. split; auto. cbv beta iota zeta in Heq |- *. rewrite Heq. cbn [abind]. unfold b2n. destruct o; reflexivity. }
    rewrite Ew, (e_in _ _ I). cbv zeta.
    destruct (lab (ilabel a)) eqn:R.
    - (* a reading step *)
      destruct (nth_error spans ti) as [[x y]|] eqn:E.
      + eexists. split; [|reflexivity]. intros k. specialize (Hi _ _ eq_refl). cbn in Hi.
        destruct ((x <=? nreads p) && (nreads p <? y)) eqn:C.
        * apply andb_true_iff in C as [C1 C2]. apply Nat.leb_le in C1. apply Nat.ltb_lt in C2. split.
          -- intros X; injection X as <-. split; [reflexivity|]. exists x, y. split; [exact E|]. left. cbn. auto.
          -- intros X. destruct (EI k X) as [(-> & _)|(_ & X2 & _)]; [reflexivity|discriminate].
        * split; [discriminate|]. intros X. destruct (EI k X) as [(-> & x' & y' & E' & D)|(_ & X2 & _)]; [|discriminate].
          rewrite E in E'. injection E' as <- <-. cbn in D. exfalso. apply andb_false_iff in C. rewrite Nat.leb_gt, Nat.ltb_ge in C.
          destruct D as [D|(D & _)]; [lia|discriminate].
      + exists None. split; [|reflexivity]. intros k. split; [discriminate|]. intros X. 
        destruct (EI k X) as [(-> & x' & y' & E' & _)|(_ & X2 & _)]; [congruence|discriminate].
    - (* an inserting step *)
      set (owner := match nth_error spans ti with Some (x, y) => _ | None => None end).
      assert (Own : owner = Some ti /\ (exists x y, nth_error spans ti = Some (x, y) /\ (x < nreads p < y \/ (ti = 0 /\ nreads p = x)))
                    \/ owner = None /\ (forall x y, nth_error spans ti = Some (x, y) -> nreads p <= x /\ ~ (ti = 0 /\ nreads p = x))).
      { unfold owner. destruct (nth_error spans ti) as [[x y]|] eqn:E.
        - specialize (Hi _ _ eq_refl). cbn in Hi.
          destruct (((x <? nreads p) && (nreads p <? y)) || ((ti =? 0) && (nreads p =? x))) eqn:C.
          + left. split; auto. exists x, y. split; auto. rewrite orb_true_iff, !andb_true_iff, !Nat.ltb_lt, !Nat.eqb_eq in C. tauto.
          + right. split; auto. intros x' y' E'. injection E' as <- <-.
            rewrite orb_false_iff, !andb_false_iff, !Nat.ltb_ge, !Nat.eqb_neq in C. lia.
        - right. split; auto. intros; congruence. }
      destruct Own as [(-> & x & y & E & D)|(-> & D)]; cbn [is_none andb].
      + exists (Some ti). split; [|reflexivity]. intros k. split.
        * intros X; injection X as <-. split; [reflexivity|]. exists x, y. split; [exact E|]. right. cbn. destruct D as [D|D]; auto.
        * intros X. destruct (EI k X) as [(-> & _)|(X1 & X2 & X3 & X4)]; [reflexivity|].
          exfalso. specialize (X4 _ _ E). cbn in X4. lia.
      + assert (NoTi : ~ Emits ti s).
        { intros X. destruct (EI ti X) as [(_ & x & y & E & D')|(X1 & _)]; [|lia]. destruct (D _ _ E) as [D1 D2]. cbn in D'.
          destruct D' as [(? & _)|(_ & [D'|D'])]; [discriminate|lia|tauto]. }
        destruct w; cbn [negb].
        * exists None. split; [|reflexivity]. intros k. split; [discriminate|]. intros X.
          destruct (EI k X) as [(-> & _)|(_ & _ & X3 & _)]; [contradiction|]. exfalso. apply X3, Hw. reflexivity.
        * destruct ti as [|prev] eqn:Eti.
          -- exists None. split; [|reflexivity]. intros k. split; [discriminate|]. intros X.
             destruct (EI k X) as [(-> & _)|(X1 & _)]; [contradiction|discriminate].
          -- destruct (nth_error spans prev) as [[x y]|] eqn:E; [|apply nth_error_None in E; lia].
             assert (Ly := Lo prev x y (Nat.lt_succ_diag_r _) E). cbn in Ly.
             replace (y <=? nreads p) with true by (symmetry; now apply Nat.leb_le).
             exists (Some prev). split; [|reflexivity]. intros k. split.
             ++ intros X; injection X as <-. split; [reflexivity|]. exists x, y. split; [exact E|]. right. right. right.
                cbn. repeat split; auto. { intros X. apply Hw in X. discriminate. } intros a' b' E'. apply (D a' b' E').
             ++ intros X. destruct (EI k X) as [(-> & _)|(X1 & _)]; [contradiction|]. congruence.
  Qed.

  Lemma einv_step p st a : einv p st -> nwrites (p ++ [a]) <= length ws ->
    exists st', emit_step spans ws st a = AOk st' /\ einv (p ++ [a]) st'.
  Proof.
    intros I Lw. destruct (emit_owner p st a _ I Lw eq_refl) as (o & O & ->). set (s := Step _ _ _ _) in *.
    eexists. split; [reflexivity|].
    split; cbn [o_in o_out o_idx o_starts o_ends o_bounds].
    - rewrite nreads_app, nreads_1, (e_in _ _ I). reflexivity.
    - rewrite nwrites_app, nwrites_1, (e_out _ _ I). reflexivity.
    - apply advance_le, I.
    - destruct (advance_spec spans (o_in st) (S (length spans)) (o_idx st)) as (A1 & A2 & A3); [lia|].
      intros j x y L E. destruct (Nat.lt_ge_cases j (o_idx st)) as [C|C].
      + assert (X := e_idx _ _ I j x y C E). lia.
      + assert (X := A2 j x y (conj C L) E). lia.
    - destruct o as [k|]; [|apply I]. destruct (is_none _); rewrite ?set_nth_length; apply I.
    - destruct o as [k|]; [|apply I]. rewrite ?set_nth_length; apply I.
    - rewrite steps_snoc, map_app, (e_bounds _ _ I), (e_in _ _ I), (e_out _ _ I). reflexivity.
    - intros k Lk. rewrite steps_snoc. fold s.
      assert (Dec : o = Some k \/ o <> Some k) by (destruct o as [j|]; [destruct (Nat.eq_dec j k); [left|right]; congruence|right; discriminate]).
      destruct Dec as [Eo|Eo].
      + rewrite Eo. assert (Em := proj1 (O k) Eo). right.
        assert (W : lab (olabel a) = true) by (destruct Em as (Em & _); exact Em).
        assert (Is : In s (steps p ++ [s])) by (apply in_app_iff; right; left; reflexivity).
        destruct (e_k _ _ I k Lk) as [(E1 & E2 & N)|(lo & hi & E1 & E2 & H)].
        * exists (o_out st), (o_out st + 1). rewrite E1. cbn [is_none].
          rewrite !set_nth_same by (rewrite ?(e_ls _ _ I), ?(e_le _ _ I); auto). split; [reflexivity|]. split; [reflexivity|]. split; [|split].
          -- exists s. split; [exact Is|]. split; [exact Em|]. cbn. now rewrite (e_out _ _ I).
          -- exists s. split; [exact Is|]. split; [exact Em|]. cbn. now rewrite (e_out _ _ I).
          -- intros x Hx Ex. apply in_app_iff in Hx as [Hx|[<-|[]]]; [contradiction (N x Hx)|]. cbn. rewrite (e_out _ _ I). lia.
        * exists lo, (o_out st + 1). rewrite E1. cbn [is_none].
          rewrite !set_nth_same by (rewrite ?(e_ls _ _ I), ?(e_le _ _ I); auto).
          destruct H as ((s1 & H1 & H1' & H1'') & _ & H3).
          assert (Bnd : forall x, In x (steps p) -> Emits k x -> s_out x + 1 <= o_out st).
          { intros x Ix (Wx & _). apply In_nth_error in Ix as (i & Ix). assert (X := steps_bound _ _ _ Ix). rewrite Wx in X. cbn in X. rewrite (e_out _ _ I). lia. }
          split; [exact E1|]. split; [reflexivity|]. split; [|split].
          -- exists s1. split; [apply in_app_iff; auto|]. auto.
          -- exists s. split; [exact Is|]. split; [exact Em|]. cbn. now rewrite (e_out _ _ I).
          -- intros x Hx Ex. apply in_app_iff in Hx as [Hx|[<-|[]]].
             ++ assert (X := H3 x Hx Ex). assert (Y := Bnd x Hx Ex). lia.
             ++ cbn. rewrite <- (e_out _ _ I). assert (X := H3 s1 H1 H1'). assert (Y := Bnd s1 H1 H1'). lia.
      + assert (Ns : ~ Emits k s) by (intros X; apply Eo, O; exact X).
        assert (Es : forall d, nth k (match o with
            | Some k0 => if is_none (nth k0 (o_starts st) None) then set_nth k0 (Some (o_out st)) (o_starts st) else o_starts st
            | None => o_starts st end) d = nth k (o_starts st) d).
        { intros d. destruct o as [j|]; auto. destruct (is_none _); auto. apply set_nth_other. congruence. }
        assert (Ee : forall d, nth k (match o with Some k0 => set_nth k0 (Some (o_out st + 1)) (o_ends st) | None => o_ends st end) d = nth k (o_ends st) d).
        { intros d. destruct o as [j|]; auto. apply set_nth_other. congruence. }
        rewrite Es, Ee. destruct (e_k _ _ I k Lk) as [(E1 & E2 & N)|(lo & hi & E1 & E2 & H)].
        * left. split; [exact E1|]. split; [exact E2|]. intros x Hx. apply in_app_iff in Hx as [Hx|[<-|[]]]; auto.
        * right. exists lo, hi. destruct H as ((s1 & H1 & H1' & H1'') & (s2 & H2 & H2' & H2'') & H3).
          split; [exact E1|]. split; [exact E2|]. split; [|split].
          -- exists s1. split; [apply in_app_iff; auto|auto].
          -- exists s2. split; [apply in_app_iff; auto|auto].
          -- intros x Hx Ex. apply in_app_iff in Hx as [Hx|[<-|[]]]; [auto|contradiction].
  Qed.

  Lemma emit_loop_app a b st : emit_loop spans ws (a ++ b) st = abind (emit_loop spans ws a st) (emit_loop spans ws b).
  Proof.
    revert st; induction a as [|x a IH]; intros st; cbn [app emit_loop]; auto.
    destruct (emit_step spans ws st x); cbn [abind]; auto.
  Qed.

  Definition einit := OState 0 0 0 (repeat None (length spans)) (repeat None (length spans)) [].

  Lemma emit_loop_inv arcs : nwrites arcs <= length ws ->
    exists st, emit_loop spans ws arcs einit = AOk st /\ einv arcs st.
  Proof.
    induction arcs as [|a p IH] using rev_ind; intros L.
    - exists einit. split; auto. split; cbn; try rewrite repeat_length; auto; try lia.
      intros k Lk. left. rewrite !nth_repeat. repeat split; auto.
    - rewrite nwrites_app in L. destruct IH as (st & E & I); [lia|]. destruct (einv_step p st a I) as (st' & E' & I').
      { rewrite nwrites_app. exact L. }
      exists st'. split; auto. rewrite emit_loop_app, E. cbn [abind emit_loop]. now rewrite E'.
  Qed.

  (** Every input byte is read by one step. *)
  Lemma read_step arcs x : x < nreads arcs -> exists i s, nth_error (steps arcs) i = Some s /\ s_reads s = true /\ s_in s = x.
  Proof.
    clear.
    induction arcs as [|a p IH] using rev_ind; intros L; [cbn in L; lia|].
    rewrite nreads_app, nreads_1 in L. rewrite steps_snoc.
    destruct (Nat.lt_ge_cases x (nreads p)) as [C|C].
    - destruct (IH C) as (i & s & E & R). exists i, s. rewrite nth_error_app1; auto. apply nth_error_Some. congruence.
    - destruct (lab (ilabel a)) eqn:R; cbn in L; [|lia].
      exists (length (steps p)), (Step (nreads p) (nwrites p) true (lab (olabel a))).
      rewrite nth_error_app2, Nat.sub_diag by lia. cbn. repeat split; auto. lia.
  Qed.

  Lemma bounds_get arcs i s x : nth_error (steps arcs) i = Some s -> s_reads s = true -> s_in s = x ->
    nat_get x (map (fun s => (s_in s, s_out s)) (steps arcs) ++ [(nreads arcs, nwrites arcs)]) = Some (s_out s).
  Proof.
    clear.
    intros E R <-. assert (B := steps_bound _ _ _ E). rewrite R in B. cbn in B.
    rewrite nat_get_app. cbn [nat_get]. destruct (Nat.eqb_spec (s_in s) (nreads arcs)); [lia|].
    destruct (nth_error_split _ _ E) as (l1 & l2 & Es & L).
    rewrite Es, map_app, nat_get_app. cbn [map nat_get].
    assert (N : nat_get (s_in s) (map (fun s => (s_in s, s_out s)) l2) = None).
    { apply nat_get_None. rewrite map_map. intros Hin. apply in_map_iff in Hin as (s' & E' & Hin). cbn [fst] in E'.
      apply In_nth_error in Hin as (j & Hj).
      assert (E2 : nth_error (steps arcs) (length l1 + S j) = Some s').
      { rewrite Es, nth_error_app2 by lia. replace (length l1 + S j - length l1) with (S j) by lia. exact Hj. }
      assert (O := steps_order arcs i (length l1 + S j) s s' E E2). rewrite R in O. cbn in O. lia. }
    rewrite N, Nat.eqb_refl. reflexivity.
  Qed.

  (** What is emitted for an earlier token is emitted before a later one's first byte is read... *)
  Lemma emits_before arcs j k s i r ir a b : j < k -> nth_error (steps arcs) i = Some s -> Emits j s ->
    nth_error spans k = Some (a, b) -> nth_error (steps arcs) ir = Some r -> s_reads r = true -> s_in r = a -> s_out s + 1 <= s_out r.
  Proof.
    clear Ws.
    intros L E (W & aj & bj & Ej & D) Ek Er Rr Ar.
    assert (X := increasing_lt _ _ _ j k _ _ _ _ Inc L Ej Ek). assert (N := nonempty_nth _ _ _ _ Ne Ek). assert (Nj := nonempty_nth _ _ _ _ Ne Ej).
    assert (I : i < ir).
    { destruct (lt_eq_lt_dec i ir) as [[H|H]|H]; auto; exfalso.
      - subst ir. rewrite E in Er. injection Er as <-. rewrite Rr in D. lia || (destruct D as [(_ & D)|[(D & _)|[(D & _)|(D & _)]]]; try discriminate; lia).
      - assert (O := steps_order arcs ir i r s Er E H). rewrite Rr in O. cbn in O.
        assert (S1 : S j = k \/ S j < k) by lia.
        destruct D as [(_ & D)|[(_ & D)|[(_ & _ & D)|(_ & _ & _ & D)]]]; try lia.
        destruct S1 as [<-|S1].
        + specialize (D _ _ Ek). lia.
        + destruct (nth_error spans (S j)) as [[a' b']|] eqn:E'.
          * specialize (D _ _ eq_refl). assert (Y := increasing_lt _ _ _ (S j) k _ _ _ _ Inc S1 E' Ek).
            assert (N' := nonempty_nth _ _ _ _ Ne E'). lia.
          * apply nth_error_None in E'. assert (k < length spans) by (apply nth_error_Some; congruence). lia. }
    assert (O := steps_order arcs i ir s r E Er I). rewrite W in O. cbn in O. lia.
  Qed.
  (** ... and what is emitted for a token (not the first) comes no earlier. *)
  Lemma emits_after arcs j k s i r ir a b : j < k -> nth_error (steps arcs) i = Some s -> Emits k s ->
    nth_error spans k = Some (a, b) -> nth_error (steps arcs) ir = Some r -> s_reads r = true -> s_in r = a -> s_out r <= s_out s.
  Proof.
    clear Ws.
    intros L E (W & ak & bk & Ek' & D) Ek Er Rr Ar. rewrite Ek in Ek'. injection Ek' as <- <-. assert (N := nonempty_nth _ _ _ _ Ne Ek).
    destruct (lt_eq_lt_dec i ir) as [[H|H]|H].
    - assert (O := steps_order arcs i ir s r E Er H).
      exfalso. destruct D as [(R & D)|[(R & D)|[(R & D & _)|(R & _ & D & _)]]]; try lia. rewrite R in O. cbn in O. lia.
    - subst ir. rewrite E in Er. injection Er as <-. lia.
    - assert (O := steps_order arcs ir i r s Er E H). lia.
  Qed.

  Lemma interval_order arcs j k lo hi lo' hi' : j < k -> nreads arcs = limit ->
    output_interval spans space (steps arcs) j lo hi -> output_interval spans space (steps arcs) k lo' hi' ->
    hi <= lo'.
  Proof.
    clear Ws.
    intros L NR J K.
    assert (Kx : exists a b, nth_error spans k = Some (a, b)).
    { destruct K as [((s & _ & (_ & a & b & E & _) & _) & _)|(_ & _ & s & a & b & E & _)]; eauto. }
    destruct Kx as (a & b & Ek). assert (Bk := increasing_nth _ _ _ _ _ _ Inc Ek). assert (N := nonempty_nth _ _ _ _ Ne Ek).
    destruct (read_step arcs a) as (ir & r & Er & Rr & Ar); [lia|].
    assert (HJ : hi <= s_out r).
    { destruct J as [(_ & (s & Is & Es & <-) & _)|(_ & <- & s & aj & bj & Ej & Is & Rs & As & Os)].
      - apply In_nth_error in Is as (i & Is). exact (emits_before arcs j k s i r ir a b L Is Es Ek Er Rr Ar).
      - apply In_nth_error in Is as (i & Is). assert (X := increasing_lt _ _ _ j k _ _ _ _ Inc L Ej Ek). assert (Nj := nonempty_nth _ _ _ _ Ne Ej).
        assert (I : i < ir) by (apply (steps_index arcs i ir s r); auto; lia).
        assert (O := steps_order arcs i ir s r Is Er I). lia. }
    destruct K as [((s & Is & Es & <-) & _)|(_ & <- & s & a' & b' & E' & Is & Rs & As & Os)].
    - apply In_nth_error in Is as (i & Is). assert (X := emits_after arcs j k s i r ir a b L Is Es Ek Er Rr Ar). lia.
    - rewrite Ek in E'. injection E' as <- <-. apply In_nth_error in Is as (i & Is).
      assert (i = ir).
      { destruct (lt_eq_lt_dec i ir) as [[H|H]|H]; auto; exfalso.
        - assert (O := steps_order arcs i ir s r Is Er H). rewrite Rs in O. cbn in O. lia.
        - assert (O := steps_order arcs ir i r s Er Is H). rewrite Rr in O. cbn in O. lia. }
      subst ir. rewrite Is in Er. injection Er as <-. lia.
  Qed.

  Lemma interval_le path k lo hi : output_interval spans space path k lo hi -> lo <= hi.
  Proof.
    clear Ws Ne Inc.
    intros [((s & Is & Es & <-) & _ & H)|(_ & <- & _)]; [|lia]. specialize (H s Is Es). lia.
  Qed.
  Lemma interval_unique arcs k lo hi lo' hi' : output_interval spans space (steps arcs) k lo hi ->
    output_interval spans space (steps arcs) k lo' hi' -> lo = lo' /\ hi = hi'.
  Proof.
    clear Ws Ne Inc.
    intros [((s1 & A1 & A2 & A3) & (s2 & B1 & B2 & B3) & C)|(N & <- & s & a & b & E & Is & R & A & <-)]
      [((s1' & A1' & A2' & A3') & (s2' & B1' & B2' & B3') & C')|(N' & <- & s' & a' & b' & E' & Is' & R' & A' & <-)].
    - assert (X1 := C _ A1' A2'). assert (X2 := C' _ A1 A2). assert (X3 := C _ B1' B2'). assert (X4 := C' _ B1 B2). lia.
    - contradiction (N' _ A1).
    - contradiction (N _ A1').
    - rewrite E in E'. injection E' as <- <-. apply In_nth_error in Is as (i & Is). apply In_nth_error in Is' as (j & Is').
      assert (i = j).
      { destruct (lt_eq_lt_dec i j) as [[H|H]|H]; auto; exfalso.
        - assert (O := steps_order arcs i j s s' Is Is' H). rewrite R in O. cbn in O. lia.
        - assert (O := steps_order arcs j i s' s Is' Is H). rewrite R' in O. cbn in O. lia. }
      subst j. rewrite Is in Is'. injection Is' as <-. auto.
  Qed.
End Emit.
