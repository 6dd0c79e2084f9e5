(** Spoken English numbers: the scales, and dropping "and" (C59). *)
From Coq Require Import List NArith ZArith Bool String Lia Arith.
From Verif Require Import Text TextFacts Fst FstFacts FstRun GrammarModel NumeralSpec EnglishNumeralSpec EnglishSpokenSpec.
From Verif Require Import ZhNumberProofs EnNumberProofs EnNumberProofs4 DataEnItn EnSpokenProofs.
From Verif Require Import EnItnModel.
Import ListNotations.
Local Open Scope list_scope.

(** ** The words of a number *)
Lemma small_words ws n : small ws = Some n -> Forall (fun w => numeral_word w = true) ws.
Proof.
  unfold numeral_word. destruct ws as [|w [|w' [|w'' ws]]]; cbn [small]; try discriminate.
  - intro H. constructor; [|constructor]. destruct (named unit_names w); [reflexivity|]. destruct (named teen_names w); [reflexivity|].
    now rewrite H.
  - destruct (named spoken_ties w) eqn:T; [|discriminate]. destruct (named unit_names w') eqn:U; [|discriminate]. intros _.
    constructor; [|constructor; [now rewrite U|constructor]]. rewrite T. destruct (named unit_names w); [reflexivity|].
    now destruct (named teen_names w).
Qed.
Lemma hundred_word : numeral_word HUNDRED = true.
Proof. vm_compute. reflexivity. Qed.
Lemma hundreds_words k r n : hundreds k r = Some n -> Forall (fun w => numeral_word w = true) r.
Proof.
  unfold hundreds. destruct k; [|discriminate]. destruct r as [|w r]; [constructor|]. destruct (small (w :: r)) eqn:E; [|discriminate].
  intros _. now apply small_words in E.
Qed.
Lemma below_words ws n : below ws = Some n -> Forall (fun w => numeral_word w = true) ws.
Proof.
  rewrite below_cases. intros [H|(w & r & -> & H)]; [now apply small_words in H|].
  constructor; [|constructor; [exact hundred_word|now apply hundreds_words in H]].
  unfold numeral_word. destruct (named unit_names w); [reflexivity|discriminate].
Qed.
Lemma cut_some s ws a b : cut s ws = Some (a, b) -> ws = a ++ s :: b /\ ~ In s a.
Proof.
  revert a b. induction ws as [|w ws IH]; intros a b; cbn [cut]; [discriminate|].
  destruct (text_eqb_spec w s) as [->|D]; [intros [= <- <-]; auto|].
  destruct (cut s ws) as [(a', b')|]; [|discriminate]. intros [= <- <-]. destruct (IH a' b' eq_refl) as (-> & I).
  split; [reflexivity|]. intros [E|J]; auto.
Qed.
Lemma cut_mid s a b : ~ In s a -> cut s (a ++ s :: b) = Some (a, b).
Proof.
  induction a as [|w a IH]; cbn [app cut]; intro I; [now rewrite text_eqb_refl|].
  destruct (text_eqb_spec w s) as [->|D]; [now destruct I; left|]. rewrite IH; [reflexivity|]. intro J. apply I. now right.
Qed.
Lemma cut_none s ws : ~ In s ws -> cut s ws = None.
Proof.
  induction ws as [|w ws IH]; cbn [cut]; intro I; [reflexivity|].
  destruct (text_eqb_spec w s) as [->|D]; [now destruct I; left|]. rewrite IH; [reflexivity|]. intro J. apply I. now right.
Qed.
Lemma said_words scs ws n : said scs ws = Some n -> Forall (fun w => numeral_word w = true \/ In w (map Datatypes.fst scs)) ws.
Proof.
  revert ws n. induction scs as [|(s, k) scs IH]; intros ws n; cbn [said map Datatypes.fst].
  - intro H. apply below_words in H. eapply Forall_impl; [|exact H]. auto.
  - destruct (cut s ws) as [(a, b)|] eqn:C.
    + apply cut_some in C as (-> & _). destruct (below a) as [m|] eqn:B; [|discriminate]. intro H. apply Forall_app. split.
      * apply below_words in B. eapply Forall_impl; [|exact B]. auto.
      * constructor; [right; now left|]. destruct b as [|w b]; [constructor|]. destruct (said scs (w :: b)) as [j|] eqn:E; [|discriminate].
        apply IH in E. eapply Forall_impl; [|exact E]. cbn [In]. tauto.
    + intro H. apply IH in H. eapply Forall_impl; [|exact H]. cbn [In]. tauto.
Qed.

(** ** Scales *)
Fixpoint lower (ss : list string) : fst :=
  match ss with [] => Cardinal.units | s :: r => (Cardinal.group s + lower r)%fst end.
Fixpoint mags (ss : list string) : list (text * N) :=
  match ss with [] => [] | s :: r => (u s, 10 ^ N.of_nat (3 * S (List.length r)))%N :: mags r end.
Fixpoint apart (ss : list string) : Prop :=
  match ss with
  | [] => True
  | s :: r => spaceless (u s) /\ numeral_word (u s) = false /\ ~ In (u s) (map Datatypes.fst (mags r)) /\ apart r
  end.
Definition places (ss : list string) : nat := 3 * S (List.length ss).
Lemma places_cons s ss : places (s :: ss) = 3 + places ss.
Proof. unfold places. cbn [List.length]. lia. Qed.
Lemma said_bound ss ws n : said (mags ss) ws = Some n -> (1 <= n < 10 ^ N.of_nat (places ss))%N.
Proof.
  revert ws n. induction ss as [|s ss IH]; intros ws n; cbn [said mags].
  - intro H. apply below_bound in H. change (10 ^ N.of_nat (places []))%N with 1000%N. lia.
  - fold (places ss). rewrite places_cons. replace (N.of_nat (3 + places ss)) with (3 + N.of_nat (places ss))%N by lia. rewrite N.pow_add_r.
    change (10 ^ 3)%N with 1000%N. remember (10 ^ N.of_nat (places ss))%N as M eqn:EM.
    assert (M <> 0)%N by (subst M; apply N.pow_nonzero; lia).
    destruct (cut (u s) ws) as [(a, b)|].
    + destruct (below a) as [m|] eqn:B; [|discriminate]. apply below_bound in B. destruct b as [|w b].
      * cbn [plus_named]. intros [= <-]. nia.
      * destruct (said (mags ss) (w :: b)) as [j|] eqn:E; [|discriminate]. apply IH in E. cbn [plus_named]. intros [= <-]. nia.
    + intro H'. apply IH in H'. nia.
Qed.
Lemma scale_absent s ss ws n : apart (s :: ss) -> said (mags ss) ws = Some n -> cut (u s) ws = None.
Proof.
  intros (_ & Nw & Ni & _) H. apply cut_none. intro I. apply said_words in H. rewrite Forall_forall in H.
  destruct (H _ I) as [E|E]; [congruence|auto].
Qed.
Lemma below_absent s ss ws n : apart (s :: ss) -> below ws = Some n -> ~ In (u s) ws.
Proof.
  intros (_ & Nw & _) H I. apply below_words in H. rewrite Forall_forall in H. specialize (H _ I). congruence.
Qed.
(** What follows a scale. *)
Definition rest_value (ss : list string) (b : list text) : option N :=
  match b with [] => Some 0%N | _ => said (mags ss) b end.
Lemma rest_bound ss b r : rest_value ss b = Some r -> (r < 10 ^ N.of_nat (places ss))%N.
Proof.
  unfold rest_value. destruct b; [intros [= <-]; apply N.neq_0_lt_0, N.pow_nonzero; lia|]. intro H. now apply said_bound in H.
Qed.
Lemma said_scale s ss a b k r : apart (s :: ss) -> below a = Some k -> rest_value ss b = Some r ->
  said (mags (s :: ss)) (a ++ u s :: b) = Some (k * 10 ^ N.of_nat (places ss) + r)%N.
Proof.
  intros A B R. cbn [said mags]. fold (places ss). rewrite cut_mid by exact (below_absent s ss a k A B). rewrite B.
  unfold rest_value in R. destruct b as [|w b]; [injection R as <-; reflexivity|]. now rewrite R.
Qed.
Lemma said_cases s ss ws n : apart (s :: ss) -> said (mags (s :: ss)) ws = Some n ->
  said (mags ss) ws = Some n \/
  exists a b k r, ws = a ++ u s :: b /\ below a = Some k /\ rest_value ss b = Some r /\ n = (k * 10 ^ N.of_nat (places ss) + r)%N.
Proof.
  intros A. cbn [said mags]. fold (places ss). destruct (cut (u s) ws) as [(a, b)|] eqn:C; [|auto].
  apply cut_some in C as (-> & _). destruct (below a) as [k|] eqn:B; [|discriminate]. intro H. right.
  exists a, b, k. unfold rest_value. destruct b as [|w b].
  - exists 0%N. cbn [plus_named] in H. injection H as <-. auto.
  - destruct (said (mags ss) (w :: b)) as [r|]; [|discriminate]. exists r. cbn [plus_named] in H. injection H as <-. auto.
Qed.
Lemma said_smaller s ss ws n : apart (s :: ss) -> said (mags ss) ws = Some n -> said (mags (s :: ss)) ws = Some n.
Proof. intros A H. cbn [said mags]. now rewrite (scale_absent s ss ws n A H). Qed.

Lemma group_spec s x d : gives (Cardinal.group s) x d <->
  (x = [] /\ d = u "000") \/ exists a, x = 32%N :: a ++ 32%N :: u s /\ gives Cardinal.up_to_999_padded a d.
Proof.
  unfold Cardinal.group, Cardinal.with_mag_padded. rewrite gives_union, gives_ins, gives_ds. split.
  - intros [(x' & -> & G)|H]; [|auto]. right. rewrite gives_assoc in G. apply gives_cat in G as (a & d1 & x2 & d2 & -> & -> & G & H).
    apply gives_ds in H as (x3 & -> & H). apply gives_cross in H as (-> & ->). exists a. rewrite app_nil_r. auto.
  - intros [H|(a & -> & G)]; [auto|]. left. exists (a ++ 32%N :: u s). split; [reflexivity|]. apply gives_assoc, gives_cat.
    exists a, d, (32%N :: u s), []. rewrite app_nil_r. repeat split; auto. apply gives_ds. exists (u s). split; [reflexivity|]. now apply gives_cross.
Qed.
Lemma units_spec x d : gives Cardinal.units x d <->
  (x = [] /\ d = u "000") \/ exists x', x = 32%N :: x' /\ gives Cardinal.up_to_999_padded x' d.
Proof. unfold Cardinal.units. rewrite gives_union, gives_ins, gives_ds. tauto. Qed.
Lemma triple_zero : pad 3 0 (u "000").
Proof. exact (pad_zeros 3). Qed.
Definition opens (x : text) : Prop := x = [] \/ exists x', x = 32%N :: x'.
Lemma lower_spec ss : apart ss -> forall x d, gives (lower ss) x d <->
  opens x /\ exists n, rest_value ss (follows x) = Some n /\ pad (places ss) n d.
Proof.
  induction ss as [|s ss IH]; intros A x d.
  - cbn [lower]. rewrite units_spec. split.
    + intros [(-> & ->)|(x' & -> & G)]; [split; [now left|]; exists 0%N; split; [reflexivity|exact triple_zero]|].
      split; [right; eauto|]. cbn [follows]. apply padded_spec in G as (n & B & P). exists n. split; [|exact P].
      pose proof (words_nonempty x'). unfold rest_value. now destruct (words x').
    + intros ([->|(x' & ->)] & n & V & P); cbn [follows rest_value] in V.
      * injection V as <-. left. split; [reflexivity|]. exact (pad_unique 3 0 _ _ P triple_zero).
      * right. exists x'. split; [reflexivity|]. apply padded_spec. exists n. split; [|exact P].
        pose proof (words_nonempty x'). unfold rest_value in V. now destruct (words x').
  - pose proof A as (Sp & _ & _ & A'). specialize (IH A'). cbn [lower]. rewrite gives_cat, places_cons. split.
    + intros (x1 & d1 & x2 & d2 & -> & -> & G & H). apply IH in H as (O & r & V & P). apply group_spec in G as [(-> & ->)|(a & -> & G)].
      * cbn [app]. split; [exact O|]. exists r. split; [|change r with (0 * 10 ^ N.of_nat (places ss) + r)%N; apply pad_app; [exact triple_zero|exact P]].
        unfold rest_value in V |- *. destruct (follows x2) as [|w ws]; [exact V|]. now apply said_smaller.
      * apply padded_spec in G as (k & B & P1). split; [right; eexists; reflexivity|]. cbn [app follows].
        exists (k * 10 ^ N.of_nat (places ss) + r)%N. split; [|now apply pad_app].
        rewrite <- app_assoc. cbn [app]. rewrite words_mid by assumption. unfold rest_value.
        pose proof (said_scale s ss (words a) (follows x2) k r A B V) as C. rewrite C.
        now destruct (words a ++ u s :: follows x2) eqn:E; [destruct (words a)|].
    + intros (O & n & V & P). assert (K : (follows x = [] /\ n = 0%N) \/ said (mags (s :: ss)) (follows x) = Some n).
      { unfold rest_value in V. destruct (follows x); [left; split; congruence|now right]. }
      clear V. destruct K as [(F & ->)|V].
      * change 0%N with (0 * 10 ^ N.of_nat (places ss) + 0)%N in P.
        apply pad_split in P as (d1 & d2 & -> & P1 & P2); [|apply N.neq_0_lt_0, N.pow_nonzero; lia].
        exists [], d1, x, d2. split; [reflexivity|]. split; [reflexivity|]. split.
        { apply group_spec. left. split; [reflexivity|exact (pad_unique 3 0 _ _ P1 triple_zero)]. }
        apply IH. split; [exact O|]. exists 0%N. rewrite F. auto.
      * apply (said_cases s ss) in V as [V|(a & b & k & r & W & B & R & ->)]; [| |exact A].
        { change n with (0 * 10 ^ N.of_nat (places ss) + n)%N in P. apply pad_split in P as (d1 & d2 & -> & P1 & P2); [|now apply said_bound in V].
          exists [], d1, x, d2. split; [reflexivity|]. split; [reflexivity|]. split.
          { apply group_spec. left. split; [reflexivity|exact (pad_unique 3 0 _ _ P1 triple_zero)]. }
          apply IH. split; [exact O|]. exists n. split; [|exact P2]. unfold rest_value. destruct (follows x); [|exact V].
          exfalso. clear -V. revert n V. induction ss as [|t ss IH]; [discriminate|exact IH]. }
        destruct O as [->|(x' & ->)]; [destruct a; discriminate|]. cbn [follows] in W.
        apply pad_split in P as (d1 & d2 & -> & P1 & P2); [|exact (rest_bound ss b r R)].
        destruct (mid_words x' a (u s) b W ltac:(destruct a; discriminate)) as (r' & -> & O' & <-).
        exists (32%N :: join a ++ 32%N :: u s), d1, r', d2. split; [cbn [app]; now rewrite <- app_assoc|]. split; [reflexivity|]. split.
        { apply group_spec. right. exists (join a). split; [reflexivity|]. apply padded_spec. exists k. split; [|exact P1].
          pose proof (words_spaceless (join a ++ 32%N :: u s ++ r')) as S. rewrite W in S. apply Forall_app in S as (S & _).
          destruct a as [|w a]; [discriminate|]. now rewrite words_join. }
        apply IH. split; [exact O'|]. eauto.
Qed.

(** The grammar's alternatives: a first scale and the scales under it. *)
Fixpoint upper (ss : list string) : fst :=
  match ss with [] => Cardinal.up_to_999 | s :: r => (Cardinal.with_mag s + lower r ∪ upper r)%fst end.
Lemma with_mag_spec s x d : gives (Cardinal.with_mag s) x d <-> exists a, x = a ++ 32%N :: u s /\ gives Cardinal.up_to_999 a d.
Proof.
  unfold Cardinal.with_mag. rewrite gives_assoc, gives_cat. split.
  - intros (a & d1 & x2 & d2 & -> & -> & G & H). apply gives_ds in H as (x3 & -> & H). apply gives_cross in H as (-> & ->).
    exists a. rewrite app_nil_r. auto.
  - intros (a & -> & G). exists a, d, (32%N :: u s), []. rewrite app_nil_r. repeat split; auto. apply gives_ds. exists (u s).
    split; [reflexivity|]. now apply gives_cross.
Qed.
Lemma decimal_split n k m d : decimal d (n * 10 ^ N.of_nat m + k) -> (1 <= n)%N -> (k < 10 ^ N.of_nat m)%N ->
  exists a b, d = a ++ b /\ decimal a n /\ pad m k b.
Proof.
  intros (Ne & F & H & V) L K. pose proof (value_short d F) as S.
  assert (Len : (m < List.length d)%nat).
  { destruct (Nat.lt_ge_cases m (List.length d)) as [|Ge]; [assumption|]. exfalso.
    assert (10 ^ N.of_nat (List.length d) <= 10 ^ N.of_nat m)%N by (apply N.pow_le_mono_r; lia). nia. }
  exists (firstn (List.length d - m) d), (skipn (List.length d - m) d).
  pose proof (firstn_skipn (List.length d - m) d) as E. split; [now symmetry|].
  assert (Ln : List.length d = ((List.length d - m) + m)%nat) by lia.
  assert (P : pad ((List.length d - m) + m) (n * 10 ^ N.of_nat m + k) d) by (split; [exact F|]; split; [exact Ln|exact V]).
  pose proof (pad_split _ _ _ _ _ P K) as (a & b & E' & Pa & Pb). destruct Pa as (Fa & La & Va).
  assert (firstn (List.length d - m) d = a) as ->.
  { rewrite E' at 2. rewrite <- La. rewrite <- (Nat.add_0_r (List.length a)), firstn_app_2. cbn [firstn]. apply app_nil_r. }
  assert (skipn (List.length d - m) d = b) as ->.
  { rewrite E' at 2. rewrite <- La. rewrite skipn_app, Nat.sub_diag, skipn_all. reflexivity. }
  split; [|exact Pb]. split; [destruct a; [cbn in La; lia|discriminate]|]. split; [exact Fa|]. split; [|exact Va].
  intro Z. destruct a as [|c a]; [cbn in La; lia|]. cbn [hd] in Z. subst c. exfalso. rewrite E' in H. cbn [app hd] in H. specialize (H eq_refl).
  injection H as H. apply app_eq_nil in H as (-> & ->). cbn in Va. lia.
Qed.
Lemma upper_spec ss : apart ss -> forall x d, gives (upper ss) x d <-> exists n, said (mags ss) (words x) = Some n /\ decimal d n.
Proof.
  induction ss as [|s ss IH]; intros A x d; [exact (plain_spec x d)|].
  pose proof A as (Sp & _ & _ & A'). specialize (IH A'). cbn [upper]. rewrite gives_union, IH, gives_cat. split.
  - intros [(x1 & d1 & x2 & d2 & -> & -> & G & H)|(n & V & D)]; [|exists n; split; [now apply said_smaller|exact D]].
    apply with_mag_spec in G as (a & -> & G). apply plain_spec in G as (k & B & D). apply lower_spec in H as (O & r & R & P); [|exact A'].
    exists (k * 10 ^ N.of_nat (places ss) + r)%N. rewrite <- app_assoc. cbn [app]. rewrite words_mid by assumption.
    split; [now apply said_scale|]. apply decimal_app; [exact D|apply below_bound in B; lia|exact P].
  - intros (n & V & D). apply said_cases in V as [V|(a & b & k & r & W & B & R & ->)]; [eauto| |exact A]. left.
    apply decimal_split in D as (d1 & d2 & -> & D & P); [|apply below_bound in B; lia|exact (rest_bound ss b r R)].
    destruct (mid_words x a (u s) b W ltac:(destruct a; discriminate)) as (r' & -> & O' & <-).
    exists (join a ++ 32%N :: u s), d1, r', d2. split; [now rewrite <- app_assoc|]. split; [reflexivity|]. split.
    + apply with_mag_spec. exists (join a). split; [reflexivity|]. apply plain_spec. exists k. split; [|exact D].
      pose proof (words_spaceless (join a ++ 32%N :: u s ++ r')) as S. rewrite W in S. apply Forall_app in S as (S & _).
      destruct a as [|w a]; [discriminate|]. now rewrite words_join.
    + apply lower_spec; [exact A'|]. split; [exact O'|]. eauto.
Qed.
Definition scale_list : list string :=
  ["sextillion"; "quintillion"; "quadrillion"; "trillion"; "billion"; "million"; "thousand"]%string.
Lemma mags_all : mags scale_list = spoken_scales.
Proof. vm_compute. reflexivity. Qed.
Definition apart_b := fix go (ss : list string) : bool :=
  match ss with [] => true | s :: r => no_space (u s) && negb (numeral_word (u s)) && negb (existsb (text_eqb (u s)) (map Datatypes.fst (mags r))) && go r end.
Lemma apart_b_spec ss : apart_b ss = true -> apart ss.
Proof.
  induction ss as [|s ss IH]; [exact (fun _ => I)|]. change (apart_b (s :: ss)) with
    (no_space (u s) && negb (numeral_word (u s)) && negb (existsb (text_eqb (u s)) (map Datatypes.fst (mags ss))) && apart_b ss).
  rewrite !andb_true_iff, !negb_true_iff. intros (((A & B) & C) & D). split; [now apply no_space_spec|]. split; [exact B|]. split; [|auto].
  intro J. assert (existsb (text_eqb (u s)) (map Datatypes.fst (mags ss)) = true); [|congruence]. apply existsb_exists. exists (u s).
  split; [exact J|apply text_eqb_refl].
Qed.
Lemma apart_all : apart scale_list.
Proof. apply apart_b_spec. vm_compute. reflexivity. Qed.
