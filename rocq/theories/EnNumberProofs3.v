(** The optional "and" in English number names (C58). *)
From Coq Require Import List NArith ZArith Bool String Lia Arith.
From Verif Require Import Text TextFacts Fst FstFacts FstRun GrammarModel NumeralSpec EnglishNumeralSpec.
From Verif Require Import ZhNumberProofs EnNumberProofs EnNumberProofs2.
From Verif Require EnTnModel.
Import ListNotations.
Local Open Scope list_scope.

(** ** Texts and their words *)
Definition contains (h s : text) : Prop := exists a b, s = a ++ h ++ b.
Lemma contains_word w s : In w (words s) -> contains w s.
Proof.
  intro I. apply in_split in I as (l & r & E). pose proof (join_words s) as J. rewrite E in J. rewrite <- J.
  destruct l as [|v l].
  - exists [], (spaced r). reflexivity.
  - exists (v ++ spaced l ++ [32%N]), (spaced r). cbn [app join]. rewrite spaced_app.
    change (spaced (w :: r)) with ([32%N] ++ w ++ spaced r). now rewrite <- !app_assoc.
Qed.
Lemma char_word c s : c <> 32%N -> In c s -> exists w, In w (words s) /\ In c w.
Proof.
  intro D. induction s as [|d s IH]; intro I; [destruct I|]. cbn [words]. pose proof (words_nonempty s) as Ne.
  destruct (N.eqb_spec d 32) as [->|E].
  - destruct I as [E|I]; [now destruct D|]. destruct (IH I) as (w & W & C). exists w. split; [now right|exact C].
  - destruct (words s) as [|v vs]; [now destruct Ne|]. destruct I as [->|I].
    + exists (c :: v). split; now left.
    + destruct (IH I) as (w & [->|W] & C); [exists (d :: w); split; [now left|now right]|].
      exists w. split; [now right|exact C].
Qed.
Lemma contains_char c h s : c <> 32%N -> In c h -> contains h s -> exists w, In w (words s) /\ In c w.
Proof. intros D I (a & b & ->). apply char_word; [exact D|]. rewrite !in_app_iff. auto. Qed.
(** Putting "and" after a word that ends in [h]. *)
Lemma split_at h p s : spaceless h -> exists ws q,
  words (p ++ h ++ 32%N :: s) = ws ++ (q ++ h) :: words s /\
  words (p ++ h ++ 32%N :: AND ++ 32%N :: s) = ws ++ (q ++ h) :: AND :: words s /\
  (q = [] -> words (p ++ h) = ws ++ [h]).
Proof.
  intro S. destruct (words_last p) as (ws & q & _ & H). exists ws, q.
  rewrite (app_assoc p h (32%N :: s)), (app_assoc p h (32%N :: AND ++ 32%N :: s)), !words_space, !H by exact S.
  rewrite <- !app_assoc. split; [reflexivity|]. split; [|intros ->; reflexivity].
  rewrite words_one by (intro I; vm_compute in I; intuition discriminate). reflexivity.
Qed.

(** ** The rewriting of cardinal.py:109-131 on letters and spaces *)
Definition low_char (c : N) : Prop := c = 32%N \/ (97 <= c <= 122)%N.
Lemma low_not_quote c : low_char c -> vchar c = true /\ c <> 34%N.
Proof.
  intros L. assert (32 <= c <= 122)%N by (unfold low_char in L; lia). split; [|unfold low_char in L; lia].
  unfold vchar. rewrite (proj2 (N.leb_le 1 c)), (proj2 (N.ltb_lt c 55296)) by lia. reflexivity.
Qed.
Lemma not_quote_spec x y w : Forall low_char x -> denote EnTnModel.Cardinal.not_quote x y w <-> y = x /\ w = 0%Z.
Proof.
  intro F. split.
  - intro S. unfold EnTnModel.Cardinal.not_quote in S. cbn [denote] in S. clear F.
    induction S as [|x y w x' y' w' H S (-> & ->)]; [auto|]. destruct H as (c & -> & -> & _ & ->). auto.
  - intros (-> & ->). induction F as [|c x L F IH]; [apply star_nil|].
    apply (star_app _ [c] [c] 0%Z x x 0%Z); [|exact IH]. exists c. destruct (low_not_quote c L) as (V & Q).
    split; [reflexivity|]. split; [reflexivity|]. split; [|reflexivity]. rewrite V. apply N.eqb_neq in Q. now rewrite Q.
Qed.
Lemma not_quote_copy x y w : denote EnTnModel.Cardinal.not_quote x y w -> y = x /\ w = 0%Z.
Proof.
  intro S. unfold EnTnModel.Cardinal.not_quote in S. cbn [denote] in S.
  induction S as [|x y w x' y' w' H S (-> & ->)]; [auto|]. destruct H as (c & -> & -> & _ & ->). auto.
Qed.
Lemma low_valid s : Forall low_char s -> forallb vchar s = true.
Proof. intro F. apply forallb_forall. intros c I. rewrite Forall_forall in F. now apply low_not_quote, F. Qed.
Lemma infix_spec (e : fst) (P : text -> Prop) s : Forall low_char s ->
  (forall x, (exists y w, denote e x y w) <-> P x) ->
  (forall z w, ~ denote (EnTnModel.Cardinal.not_quote + e + EnTnModel.Cardinal.not_quote)%fst s z w) <->
  (forall h, P h -> ~ contains h s).
Proof.
  intros F E. split.
  - intros H h Ph (a & b & ->). apply Forall_app in F as (Fa & F). apply Forall_app in F as (_ & Fb).
    apply E in Ph as (y & w & D). apply (H ((a ++ y) ++ b) (0 + w + 0)%Z). rewrite app_assoc.
    apply cat_i; [apply cat_i; [now apply not_quote_spec|exact D]|now apply not_quote_spec].
  - intros H z w D. apply cat_inv in D as (x1 & y1 & w1 & x2 & y2 & w2 & -> & _ & _ & D & D2).
    apply cat_inv in D as (x3 & y3 & w3 & x4 & y4 & w4 & -> & _ & _ & D3 & D4).
    apply (H x4); [apply E; eauto|]. exists x3, x2. now rewrite app_assoc.
Qed.
Lemma two_words x : (exists y w, denote (EnItnModel.strings (map u ["thousand"; "million"]%string)) x y w) <-> x = THOUSAND \/ x = MILLION.
Proof.
  split.
  - intros (y & w & I & _). apply in_map_iff in I as (t & [= <- <-] & I). cbn [map] in I. destruct I as [<-|[<-|[]]]; auto.
  - intros [-> | ->]; eexists; exists 0%Z; (split; [apply in_map_iff; eexists; split; [reflexivity|cbn [map]; auto using in_eq, in_cons]|reflexivity]).
Qed.
Lemma one_word h x : (exists y w, denote (accep h) x y w) <-> x = h.
Proof. split; [intros (y & w & -> & _); reflexivity|intros ->; exists h, 0%Z; apply accep_i]. Qed.
Lemma no_scale_spec s y w : Forall low_char s ->
  denote EnTnModel.Cardinal.no_thousand_million s y w <-> y = s /\ w = 0%Z /\ ~ contains THOUSAND s /\ ~ contains MILLION s.
Proof.
  intro F. pose proof (infix_spec _ _ s F two_words) as X. split.
  - intros (m & w1 & w2 & -> & H & (-> & -> & _ & K)). apply not_quote_copy in H as (-> & ->).
    pose proof (proj1 X K) as Y. split; [reflexivity|]. split; [reflexivity|]. split; apply Y; auto.
  - intros (-> & -> & A & B). exists s, 0%Z, 0%Z. split; [reflexivity|]. split; [now apply not_quote_spec|].
    split; [reflexivity|]. split; [reflexivity|]. split; [now apply low_valid|]. apply X. intros h [-> | ->]; assumption.
Qed.
Lemma no_hundred_spec s y w : Forall low_char s ->
  denote EnTnModel.Cardinal.no_hundred s y w <-> y = s /\ w = 0%Z /\ ~ contains HUNDRED s.
Proof.
  intro F. pose proof (infix_spec _ _ s F (one_word HUNDRED)) as X. split.
  - intros (-> & -> & _ & K). pose proof (proj1 X K) as Y. auto.
  - intros (-> & -> & A). split; [reflexivity|]. split; [reflexivity|]. split; [now apply low_valid|]. apply X. intros h ->. exact A.
Qed.
Definition h_sp : u "hundred " = HUNDRED ++ [32%N] := eq_refl.
Definition t_sp : u "thousand " = THOUSAND ++ [32%N] := eq_refl.
Definition h_and : u "hundred and " = HUNDRED ++ 32%N :: AND ++ [32%N] := eq_refl.
Definition t_and : u "thousand and " = THOUSAND ++ 32%N :: AND ++ [32%N] := eq_refl.
(** [z] is [y] with "and" after [h] *)
Definition and_after (h y z : text) (ok : text -> Prop) : Prop :=
  exists p s, y = p ++ h ++ 32%N :: s /\ z = p ++ h ++ 32%N :: AND ++ 32%N :: s /\ ok s.
Lemma and_branch h hs ha (rest : fst) (ok : text -> Prop) y z w : hs = h ++ [32%N] -> ha = h ++ 32%N :: AND ++ [32%N] ->
  Forall low_char y -> (forall s s' w, Forall low_char s -> denote rest s s' w <-> s' = s /\ w = 0%Z /\ ok s) ->
  denote (EnTnModel.Cardinal.not_quote + Weight (-10) (Cross hs ha + rest))%fst y z w <-> w = (-10)%Z /\ and_after h y z ok.
Proof.
  intros -> -> F R. split.
  - intro D. apply cat_inv in D as (x1 & y1 & w1 & x2 & y2 & w2 & -> & -> & -> & D1 & (v & -> & D2)).
    apply not_quote_copy in D1 as (-> & ->). apply cat_inv in D2 as (x3 & y3 & w3 & x4 & y4 & w4 & -> & -> & -> & (-> & -> & ->) & D4).
    apply Forall_app in F as (_ & F). apply Forall_app in F as (_ & F). apply R in D4 as (-> & -> & O); [|exact F].
    split; [reflexivity|]. exists x1, x4. rewrite <- !app_assoc. cbn [app]. rewrite <- !app_assoc. auto.
  - intros (-> & p & s & -> & -> & O). apply Forall_app in F as (Fp & F). apply Forall_app in F as (_ & F). apply Forall_inv_tail in F.
    apply (cat_i _ _ p p 0%Z _ _ (-10)%Z); [now apply not_quote_spec|]. exists 0%Z. split; [reflexivity|].
    replace (h ++ 32%N :: s) with ((h ++ [32%N]) ++ s) by now rewrite <- app_assoc.
    replace (h ++ 32%N :: AND ++ 32%N :: s) with ((h ++ 32%N :: AND ++ [32%N]) ++ s) by (rewrite <- app_assoc; cbn [app]; now rewrite <- app_assoc).
    apply (cat_i _ _ _ _ 0%Z _ _ 0%Z); [apply cross_i|]. now apply R.
Qed.
Lemma integer_and_spec y z w : Forall low_char y -> denote EnTnModel.Cardinal.integer_and y z w <->
  w = (-10)%Z /\ (and_after HUNDRED y z (fun s => ~ contains THOUSAND s /\ ~ contains MILLION s) \/
                  and_after THOUSAND y z (fun s => ~ contains HUNDRED s)).
Proof.
  intro F.
  pose proof (and_branch HUNDRED _ _ EnTnModel.Cardinal.no_thousand_million _ y z w h_sp h_and F no_scale_spec) as A.
  pose proof (and_branch THOUSAND _ _ EnTnModel.Cardinal.no_hundred _ y z w t_sp t_and F no_hundred_spec) as B.
  unfold EnTnModel.Cardinal.integer_and. cbn [denote] in A, B |- *. tauto.
Qed.

(** ** Where "hundred" and "thousand" are *)
Lemma app_cons_split {A} (a b c d : list A) x : a ++ b = c ++ x :: d ->
  (exists l, a = c ++ x :: l /\ d = l ++ b) \/ (exists l, c = a ++ l /\ b = l ++ x :: d).
Proof.
  revert c. induction a as [|y a IH]; intros c E; cbn [app] in E.
  - right. exists c. auto.
  - destruct c as [|z c]; cbn [app] in E.
    + injection E as -> E. left. exists a. auto.
    + injection E as -> E. destruct (IH c E) as [(l & -> & ->)|(l & -> & ->)]; [left|right]; exists l; auto.
Qed.
Lemma d_of_hundred q : In 100%N (q ++ HUNDRED).
Proof. apply in_app_iff. right. vm_compute. auto 10. Qed.
Lemma a_of_thousand q : In 97%N (q ++ THOUSAND).
Proof. apply in_app_iff. right. vm_compute. auto 10. Qed.
Lemma gw_d g w : group3 g -> In w (gw g) -> In 100%N w -> w = HUNDRED /\ (100 <= decimal_value g)%N.
Proof.
  intros G I D. destruct (text_eq_dec g zeros) as [->|Z]; [rewrite gw_zeros in I; destruct I|].
  destruct (core_row g G Z) as (W & _). destruct (N.lt_ge_cases (decimal_value g) 100) as [L|L].
  - destruct (gw_small _ _ W L) as (F & _). rewrite Forall_forall in F. now apply F in I.
  - destruct (gw_large _ _ W L) as (v & r & E & Nv & _ & F & _). rewrite E in I. destruct I as [<-|[<-|I]]; [now destruct Nv|auto|].
    rewrite Forall_forall in F. now apply F in I.
Qed.
Lemma hundred_not_big : ~ big HUNDRED.
Proof. intros [E|[E|[E|[E|[]]]]]; vm_compute in E; discriminate. Qed.
Lemma big_hundred q : ~ big (q ++ HUNDRED).
Proof.
  intro B. pose proof (d_of_hundred q) as D. destruct B as [E|[E|[E|[E|[]]]]]; try (rewrite <- E in D; vm_compute in D; intuition discriminate).
  apply (f_equal (@rev N)) in E. rewrite rev_app_distr in E. vm_compute in E. discriminate.
Qed.
Lemma big_thousand q : big (q ++ THOUSAND) -> q = [].
Proof.
  intro B. pose proof (a_of_thousand q) as D. destruct B as [E|[E|[E|[E|[]]]]]; try (rewrite <- E in D; vm_compute in D; intuition discriminate).
  apply (f_equal (@List.length N)) in E. rewrite app_length in E. change (List.length THOUSAND) with 8%nat in E. destruct q; [reflexivity|cbn in E; lia].
Qed.
Lemma part_hundred s g l r : group3 g -> big s -> part [s] g = l ++ HUNDRED :: r -> (100 <= decimal_value g)%N /\ In s r.
Proof.
  intros G B E. destruct (text_eq_dec g zeros) as [->|Z]; [rewrite part_zeros in E; now destruct l|].
  rewrite part_some in E by assumption. apply app_cons_split in E as [(l' & E & ->)|(l' & -> & E)].
  - split; [|apply in_app_iff; right; now left]. apply (gw_d g HUNDRED G); [rewrite E; apply in_app_iff; right; now left|vm_compute; auto 10].
  - destruct l' as [|x l']; [injection E as -> _; now apply hundred_not_big in B|]. injection E as _ E. now destruct l'.
Qed.
Section Groups.
Variables g3 g2 g1 g0 : text.
Hypothesis (G3 : group3 g3) (G2 : group3 g2) (G1 : group3 g1) (G0 : group3 g0) (B3 : (decimal_value g3 < 100)%N).
Let A1 := part [BILLION] g3 ++ part [MILLION] g2.
Let R := part [] g0.
Let L := (A1 ++ part [THOUSAND] g1) ++ R.
Lemma say_L : say zeros g3 g2 g1 g0 = L.
Proof. unfold say, L, A1, R. rewrite part_zeros. cbn [app]. now rewrite !app_assoc. Qed.
Lemma R_gw : R = gw g0.
Proof.
  unfold R. destruct (text_eq_dec g0 zeros) as [->|Z]; [reflexivity|]. now rewrite part_some, app_nil_r.
Qed.
Lemma L_words w : In w L -> plainword w \/ big w.
Proof.
  unfold L, A1, R. intro I. rewrite !in_app_iff in I.
  destruct I as [[[I|I]|I]|I]; apply part_words in I as [I|I]; try assumption; auto;
    first [exact (False_ind _ I) | destruct I as [<-|[]]; right; cbn; auto].
Qed.
Lemma hundred_word q : In (q ++ HUNDRED) L -> q = [].
Proof.
  intro I. assert (X : (q ++ HUNDRED) = HUNDRED).
  { unfold L, A1, R in I. pose proof (d_of_hundred q) as D. pose proof (big_hundred q) as NB.
    assert (Y : forall s g, group3 g -> (forall t, In t s -> big t) -> In (q ++ HUNDRED) (part s g) -> q ++ HUNDRED = HUNDRED).
    { intros s g G Bs J. destruct (text_eq_dec g zeros) as [->|Z]; [rewrite part_zeros in J; destruct J|].
      rewrite part_some in J by assumption. apply in_app_iff in J as [J|J]; [now apply (gw_d g _ G J)|]. now destruct NB; apply Bs. }
    rewrite !in_app_iff in I. destruct I as [[[I|I]|I]|I]; (apply Y in I; [exact I|assumption|]); intros t It;
      first [exact (False_ind _ It) | destruct It as [<-|[]]; cbn; auto]. }
  apply (f_equal (@List.length N)) in X. rewrite app_length in X. destruct q; [reflexivity|cbn in X; lia].
Qed.
Lemma thousand_word q : In (q ++ THOUSAND) L -> q = [].
Proof.
  intro I. apply L_words in I as [(_ & _ & A & _)|B]; [now destruct A; apply a_of_thousand|now apply big_thousand].
Qed.
Lemma hundred_place l r : L = l ++ HUNDRED :: r -> ~ In THOUSAND r -> ~ In MILLION r ->
  (100 <= decimal_value g0)%N /\ exists x, l = (A1 ++ part [THOUSAND] g1) ++ [x] /\ R = x :: HUNDRED :: r /\
    named unit_names x = Some (decimal_value g0 / 100)%N /\ Forall (fun w => ~ In 100%N w) r /\
    ((decimal_value g0 mod 100 = 0)%N -> r = []) /\ ((decimal_value g0 mod 100 <> 0)%N -> below_hundred r = Some (decimal_value g0 mod 100)%N).
Proof.
  intros E NT NM. unfold L in E. apply app_cons_split in E as [(l' & E & ->)|(l' & -> & E)].
  - exfalso. rewrite in_app_iff in NT, NM. apply app_cons_split in E as [(l2 & E & ->)|(l2 & -> & E)].
    + rewrite in_app_iff in NT, NM. unfold A1 in E. apply app_cons_split in E as [(l3 & E & ->)|(l3 & -> & E)].
      * apply part_hundred in E as (Y & _); [lia|exact G3|cbn; auto].
      * apply part_hundred in E as (_ & Y); [tauto|exact G2|cbn; auto].
    + apply part_hundred in E as (_ & Y); [tauto|exact G1|cbn; auto].
  - rewrite R_gw in E |- *. assert (I : In HUNDRED (gw g0)) by (rewrite E; apply in_app_iff; right; now left).
    destruct (gw_d g0 HUNDRED G0 I) as (_ & V); [vm_compute; auto 10|]. split; [exact V|].
    assert (Z : g0 <> zeros) by (intros ->; vm_compute in V; now apply V).
    destruct (gw_large _ _ (proj1 (core_row g0 G0 Z)) V) as (x & r0 & E0 & Nx & U & F & M0 & M1). rewrite E0 in E.
    assert (D : In 100%N HUNDRED) by (vm_compute; auto 10).
    destruct l' as [|x' l']; [injection E as E _; rewrite E in Nx; now destruct Nx|]. injection E as <- E.
    destruct l' as [|y l']; [injection E as <-; exists x; auto 10|]. injection E as _ E. exfalso.
    rewrite Forall_forall in F. apply (F HUNDRED); [rewrite E; apply in_app_iff; right; now left|exact D].
Qed.
Lemma gw_no_scale s g : group3 g -> big s -> ~ In s (gw g).
Proof. intros G B. apply gw_not; [exact G|now apply big_not_plain]. Qed.
Lemma bT : big THOUSAND. Proof. cbn. auto. Qed.
Lemma thousand_place l r : L = l ++ THOUSAND :: r -> g1 <> zeros /\ l = A1 ++ gw g1 /\ r = R.
Proof.
  intro E. unfold L in E. apply app_cons_split in E as [(l' & E & ->)|(l' & -> & E)].
  - apply app_cons_split in E as [(l2 & E & ->)|(l2 & -> & E)].
    + exfalso. assert (I : In THOUSAND A1) by (rewrite E; apply in_app_iff; right; now left). unfold A1 in I.
      apply in_app_iff in I as [I|I]; apply part_words in I as [I|I]; try assumption;
        try (now apply (big_not_plain THOUSAND bT)); destruct I as [I|[]]; vm_compute in I; discriminate.
    + destruct (text_eq_dec g1 zeros) as [->|Z]; [rewrite part_zeros in E; now destruct l2|]. split; [exact Z|].
      rewrite part_some in E by assumption. apply app_cons_split in E as [(l3 & E & ->)|(l3 & -> & E)].
      * exfalso. apply (gw_no_scale THOUSAND g1 G1 bT). rewrite E. apply in_app_iff. right. now left.
      * destruct l3 as [|? l3]; [|injection E as _ E; now destruct l3]. injection E as <-. rewrite app_nil_r. auto.
  - exfalso. rewrite R_gw in E. apply (gw_no_scale THOUSAND g0 G0 bT). rewrite E. apply in_app_iff. right. now left.
Qed.

Let n := total zeros g3 g2 g1 g0.
Let y := join L.
Definition numword (w : text) : Prop := plainword w \/ big w \/ w = AND.
Lemma numword_spaceless w : numword w -> spaceless w.
Proof.
  intros [P|[B| ->]]; [now apply plain_spaceless|now apply big_spaceless|].
  intro I. vm_compute in I. intuition discriminate.
Qed.
Lemma L_spaceless : Forall spaceless L.
Proof. apply Forall_forall. intros w I. apply numword_spaceless. apply L_words in I. unfold numword. tauto. Qed.
Lemma above_counts sc ws m : ~ In BILLION ws -> ~ In MILLION ws -> ~ In TRILLION ws -> counts sc ws m ->
  counts ((TRILLION, 10 ^ 12) :: (BILLION, 10 ^ 9) :: (MILLION, 10 ^ 6) :: sc)%N (A1 ++ ws)
    (decimal_value g3 * 10 ^ 9 + decimal_value g2 * 10 ^ 6 + m).
Proof.
  intros NB NM NT C. pose proof (counts_above zeros g3 g2 sc ws m zeros_group G3 G2 NT NB NM C) as X.
  rewrite part_zeros in X. cbn [app] in X. rewrite app_assoc in X. change (decimal_value zeros) with 0%N in X.
  replace (decimal_value g3 * 10 ^ 9 + decimal_value g2 * 10 ^ 6 + m)%N
    with (0 * 10 ^ 12 + (decimal_value g3 * 10 ^ 9 + (decimal_value g2 * 10 ^ 6 + m)))%N by lia. exact X.
Qed.
Lemma named_plain w v : named unit_names w = Some v -> plainword w.
Proof.
  unfold named. destruct (find _ _) as [e|] eqn:E; [|discriminate]. intros _. apply find_some in E as (I & E).
  destruct (text_eqb_spec (u (Datatypes.fst e)) w) as [<-|]; [|discriminate]. apply spell_ok_spec.
  assert (T : forallb (fun e : string * N => spell_ok (u (Datatypes.fst e))) unit_names = true) by (vm_compute; reflexivity).
  rewrite forallb_forall in T. exact (T e I).
Qed.
Lemma hundred_plain : plainword HUNDRED.
Proof. apply spell_ok_spec. vm_compute. reflexivity. Qed.
(** "and" in the last group *)
Lemma and_hundred_value x r : R = x :: HUNDRED :: r -> named unit_names x = Some (decimal_value g0 / 100)%N ->
  (decimal_value g0 mod 100 <> 0)%N -> below_hundred r = Some (decimal_value g0 mod 100)%N ->
  counts scale_names ((A1 ++ part [THOUSAND] g1) ++ x :: HUNDRED :: AND :: r) n.
Proof.
  intros E U M V. assert (F : Forall plainword (x :: HUNDRED :: r)) by (rewrite <- E, R_gw; now apply gw_words).
  assert (NI : forall s, big s -> ~ In s (x :: HUNDRED :: AND :: r)).
  { intros s B I. rewrite Forall_forall in F. assert (J : In s (x :: HUNDRED :: r) \/ s = AND) by (cbn in I |- *; intuition).
    destruct J as [J| ->]; [now apply (big_not_plain s B), F|]. destruct B as [C|[C|[C|[C|[]]]]]; vm_compute in C; discriminate. }
  assert (C : counts [] (x :: HUNDRED :: AND :: r) (decimal_value g0)).
  { split; [discriminate|]. intros _. split; [cbn [hd]; intros ->; apply and_not_plain; now apply Forall_inv in F|].
    intro st. cbn [scaled below_thousand]. rewrite text_eqb_refl, U, text_eqb_refl, V. cbn [plus_named]. f_equal.
    pose proof (N.div_mod (decimal_value g0) 100 ltac:(discriminate)). lia. }
  rewrite <- app_assoc.
  replace n with (decimal_value g3 * 10 ^ 9 + decimal_value g2 * 10 ^ 6 + (decimal_value g1 * 10 ^ 3 + decimal_value g0))%N
    by (unfold n, total; change (decimal_value zeros) with 0%N; lia).
  assert (NP : forall s, big s -> s <> THOUSAND -> ~ In s (part [THOUSAND] g1 ++ x :: HUNDRED :: AND :: r)).
  { intros s B D I. apply in_app_iff in I as [I|I]; [|now apply (NI s B)].
    apply part_words in I as [I|[I|[]]]; [now apply (big_not_plain s B)|now subst|exact G1]. }
  apply (above_counts [(THOUSAND, 10 ^ 3)%N]); try (apply NP; [cbn; auto|discriminate]).
  apply scaled_part; [exact G1|exact bT|apply NI; exact bT|exact C].
Qed.
(** "and" after the thousands *)
Lemma and_thousand_value : g1 <> zeros -> g0 <> zeros -> (decimal_value g0 < 100)%N ->
  counts scale_names ((A1 ++ gw g1) ++ THOUSAND :: AND :: R) n.
Proof.
  intros Z1 Z0 V. destruct (gw_small _ _ (proj1 (core_row g0 G0 Z0)) V) as (_ & H).
  assert (C : counts [(THOUSAND, 10 ^ 3)%N] (gw g1 ++ THOUSAND :: AND :: R) (decimal_value g1 * 10 ^ 3 + decimal_value g0)).
  { split; [intro E; apply app_eq_nil in E as (_ & E); discriminate|]. intros _. split; [now apply gw_hd|]. intro st.
    rewrite (scaled_here _ _ _ _ _ _ (decimal_value g1)).
    - rewrite text_eqb_refl, R_gw, H. reflexivity.
    - apply gw_no_scale; [exact G1|exact bT].
    - now apply gw_nonempty.
    - apply (gw_value _ _ (proj1 (core_row g1 G1 Z1))). }
  rewrite <- app_assoc.
  replace n with (decimal_value g3 * 10 ^ 9 + decimal_value g2 * 10 ^ 6 + (decimal_value g1 * 10 ^ 3 + decimal_value g0))%N
    by (unfold n, total; change (decimal_value zeros) with 0%N; lia).
  assert (NP : forall s, big s -> s <> THOUSAND -> ~ In s (gw g1 ++ THOUSAND :: AND :: R)).
  { intros s B D I. apply in_app_iff in I as [I|[I|[I|I]]]; [now apply (gw_no_scale s g1 G1 B)|now subst| |].
    - subst s. destruct B as [E|[E|[E|[E|[]]]]]; vm_compute in E; discriminate.
    - rewrite R_gw in I. now apply (gw_no_scale s g0 G0 B). }
  apply (above_counts [(THOUSAND, 10 ^ 3)%N]); try (apply NP; [cbn; auto|discriminate]). exact C.
Qed.
Lemma y_low : Forall low_char y.
Proof.
  assert (F : Forall (fun w => Forall low_char w) L).
  { apply Forall_forall. intros w I. apply L_words in I as [(_ & F & _)|B].
    - eapply Forall_impl; [|exact F]. intros c H. right. exact H.
    - apply Forall_forall. intros c I. right. destruct B as [<-|[<-|[<-|[<-|[]]]]]; vm_compute in I; intuition (subst; lia). }
  unfold y. destruct L as [|w ws]; [constructor|]. cbn [join]. apply Forall_app. split; [now apply Forall_inv in F|].
  apply Forall_inv_tail in F. induction F as [|v vs Fv F IH]; [constructor|]. cbn [spaced flat_map].
  apply Forall_app. split; [|exact IH]. constructor; [now left|exact Fv].
Qed.
Lemma words_y : L <> [] -> words y = L.
Proof. intro Ne. unfold y. pose proof L_spaceless as F. destruct L as [|w ws]; [now destruct Ne|]. now apply words_join. Qed.
Lemma spaceless_HT : spaceless HUNDRED /\ spaceless THOUSAND.
Proof. split; intro I; vm_compute in I; intuition discriminate. Qed.
(** What "hundred and" and "thousand and" make of the name. *)
Lemma hundred_cases z : L <> [] ->
  and_after HUNDRED y z (fun s => ~ contains THOUSAND s /\ ~ contains MILLION s) <->
  exists x r, R = x :: HUNDRED :: r /\ named unit_names x = Some (decimal_value g0 / 100)%N /\ (100 <= decimal_value g0)%N /\
    (decimal_value g0 mod 100 <> 0)%N /\ below_hundred r = Some (decimal_value g0 mod 100)%N /\
    z = join ((A1 ++ part [THOUSAND] g1) ++ x :: HUNDRED :: AND :: r).
Proof.
  intro Ne. split.
  - intros (p & s & E & -> & NT & NM). destruct (split_at HUNDRED p s (proj1 spaceless_HT)) as (ws & q & E1 & E2 & _).
    rewrite <- E, (words_y Ne) in E1. assert (Q : q = []) by (apply hundred_word; rewrite E1; apply in_app_iff; right; now left).
    subst q. cbn [app] in E1, E2.
    assert (NT' : ~ In THOUSAND (words s)) by (intro I; now apply NT, contains_word).
    assert (NM' : ~ In MILLION (words s)) by (intro I; now apply NM, contains_word).
    destruct (hundred_place ws (words s) E1 NT' NM') as (V & x & -> & ER & U & _ & M0 & M1).
    assert (M : (decimal_value g0 mod 100 <> 0)%N) by (intro M; now apply (words_nonempty s), M0).
    exists x, (words s). do 4 (split; [assumption|]). split; [now apply M1|].
    rewrite <- (join_words (p ++ HUNDRED ++ 32%N :: AND ++ 32%N :: s)), E2. f_equal. now rewrite <- !app_assoc.
  - intros (x & r & ER & U & V & M & BH & ->). assert (Nr : r <> []) by (intros ->; discriminate).
    assert (EL : L = ((A1 ++ part [THOUSAND] g1) ++ [x]) ++ HUNDRED :: r) by (unfold L; rewrite ER; now rewrite <- !app_assoc).
    set (P := (A1 ++ part [THOUSAND] g1) ++ [x]) in *. assert (NP : P <> []) by (unfold P; now destruct (A1 ++ part [THOUSAND] g1)).
    exists (join P ++ [32%N]), (join r). split; [|split].
    + unfold y. rewrite EL, join_app by exact NP. change (spaced (HUNDRED :: r)) with ([32%N] ++ HUNDRED ++ spaced r).
      rewrite (spaced_join r Nr), <- app_assoc. reflexivity.
    + replace ((A1 ++ part [THOUSAND] g1) ++ x :: HUNDRED :: AND :: r) with (P ++ HUNDRED :: AND :: r)
        by (unfold P; now rewrite <- !app_assoc).
      rewrite join_app by exact NP. change (spaced (HUNDRED :: AND :: r)) with ([32%N] ++ HUNDRED ++ 32%N :: AND ++ spaced r).
      rewrite (spaced_join r Nr), <- app_assoc. reflexivity.
    + assert (F : Forall plainword r).
      { pose proof (gw_words g0 G0) as F. rewrite <- R_gw, ER in F. now apply Forall_inv_tail, Forall_inv_tail in F. }
      assert (W : words (join r) = r).
      { destruct r as [|v r]; [now destruct Nr|]. apply words_join. eapply Forall_impl; [|exact F]. exact plain_spaceless. }
      rewrite Forall_forall in F. split; intro C.
      * apply (contains_char 97%N) in C as (w & I & D); [|discriminate|vm_compute; auto 10]. rewrite W in I. apply F in I as (_ & _ & A & _). now apply A.
      * apply (contains_char 109%N) in C as (w & I & D); [|discriminate|vm_compute; auto 10]. rewrite W in I. apply F in I as (_ & _ & _ & A & _). now apply A.
Qed.
Lemma thousand_cases z : L <> [] ->
  and_after THOUSAND y z (fun s => ~ contains HUNDRED s) <->
  g1 <> zeros /\ g0 <> zeros /\ (decimal_value g0 < 100)%N /\ z = join ((A1 ++ gw g1) ++ THOUSAND :: AND :: R).
Proof.
  intro Ne. split.
  - intros (p & s & E & -> & NH). destruct (split_at THOUSAND p s (proj2 spaceless_HT)) as (ws & q & E1 & E2 & _).
    rewrite <- E, (words_y Ne) in E1. assert (Q : q = []) by (apply thousand_word; rewrite E1; apply in_app_iff; right; now left).
    subst q. cbn [app] in E1, E2. destruct (thousand_place ws (words s) E1) as (Z1 & -> & ER).
    assert (Z0 : g0 <> zeros) by (intro Z; apply (words_nonempty s); now rewrite ER, R_gw, Z).
    split; [exact Z1|]. split; [exact Z0|]. split.
    + destruct (N.lt_ge_cases (decimal_value g0) 100) as [|V]; [assumption|exfalso].
      destruct (gw_large _ _ (proj1 (core_row g0 G0 Z0)) V) as (x & r & EG & _). apply NH, contains_word.
      rewrite ER, R_gw, EG. right. now left.
    + rewrite <- (join_words (p ++ THOUSAND ++ 32%N :: AND ++ 32%N :: s)), E2, ER. reflexivity.
  - intros (Z1 & Z0 & V & ->). assert (NR : R <> []) by (rewrite R_gw; now apply gw_nonempty).
    assert (EL : L = (A1 ++ gw g1) ++ THOUSAND :: R) by (unfold L; rewrite (part_some [THOUSAND] g1 G1 Z1), <- !app_assoc; reflexivity).
    assert (NP : A1 ++ gw g1 <> []) by (intro E; apply app_eq_nil in E as (_ & E); now apply gw_nonempty in E).
    exists (join (A1 ++ gw g1) ++ [32%N]), (join R). split; [|split].
    + unfold y. rewrite EL, join_app by exact NP. change (spaced (THOUSAND :: R)) with ([32%N] ++ THOUSAND ++ spaced R).
      rewrite (spaced_join R NR), <- app_assoc. reflexivity.
    + rewrite join_app by exact NP. change (spaced (THOUSAND :: AND :: R)) with ([32%N] ++ THOUSAND ++ 32%N :: AND ++ spaced R).
      rewrite (spaced_join R NR), <- app_assoc. reflexivity.
    + pose proof (gw_words g0 G0) as F. destruct (gw_small _ _ (proj1 (core_row g0 G0 Z0)) V) as (D & _). rewrite <- R_gw in F, D.
      assert (W : words (join R) = R).
      { clear -F NR. destruct R as [|v r]; [now destruct NR|]. apply words_join. eapply Forall_impl; [|exact F]. exact plain_spaceless. }
      intro C. apply (contains_char 100%N) in C as (w & I & J); [|discriminate|vm_compute; auto 10].
      rewrite W in I. rewrite Forall_forall in D. now apply (D w).
Qed.
Definition and_unique (y0 : text) (n0 : N) : Prop :=
  (exists z, english_value z = Some n0 /\ Forall numword (words z) /\
     forall z' w, denote EnTnModel.Cardinal.integer_and y0 z' w <-> z' = z /\ w = (-10)%Z) \/
  ((forall z w, ~ denote EnTnModel.Cardinal.integer_and y0 z w) /\ (n0 < 100 \/ n0 mod 100 = 0 \/ 1000 <= n0)%N).
Lemma value_of_words ws m : Forall numword ws -> ws <> [] -> counts scale_names ws m ->
  english_value (join ws) = Some m /\ Forall numword (words (join ws)).
Proof.
  intros F Ne C. assert (S : Forall spaceless ws) by (eapply Forall_impl; [|exact F]; exact numword_spaceless). split.
  - apply english_of; [exact S|exact Ne|now apply (zero_not _ _ C)|exact C].
  - destruct ws as [|w ws]; [now destruct Ne|]. now rewrite words_join.
Qed.
Lemma A1_numwords : Forall numword A1.
Proof.
  apply Forall_forall. intros w I. unfold A1 in I. apply in_app_iff in I as [I|I]; apply part_words in I as [I|[<-|[]]];
    try assumption; unfold numword; auto; right; left; cbn; auto.
Qed.
Lemma and_row : n <> 0%N -> and_unique y n.
Proof.
  intro Nn. assert (Ne : L <> []).
  { intro E. apply Nn. rewrite <- say_L in E. unfold n. now apply (say_counts zeros g3 g2 g1 g0 zeros_group G3 G2 G1 G0). }
  assert (S : forall z w, denote EnTnModel.Cardinal.integer_and y z w <-> w = (-10)%Z /\
    ((exists x r, R = x :: HUNDRED :: r /\ named unit_names x = Some (decimal_value g0 / 100)%N /\ (100 <= decimal_value g0)%N /\
      (decimal_value g0 mod 100 <> 0)%N /\ below_hundred r = Some (decimal_value g0 mod 100)%N /\
      z = join ((A1 ++ part [THOUSAND] g1) ++ x :: HUNDRED :: AND :: r)) \/
     (g1 <> zeros /\ g0 <> zeros /\ (decimal_value g0 < 100)%N /\ z = join ((A1 ++ gw g1) ++ THOUSAND :: AND :: R)))).
  { intros z w. rewrite (integer_and_spec y z w y_low). pose proof (hundred_cases z Ne). pose proof (thousand_cases z Ne). tauto. }
  assert (FG : forall g, group3 g -> Forall numword (gw g)).
  { intros g G. eapply Forall_impl; [|apply (gw_words g G)]. intros w H. now left. }
  assert (NA : numword AND) by (right; right; reflexivity). assert (NH : numword HUNDRED) by (left; exact hundred_plain).
  assert (NT : numword THOUSAND) by (right; left; exact bT).
  pose proof (N.div_mod (decimal_value g0) 100 ltac:(discriminate)) as DM.
  assert (Mn : (n mod 100 = decimal_value g0 mod 100)%N).
  { unfold n, total. change (decimal_value zeros) with 0%N.
    replace (0 * 10 ^ 12 + decimal_value g3 * 10 ^ 9 + decimal_value g2 * 10 ^ 6 + decimal_value g1 * 10 ^ 3 + decimal_value g0)%N
      with (decimal_value g0 + (decimal_value g3 * 10 ^ 7 + decimal_value g2 * 10 ^ 4 + decimal_value g1 * 10) * 100)%N by lia.
    apply N.mod_add. discriminate. }
  destruct (N.eq_dec (decimal_value g0 mod 100) 0) as [M|M].
  { right. split; [|right; left; now rewrite Mn].
    intros z w D. apply S in D as (_ & [(x & r & _ & _ & _ & H & _)|(_ & Z0 & V & _)]); [now destruct H|].
    rewrite N.mod_small in M by exact V. pose proof (gw_value _ _ (proj1 (core_row g0 G0 Z0))) as GV. rewrite M in GV.
    destruct (gw_small _ _ (proj1 (core_row g0 G0 Z0)) V) as (_ & H). rewrite M in H.
    clear -H. destruct (gw g0) as [|w1 [|w2 [|]]]; try discriminate; cbn [below_hundred] in H.
    - assert (P : forall l : list (string * N), forallb (fun e => negb (snd e =? 0)%N) l = true -> forall w, named l w <> Some 0%N).
      { intros l F w' E. unfold named in E. destruct (find _ l) as [e|] eqn:Fe; [|discriminate]. injection E as E.
        apply find_some in Fe as (I & _). rewrite forallb_forall in F. apply F in I. rewrite E in I. discriminate. }
      destruct (named unit_names w1) as [v|] eqn:E1; [injection H as ->; now apply (P unit_names) in E1|].
      destruct (named teen_names w1) as [v|] eqn:E2; [injection H as ->; now apply (P teen_names) in E2|].
      now apply (P tie_names) in H.
    - assert (P : forall l : list (string * N), forallb (fun e => negb (snd e =? 0)%N) l = true -> forall w, named l w <> Some 0%N).
      { intros l F w' E. unfold named in E. destruct (find _ l) as [e|] eqn:Fe; [|discriminate]. injection E as E.
        apply find_some in Fe as (I & _). rewrite forallb_forall in F. apply F in I. rewrite E in I. discriminate. }
      destruct (named tie_names w1) as [v|] eqn:E1; [|discriminate]. destruct (named unit_names w2) as [v2|]; [|discriminate].
      injection H as H. assert (v = 0%N) as -> by lia. now apply (P tie_names) in E1. }
  assert (Z0 : g0 <> zeros) by (intros ->; now apply M).
  destruct (N.lt_ge_cases (decimal_value g0) 100) as [V|V].
  - destruct (text_eq_dec g1 zeros) as [Z1|Z1].
    + right. split.
      * intros z w D. apply S in D as (_ & [(x & r & _ & _ & H & _)|(H & _)]); [lia|now destruct H].
      * unfold n, total. rewrite Z1. change (decimal_value zeros) with 0%N.
        destruct (N.eq_dec (decimal_value g3) 0) as [E3|E3]; [rewrite E3|right; right; nia].
        destruct (N.eq_dec (decimal_value g2) 0) as [E2|E2]; [rewrite E2; left; lia|right; right; nia].
    + left. exists (join ((A1 ++ gw g1) ++ THOUSAND :: AND :: R)).
      destruct (value_of_words ((A1 ++ gw g1) ++ THOUSAND :: AND :: R) n) as (E & F).
      * rewrite !Forall_app. split; [split; [exact A1_numwords|now apply FG]|]. constructor; [exact NT|]. constructor; [exact NA|].
        rewrite R_gw. now apply FG.
      * intro E. apply app_eq_nil in E as (_ & E). discriminate.
      * now apply and_thousand_value.
      * split; [exact E|]. split; [exact F|]. intros z w. rewrite S. split.
        -- intros (-> & [(x & r & _ & _ & H & _)|(_ & _ & _ & ->)]); [lia|auto].
        -- intros (-> & ->). split; [reflexivity|]. right. auto.
  - destruct (gw_large _ _ (proj1 (core_row g0 G0 Z0)) V) as (x & r & EG & _ & U & _ & _ & M1). rewrite <- R_gw in EG.
    left. exists (join ((A1 ++ part [THOUSAND] g1) ++ x :: HUNDRED :: AND :: r)).
    destruct (value_of_words ((A1 ++ part [THOUSAND] g1) ++ x :: HUNDRED :: AND :: r) n) as (E & F).
    + pose proof (FG g0 G0) as F. rewrite <- R_gw, EG in F.
      rewrite !Forall_app. split; [split; [exact A1_numwords|]|].
      * apply Forall_forall. intros w I. apply part_words in I as [I|[<-|[]]]; [now left|exact NT|exact G1].
      * constructor; [now apply Forall_inv in F|]. constructor; [exact NH|]. constructor; [exact NA|].
        now apply Forall_inv_tail, Forall_inv_tail in F.
    + intro E. apply app_eq_nil in E as (_ & E). discriminate.
    + apply and_hundred_value; [exact EG|exact U|exact M|now apply M1].
    + split; [exact E|]. split; [exact F|]. intros z w. rewrite S. split.
      * intros (-> & [(x' & r' & ER & _ & _ & _ & _ & ->)|(_ & _ & H & _)]); [|lia].
        rewrite EG in ER. injection ER as <- <-. auto.
      * intros (-> & ->). split; [reflexivity|]. left. exists x, r. do 4 (split; [assumption|]). split; [now apply M1|reflexivity].
Qed.
End Groups.
