(** Spoken English numbers: the inverse grammar's cardinals, whole (C59). *)
From Coq Require Import List NArith ZArith Bool String Lia Arith.
From Verif Require Import Text TextFacts Fst FstFacts FstRun GrammarModel NumeralSpec EnglishNumeralSpec EnglishSpokenSpec.
From Verif Require Import ZhNumberProofs EnNumberProofs EnNumberProofs4 DataEnItn EnSpokenProofs EnSpokenProofs2.
From Verif Require Import EnItnModel.
Import ListNotations.
Local Open Scope list_scope.

(** ** "fifteen hundred" *)
Lemma plus_both a b n : plus_named a b = Some n -> exists i j, a = Some i /\ b = Some j /\ n = (i + j)%N.
Proof. destruct a, b; try discriminate. cbn [plus_named]. intros [= <-]. eauto. Qed.
Lemma many_spec x d : gives Cardinal.hundreds_as_thousand x d <-> exists n, many_hundreds (words x) = Some n /\ decimal d n.
Proof.
  unfold Cardinal.hundreds_as_thousand. rewrite hundreds_gen. split.
  - intros (a & r & d1 & d2 & -> & -> & H & G). apply after_spec in G as (O & m & V & P).
    rewrite words_mid by (exact hundred_spaceless || exact O).
    assert (K : exists k, (10 <= k)%N /\ pad 2 k d1 /\ many_hundreds (words a ++ HUNDRED :: follows r) = hundreds (Some k) (follows r)).
    { apply gives_union in H as [H|H].
      - apply teen_spec in H as (k & T & ->). apply teen_facts in T as F. destruct F as (S & B & _). exists k. split; [lia|].
        split; [apply pad_two; lia|]. rewrite words_one by exact S. cbn [app many_hundreds]. now rewrite text_eqb_refl, T.
      - rewrite gives_assoc in H. apply gives_cat in H as (x1 & d3 & x2 & d4 & -> & -> & H & G). apply gives_ds in G as (x3 & -> & G).
        apply ties_spec in H as (i & T & ->). apply digit_spec in G as (j & U & ->).
        apply tie_facts in T as F. destruct F as (S & B & M & _). apply unit_facts in U as F. destruct F as (S' & B' & _ & Nh & _).
        pose proof (N.div_mod i 10 ltac:(lia)) as E. exists (i + j)%N. split; [lia|]. split.
        + replace (i + j)%N with (i / 10 * 10 ^ N.of_nat 1 + j)%N by (change (10 ^ N.of_nat 1)%N with 10%N; lia).
          apply (pad_app 1 1); apply pad_one; lia.
        + rewrite words_two by assumption. cbn [app many_hundreds]. destruct (text_eqb_spec x3 HUNDRED) as [|_]; [contradiction|].
          now rewrite text_eqb_refl, T, U. }
    destruct K as (k & L & Pk & K). exists (k * 10 ^ N.of_nat 2 + m)%N. rewrite K. split; [now apply value_hundreds|].
    apply (pad_decimal 3); [now apply (pad_app 2 2)|]. change (10 ^ N.of_nat 2)%N with 100%N. change (10 ^ N.of_nat 3)%N with 1000%N. lia.
  - intros (n & V & D).
    assert (K : exists a r k, words x = a ++ HUNDRED :: r /\ hundreds (Some k) r = Some n /\ (10 <= k <= 99)%N /\ a <> [] /\
      forall e, pad 2 k e -> gives (teen ∪ ties + ds + digit)%fst (join a) e).
    { destruct (words x) as [|w [|h r]] eqn:W; [discriminate..|]. cbn [many_hundreds] in V. destruct (text_eqb_spec h HUNDRED) as [->|Nh].
      - destruct (named teen_names w) as [k|] eqn:T; [|discriminate]. exists [w], r, k. split; [reflexivity|]. split; [exact V|].
        apply teen_facts in T as F. destruct F as (S & B & _). split; [lia|]. split; [discriminate|]. intros e Pe.
        cbn [join spaced flat_map]. rewrite app_nil_r. apply gives_union. left. apply teen_spec. exists k. split; [exact T|].
        apply (pad_unique 2 k); [exact Pe|apply pad_two; lia].
      - destruct r as [|h' r]; [discriminate|]. destruct (text_eqb_spec h' HUNDRED) as [->|]; [|discriminate].
        destruct (plus_named (named spoken_ties w) (named unit_names h)) as [k|] eqn:PN; [|discriminate].
        apply plus_both in PN as (i & j & T & U & ->). exists [w; h], r, (i + j)%N. split; [reflexivity|]. split; [exact V|].
        apply tie_facts in T as F. destruct F as (S & B & M & _). apply unit_facts in U as F. destruct F as (S' & B' & _).
        pose proof (N.div_mod i 10 ltac:(lia)) as E.
        split; [lia|]. split; [discriminate|]. intros e Pe. cbn [join spaced flat_map]. rewrite app_nil_r. apply gives_union. right.
        apply gives_assoc, gives_cat. exists w, [(48 + i / 10)%N], (32%N :: h), [(48 + j)%N]. split; [reflexivity|]. split.
        + apply (pad_unique 2 (i + j)); [exact Pe|]. replace (i + j)%N with (i / 10 * 10 ^ N.of_nat 1 + j)%N by (change (10 ^ N.of_nat 1)%N with 10%N; lia).
          apply (pad_app 1 1); apply pad_one; lia.
        + split; [apply ties_spec; eauto|]. apply gives_ds. exists h. split; [reflexivity|]. apply digit_spec. eauto. }
    destruct K as (a & r & k & W & H & L & Na & G). apply hundreds_value in H as (m & M & -> & Lm).
    apply decimal_split in D as (d1 & d2 & -> & D & P); [|lia|change (10 ^ N.of_nat 2)%N with 100%N; lia].
    destruct (mid_words x a HUNDRED r W Na) as (r' & -> & O' & <-).
    exists (join a), r', d1, d2. split; [reflexivity|]. split; [reflexivity|]. split.
    + apply G. apply (decimal_pad 1); [exact D|]. change (10 ^ N.of_nat 1)%N with 10%N. change (10 ^ N.of_nat 2)%N with 100%N. lia.
    + apply after_spec. eauto.
Qed.
Lemma many_words ws n : many_hundreds ws = Some n -> Forall (fun w => numeral_word w = true) ws /\ below ws = None /\ 2 <= List.length ws.
Proof.
  destruct ws as [|w [|h r]]; [discriminate..|]. cbn [many_hundreds]. destruct (text_eqb_spec h HUNDRED) as [->|Nh].
  - destruct (named teen_names w) as [k|] eqn:T; [|discriminate]. intro H. split; [|split; [|cbn; lia]].
    + constructor; [unfold numeral_word; rewrite T; now destruct (named unit_names w)|]. constructor; [exact hundred_word|now apply hundreds_words in H].
    + cbn [below]. rewrite text_eqb_refl. apply teen_facts in T as (_ & _ & _ & _ & ->). reflexivity.
  - destruct r as [|h' r]; [discriminate|]. destruct (text_eqb_spec h' HUNDRED) as [->|]; [|discriminate].
    destruct (plus_named _ _) as [k|] eqn:PN; [|discriminate]. apply plus_both in PN as (i & j & T & U & ->). intro H. split; [|split; [|cbn; lia]].
    + constructor; [unfold numeral_word; rewrite T; now destruct (named unit_names w), (named teen_names w)|].
      constructor; [unfold numeral_word; now rewrite U|]. constructor; [exact hundred_word|now apply hundreds_words in H].
    + cbn [below]. destruct (text_eqb_spec h HUNDRED) as [|_]; [contradiction|]. reflexivity.
Qed.
Lemma said_none ss ws : apart ss -> Forall (fun w => numeral_word w = true) ws -> said (mags ss) ws = below ws.
Proof.
  induction ss as [|s ss IH]; intros A F; [reflexivity|]. pose proof A as (_ & Nw & _ & A'). cbn [said mags].
  rewrite cut_none; [now apply IH|]. intro I. rewrite Forall_forall in F. specialize (F _ I). congruence.
Qed.
(** ** All the alternatives *)
Lemma zero_numeral : numeral_word (u "zero") = false.
Proof. vm_compute. reflexivity. Qed.
Lemma zero_scale : existsb (text_eqb (u "zero")) (map Datatypes.fst spoken_scales) = false.
Proof. vm_compute. reflexivity. Qed.
Lemma said_zero : said spoken_scales [u "zero"] = None.
Proof. vm_compute. reflexivity. Qed.
Lemma spoken_cases ws n : spoken_words ws = Some n <->
  (ws = [u "zero"] /\ n = 0%N) \/ many_hundreds ws = Some n \/ said spoken_scales ws = Some n.
Proof.
  assert (MN : forall v m, many_hundreds v = Some m -> said spoken_scales v = None).
  { intros v m H. apply many_words in H as (F & B & _). rewrite <- mags_all, said_none; [exact B|exact apart_all|exact F]. }
  unfold spoken_words. destruct ws as [|w [|w' r]].
  - split; [discriminate|]. intros [(E & _)|[E|E]]; [discriminate..|]. exact E.
  - destruct (text_eqb_spec w (u "zero")) as [->|D].
    + split; [intros [= <-]; auto|]. intros [(_ & ->)|[E|E]]; [reflexivity|discriminate|]. rewrite said_zero in E. discriminate.
    + split; [auto|]. intros [([= E] & _)|[E|E]]; [contradiction|discriminate|exact E].
  - split.
    + destruct (said spoken_scales (w :: w' :: r)) as [m|] eqn:E; [intros [= <-]; auto|auto].
    + intros [(E & _)|[E|E]]; [discriminate| |now rewrite E]. now rewrite (MN _ _ E).
Qed.
Lemma chain_spec l e z x d : gives (fold_left Cat (l ++ [z]) e) x d <-> gives (e + fold_right Cat z l)%fst x d.
Proof.
  revert e x d. induction l as [|a l IH]; intros e x d; [reflexivity|]. cbn [app fold_left fold_right]. rewrite IH. apply gives_assoc.
Qed.
Lemma alternatives x d : gives Cardinal.graph0 x d <->
  gives zero x d \/ gives Cardinal.hundreds_as_thousand x d \/ gives (upper scale_list) x d.
Proof.
  pose proof (fun l s => chain_spec (map Cardinal.group l) (Cardinal.with_mag s) Cardinal.units x d) as C.
  pose proof (C ["thousand"]%string "million"%string) as C2.
  pose proof (C ["million"; "thousand"]%string "billion"%string) as C3.
  pose proof (C ["billion"; "million"; "thousand"]%string "trillion"%string) as C4.
  pose proof (C ["trillion"; "billion"; "million"; "thousand"]%string "quadrillion"%string) as C5.
  pose proof (C ["quadrillion"; "trillion"; "billion"; "million"; "thousand"]%string "quintillion"%string) as C6.
  pose proof (C ["quintillion"; "quadrillion"; "trillion"; "billion"; "million"; "thousand"]%string "sextillion"%string) as C7.
  cbn [map app fold_left fold_right] in C2, C3, C4, C5, C6, C7. clear C.
  unfold Cardinal.graph0, scale_list. cbn [upper lower]. rewrite !gives_union, C2, C3, C4, C5, C6, C7. tauto.
Qed.
Lemma graph0_spec x d : gives Cardinal.graph0 x d <-> exists n, spoken_words (words x) = Some n /\ decimal d n.
Proof.
  rewrite alternatives, zero_spec, many_spec, (upper_spec _ apart_all), mags_all. split.
  - intros [(-> & ->)|[(n & V & D)|(n & V & D)]].
    + exists 0%N. split; [vm_compute; reflexivity|]. split; [discriminate|]. split; [constructor; [vm_compute; split; discriminate|constructor]|]. auto.
    + exists n. split; [|exact D]. apply spoken_cases. auto.
    + exists n. split; [|exact D]. apply spoken_cases. auto.
  - intros (n & V & D). apply spoken_cases in V as [(W & ->)|[V|V]]; [|eauto|eauto]. left. split; [now apply one_word|].
    apply (decimal_unique 0 d (u "0") D). split; [discriminate|]. split; [constructor; [vm_compute; split; discriminate|constructor]|]. auto.
Qed.

(** ** Leading zeros: there are none to strip *)
Lemma star_zero x y w : star (denote (accep (u "0"))) x y w -> Forall (eq 48%N) x.
Proof. induction 1 as [|a b w a' b' w' (-> & _) _ IH]; [constructor|]. constructor; [reflexivity|exact IH]. Qed.
Lemma star_digits x y w : star (denote DIGIT) x y w -> x = y /\ Forall digit_char x.
Proof.
  induction 1 as [|a b w a' b' w' H _ (-> & IH)]; [split; [reflexivity|constructor]|]. cbn in H. destruct H as (c & -> & -> & D & _). split; [reflexivity|].
  constructor; [|exact IH]. unfold is_digit, in_range in D. apply andb_true_iff in D as (D1 & D2). apply N.leb_le in D1, D2. unfold digit_char. lia.
Qed.
Lemma digits_star d : Forall digit_char d -> star (denote DIGIT) d d 0%Z.
Proof.
  induction 1 as [|c d D _ IH]; [constructor|]. change (c :: d) with ([c] ++ d). change 0%Z with (0 + 0)%Z. constructor; [|exact IH].
  exists c. split; [reflexivity|]. split; [reflexivity|]. split; [|reflexivity]. unfold digit_char in D. unfold is_digit, in_range.
  apply andb_true_iff. split; apply N.leb_le; lia.
Qed.
Lemma strip_spec n d e : decimal d n -> gives Cardinal.strip_zeros d e <-> e = d.
Proof.
  intros (Ne & F & H & V). unfold Cardinal.strip_zeros. rewrite gives_union, gives_assoc. split.
  - intros [G|G]; [|apply gives_cross in G as (-> & ->); reflexivity].
    apply gives_cat in G as (x1 & y1 & x2 & y2 & -> & -> & (w & -> & z & S) & G). apply star_zero in S.
    apply gives_cat in G as (x3 & y3 & x4 & y4 & -> & -> & (w' & c & -> & -> & P & _) & (w'' & G)). apply star_digits in G as (-> & _).
    destruct x1 as [|b x1]; [reflexivity|]. exfalso. apply Forall_inv in S. subst b. specialize (H eq_refl). cbn [app] in H.
    injection H as H. now destruct x1.
  - intros ->. destruct d as [|c d]; [now destruct Ne|]. destruct (N.eqb_spec c 48) as [->|D].
    + specialize (H eq_refl) as ->. right. now apply gives_cross.
    + left. apply gives_cat. exists [], [], (c :: d), (c :: d). split; [reflexivity|]. split; [reflexivity|]. split.
      { exists 0%Z. split; [reflexivity|]. exists []. constructor. }
      apply gives_cat. exists [c], [c], d, d. split; [reflexivity|]. split; [reflexivity|]. split.
      * exists 0%Z. exists c. split; [reflexivity|]. split; [reflexivity|]. split; [|reflexivity]. apply Forall_inv in F. unfold digit_char in F.
        apply andb_true_iff. split; [unfold is_digit, in_range; apply andb_true_iff; split; apply N.leb_le; lia|].
        apply negb_true_iff. now apply N.eqb_neq.
      * exists 0%Z. apply digits_star. exact (Forall_inv_tail F).
Qed.
Lemma graph1_spec x d : gives (Cardinal.graph0 @ Cardinal.strip_zeros)%fst x d <-> exists n, spoken_words (words x) = Some n /\ decimal d n.
Proof.
  rewrite gives_compose. split.
  - intros (m & G & S). apply graph0_spec in G as (n & V & D). apply (strip_spec n m d D) in S as ->. eauto.
  - intros (n & V & D). exists d. split; [apply graph0_spec; eauto|]. now apply (strip_spec n d d D).
Qed.

(** ** "and" *)
Definition alpha_start (w : text) : bool := match w with [] => false | c :: _ => is_alpha c end.
Fixpoint drop (ws : list text) : list text :=
  match ws with
  | [] => []
  | w :: r => if is_and w && alpha_start (hd [] r) then drop r else w :: drop r
  end.
Definition at_space (out : text) : Prop := exists o, out = o ++ [32%N].
Lemma at_space_dec out : at_space out \/ ~ at_space out.
Proof.
  destruct out as [|c o] using rev_ind; [right; intros (o & E); now destruct o|].
  destruct (N.eqb_spec c 32) as [->|D]; [left; now exists o|]. right. intros (o' & E). apply app_inj_tail in E as (_ & E). congruence.
Qed.
Lemma left_space out : left_ok (Next (N.eqb 32)) out <-> at_space out.
Proof.
  split; [intros (o & c & -> & E)|intros (o & ->)].
  - exists o. apply N.eqb_eq in E. now rewrite <- E.
  - exists o, 32%N. auto.
Qed.
Lemma words_cons c x : c <> 32%N -> exists h t, words x = h :: t /\ words (c :: x) = (c :: h) :: t.
Proof.
  intro D. cbn [words]. destruct (N.eqb_spec c 32) as [|_]; [contradiction|]. pose proof (words_nonempty x). destruct (words x) as [|h t]; [contradiction|]. eauto.
Qed.
Lemma words_blank x : words (32%N :: x) = [] :: words x.
Proof. exact (words_space [] x). Qed.
Lemma alpha_words x : alpha_start (hd [] (words x)) = match x with [] => false | c :: _ => is_alpha c end.
Proof.
  destruct x as [|c x]; [reflexivity|]. destruct (N.eqb_spec c 32) as [->|D]; [now rewrite words_blank|].
  destruct (words_cons c x D) as (h & t & _ & ->). reflexivity.
Qed.
Lemma and_words out x m w : rewritten (denote (delete (u "and "))) (Next (N.eqb 32)) (Next is_alpha) out x m w ->
  (at_space out -> words m = drop (words x)) /\ (~ at_space out -> words m = hd [] (words x) :: drop (tl (words x))).
Proof.
  induction 1 as [out|out p q w rest y v Np T Lo Ro _ _ _ IH|out c rest y v Nm Vc R IH].
  - split; reflexivity.
  - cbn [denote delete] in T. destruct T as (-> & -> & _). apply left_space in Lo. split; [intros _|contradiction].
    rewrite app_nil_r in IH. cbn [app]. rewrite (proj1 IH Lo). change (u "and ") with (AND ++ [32%N]). rewrite <- app_assoc. cbn [app].
    rewrite words_space. change (words AND) with [AND]. cbn [app drop]. destruct Ro as (c & o & -> & A). rewrite alpha_words, A. reflexivity.
  - destruct (N.eqb_spec c 32) as [->|D].
    + assert (S : at_space (out ++ [32%N])) by now exists out. rewrite !words_blank, (proj1 IH S). split; reflexivity.
    + assert (S : ~ at_space (out ++ [c])) by (intros (o & E); apply app_inj_tail in E as (_ & E); congruence).
      destruct (words_cons c rest D) as (h & t & Wr & ->). pose proof (proj2 IH S) as E. rewrite Wr in E. cbn [hd tl] in E.
      destruct (words_cons c y D) as (h' & t' & Wy & ->). rewrite Wy in E. injection E as -> ->. split; [|reflexivity].
      intro Sp. cbn [drop]. destruct (is_and (c :: h) && alpha_start (hd [] t)) eqn:B; [|reflexivity]. exfalso.
      apply andb_true_iff in B as (B1 & B2). unfold is_and in B1. destruct (text_eqb_spec (c :: h) AND) as [EA|]; [|discriminate].
      assert (W : words (c :: rest) = AND :: t) by (destruct (words_cons c rest D) as (h2 & t2 & W2 & ->); rewrite Wr in W2; injection W2 as <- <-; now rewrite EA).
      destruct t as [|v0 t]; [discriminate|]. pose proof (join_words (c :: rest)) as J. rewrite W in J.
      apply (Nm (u "and ") [] 0%Z (join (v0 :: t))); [|discriminate|cbn; auto|].
      * rewrite <- J. cbn [join spaced flat_map]. change (u "and ") with (AND ++ [32%N]). now rewrite <- app_assoc.
      * split; [now apply left_space|]. destruct v0 as [|a v0]; [discriminate|]. exists a, (v0 ++ spaced t). auto.
Qed.
Lemma and_total x out : forallb vchar x = true ->
  exists m w, rewritten (denote (delete (u "and "))) (Next (N.eqb 32)) (Next is_alpha) out x m w.
Proof.
  remember (List.length x) as k eqn:L. assert (L' : List.length x <= k) by lia. clear L. revert x out L'. induction k as [|k IH]; intros x out L V.
  - destruct x; [|cbn in L; lia]. exists [], 0%Z. constructor.
  - destruct x as [|c x]; [exists [], 0%Z; constructor|].
    assert (Dec : (exists a r, c :: x = u "and " ++ a :: r /\ is_alpha a = true /\ at_space out) \/
                  ~ (exists a r, c :: x = u "and " ++ a :: r /\ is_alpha a = true /\ at_space out)).
    { destruct (starts_with_dec (u "and ") (c :: x)) as [(r & E)|Nr].
      - destruct r as [|a r].
        + right. intros (a & r & E' & _). rewrite E in E'. apply app_inv_head in E'. discriminate.
        + destruct (is_alpha a) eqn:Al; [destruct (at_space_dec out) as [S|S]|].
          * left. eauto.
          * right. intros (_ & _ & _ & _ & S'). contradiction.
          * right. intros (a' & r' & E' & Al' & _). rewrite E in E'. apply app_inv_head in E'. congruence.
      - right. intros (a & r & E & _). exact (Nr _ E). }
    destruct Dec as [(a & r & E & Al & S)|No].
    + rewrite E in *. rewrite forallb_app in V. apply andb_true_iff in V as (_ & V).
      destruct (IH (a :: r) (out ++ [])) as (m & w & H); [rewrite app_length in L; cbn in L; cbn; lia|exact V|].
      exists ([] ++ m), (0 + w)%Z. apply rw_match; [discriminate|cbn; auto|now apply left_space|exists a, r; auto|reflexivity|reflexivity|exact H].
    + cbn [forallb] in V. apply andb_true_iff in V as (Vc & V). destruct (IH x (out ++ [c])) as (m & w & H); [cbn in L; lia|exact V|].
      exists (c :: m), w. apply rw_copy; [|exact Vc|exact H]. intros p q w' rest' E _ T (Lo & (a & o & -> & Al)).
      cbn [denote delete] in T. destruct T as (-> & -> & _). apply No. exists a, o. split; [exact E|]. split; [exact Al|now apply left_space].
Qed.
