(** Property C61: the values of spoken Chinese numbers (itn/chinese/rules/cardinal.py).

    Vocabulary: [spoken_number], [said_below] and [said_large] are in ZhSpokenSpec.v,
    [decimal] is in NumeralSpec.v and [cheapest] in EnglishNumeralSpec.v.
    [Cardinal.number0], [Cardinal.number1], [Cardinal.cardinal], [Cardinal.rule] and
    [verbalizer] (ZhItnModel.v) are the numbers below 10^8, those with the units 亿 and 兆,
    the graph of the tokens, the rule and the verbalizer; [value_token] (TokenVerbal.v) is
    a token with one field, its value. *)
From Coq Require Import List NArith ZArith Bool String Lia.
From Verif Require Import Text Fst GrammarModel NumeralSpec EnglishNumeralSpec ZhSpokenSpec.
From Verif Require Import ZhSpokenProofs2 ZhSpokenProofs5 ZhSpokenProofs6 ZhBack TokenVerbal ZhItnModel ZhItnVerbal.
From Verif Require ZhTnModel.
Import ListNotations.
Local Open Scope list_scope.

(** With millions in digits the grammar reads exactly the spoken numbers below 10^8, and
    writes exactly their digits. *)
Theorem C61_number x d : (exists w, denote (Cardinal.number0 true) x d w) <-> exists n, spoken_number x = Some n /\ decimal d n.
Proof. exact (million_graph x d). Qed.
Print Assumptions C61_number.
(** Without, the numbers from a million on keep 万 and write what is before and after it. *)
Theorem C61_below m x d : (exists w, denote (Cardinal.number0 m) x d w) <-> exists n, said_below m x d n.
Proof. exact (number0_graph m x d). Qed.
Print Assumptions C61_below.
(** 亿 and 兆 are kept too. *)
Theorem C61_large m x d : (exists w, denote (Cardinal.number1 m) x d w) <-> exists n, said_large (said_below m) x d n.
Proof. exact (number1_graph m x d). Qed.
Print Assumptions C61_large.

(** A spoken number is tagged as a cardinal, and the token holds the words that were said. *)
Theorem C61_tagged o x n : enable_standalone_number o = true -> spoken_number x = Some n ->
  (enable_0_to_9 o = true \/ 10 <= n)%N -> (enable_million o = true \/ n < 1000000)%N ->
  forall t, (exists w, denote (r_tagger (Cardinal.rule o)) x t w) <-> t = value_token (u "cardinal") x ++ u " ".
Proof.
  intros St S N9 M t. pose proof (spoken_plain x n S) as P. destruct (EnSpokenProofs5.decimal_exists n) as (d & D).
  destruct (cheapest_spoken o x n d St S N9 M D) as (w & H & _). split.
  - intros (w' & H'). now apply cardinal_tagged in H' as (-> & _).
  - intros ->. exists w. apply cardinal_tagged; [exact P|]. eauto.
Qed.
Print Assumptions C61_tagged.
(** Of all that the grammar and then the whole verbalizer could answer to it, the digits of
    the number are the one of least cost. *)
Theorem C61_cheapest o x n d : enable_standalone_number o = true -> spoken_number x = Some n ->
  (enable_0_to_9 o = true \/ 10 <= n)%N -> (enable_million o = true \/ n < 1000000)%N -> decimal d n ->
  cheapest (denote (Cardinal.cardinal o)) x d.
Proof. exact (cheapest_spoken o x n d). Qed.
Print Assumptions C61_cheapest.
Theorem C61_verbalized o v x n d : verbalizer o = Some v -> enable_standalone_number o = true -> spoken_number x = Some n ->
  (enable_0_to_9 o = true \/ 10 <= n)%N -> (enable_million o = true \/ n < 1000000)%N -> decimal d n ->
  cheapest (denote v) (value_token (u "cardinal") x) d.
Proof.
  intros Ev St S N9 M D. destruct (plain_facts x (spoken_plain x n S)) as (V & Q & B).
  exact (cardinal_verbalized o v x d Ev Q B V (digits_kept d n D) (cheapest_spoken o x n d St S N9 M D)).
Qed.
Print Assumptions C61_verbalized.

(** What the Chinese normaliser says for a number below 10^8 comes back as that number. *)
Theorem C61_back o v t n z w : verbalizer o = Some v -> enable_standalone_number o = true ->
  decimal t n -> (n < 10 ^ 8)%N -> (enable_0_to_9 o = true \/ 10 <= n)%N -> (enable_million o = true \/ n < 1000000)%N ->
  denote ZhTnModel.Cardinal.number t z w -> cheapest (denote v) (value_token (u "cardinal") z) t.
Proof.
  intros Ev St D L N9 M H. destruct (number_spoken t n D L) as (y & S & J). apply J in H. destruct H as (-> & _).
  exact (C61_verbalized o v y n t Ev St S N9 M D).
Qed.
Print Assumptions C61_back.

Lemma digits_of t : forallb (fun c => (48 <=? c) && (c <=? 57))%N%bool t = true -> Forall digit_char t.
Proof. rewrite forallb_forall, Forall_forall. intros F c I. specialize (F c I). cbn beta in F. rewrite andb_true_iff, !N.leb_le in F. exact F. Qed.
(** The two settings of enable_million do not only write the same number differently: 一百万五
    is 1005000 with it, and 100万5 without. *)
Theorem C61_million_refuted : exists x,
  (forall d, (exists w, denote (Cardinal.number0 true) x d w) <-> d = u "1005000") /\
  (forall d, (exists w, denote (Cardinal.number0 false) x d w) <-> d = u "100万5").
Proof.
  exists (u "一百万五").
  assert (D : decimal (u "1005000") 1005000).
  { split; [discriminate|]. split; [|split; [discriminate|reflexivity]]. apply digits_of; reflexivity. }
  assert (D1 : decimal (u "100") 100).
  { split; [discriminate|]. split; [|split; [discriminate|reflexivity]]. apply digits_of; reflexivity. }
  assert (D5 : decimal (u "5") 5).
  { split; [discriminate|]. split; [|split; [discriminate|reflexivity]]. apply digits_of; reflexivity. }
  split; intro d.
  - transitivity (exists n, spoken_number (u "一百万五") = Some n /\ decimal d n); [exact (million_graph _ d)|].
    change (spoken_number (u "一百万五")) with (Some 1005000%N). split; [|intros ->; eauto].
    intros (n & E & Dn). assert (n = 1005000%N) as -> by congruence. exact (EnNumberProofs4.decimal_unique _ _ _ Dn D).
  - transitivity (exists n, said_below false (u "一百万五") d n); [exact (number0_graph _ _ d)|]. split.
    + intros (n & [(S & [M|M] & _)|(_ & W)]); [discriminate| |].
      * assert (E : spoken_number (u "一百万五") = Some 1005000%N) by reflexivity. assert (n = 1005000%N) as -> by congruence. lia.
      * destruct W as (a & b & k & e1 & e2 & j & E & Sa & _ & De & A & -> & _).
        pose proof (cut_section "万" a b k ltac:(cbn; auto) Sa) as C. rewrite <- E in C.
        assert (C' : cut_at "万" (u "一百万五") = Some (u "一百", u "五")) by reflexivity. rewrite C' in C.
        assert (a = u "一百") as -> by congruence. assert (b = u "五") as -> by congruence.
        assert (S1 : section (u "一百") = Some 100%N) by reflexivity. assert (k = 100%N) as -> by congruence.
        rewrite (EnNumberProofs4.decimal_unique _ _ _ De D1). destruct A as (b' & B & A).
        destruct B as [<-|X]; [|discriminate X]. destruct A as [(X & _)|(O & De2)]; [discriminate X|].
        assert (O' : own_number (u "五") = Some 5%N) by reflexivity. assert (j = 5%N) as -> by congruence.
        now rewrite (EnNumberProofs4.decimal_unique _ _ _ De2 D5).
    + intros ->. exists 1000005%N. right. split; [reflexivity|]. exists (u "一百"), (u "五"), 100%N, (u "100"), (u "5"), 5%N.
      split; [reflexivity|]. split; [reflexivity|]. split; [lia|]. split; [exact D1|]. split; [|split; reflexivity].
      exists (u "五"). split; [auto|]. right. split; [reflexivity|exact D5].
Qed.
Print Assumptions C61_million_refuted.

Example C61_witness : exists v, verbalizer (Options false true true true) = Some v /\
  spoken_number (u "三千二百万零五") = Some 32000005%N /\ decimal (u "32000005") 32000005 /\
  denote ZhTnModel.Cardinal.number (u "32000005") (u "三千二百万零五") 0%Z /\
  cheapest (denote v) (value_token (u "cardinal") (u "三千二百万零五")) (u "32000005").
Proof.
  assert (D : decimal (u "32000005") 32000005).
  { split; [discriminate|]. split; [|split; [discriminate|reflexivity]]. apply digits_of; reflexivity. }
  destruct (verbalizer (Options false true true true)) as [v|] eqn:E; [|discriminate]. exists v.
  split; [reflexivity|]. split; [reflexivity|]. split; [exact D|]. split.
  - apply ZhNumberProofs4.number_digits; [apply D|].
    apply ZhNumberProofs4.plain_digits; [apply D|].
    exists (u "三千二百万零五"), 0%Z, 0%Z. split; [reflexivity|]. split; [|apply ZhNumberProofs4.liang_spec; split; vm_compute; reflexivity].
    apply FstRun.outs_all; [reflexivity|]. vm_compute. auto 20.
  - exact (C61_verbalized (Options false true true true) v (u "三千二百万零五") 32000005 _ E eq_refl eq_refl (or_introl eq_refl) (or_introl eq_refl) D).
Qed.
