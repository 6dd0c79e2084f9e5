(** Property C59: the values of spoken English numbers (itn/english/rules/cardinal.py).

    Vocabulary: [spoken], [signs], [with_sign], [dash] and [spoken_token] are in
    EnglishSpokenSpec.v; [decimal] is in NumeralSpec.v, [written] and [cheapest] in
    EnglishNumeralSpec.v.  [Cardinal.graph], [Cardinal.integer], [Cardinal.rule] and
    [verbalizer] (EnItnModel.v) are the number words the inverse normaliser knows, those its
    tokens take, its rule and its verbalizer. *)
From Coq Require Import List NArith ZArith Bool String Lia.
From Verif Require Import Text Fst GrammarModel NumeralSpec EnglishNumeralSpec EnglishSpokenSpec.
From Verif Require Import ZhNumberProofs EnNumberProofs EnNumberProofs2 EnNumberProofs4 EnSpokenProofs EnSpokenProofs4 EnSpokenProofs5.
From Verif Require EnTnModel EnItnModel PropsEnNumber.
Import ListNotations.
Local Open Scope list_scope.

(** The cardinal grammar accepts exactly the spoken numbers, and writes exactly their digits. *)
Theorem C59_graph y d : (exists w, denote EnItnModel.Cardinal.graph y d w) <-> exists n, spoken y n /\ decimal d n.
Proof. exact (graph_spec y d). Qed.
Print Assumptions C59_graph.

(** The grammar of the tokens leaves zero to twelve in words, and nothing else. *)
Theorem C59_integer y d : (exists w, denote EnItnModel.Cardinal.integer y d w) <-> exists n, spoken y n /\ (13 <= n)%N /\ decimal d n.
Proof. exact (integer_spec y d). Qed.
Print Assumptions C59_integer.

(** A text is tagged as a cardinal exactly when it is a spoken number from thirteen on, with
    or without a sign before it, and the token holds the words that were spoken. *)
Theorem C59_tagged x t : (exists w, denote (r_tagger EnItnModel.Cardinal.rule) x t w) <->
  exists sign y n, In sign signs /\ x = with_sign sign y /\ spoken y n /\ (13 <= n)%N /\ t = spoken_token sign y ++ u " ".
Proof. exact (rule_tagger x t). Qed.
Print Assumptions C59_tagged.

(** The whole verbalizer answers such a token with the digits of the number, and with nothing else. *)
Theorem C59_verbalized sign y n : In sign signs -> spoken y n -> (13 <= n)%N -> forall v, EnItnModel.verbalizer = Some v ->
  exists d, decimal d n /\ forall z, (exists w, denote v (spoken_token sign y) z w) <-> z = dash sign ++ d.
Proof. intros Sg S L v E. exact (whole_verbalizer v sign y n E Sg S L). Qed.
Print Assumptions C59_verbalized.

(** ** Back from words to digits *)
(** The name of a number is read back as that number. *)
Theorem C59_back t n z w : written t n -> (n < 10 ^ 15)%N -> denote EnTnModel.Cardinal.graph t z w ->
  forall d, (exists v, denote EnItnModel.Cardinal.graph z d v) <-> decimal d n.
Proof.
  intros W L H d. destruct (graph_reading t n W L) as (y & Y & J). apply J in H as (-> & _). apply name_spoken in Y.
  transitivity (exists n, spoken y n /\ decimal d n); [exact (graph_spec y d)|]. split; [|eauto].
  intros (m & (_ & _ & S) & D). destruct Y as (_ & _ & Y). assert (m = n) as -> by congruence. exact D.
Qed.
Print Assumptions C59_back.
(** So is what the normaliser answers, but for the numbers from 1000 to 1999. *)
Theorem C59_back_cheapest t n y : written t n -> (n < 10 ^ 11)%N -> ~ (1000 <= n < 2000)%N ->
  cheapest (denote EnTnModel.Cardinal.final_graph) t y ->
  forall d, (exists v, denote EnItnModel.Cardinal.graph y d v) <-> decimal d n.
Proof.
  intros W L B C d. destruct (cheapest_bare t n W L) as (y' & V & _ & C').
  assert (y = y') as ->.
  { destruct C as (w & H & M), C' as (w' & H' & M'). destruct (M _ _ H') as (A & E), (M' _ _ H) as (A' & _). symmetry. apply E. lia. }
  apply english_spoken in V as [Y|(B' & _)]; [|contradiction].
  transitivity (exists n, spoken y' n /\ decimal d n); [exact (graph_spec y' d)|]. split; [|eauto].
  intros (m & (_ & _ & S) & D). destruct Y as (_ & _ & Y). assert (m = n) as -> by congruence. exact D.
Qed.
Print Assumptions C59_back_cheapest.
(** Those are answered without the "one" before "thousand", which is not read back at all. *)
Theorem C59_back_refuted t n : written t n -> (1000 <= n < 2000)%N ->
  exists y, cheapest (denote EnTnModel.Cardinal.final_graph) t y /\ hd [] (words y) = u "thousand" /\
    forall d v, ~ denote EnItnModel.Cardinal.graph y d v.
Proof.
  intros W B. destruct (cheapest_bare t n W ltac:(lia)) as (y & V & Nt & C). exists y. split; [exact C|].
  pose proof (bare_thousand y n V B Nt) as T. split; [destruct T as (r & ->); reflexivity|].
  intros d v H. assert (G : exists w, denote EnItnModel.Cardinal.graph y d w) by now exists v.
  apply graph_spec in G as (m & S & _). exact (thousand_not_spoken y m T S).
Qed.
Print Assumptions C59_back_refuted.

(** Spoken numbers, with and without "and", and counted in hundreds; there is a verbalizer;
    numbers of which the round trips speak. *)
Example C59_witness :
  spoken (u "two million five thousand one hundred and twelve") 2005112 /\ spoken (u "nineteen hundred and five") 1905 /\
  In (u "minus") signs /\ with_sign (u "minus") (u "forty two") = u "minus forty two" /\
  spoken_token (u "minus") (u "forty two") = u "cardinal { negative: ""minus"" integer: ""forty two"" }" /\
  (exists v, EnItnModel.verbalizer = Some v) /\ written (u "40000000012") 40000000012 /\ written (u "1,005") 1005.
Proof.
  split; [repeat split; (vm_compute; discriminate || reflexivity)|]. split; [repeat split; (vm_compute; discriminate || reflexivity)|].
  split; [right; now left|]. split; [reflexivity|]. split; [reflexivity|]. split; [eexists; reflexivity|]. split.
  - left. change 40000000012%N with (decimal_value (u "40000000012")). apply PropsEnNumber.digits_decimal; [discriminate|reflexivity|discriminate].
  - right. exists (u "1"), [u "005"]. split; [reflexivity|]. split; [cbn; lia|]. split; [repeat constructor|].
    change 1005%N with (decimal_value (u "1005")). apply PropsEnNumber.digits_decimal; [discriminate|reflexivity|discriminate].
Qed.
