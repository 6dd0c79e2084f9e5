(** Property C60: the values of spoken English ordinals (itn/english/rules/ordinal.py).

    Vocabulary: [spoken] is in EnglishSpokenSpec.v; [ordinal_of], [ordinal_suffix] and
    [ordinal_token] are in EnglishOrdinalSpec.v; [decimal] is in NumeralSpec.v.
    [Ordinal.graph], [Ordinal.rule] and [verbalizer] (EnItnModel.v) are the ordinals the
    inverse normaliser knows with their digits, its rule and its verbalizer. *)
From Coq Require Import List NArith ZArith Bool String.
From Verif Require Import Text Fst GrammarModel NumeralSpec EnglishNumeralSpec EnglishSpokenSpec EnglishOrdinalSpec.
From Verif Require Import EnSpokenProofs EnSpokenProofs5 EnOrdinalProofs.
From Verif Require Import EnItnModel.
Import ListNotations.
Local Open Scope list_scope.

(** The ordinal of every spoken number is read as that number, and in no other way. *)
Theorem C60_ordinal c y n : ordinal_of c y -> spoken c n -> forall d, (exists w, denote Ordinal.graph y d w) <-> decimal d n.
Proof. exact (ordinal_spec c y n). Qed.
Print Assumptions C60_ordinal.

(** Nothing is read as an ordinal but the ordinals of spoken numbers, and spoken numbers with
    "th" after them ("oneth"), which are read as that number. *)
Theorem C60_only y d : (exists w, denote Ordinal.graph y d w) <->
  exists c n, spoken c n /\ decimal d n /\ (ordinal_of c y \/ y = c ++ u "th").
Proof.
  split; [exact (ordinal_graph y d)|]. intros (c & n & S & D & [O| ->]); [now apply (ordinal_spec c y n O S)|exact (loose_ordinal c n d S D)].
Qed.
Print Assumptions C60_only.

(** The rule tags exactly those, with the words that were spoken. *)
Theorem C60_tagged x t : (exists w, denote (r_tagger Ordinal.rule) x t w) <->
  t = ordinal_token x ++ u " " /\ exists c n, spoken c n /\ (ordinal_of c x \/ x = c ++ u "th").
Proof.
  transitivity (t = ordinal_token x ++ u " " /\ exists d, gives Ordinal.graph x d); [exact (ordinal_tagger x t)|]. split; intros (E & H); (split; [exact E|]).
  - destruct H as (d & H). apply ordinal_graph in H as (c & n & S & _ & O). eauto.
  - destruct H as (c & n & S & O). destruct (decimal_exists n) as (d & D). exists d. apply C60_only. eauto.
Qed.
Print Assumptions C60_tagged.

(** The whole verbalizer answers the token of an ordinal with the digits of its number and
    the right one of "st", "nd", "rd" and "th", and with nothing else. *)
Theorem C60_verbalized c y n : ordinal_of c y -> spoken c n -> forall v, verbalizer = Some v ->
  exists d, decimal d n /\ forall z, (exists w, denote v (ordinal_token y) z w) <-> z = d ++ ordinal_suffix n.
Proof. intros O S v E. exact (ordinal_verbalized c y n v O S E). Qed.
Print Assumptions C60_verbalized.

Example C60_witness : ordinal_of (u "two thousand one hundred and twelve") (u "two thousand one hundred and twelfth") /\
  spoken (u "two thousand one hundred and twelve") 2112 /\ (exists v, verbalizer = Some v) /\
  ordinal_token (u "twenty first") = u "ordinal { integer: ""twenty first"" }".
Proof.
  split; [|split; [repeat split; (vm_compute; discriminate || reflexivity)|split; [eexists; reflexivity|reflexivity]]].
  exists (u "two thousand one hundred and "), (u "twelve"). split; [reflexivity|]. split; [right; now exists (u "two thousand one hundred and")|].
  split; [vm_compute; intuition discriminate|reflexivity].
Qed.
