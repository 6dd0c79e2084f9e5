(** Property C76: a spoken number through the whole Japanese inverse normaliser.

    Vocabulary (NumeralSpec.v, ZhTnEndSpec.v, JaNumeralSpec.v): [decimal d n] says that [d] are the
    decimal digits of [n]; [grouped t x] that [x] is [t] with or without commas; [numeral s d f] is the
    sign [s], the digits [d] and the digits [f] after a point, or no point when there are none;
    [ja_sign_words] and [ja_point_words] are what is said for the sign and after the point,
    [japanese_value] is the number a Japanese numeral stands for.  [one_ten m] says that 一十 occurs
    in [m].  [spoken_ok o n f] says what the options ask for: that numbers standing alone are to be
    written with digits, and those below ten too when [n] is one of them, or else a decimal.
    [ja_itn_said o x d] (JaItnSaid.v): with the options [o], normalize answers [d] for [x], alone or
    among characters that no rule but the one of single characters reads, whatever the engine. *)
From Coq Require Import List NArith ZArith Bool String Lia.
From Verif Require Import Text TextFacts TokenModel Fst FstFacts FstRun GrammarModel GrammarSpec GrammarAccept NumeralSpec EnglishNumeralSpec DataJaItn JaItnModel ZhTnEndSpec ZhDateSpec JaNumeralSpec WholeSpec BoundarySpec BoundaryLaw PlainSpec.
From Verif Require Import NbestModel PropsBoundary BoundaryChar Letters Apart OneToken TokenVerbal Fields ZhNumberProofs JaApart JaItnSaid JaSpoken JaSpoken2 JaSpoken3 JaSpoken4 JaTen.
From Verif Require Import PipelineModel NbestWitness.
From Verif Require JaTnModel EndToEnd GrammarEngine PlainRules PropsZhSpoken PropsWhole Whole PropsJaNumber JaNumber2 JaPost.
Import ListNotations.
Local Open Scope list_scope.

Lemma only_itn_cardinal o : name_only (rules o) (u "cardinal") (RuleSpec (Cardinal.rule o) (Some 10600%Z) true).
Proof. destruct o as [a b c d]; PlainRules.only_tac. Qed.
Lemma itn_nonneg o s : In s (rules o) -> Whole.nonneg (r_tagger (s_rule s)) = true.
Proof.
  assert (A : forallb (fun s => Whole.nonneg (r_tagger (s_rule s))) (rules o) = true) by (destruct o as [[] [] [] []]; vm_compute; reflexivity). rewrite forallb_forall in A. exact (A s).
Qed.
Lemma other_itn_rules o s k : In s (rules o) -> s_weight s = Some k ->
  s = RuleSpec (Cardinal.rule o) (Some 10600%Z) true \/ (10600 < k)%Z \/ apart2 known (r_tagger (s_rule s)) = true.
Proof.
  intros I W. unfold rules in I.
  cbn [In] in I. destruct I as [<-|[<-|[<-|[<-|[<-|[<-|[<-|[<-|[<-|[<-|[]]]]]]]]]]]; cbn [s_weight] in W; try (injection W as <-); try discriminate W; auto;
      try (right; left; lia); right; right; destruct o as [[] [] [] []]; vm_compute; reflexivity.
Qed.
Lemma still_itn o : still known (preprocessor o) = true.
Proof. destruct o as [[] [] [] []]; vm_compute; reflexivity. Qed.
Lemma known_bare x : forallb known x = true -> ~ In 34%N x /\ ~ In 92%N x.
Proof.
  intro K. rewrite forallb_forall in K. split; intro I; specialize (K _ I); vm_compute in K; discriminate K.
Qed.
Lemma itn_cardinal_said o x d : forallb known x = true -> x <> [] -> just (Cardinal.graph o) x d -> ja_itn_said o x d.
Proof.
  intros K N J. apply (ja_itn_said_value o (u "cardinal") (Cardinal.cardinal o) 10600 x d (only_itn_cardinal o)) with (kv := 0%Z); try reflexivity; try assumption.
  - exact (all_sub known vchar x known_valid K).
  - exact (known_bare x K).
  - assert (R : just (Cardinal.cardinal o) x d) by (intros z w; rewrite <- (J z w); exact (still_pre known known_valid (preprocessor o) (Cardinal.graph o) (still_itn o) x z w K)).
    split; [now apply R|]. intros z w H. apply R in H as (-> & ->). split; [lia|reflexivity].
  - intros s k y v I W H. pose proof (Whole.nonneg_sound _ (itn_nonneg o s I) _ _ _ H) as P. destruct (other_itn_rules o s k I W) as [->|[L|A]].
    + left. reflexivity.
    + right. lia.
    + exfalso. exact (apart2_sound known known_valid _ A _ _ _ K H).
Qed.

Lemma said_spoken o s sw m n d f : ja_sign_words s = Some sw -> japanese_value m = Some n -> (n < 100000000)%N -> Forall digit_char f -> just (Cardinal.positive_integer (enable_million o)) m d -> decimal d n -> spoken_ok o n f ->
  ja_itn_said o (sw ++ m ++ ja_point_words f) (numeral s d f).
Proof.
  intros S V L F J D Ok. apply itn_cardinal_said.
  - eapply gk; eassumption.
  - intro E. apply app_eq_nil in E as (_ & E). apply app_eq_nil in E as (E & _). exact (proj2 (value_nums m n V L) E).
  - exact (graph_just o s sw m n d f S V L F J D Ok).
Qed.
(** A spoken number below 10^8 with or without sign and decimals is written with its digits. *)
Theorem C76_number o s sw m n f : ja_sign_words s = Some sw -> japanese_value m = Some n -> (n < 100000000)%N -> ~ one_ten m -> Forall digit_char f ->
  enable_million o = true \/ (n < 1000000)%N -> spoken_ok o n f ->
  exists d, decimal d n /\ ja_itn_said o (sw ++ m ++ ja_point_words f) (numeral s d f).
Proof.
  intros S V L O F M Ok. destruct (int_reads (enable_million o) m n V L M O) as (d & D & J). exists d. split; [exact D|]. exact (said_spoken o s sw m n d f S V L F J D Ok).
Qed.
Print Assumptions C76_number.
(** What the Japanese normaliser says for a written number, the inverse normaliser writes as it was, without the commas. *)
Theorem C76_back o o' s sw t n x f : ja_sign_words s = Some sw -> decimal t n -> (n < 100000000)%N -> grouped t x -> Forall digit_char f ->
  ~ (s = [] /\ List.length t = 4%nat /\ zero_month f) -> JaTnModel.tag_oov o = false -> enable_million o' = true \/ (n < 1000000)%N -> spoken_ok o' n f ->
  exists w, JaPost.ja_said o (numeral s x f) w /\ ja_itn_said o' w (numeral s t f).
Proof.
  intros S D L G F Not T M Ok. destruct (JaNumber2.ja_integer t n x D L G) as (m & J & V).
  exists (sw ++ m ++ ja_point_words f). split.
  - pose proof (PropsJaNumber.said_number o s sw t n x f m S D L G F Not J V) as H. rewrite PropsJaNumber.marked_off in H by now left. exact H.
  - assert (O : ~ one_ten m) by exact (integer_never x m 0%Z (proj2 (J m 0%Z) (conj eq_refl eq_refl))).
    destruct (C76_number o' s sw m n f S V L O F M Ok) as (d & Dd & H). rewrite (EnNumberProofs4.decimal_unique _ _ _ D Dd). exact H.
Qed.
Print Assumptions C76_back.

(** 一十五 stands for 15 too, but it is written as two numbers. *)
Theorem C76_one_ten_refuted : exists o en, engine_for (ja_itn o) en /\ japanese_value (u "一十五") = Some 15%N /\ decimal (u "15") 15 /\ spoken_ok o 15 [] /\
  normalize 100 en (u "一十五") (PyInt 1) = POk (One (u "115")).
Proof.
  set (o := Options false true true true).
  destruct (tagger o) as [t|] eqn:Et; [|discriminate]. destruct (verbalizer o) as [v|] eqn:Ev; [|discriminate].
  exists o, (GrammarEngine.graph_engine ja_itn_token_orders t v engine_w). split.
  { split; [reflexivity|]. exists t, v. split; [exact Et|]. split; [exact Ev|]. apply GrammarEngine.graph_engine_oracle.
    - pose proof (GrammarEngine.ja_itn_tagger_loopfree o) as L. now rewrite Et in L.
    - pose proof (GrammarEngine.ja_itn_verbalizer_loopfree o) as L. now rewrite Ev in L. }
  split; [reflexivity|]. split; [split; [discriminate|split; [apply PropsZhSpoken.digits_of; reflexivity|split; [discriminate|reflexivity]]]|].
  split; [right; split; [reflexivity|now left]|].
  assert (G : match tagger o, verbalizer o with
      | Some t, Some v => normalize 100 (GrammarEngine.graph_engine ja_itn_token_orders t v engine_w) (u "一十五") (PyInt 1)
      | _, _ => PErr PNoPath end = POk (One (u "115"))) by (vm_compute; reflexivity).
  now rewrite Et, Ev in G.
Qed.
Print Assumptions C76_one_ten_refuted.

Example C76_witness : exists o, ja_sign_words (u "-") = Some (u "マイナス") /\ japanese_value (u "三千二百万五") = Some 32000005%N /\ ~ one_ten (u "三千二百万五") /\
  spoken_ok o 32000005 (u "06") /\ ja_itn_said o (u "マイナス三千二百万五点〇六") (u "-32000005.06").
Proof.
  exists (Options true false false true).
  assert (D : decimal (u "32000005") 32000005) by (split; [discriminate|split; [apply PropsZhSpoken.digits_of; reflexivity|split; [discriminate|reflexivity]]]).
  assert (O : ~ one_ten (u "三千二百万五")) by (apply free_one_ten; reflexivity).
  assert (Ok : spoken_ok (Options true false false true) 32000005 (u "06")) by (left; discriminate).
  split; [reflexivity|]. split; [reflexivity|]. split; [exact O|]. split; [exact Ok|].
  destruct (C76_number (Options true false false true) (u "-") (u "マイナス") (u "三千二百万五") 32000005 (u "06") eq_refl eq_refl eq_refl O (PropsZhSpoken.digits_of (u "06") eq_refl) (or_introl eq_refl) Ok) as (d & Dd & H).
  rewrite (EnNumberProofs4.decimal_unique _ _ _ Dd D) in H. exact H.
Qed.
