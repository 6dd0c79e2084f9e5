(** Property C77: a spoken ordinal through the whole Japanese inverse normaliser.

    Vocabulary (NumeralSpec.v, JaNumeralSpec.v): [decimal d n] says that [d] are the decimal digits of
    [n]; [ja_sign_words] are the words of a sign, [japanese_value] is the number a Japanese numeral
    stands for; [one_ten m] says that 一十 occurs in [m].  [ja_itn_said o x d] (JaItnSaid.v): with the
    options [o], normalize answers [d] for [x], alone or among characters that no rule but the one of
    single characters reads, whatever the engine. *)
From Coq Require Import List NArith ZArith Bool String Lia.
From Verif Require Import Text TextFacts TokenModel Fst FstFacts FstRun GrammarModel GrammarSpec GrammarAccept NumeralSpec EnglishNumeralSpec DataJaItn JaItnModel ZhTnEndSpec ZhDateSpec JaNumeralSpec WholeSpec BoundarySpec BoundaryLaw PlainSpec.
From Verif Require Import NbestModel PropsBoundary BoundaryChar Letters Apart OneToken TokenVerbal Fields ZhNumberProofs JaApart JaItnSaid JaSpoken JaSpoken2 JaSpoken3 JaSpoken4 JaUnit JaTen PropsJaSpoken.
From Verif Require EndToEnd PlainRules PropsZhSpoken Whole.
Import ListNotations.
Local Open Scope list_scope.

Definition or_chars : text := Eval vm_compute in sp_chars ++ u "第番目".
Definition ochar (c : N) : bool := among or_chars c.
Lemma ochar_valid c : ochar c = true -> vchar c = true.
Proof. intro H. apply among_in in H. assert (A : forallb vchar or_chars = true) by (vm_compute; reflexivity). rewrite forallb_forall in A. exact (A c H). Qed.
Lemma known_ochar c : known c = true -> ochar c = true.
Proof. intro H. apply among_in in H. apply among_in. unfold or_chars. unfold sp_chars in H. cbn [In] in *. intuition. Qed.
Lemma only_itn_ordinal o : name_only (rules o) (u "ordinal") (RuleSpec (Ordinal.rule o) (Some 10400%Z) true).
Proof. destruct o as [a b c d]; PlainRules.only_tac. Qed.
Lemma other_ordinal_rules o s k : In s (rules o) -> s_weight s = Some k ->
  s = RuleSpec (Ordinal.rule o) (Some 10400%Z) true \/ (10400 < k)%Z \/ s = RuleSpec (Whitelist.rule o) (Some 10100%Z) true \/ apart2 ochar (r_tagger (s_rule s)) = true.
Proof.
  intros I W. unfold rules in I.
  cbn [In] in I. destruct I as [<-|[<-|[<-|[<-|[<-|[<-|[<-|[<-|[<-|[<-|[]]]]]]]]]]]; cbn [s_weight] in W; try (injection W as <-); try discriminate W; auto;
      try (right; left; lia); right; right; right; destruct o as [[] [] [] []]; vm_compute; reflexivity.
Qed.
Lemma still_ordinal o : still ochar (preprocessor o) = true.
Proof. destruct o as [[] [] [] []]; vm_compute; reflexivity. Qed.
Lemma ordinal_bare x : forallb ochar x = true -> ~ In 34%N x /\ ~ In 92%N x.
Proof. intro K. rewrite forallb_forall in K. split; intro I; specialize (K _ I); vm_compute in K; discriminate K. Qed.
(** The one listed phrase of these characters. *)
Lemma listed_ordinal o x y w : forallb ochar x = true -> denote (r_tagger (Whitelist.rule o)) x y w -> x = u "十八番".
Proof.
  intros K H. apply PlainRules.tokens_added in H as (z & _ & H). apply tag_field_spec in H as (_ & _ & d & H). apply (proj1 (still_pre ochar ochar_valid (preprocessor o) _ (still_ordinal o) x d w K)) in H. destruct H as (I & _).
  assert (A : forallb (fun q => if text_eqb (Datatypes.fst q) (u "十八番") then true else negb (forallb ochar (Datatypes.fst q))) (map Fst.entry ja_itn_default_whitelist) = true) by (vm_compute; reflexivity).
  rewrite forallb_forall in A. specialize (A _ I). cbn [Datatypes.fst] in A. destruct (text_eqb_spec x (u "十八番")) as [E|_]; [exact E|]. rewrite K in A. discriminate A.
Qed.
Definition ordinal0 (M : bool) : fst := (Cardinal.number M + accep (u "番目")) ∪ (accep (u "第") + Cardinal.number M).
Lemma itn_ordinal_said o x d : forallb ochar x = true -> x <> [] -> x <> u "十八番" -> just (ordinal0 (enable_million o)) x d -> ja_itn_said o x d.
Proof.
  intros K N W10 J. apply (ja_itn_said_value o (u "ordinal") (Ordinal.graph o) 10400 x d (only_itn_ordinal o)) with (kv := 0%Z); try reflexivity; try assumption.
  - exact (all_sub ochar vchar x ochar_valid K).
  - exact (ordinal_bare x K).
  - assert (R : just (Ordinal.graph o) x d) by (intros z w; rewrite <- (J z w); exact (still_pre ochar ochar_valid (preprocessor o) (ordinal0 (enable_million o)) (still_ordinal o) x z w K)).
    split; [now apply R|]. intros z w H. apply R in H as (-> & ->). split; [lia|reflexivity].
  - intros s k y v I W H. pose proof (Whole.nonneg_sound _ (itn_nonneg o s I) _ _ _ H) as P. destruct (other_ordinal_rules o s k I W) as [->|[L|[->|A]]].
    + left. reflexivity.
    + right. lia.
    + exfalso. exact (W10 (listed_ordinal o x _ v K H)).
    + exfalso. exact (apart2_sound ochar ochar_valid _ A _ _ _ K H).
Qed.
Section Ordinal.
Variables (o : options) (s sw m : text) (n : N).
Hypothesis Sg : ja_sign_words s = Some sw.
Hypothesis V : japanese_value m = Some n.
Hypothesis L : (n < 100000000)%N.
Variable d : text.
Hypothesis J : just (Cardinal.positive_integer (enable_million o)) m d.
Lemma ord_known : forallb known (sw ++ m) = true.
Proof. pose proof (number_known s sw m [] n Sg V L (Forall_nil _)) as H. cbn [ja_point_words] in H. now rewrite app_nil_r in H. Qed.
Lemma ord_reads z w : denote (Cardinal.number (enable_million o)) (sw ++ m) z w <-> z = s ++ d /\ w = 0%Z.
Proof.
  pose proof (number_reads (enable_million o) s sw m d [] n Sg V L (Forall_nil _) J z w) as H. cbn [ja_point_words] in H. rewrite app_nil_r in H. unfold numeral in H. rewrite app_nil_r in H. rewrite H. tauto.
Qed.
Lemma not_known c : known c = false -> ~ In c (sw ++ m).
Proof. intros K I. pose proof ord_known as H. rewrite forallb_forall in H. specialize (H c I). congruence. Qed.
Lemma suffix_just : just (ordinal0 (enable_million o)) (sw ++ m ++ u "番目") (s ++ d ++ u "番目").
Proof.
  intros z w. rewrite (app_assoc sw), (app_assoc s). split.
  - intros [H|H].
    + apply cat_inv in H as (x1 & y1 & w1 & x2 & y2 & w2 & E & -> & -> & H1 & (-> & -> & ->)). apply app_inv_tail in E. subst x1. apply ord_reads in H1 as (-> & ->). auto.
    + exfalso. apply cat_inv in H as (x1 & y1 & w1 & x2 & y2 & w2 & E & -> & -> & (-> & _) & _).
      assert (I : In 31532%N ((sw ++ m) ++ u "番目")) by (rewrite E; vm_compute; auto). apply in_app_iff in I as [I|I]; [exact (not_known 31532%N eq_refl I)|]. vm_compute in I. intuition discriminate.
  - intros (-> & ->). left. change 0%Z with (0 + 0)%Z. apply cat_i; [now apply ord_reads|apply cross_i].
Qed.
Lemma prefix_just : just (ordinal0 (enable_million o)) (u "第" ++ sw ++ m) (u "第" ++ s ++ d).
Proof.
  intros z w. split.
  - intros [H|H].
    + exfalso. apply cat_inv in H as (x1 & y1 & w1 & x2 & y2 & w2 & E & -> & -> & _ & (-> & _)).
      assert (I : In 30446%N (u "第" ++ sw ++ m)) by (rewrite E; apply in_app_iff; right; vm_compute; auto). apply in_app_iff in I as [I|I]; [vm_compute in I; intuition discriminate|exact (not_known 30446%N eq_refl I)].
    + apply cat_inv in H as (x1 & y1 & w1 & x2 & y2 & w2 & E & -> & -> & (-> & -> & ->) & H2). apply app_inv_head in E. subst x2. apply ord_reads in H2 as (-> & ->). auto.
  - intros (-> & ->). right. change 0%Z with (0 + 0)%Z. apply cat_i; [apply cross_i|now apply ord_reads].
Qed.
End Ordinal.
(** A number below 10^8 with 番目 behind it, or 第 in front of it, keeps these words and its sign and is written with its digits, whatever the options. *)
Theorem C77_ordinal_after o s sw m n : ja_sign_words s = Some sw -> japanese_value m = Some n -> (n < 100000000)%N -> ~ one_ten m -> enable_million o = true \/ (n < 1000000)%N ->
  exists d, decimal d n /\ ja_itn_said o (sw ++ m ++ u "番目") (s ++ d ++ u "番目").
Proof.
  intros S V L O M. destruct (int_reads (enable_million o) m n V L M O) as (d & D & J). exists d. split; [exact D|]. apply itn_ordinal_said.
  - rewrite app_assoc, forallb_app, (all_sub known ochar _ known_ochar (ord_known s sw m n S V L)). vm_compute. reflexivity.
  - intro E. apply app_eq_nil in E as (_ & E). apply app_eq_nil in E as (E & _). exact (proj2 (value_nums m n V L) E).
  - intro E. apply (f_equal (@rev N)) in E. rewrite !rev_app_distr in E. discriminate E.
  - exact (suffix_just o s sw m n S V L d J).
Qed.
Print Assumptions C77_ordinal_after.
Theorem C77_ordinal_before o s sw m n : ja_sign_words s = Some sw -> japanese_value m = Some n -> (n < 100000000)%N -> ~ one_ten m -> enable_million o = true \/ (n < 1000000)%N ->
  exists d, decimal d n /\ ja_itn_said o (u "第" ++ sw ++ m) (u "第" ++ s ++ d).
Proof.
  intros S V L O M. destruct (int_reads (enable_million o) m n V L M O) as (d & D & J). exists d. split; [exact D|]. apply itn_ordinal_said.
  - rewrite forallb_app, (all_sub known ochar _ known_ochar (ord_known s sw m n S V L)). vm_compute. reflexivity.
  - discriminate.
  - discriminate.
  - exact (prefix_just o s sw m n S V L d J).
Qed.
Print Assumptions C77_ordinal_before.

Example C77_witness : exists o, japanese_value (u "三百二") = Some 302%N /\ ~ one_ten (u "三百二") /\ ja_itn_said o (u "三百二番目") (u "302番目") /\ ja_itn_said o (u "第三百二") (u "第302").
Proof.
  exists (Options true false false false).
  assert (D : decimal (u "302") 302) by (split; [discriminate|split; [apply PropsZhSpoken.digits_of; reflexivity|split; [discriminate|reflexivity]]]).
  assert (O : ~ one_ten (u "三百二")) by (apply free_one_ten; reflexivity).
  split; [reflexivity|]. split; [exact O|]. split.
  - destruct (C77_ordinal_after (Options true false false false) [] [] (u "三百二") 302 eq_refl eq_refl eq_refl O (or_intror eq_refl)) as (d & Dd & H).
    rewrite (EnNumberProofs4.decimal_unique _ _ _ Dd D) in H. exact H.
  - destruct (C77_ordinal_before (Options true false false false) [] [] (u "三百二") 302 eq_refl eq_refl eq_refl O (or_intror eq_refl)) as (d & Dd & H).
    rewrite (EnNumberProofs4.decimal_unique _ _ _ Dd D) in H. exact H.
Qed.
