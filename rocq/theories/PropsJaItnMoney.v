(** Property C79: a spoken amount of money through the whole Japanese inverse normaliser.

    Vocabulary as in PropsJaMeasure.v; [symbols] are the lines of the data file symbol.tsv. *)
From Coq Require Import List NArith ZArith Bool String Lia.
From Verif Require Import Text TextFacts TokenModel Fst FstFacts FstRun GrammarModel GrammarSpec GrammarAccept NumeralSpec EnglishNumeralSpec DataJaItn JaItnModel ZhTnEndSpec ZhDateSpec JaNumeralSpec WholeSpec BoundarySpec BoundaryLaw PlainSpec.
From Verif Require Import NbestModel PropsBoundary BoundaryChar Letters Apart OneToken TokenVerbal Fields Fields2 ZhNumberProofs JaApart JaHead JaItnSaid JaSpoken JaSpoken2 JaSpoken3 JaSpoken4 JaUnit JaMeasure JaTen PropsJaSpoken PropsJaMeasure.
From Verif Require Import PipelineModel NbestWitness.
From Verif Require EndToEnd PlainRules PropsZhSpoken Whole GrammarEngine EnNumberProofs4.
Import ListNotations.
Local Open Scope list_scope.

Definition kchars : text := Eval vm_compute in nodup N.eq_dec (sp_chars ++ flat_map (fun l => Datatypes.fst (Fst.entry l)) ja_itn_money_symbol).
Definition kchar (c : N) : bool := among kchars c.
Lemma kchar_valid c : kchar c = true -> vchar c = true.
Proof. intro H. apply among_in in H. assert (A : forallb vchar kchars = true) by (vm_compute; reflexivity). rewrite forallb_forall in A. exact (A c H). Qed.
Lemma known_kchar c : known c = true -> kchar c = true.
Proof. apply (known_in kchars). vm_compute. reflexivity. Qed.
Lemma kchar_bare c : kchar c = true -> bare c = true.
Proof. intro H. apply among_in in H. assert (A : forallb bare kchars = true) by (vm_compute; reflexivity). rewrite forallb_forall in A. exact (A c H). Qed.
Lemma still_k o : still kchar (preprocessor o) = true.
Proof. destruct o as [[] [] [] []]; vm_compute; reflexivity. Qed.
Lemma only_itn_money o : name_only (rules o) (u "money") (RuleSpec (Money.rule o) (Some 10400%Z) true).
Proof. destruct o as [a b c d]; PlainRules.only_tac. Qed.
Lemma money_rules o s k : In s (rules o) -> s_weight s = Some k ->
  s = RuleSpec (Money.rule o) (Some 10400%Z) true \/ (10400 < k)%Z \/ apart2 kchar (r_tagger (s_rule s)) = true.
Proof.
  intros I W. unfold rules in I.
  cbn [In] in I. destruct I as [<-|[<-|[<-|[<-|[<-|[<-|[<-|[<-|[<-|[<-|[]]]]]]]]]]]; cbn [s_weight] in W; try (injection W as <-); try discriminate W; auto 10;
      try (right; left; lia); do 2 right; destruct o as [[] [] [] []]; vm_compute; reflexivity.
Qed.
(** A currency of the list with one symbol. *)
Definition currency_word (k v : text) : Prop := In (k, v) symbols /\ forall v', In (k, v') symbols -> v' = v.
Lemma currency_facts k v : In (k, v) symbols -> forallb kchar k = true /\ head_in spelled k = false /\ k <> [].
Proof.
  assert (A : forallb (fun e => let k := Datatypes.fst e in forallb kchar k && negb (head_in spelled k) && negb (text_eqb k [])) symbols = true) by (vm_compute; reflexivity).
  rewrite forallb_forall in A. intro I. specialize (A _ I). cbn [Datatypes.fst] in A. cbv zeta in A. rewrite !andb_true_iff in A. destruct A as ((A & B) & C). split; [exact A|]. split; [now apply negb_true_iff in B|].
  intros ->. vm_compute in C. discriminate C.
Qed.
Lemma value_just o s sw m n d f : ja_sign_words s = Some sw -> japanese_value m = Some n -> (n < 100000000)%N -> Forall digit_char f -> just (Cardinal.positive_integer (enable_million o)) m d -> decimal d n -> counted_ok o s n f ->
  forall z w, denote (Money.g_value o) (sw ++ m ++ ja_point_words f) z w <-> z = numeral s d f /\ w = 0%Z.
Proof.
  intros Sg V L F J D Ok z w. pose proof (all_sub known kchar _ known_kchar (number_known s sw m f n Sg V L F)) as K. 
  etransitivity; [exact (still_pre kchar kchar_valid (preprocessor o) (Measure.cardinal o ∪ Cardinal.decimal (enable_million o)) (still_k o) _ z w K)|]. pose proof (measure_reads o s sw m n d f z w Sg V L F J D) as R. unfold Measure.decimal in R. rewrite R. tauto.
Qed.
Lemma currency_just o k v : currency_word k v -> forall z w, denote (Money.g_currency o) k z w <-> z = v /\ w = 0%Z.
Proof.
  intros (I & U) z w. destruct (currency_facts k v I) as (K & _). etransitivity; [exact (still_pre kchar kchar_valid (preprocessor o) Money.symbol (still_k o) _ z w K)|]. split.
  - intros (I' & ->). split; [exact (U z I')|reflexivity].
  - intros (-> & ->). split; [exact I|reflexivity].
Qed.
Theorem C79_money o s sw m n f k v : ja_sign_words s = Some sw -> japanese_value m = Some n -> (n < 100000000)%N -> ~ one_ten m -> Forall digit_char f ->
  enable_million o = true \/ (n < 1000000)%N -> counted_ok o s n f -> currency_word k v ->
  exists d, decimal d n /\ ja_itn_said o ((sw ++ m ++ ja_point_words f) ++ k) (v ++ numeral s d f).
Proof.
  intros Sg V L O F M Ok C. destruct (int_reads (enable_million o) m n V L M O) as (d & D & J). exists d. split; [exact D|]. pose proof C as (I & U). destruct (currency_facts k v I) as (Kk & Hk & Nk).
  pose proof (all_sub known kchar _ known_kchar (number_known s sw m f n Sg V L F)) as KT. set (T := sw ++ m ++ ja_point_words f) in *.
  assert (K : forallb kchar (T ++ k) = true) by now rewrite forallb_app, KT, Kk.
  pose proof (all_sub kchar bare _ kchar_bare KT) as BT. pose proof (all_sub kchar bare _ kchar_bare Kk) as Bk. pose proof (all_sub kchar vchar _ kchar_valid KT) as VT. pose proof (all_sub kchar vchar _ kchar_valid Kk) as Vk.
  pose proof (value_just o s sw m n d f Sg V L F J D Ok) as RT. pose proof (currency_just o k v C) as Rk. fold T in RT.
  apply (ja_itn_said_fields o (u "money") (Money.rule o) 10400 (T ++ k) (v ++ numeral s d f) [(u "value", T); (u "currency", k)] [(u "currency", k); (u "value", T)] (only_itn_money o)) with (k0 := 0%Z) (kv := 0%Z); try reflexivity.
  - exact (all_sub kchar vchar _ kchar_valid K).
  - intro E. apply app_eq_nil in E as (E & _). exact (number_some sw m f n V L E).
  - unfold good_values. cbn [forallb snd]. now rewrite VT, Vk.
  - repeat constructor; cbn; intuition discriminate.
  - discriminate.
  - discriminate.
  - cbn [Money.rule r_tagger]. apply PlainRules.tokens_added. exists (piece (u "value") T ++ u " " ++ piece (u "currency") k). rewrite (two_fields _ _ _ _ _ BT Bk). split; [rewrite <- !app_assoc; reflexivity|].
    change 0%Z with (0 + 0 + 0)%Z. rewrite app_assoc. apply cat_i.
    + rewrite <- (app_nil_r T) at 1. apply cat_i; [|now cbn]. apply tag_field_spec. split; [exact VT|]. rewrite (bare_escape _ BT). split; [reflexivity|]. exists (numeral s d f). now apply RT.
    + apply tag_field_spec. split; [exact Vk|]. rewrite (bare_escape _ Bk). split; [reflexivity|]. exists v. now apply Rk.
  - intros r wt y w Ir W H. pose proof (Whole.nonneg_sound _ (itn_nonneg o r Ir) _ _ _ H) as P. destruct (money_rules o r wt Ir W) as [->|[Lw|A]]; [|split; lia|exfalso; exact (apart2_sound kchar kchar_valid _ A _ _ _ K H)].
    cbn [s_weight] in W. injection W as <-. split; [lia|]. intros _. cbn [s_rule Money.rule r_tagger] in H. apply PlainRules.tokens_added in H as (t & Et & H).
    apply cat_inv in H as (x1 & y1 & w1 & q & y2 & w2 & E & -> & _ & H & H2). apply cat_inv in H as (p & y3 & w3 & x4 & y4 & w4 & -> & -> & _ & H3 & (-> & -> & _)). rewrite app_nil_r in *.
    apply tag_field_spec in H3 as (Vp & -> & z & H3). apply tag_field_spec in H2 as (Vq & -> & c & H2).
    assert (Kp : forallb kchar p = true /\ forallb kchar q = true) by (rewrite E, forallb_app, andb_true_iff in K; exact K). destruct Kp as (Kp & Kq).
    apply (proj1 (still_pre kchar kchar_valid (preprocessor o) _ (still_k o) p z w3 Kp)) in H3. apply (proj1 (still_pre kchar kchar_valid (preprocessor o) _ (still_k o) q c w2 Kq)) in H2. destruct H2 as (Iq & _).
    destruct (cut_number s sw m f n Sg V L F (enable_million o) p q k z w3 (eq_sym E) Vk (measure_counts o p z w3 H3) Hk (symbol_heads q c Iq)) as (-> & ->). fold T in Et. rewrite (bare_escape T BT), (bare_escape k Bk) in Et.
    rewrite (two_fields _ _ _ _ _ BT Bk). apply (app_inv_tail (u " ")). rewrite Et. unfold piece. rewrite <- !app_assoc. reflexivity.
  - assert (R : forall z w, denote (r_verbalizer (Money.rule o)) (fields_token (u "money") [(u "currency", k); (u "value", T)]) z w <-> z = v ++ numeral s d f /\ w = 0%Z).
    { intros z w. rewrite (two_fields _ _ _ _ _ Bk BT). cbn [Money.rule r_verbalizer]. unfold Money.name. rewrite tokens_inner. apply two_verbal; try assumption; reflexivity. }
    split; [now apply R|]. intros z w H. apply R in H as (-> & ->). split; [lia|reflexivity].
Qed.
Print Assumptions C79_money.
(** ポンド is listed with two symbols: its amounts have two readings that cost the same, and [currency_word] leaves it out. *)
Theorem C79_pound_refuted : exists o, (forall v, ~ currency_word (u "ポンド") v) /\
  forall v, denote (Money.g_currency o) (u "ポンド") v 0%Z <-> v = u "£" \/ v = u "￡".
Proof.
  exists (Options false true false false). assert (I1 : In (u "ポンド", u "£") symbols) by (vm_compute; tauto). assert (I2 : In (u "ポンド", u "￡") symbols) by (vm_compute; tauto). split.
  - intros v (_ & U). pose proof (U _ I1) as E1. pose proof (U _ I2) as E2. rewrite <- E2 in E1. vm_compute in E1. discriminate E1.
  - intro v. destruct (currency_facts _ _ I1) as (K & _). etransitivity; [exact (still_pre kchar kchar_valid (preprocessor (Options false true false false)) Money.symbol (still_k (Options false true false false)) _ v 0%Z K)|].
    split; [|intros [-> | ->]; (split; [assumption|reflexivity])].
    intros (I & _). change (In (u "ポンド", v) symbols) in I. cbv [symbols map ja_itn_money_symbol] in I. cbn [In] in I.
    repeat (destruct I as [I|I]; [try (vm_compute in I; discriminate I); injection I as <-; auto|]). destruct I.
Qed.
Print Assumptions C79_pound_refuted.
Lemma dollar_word : currency_word (u "ドル") (u "$").
Proof.
  split; [vm_compute; tauto|]. intros v I. cbv [symbols map ja_itn_money_symbol] in I. cbn [In] in I.
  repeat (destruct I as [I|I]; [try (vm_compute in I; discriminate I); injection I as <-; reflexivity|]). destruct I.
Qed.
Example C79_witness : exists o, currency_word (u "ドル") (u "$") /\ counted_ok o [] 25 (u "5") /\ counted_ok o [] 25 [] /\ ja_itn_said o (u "二十五点五ドル") (u "$25.5") /\ ja_itn_said o (u "二十五ドル") (u "$25").
Proof.
  set (o := Options false true false false). exists o.
  assert (D : decimal (u "25") 25) by (split; [discriminate|split; [apply PropsZhSpoken.digits_of; reflexivity|split; [discriminate|reflexivity]]]).
  assert (O1 : ~ one_ten (u "二十五")) by (apply free_one_ten; reflexivity).
  assert (Ok1 : counted_ok o [] 25 (u "5")) by (left; discriminate). assert (Ok2 : counted_ok o [] 25 []) by (right; right; split; [reflexivity|vm_compute; discriminate]).
  split; [exact dollar_word|]. split; [exact Ok1|]. split; [exact Ok2|]. split.
  - destruct (C79_money o [] [] (u "二十五") 25 (u "5") (u "ドル") (u "$") eq_refl eq_refl eq_refl O1 (PropsZhSpoken.digits_of (u "5") eq_refl) (or_intror eq_refl) Ok1 dollar_word) as (d & Dd & H).
    rewrite (EnNumberProofs4.decimal_unique _ _ _ Dd D) in H. exact H.
  - destruct (C79_money o [] [] (u "二十五") 25 [] (u "ドル") (u "$") eq_refl eq_refl eq_refl O1 (Forall_nil _) (or_intror eq_refl) Ok2 dollar_word) as (d & Dd & H).
    rewrite (EnNumberProofs4.decimal_unique _ _ _ Dd D) in H. exact H.
Qed.
