(** Amounts of money of the Japanese normaliser (C74). *)
From Coq Require Import List NArith ZArith Bool String Lia Arith.
From Verif Require Import Text TextFacts TokenModel Fst FstFacts FstRun GrammarModel GrammarSpec GrammarAccept NumeralSpec EnglishNumeralSpec DataJaTn JaTnModel ZhTnEndSpec ZhDateSpec ZhAmountSpec JaNumeralSpec JaAmountSpec WholeSpec.
From Verif Require Import BoundaryChar Letters Apart OneToken TokenVerbal Fields ZhNumberProofs ZhTnRead ZhTnPost ZhDate ZhDate2 ZhAmount ZhMoney JaApart JaHead JaPost JaNumber JaNumber2 JaDate JaDate2 JaDate3 JaTnRead JaTnRead2 PropsJaDate PropsJaNumber JaFraction.
From Verif Require EndToEnd EnNumberProofs5 PlainRules FstEval Whole PipelineModel.
Import ListNotations.
Local Open Scope list_scope.

Definition jcurrencies : list (text * text) := Eval vm_compute in map entry ja_tn_money_code ++ map entry ja_tn_money_symbol.
Lemma jcurrencies_eq : map entry ja_tn_money_code ++ map entry ja_tn_money_symbol = jcurrencies.
Proof. vm_compute. reflexivity. Qed.
Definition jmarks : text := Eval vm_compute in filter (fun c => negb (c =? 65284)%N) (nodup N.eq_dec (flat_map Datatypes.fst jcurrencies)).
Definition mchar (c : N) : bool := jchar c || existsb (N.eqb c) jmarks.
Definition jcurrency_check (p : text * text) : bool := let (c, m) := p in
  existsb (N.eqb 65284) c || forallb (fun a => negb (jchar a) && vchar a && bare a && mchar a) c && lists jcurrencies c m && match c with [] => false | _ => true end.
Lemma jcurrencies_checked : forallb jcurrency_check jcurrencies = true.
Proof. vm_compute. reflexivity. Qed.
Definition jnames : text := Eval vm_compute in nodup N.eq_dec (flat_map snd jcurrencies).
Definition jsafe_all_at_once (l : text) : bool :=
  forallb vchar l && unlisted_all ja_tn_char_fullwidth_to_halfwidth l && unlisted_all ja_tn_default_blacklist l && unlisted_all ja_tn_char_punctuations_ja l && forallb (fun c => negb (is_punct c)) l.
Lemma jsafe_at_once l : jsafe_all_at_once l = true -> forall c, In c l -> jsafe c = true.
Proof.
  unfold jsafe_all_at_once. intros H c I. rewrite !andb_true_iff in H. destruct H as ((((H1 & H2) & H3) & H4) & H5). rewrite forallb_forall in H1, H5. unfold jsafe.
  rewrite (H1 c I), (unlisted_each _ _ _ H2 I), (unlisted_each _ _ _ H3 I), (unlisted_each _ _ _ H4 I), (H5 c I). reflexivity.
Qed.
Lemma jnames_safe : jsafe_all_at_once jnames = true.
Proof. vm_compute. reflexivity. Qed.

Lemma mchar_valid c : mchar c = true -> vchar c = true.
Proof.
  assert (A : forallb vchar jmarks = true) by (vm_compute; reflexivity). rewrite forallb_forall in A. unfold mchar. intro H. apply orb_true_iff in H as [H|H]; [exact (jchar_valid c H)|].
  apply existsb_exists in H as (e & I & E). apply N.eqb_eq in E. subst e. exact (A c I).
Qed.
Lemma jchar_mchar x : forallb jchar x = true -> forallb mchar x = true.
Proof. apply all_imp. intros c J. unfold mchar. now rewrite J. Qed.
Lemma mapp a b : forallb mchar (a ++ b) = true <-> forallb mchar a = true /\ forallb mchar b = true.
Proof. rewrite forallb_app. apply andb_true_iff. Qed.
Lemma mark_char a : existsb (N.eqb a) jmarks = true -> jchar a = false.
Proof.
  assert (A : forallb (fun c => negb (jchar c)) jmarks = true) by (vm_compute; reflexivity). rewrite forallb_forall in A. intro H. apply existsb_exists in H as (e & I & E). apply N.eqb_eq in E. subst e. apply negb_true_iff. exact (A a I).
Qed.
Section Opt.
Variable o : options.
Lemma mpre_still : still mchar (preprocessor o) = true.
Proof. destruct o as [t i p [] v]; vm_compute; reflexivity. Qed.
Lemma mpre_reads g x y w : forallb mchar x = true -> (denote (JaTnModel.pre o g) x y w <-> denote g x y w).
Proof. apply (still_pre mchar mchar_valid (preprocessor o) g mpre_still). Qed.
(** ** The tagger *)
Section Currency.
Variables c m : text.
Hypothesis C : ja_currency_name c m.
Hypothesis Narrow : ~ In 65284%N c.
Lemma jcurrency_all : forallb (fun a => negb (jchar a) && vchar a && bare a && mchar a) c = true /\ lists jcurrencies c m = true /\ c <> [].
Proof.
  pose proof C as I. unfold ja_currency_name in I. rewrite jcurrencies_eq in I. pose proof (proj1 (forallb_forall _ _) jcurrencies_checked _ I) as H. unfold jcurrency_check in H.
  assert (E : existsb (N.eqb 65284) c = false). { apply not_true_iff_false. intro X. apply existsb_exists in X as (e & J & X). apply N.eqb_eq in X. subst e. exact (Narrow J). }
  rewrite E in H. cbn [orb] in H. rewrite !andb_true_iff in H. destruct H as ((H1 & H2) & H3). split; [exact H1|]. split; [exact H2|]. now destruct c.
Qed.
Lemma jcurrency_each : forallb (fun a => negb (jchar a)) c = true /\ forallb vchar c = true /\ forallb bare c = true /\ forallb mchar c = true.
Proof. destruct jcurrency_all as (H & _). repeat apply conj; (generalize H; apply all_imp; intros a; rewrite !andb_true_iff; tauto). Qed.
Lemma jcurrency_just : just (Money.currency o) c m.
Proof.
  intros z w. unfold Money.currency. rewrite (mpre_reads _ _ _ _ (proj2 (proj2 (proj2 jcurrency_each)))). destruct jcurrency_all as (_ & L & _).
  rewrite (two_tables _ _ jcurrencies _ _ _ jcurrencies_eq), (lists_sound _ _ _ L). reflexivity.
Qed.
Lemma jname_safe : forallb jsafe m = true.
Proof.
  apply forallb_forall. intros e I. apply (jsafe_at_once jnames jnames_safe). assert (K : forallb (fun p : text * text => forallb (fun e => existsb (N.eqb e) jnames) (snd p)) jcurrencies = true) by (vm_compute; reflexivity).
  pose proof C as D. unfold ja_currency_name in D. rewrite jcurrencies_eq in D. rewrite forallb_forall in K. specialize (K _ D). cbn [snd] in K. rewrite forallb_forall in K. specialize (K e I).
  apply existsb_exists in K as (e' & J & E). apply N.eqb_eq in E. now subst e'.
Qed.
End Currency.
Lemma jcurrency_read c : forallb mchar c = true -> reads_as (Money.currency o) c -> exists m, ja_currency_name c m /\ ~ In 65284%N c.
Proof.
  intros K (z & w & H). apply (proj1 (mpre_reads _ _ _ _ K)) in H. apply (two_tables _ _ _ _ _ _ eq_refl) in H as (I & _). exists z. split; [exact I|]. intro J. rewrite forallb_forall in K. specialize (K _ J). discriminate K.
Qed.
Lemma mnumber_known b : forallb mchar b = true -> reads_as (Cardinal.number o) b -> forallb jchar b = true.
Proof.
  intros M (z & w & H). apply (proj1 (mpre_reads _ _ _ _ M)) in H. assert (R : reads (fun c => jchar c || negb (mchar c)) Cardinal.number0 = true) by (vm_compute; reflexivity).
  pose proof (reads_sound _ _ R _ _ _ H) as F. rewrite forallb_forall in *. intros c I. specialize (M c I). specialize (F c I). rewrite M, orb_false_r in F. exact F.
Qed.
Definition jmoney_body : fst := (tag_field (u "currency") (Money.currency o) + ques (delete (u " ")) + insert (u " ") + tag_field (u "value") (Cardinal.number o))%fst.
Lemma jmoney_inv x y w : denote jmoney_body x y w -> exists c g b, x = c ++ g ++ b /\ gap g /\ reads_as (Money.currency o) c /\ reads_as (Cardinal.number o) b /\ y = shown (money_fields c b).
Proof.
  intro H. unfold jmoney_body in H. apply cat_inv in H as (x1 & y1 & w1 & b & y2 & w2 & -> & -> & -> & H & Hb). apply cat_inv in H as (x3 & y3 & w3 & x4 & y4 & w4 & -> & -> & -> & H & (-> & -> & ->)).
  apply cat_inv in H as (c & y9 & w9 & g & y10 & w10 & -> & -> & -> & Hc & G). apply rmspace_denote' in G as (G & -> & ->).
  apply tag_field_spec in Hc as (_ & -> & zc & Hc). apply tag_field_spec in Hb as (_ & -> & zb & Hb). exists c, g, b. rewrite !app_nil_r, <- !app_assoc. split; [reflexivity|].
  split; [exact G|]. split; [now exists zc, w9|]. split; [now exists zb, w2|]. unfold shown, money_fields, piece. cbn [map join Datatypes.fst snd]. rewrite <- !app_assoc. reflexivity.
Qed.
Lemma jmoney_i c g b : forallb vchar c = true -> forallb vchar b = true -> gap g -> (exists z, denote (Money.currency o) c z 0%Z) -> (exists z, denote (Cardinal.number o) b z 0%Z) ->
  denote jmoney_body (c ++ g ++ b) (shown (money_fields c b)) 0%Z.
Proof.
  intros Va Vb G Ha Hb. replace (c ++ g ++ b) with (((c ++ g) ++ []) ++ b) by now rewrite !app_nil_r, <- !app_assoc.
  replace (shown (money_fields c b)) with (((piece (u "currency") (escape_value c) ++ []) ++ u " ") ++ piece (u "value") (escape_value b)) by (rewrite !app_nil_r, <- !app_assoc; reflexivity).
  change 0%Z with ((0 + 0 + 0) + 0)%Z. unfold jmoney_body. repeat apply cat_i; try (apply tagged; assumption); try (apply rmspace_denote'; auto); now cbn.
Qed.
Lemma only_jmoney : name_only (rules o) (u "money") (RuleSpec (Money.rule o) (Some 10500%Z) true).
Proof. destruct o as [[] i p f v]; PlainRules.only_tac. Qed.
(** ** Texts that begin with a currency, and the listed words *)
Definition jextends (c k : text) : bool := match skipn (List.length c) k with [] => false | r => text_eqb (firstn (List.length c) k) c && forallb jchar r end.
Definition jkeys : list text := filter (forallb mchar) (map (fun l => Datatypes.fst (entry l)) (ja_tn_default_whitelist ++ ja_tn_pyopenjtalk_transliteration)).
Lemma jno_key : forallb (fun k => forallb (fun p : text * text => negb (jextends (Datatypes.fst p) k)) jcurrencies) jkeys = true.
Proof. vm_compute. reflexivity. Qed.
Lemma listed_key x y v s : forallb mchar x = true -> s = Whitelist.rule o \/ s = Transliteration.rule o -> denote (r_tagger s) x y v -> In x jkeys.
Proof.
  intros K S H. unfold jkeys. apply filter_In. split; [|exact K]. rewrite map_app, in_app_iff, <- !(map_map entry Datatypes.fst).
  destruct S as [-> | ->]; apply PlainRules.tokens_added in H as (z & _ & H); apply tag_field_spec in H as (_ & _ & t & H); apply (proj1 (mpre_reads _ _ _ _ K)) in H; destruct H as (I & _); [left|right]; exact (in_map Datatypes.fst _ _ I).
Qed.
Lemma jmoney_first s k x y v : forallb mchar x = true -> In s (rules o) -> s_weight s = Some k -> denote (r_tagger (s_rule s)) x y v ->
  s = RuleSpec (Money.rule o) (Some 10500%Z) true \/ headed jchar x \/ In x jkeys \/ (10500 < k)%Z.
Proof.
  intros K I W H. destruct (begins mchar jchar (r_tagger (s_rule s))) eqn:E; [right; left; exact (begins_sound mchar jchar mchar_valid _ E _ _ _ K H)|].
  unfold rules in I. apply in_app_iff in I as [I|I].
  - cbn [In] in I. destruct I as [<-|[<-|[<-|[<-|[<-|[<-|[<-|[<-|[<-|[<-|[<-|[]]]]]]]]]]]]; cbn [s_weight] in W; try (injection W as <-); try discriminate W; auto; try (do 3 right; lia);
      try (exfalso; revert E; clear; destruct o as [t i p [] v]; vm_compute; discriminate). right. right. left. exact (listed_key _ _ _ _ K (or_introl eq_refl) H).
  - destruct (transliterate o); [|destruct I]. destruct I as [<-|[]]. right. right. left. exact (listed_key _ _ _ _ K (or_intror eq_refl) H).
Qed.
Lemma jcurrency_unquoted t z w : denote (Money.currency o) t z w -> forallb unquoted t = true.
Proof. apply unquoted_of. destruct o as [t' i p [] v]; vm_compute; reflexivity. Qed.
Section Money.
Variables c m a ma g : text.
Hypothesis C : ja_currency_name c m.
Hypothesis Narrow : ~ In 65284%N c.
Hypothesis A : jspoken a ma.
Hypothesis G : gap g.
Let x : text := c ++ g ++ a.
Lemma jmoney_chars : forallb mchar x = true.
Proof. unfold x. rewrite !mapp. split; [exact (proj2 (proj2 (proj2 (jcurrency_each c m C Narrow))))|]. split; [exact (jchar_mchar _ (gap_jchar _ G))|exact (jchar_mchar _ (js_jchar _ _ A))]. Qed.
Lemma jmoney_head : ~ headed jchar x.
Proof.
  destruct (jcurrency_all c m C Narrow) as (_ & _ & N). pose proof (proj1 (jcurrency_each c m C Narrow)) as J. unfold x. destruct c as [|e r]; [contradiction|]. cbn [app headed forallb] in *. intro H. rewrite H in J. discriminate J.
Qed.
Lemma jmoney_not_listed : ~ In x jkeys.
Proof.
  intro H. pose proof (proj1 (forallb_forall _ _) jno_key _ H) as K. cbn beta in K. pose proof C as D. unfold ja_currency_name in D. rewrite jcurrencies_eq in D. rewrite forallb_forall in K. specialize (K _ D).
  cbn [Datatypes.fst] in K. apply negb_true_iff in K. unfold jextends, x in K. rewrite firstn_app, firstn_all, Nat.sub_diag in K. cbn [firstn] in K. rewrite app_nil_r in K.
  rewrite skipn_app, skipn_all, Nat.sub_diag in K. cbn [skipn app] in K. destruct (g ++ a) as [|e r] eqn:E; [apply app_eq_nil in E as (_ & E); exact (jspoken_some _ _ A E)|].
  rewrite <- E, forallb_app, (gap_jchar _ G), (js_jchar _ _ A) in K. destruct (text_eqb_spec c c) as [_|X]; [discriminate K|now apply X].
Qed.
Lemma jmoney_unique c' g' b : x = c' ++ g' ++ b -> gap g' -> reads_as (Money.currency o) c' -> reads_as (Cardinal.number o) b -> c' = c /\ b = a.
Proof.
  intros E G' Rc Rb. pose proof jmoney_chars as M. rewrite E, !mapp in M. destruct M as (Mc & _ & Mb). destruct (jcurrency_read _ Mc Rc) as (m' & C' & N').
  pose proof (mnumber_known b Mb Rb) as Kb. pose proof (jnumber_inner o _ Kb Rb) as Ib. pose proof (jspoken_inner _ _ A) as Ia. apply inner_both in Ia as (_ & Ia), Ib as (_ & Ib).
  assert (Sb : b <> []). { intros ->. destruct Rb as (z & w & Rb). apply (proj1 (mpre_reads _ _ _ _ Mb)) in Rb. revert Rb. apply FstEval.eats_sound. vm_compute. reflexivity. }
  pose proof (jspoken_some _ _ A) as Sa. unfold x in E.
  assert (Hd : forall h t, gap h -> forallb jchar t = true -> t <> [] -> match h ++ t with e :: _ => negb (jchar e) | [] => false end = false).
  { intros h t [-> | ->] Kt Nt; [|reflexivity]. destruct t as [|e t]; [contradiction|]. cbn [forallb] in Kt. apply andb_true_iff in Kt as (Ke & _). cbn [app]. now rewrite Ke. }
  apply (EnNumberProofs5.split_unique (fun e => negb (jchar e))) in E as (E & E2); [|exact (proj1 (jcurrency_each _ _ C Narrow))|exact (proj1 (jcurrency_each _ _ C' N'))|exact (Hd _ _ G (js_jchar _ _ A) Sa)|exact (Hd _ _ G' Kb Sb)].
  apply gap_before in E2 as (E2 & _); try assumption. auto.
Qed.
Lemma jmoney_verbal : forallb unquoted a = true -> forallb unquoted c = true -> forall z w,
  denote ((delete (u "value: """) + Cardinal.number o + delete (u """ ")) + (delete (u "currency: """) + Money.currency o + delete (u """")))%fst
    (u "value: """ ++ a ++ u """ " ++ u "currency: """ ++ c ++ u """") z w <-> z = ma ++ m /\ w = 0%Z.
Proof.
  intros Ua Uc z w. split.
  - intro H. apply cat_inv in H as (x1 & y1 & w1 & x2 & y2 & w2 & E & -> & -> & H1 & H2). apply shed_denote in H1 as (va & -> & Ha). apply shed_denote in H2 as (vc & -> & Hc). rewrite <- !app_assoc in E.
    apply quoted_pair in E as (<- & <-); [|exact Ua|exact Uc|exact (jnumber_unquoted o _ _ _ Ha)|exact (jcurrency_unquoted _ _ _ Hc)].
    apply (jnumber_just o _ _ A) in Ha as (-> & ->). apply (jcurrency_just _ _ C Narrow) in Hc as (-> & ->). auto.
  - intros (-> & ->). change 0%Z with (0 + 0)%Z.
    replace (u "value: """ ++ a ++ u """ " ++ u "currency: """ ++ c ++ u """") with ((u "value: """ ++ a ++ u """ ") ++ (u "currency: """ ++ c ++ u """")) by now rewrite <- !app_assoc.
    apply cat_i; apply shed_denote; eexists; (split; [reflexivity|]); [now apply (jnumber_just o _ _ A)|now apply (jcurrency_just _ _ C Narrow)].
Qed.
Lemma jmoney_said : ja_said o x (marked o (ma ++ m)).
Proof.
  pose proof (jvalid _ (js_jchar _ _ A)) as Va. pose proof (jbare _ (js_jchar _ _ A)) as Ba. destruct (jcurrency_each _ _ C Narrow) as (_ & Vc & Bc & _).
  apply (ja_said_fields o (u "money") (Money.rule o) 10500 x _ (money_fields c a) [(u "value", a); (u "currency", c)] only_jmoney); try reflexivity.
  - generalize jmoney_chars. apply all_imp. exact mchar_valid.
  - unfold x. intro E. apply app_eq_nil in E as (E & _). exact (proj2 (proj2 (jcurrency_all _ _ C Narrow)) E).
  - unfold good_values, money_fields. cbn [forallb Datatypes.fst snd]. rewrite Va, Vc. reflexivity.
  - unfold money_fields. cbn [map Datatypes.fst]. repeat constructor; cbn [In]; intuition discriminate.
  - discriminate.
  - discriminate.
  - rewrite forallb_app, (js_safe _ _ A). exact (jname_safe _ _ C).
  - unfold Money.rule. cbn [r_tagger]. apply PlainRules.tokens_added. exists (shown (money_fields c a)). split; [unfold fields_token, shown; rewrite <- !app_assoc; reflexivity|].
    apply jmoney_i; try assumption; [exists m; now apply (jcurrency_just _ _ C Narrow)|exact (jspoken_reads o _ _ A)].
  - intros s k y v I W H. pose proof (Whole.nonneg_sound _ (jrules_nonneg o s I) _ _ _ H) as P. destruct (jmoney_first s k x _ v jmoney_chars I W H) as [->|[Hd|[L|L]]].
    + cbn [s_weight s_rule] in W, H. injection W as <-. split; [lia|]. intros _. unfold Money.rule in H. cbn [r_tagger] in H. apply PlainRules.tokens_added in H as (z & Ey & H).
      apply jmoney_inv in H as (c' & g' & b & E & G' & Rc & Rb & ->). apply jmoney_unique in E as (-> & ->); try assumption.
      unfold fields_token. change (u " } ") with (u " }" ++ u " ") in Ey. unfold shown in Ey. rewrite !app_assoc in Ey. apply app_inv_tail in Ey. rewrite Ey, <- !app_assoc. reflexivity.
    + exfalso. exact (jmoney_head Hd).
    + exfalso. exact (jmoney_not_listed L).
    + split; lia.
  - intros z w. unfold Money.rule. cbn [r_verbalizer].
    assert (E : fields_token (u "money") [(u "value", a); (u "currency", c)] = Money.name ++ u " { " ++ (u "value: """ ++ a ++ u """ " ++ u "currency: """ ++ c ++ u """") ++ u " }").
    { unfold fields_token, piece. cbn [map join Datatypes.fst snd]. rewrite (bare_escape _ Ba), (bare_escape _ Bc), <- !app_assoc. reflexivity. }
    rewrite E, tokens_inner. apply jmoney_verbal; [exact (bare_unquoted _ Ba)|exact (bare_unquoted _ Bc)].
Qed.
End Money.
End Opt.
