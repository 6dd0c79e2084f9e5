(** Amounts of money of the Chinese normaliser (C69). *)
From Coq Require Import List NArith ZArith Bool String Lia Arith.
From Verif Require Import Text TextFacts TokenModel Fst FstFacts FstRun GrammarModel GrammarSpec GrammarAccept NumeralSpec EnglishNumeralSpec DataZhTn ZhTnModel ZhTnEndSpec ZhDateSpec ZhAmountSpec WholeSpec.
From Verif Require Import BoundaryChar Letters Apart OneToken TokenVerbal Fields ZhNumberProofs ZhTnRead ZhTnTag ZhTnPost PropsZhTnEnd ZhWhole ZhDate ZhDate2 ZhAmount.
From Verif Require EndToEnd EnNumberProofs5 PlainRules FstEval.
Import ListNotations.
Local Open Scope list_scope.

Definition currencies : list (text * text) := Eval vm_compute in map entry zh_tn_money_code ++ map entry zh_tn_money_symbol.
Lemma currencies_eq : map entry zh_tn_money_code ++ map entry zh_tn_money_symbol = currencies.
Proof. vm_compute. reflexivity. Qed.
Definition currency_char (c : N) : bool := existsb (fun p : text * text => existsb (N.eqb c) (Datatypes.fst p)) currencies.
Definition money_char (c : N) : bool := known c || (c =? 32)%N || currency_char c.
(** What a number and a date are made of. *)
Definition number_char (c : N) : bool := wide c || known c || existsb (N.eqb c) (u "约人均％＋－±．").
Definition date_char (c : N) : bool := (wide c || (c =? 47) || (c =? 45) || (c =? 46) || (c =? 126))%N.
Definition currency_check (p : text * text) : bool := let (c, m) := p in
  forallb (fun a => negb (amount_char a) && negb (number_char a) && negb (date_char a) && vchar a && bare a) c && lists currencies c m && match c with [] => false | _ => true end.

(** Many characters at once the postprocessor leaves alone: the tables are read once. *)
Definition unlisted_all (lines : list string) (l : text) : bool := forallb (fun e : text * text => match Datatypes.fst e with [] => true | a :: _ => negb (existsb (N.eqb a) l) end) (map entry lines).
Definition all_in (cs l : text) : bool := forallb (fun c => existsb (N.eqb c) cs) l.
Definition safe_all_at_once (l : text) : bool :=
  forallb vchar l && unlisted_all zh_tn_char_traditional_to_simple l && unlisted_all zh_tn_default_blacklist l && unlisted_all zh_tn_char_punctuations_zh l && forallb (fun c => negb (is_punct c)) l
  && unlisted_all zh_tn_char_fullwidth_to_halfwidth l && all_in (characters zh_tn_char_charset_national_standard_2013_8105) l.
Lemma unlisted_each lines l c : unlisted_all lines l = true -> In c l -> unlisted lines c = true.
Proof.
  unfold unlisted_all, unlisted. rewrite !forallb_forall. intros A I e J. specialize (A e J). destruct (Datatypes.fst e) as [|a r]; [reflexivity|]. apply negb_true_iff in A. apply negb_true_iff.
  destruct (N.eqb_spec a c) as [->|]; [|reflexivity]. symmetry. rewrite <- A. apply existsb_exists. exists c. split; [exact I|apply N.eqb_refl].
Qed.
Lemma safe_at_once l : safe_all_at_once l = true -> forall c, In c l -> safe c = true.
Proof.
  unfold safe_all_at_once. intros H c I. apply conj_all in H as (H1 & H2 & H3 & H4 & H5 & H6 & H7). unfold all_in in H7. rewrite forallb_forall in H1, H5, H7. unfold safe, charset, in_lines.
  rewrite (H1 c I), (unlisted_each _ _ _ H2 I), (unlisted_each _ _ _ H3 I), (unlisted_each _ _ _ H4 I), (H5 c I), (unlisted_each _ _ _ H6 I), (H7 c I). reflexivity.
Qed.
Definition names : text := Eval vm_compute in nodup N.eq_dec (flat_map snd currencies).
Lemma names_safe : safe_all_at_once names = true.
Proof. vm_compute. reflexivity. Qed.
Definition keys : list text := Eval vm_compute in u "儿" :: map (fun l => Datatypes.fst (entry l)) (zh_tn_default_whitelist ++ zh_tn_erhua_whitelist).
Definition extends (k c : text) : bool := text_eqb (firstn (List.length c) k) c && forallb amount_char (skipn (List.length c) k).
Lemma currencies_checked : forallb currency_check currencies = true.
Proof. vm_compute. reflexivity. Qed.
Lemma no_key : forallb (fun k => forallb (fun p : text * text => negb (extends k (Datatypes.fst p))) currencies) keys = true.
Proof. vm_compute. reflexivity. Qed.

(** ** The tagger *)
Lemma currency_all c m : currency_name c m -> forallb (fun a => negb (amount_char a) && negb (number_char a) && negb (date_char a) && vchar a && bare a) c = true /\ lists currencies c m = true /\ c <> [].
Proof.
  unfold currency_name. rewrite currencies_eq. intro I. pose proof (proj1 (forallb_forall _ _) currencies_checked _ I) as H. unfold currency_check in H.
  rewrite !andb_true_iff in H. destruct H as ((H1 & H2) & H3). split; [exact H1|]. split; [exact H2|]. now destruct c.
Qed.
Lemma currency_just c m : currency_name c m -> just Money.currency c m.
Proof.
  intros C z w. apply currency_all in C as (_ & C & _). unfold Money.currency. rewrite (two_tables _ _ currencies _ _ _ currencies_eq), (lists_sound _ _ _ C). reflexivity.
Qed.
Lemma currency_read c : reads_as Money.currency c -> exists m, currency_name c m.
Proof. intros (z & w & H). apply (two_tables _ _ _ _ _ _ eq_refl) in H as (I & _). now exists z. Qed.
Lemma currency_foreign c m a : currency_name c m -> In a c -> amount_char a = false /\ number_char a = false /\ date_char a = false /\ currency_char a = true.
Proof.
  intros C I. pose proof C as D. apply currency_all in C as (C & _). rewrite forallb_forall in C. specialize (C a I). rewrite !andb_true_iff, !negb_true_iff in C. repeat apply conj; try tauto.
  unfold currency_name in D. rewrite currencies_eq in D. unfold currency_char. apply existsb_exists. exists (c, m). split; [exact D|]. cbn [Datatypes.fst]. apply existsb_exists. exists a. split; [exact I|apply N.eqb_refl].
Qed.
Lemma currency_valid c m : currency_name c m -> forallb vchar c = true /\ forallb bare c = true.
Proof. intro C. apply currency_all in C as (C & _). split; (generalize C; apply all_imp; intros a H; rewrite !andb_true_iff in H; tauto). Qed.
Lemma currency_chars c m : currency_name c m -> forallb money_char c = true.
Proof. intros C. apply forallb_forall. intros a I. destruct (currency_foreign _ _ _ C I) as (_ & _ & _ & H). unfold money_char. now rewrite H, orb_true_r. Qed.
Lemma foreign_char a : currency_char a = true -> amount_char a = false /\ number_char a = false.
Proof.
  unfold currency_char. intro H. apply existsb_exists in H as ((c & m) & I & H). cbn [Datatypes.fst] in H. apply existsb_exists in H as (b & J & E). apply N.eqb_eq in E. subst b.
  destruct (currency_foreign c m a) as (A & B & _); [unfold currency_name; now rewrite currencies_eq|exact J|auto].
Qed.
Lemma number_known b : forallb money_char b = true -> reads_as Cardinal.number b -> forallb known b = true.
Proof.
  assert (R : reads number_char Cardinal.number = true) by (vm_compute; reflexivity). intros M (z & w & H). pose proof (reads_sound _ _ R _ _ _ H) as Nb. pose proof (number_inner b (ex_intro _ z (ex_intro _ w H))) as Ib.
  rewrite forallb_forall in *. intros c I. specialize (M c I). specialize (Nb c I). specialize (Ib c I). unfold money_char in M. rewrite !orb_true_iff in M. destruct M as [[M|M]|M]; [exact M| |].
  - apply N.eqb_eq in M. subst c. discriminate Ib.
  - apply foreign_char in M as (_ & M). rewrite M in Nb. discriminate Nb.
Qed.
Lemma rmspace_denote' x y w : denote (ques (delete (u " "))) x y w <-> gap x /\ y = [] /\ w = 0%Z.
Proof. exact (rmspace_denote x y w). Qed.
Definition money_fields (c a : text) : list (text * text) := [(u "currency", c); (u "value", a)].
Definition money_body : fst := (tag_field (u "currency") Money.currency + ques (delete (u " ")) + insert (u " ") + tag_field (u "value") Money.number)%fst.
Lemma money_inv x y w : denote money_body x y w -> exists c g b, x = c ++ g ++ b /\ gap g /\ reads_as Money.currency c /\ reads_as Cardinal.number b /\ y = shown (money_fields c b).
Proof.
  intro H. unfold money_body in H. apply cat_inv in H as (x1 & y1 & w1 & b & y2 & w2 & -> & -> & -> & H & Hb). apply cat_inv in H as (x3 & y3 & w3 & x4 & y4 & w4 & -> & -> & -> & H & (-> & -> & ->)).
  apply cat_inv in H as (c & y9 & w9 & g & y10 & w10 & -> & -> & -> & Hc & G). apply rmspace_denote' in G as (G & -> & ->).
  apply tag_field_spec in Hc as (_ & -> & zc & Hc). apply tag_field_spec in Hb as (_ & -> & zb & Hb). exists c, g, b. rewrite !app_nil_r, <- !app_assoc. split; [reflexivity|].
  split; [exact G|]. split; [now exists zc, w9|]. split; [now exists zb, w2|]. unfold shown, money_fields, piece. cbn [map join Datatypes.fst snd]. rewrite <- !app_assoc. reflexivity.
Qed.
Lemma money_i c g b : forallb vchar c = true -> forallb vchar b = true -> gap g -> (exists z, denote Money.currency c z 0%Z) -> (exists z, denote Cardinal.number b z 0%Z) ->
  denote money_body (c ++ g ++ b) (shown (money_fields c b)) 0%Z.
Proof.
  intros Va Vb G Ha Hb. replace (c ++ g ++ b) with (((c ++ g) ++ []) ++ b) by now rewrite !app_nil_r, <- !app_assoc.
  replace (shown (money_fields c b)) with (((piece (u "currency") (escape_value c) ++ []) ++ u " ") ++ piece (u "value") (escape_value b)) by (rewrite !app_nil_r, <- !app_assoc; reflexivity).
  change 0%Z with ((0 + 0 + 0) + 0)%Z. unfold money_body. repeat apply cat_i; try (apply tagged; assumption); try (apply rmspace_denote'; auto); now cbn.
Qed.
Lemma only_money o : name_only (rules o) (u "money") (RuleSpec Money.rule (Some 10500%Z) true).
Proof. destruct o as [i [] t p f v]; PlainRules.only_tac. Qed.
Lemma money_first o s k x y v : forallb money_char x = true -> In s (rules o) -> s_weight s = Some k -> denote (r_tagger (s_rule s)) x y v ->
  s = RuleSpec (Date.rule (r_tagger Range.rule)) (Some 10200%Z) true \/ (exists b, s = RuleSpec (Whitelist.rule b) (Some 10300%Z) true) \/ s = RuleSpec Money.rule (Some 10500%Z) true \/ (10500 < k)%Z.
Proof.
  intros K I W H. unfold rules in I. cbn [In] in I.
  assert (As : apart money_char (r_tagger Sport.rule) = true) by (vm_compute; reflexivity).
  assert (Af : apart money_char (r_tagger Fraction.rule) = true) by (vm_compute; reflexivity).
  assert (Ae : apart money_char (r_tagger Measure.rule) = true) by (vm_compute; reflexivity).
  assert (At : apart money_char (r_tagger (Time.rule (r_tagger Range.rule))) = true) by (vm_compute; reflexivity).
  destruct I as [<-|[<-|[<-|[<-|[<-|[<-|[<-|[<-|[<-|[<-|[<-|[]]]]]]]]]]]]; cbn [s_weight s_rule] in W, H; try (injection W as <-); try discriminate W; eauto; try (do 3 right; lia); exfalso; revert H; apply apart_known with money_char; auto.
Qed.
Lemma date_chars x y v : denote (Date.tagger (r_tagger Range.rule)) x y v -> forallb date_char x = true.
Proof. assert (R : reads date_char (Date.tagger (r_tagger Range.rule)) = true) by (vm_compute; reflexivity). exact (reads_sound _ _ R _ _ _). Qed.
Lemma whitelist_keys b x y v : denote (r_tagger (Whitelist.rule b)) x y v -> In x keys.
Proof.
  unfold Whitelist.rule. cbn [r_tagger]. intro H. apply PlainRules.tokens_added in H as (z & _ & H). destruct H as [H|H].
  - destruct H as (w & _ & H). apply cat_inv in H as (x1 & y1 & w1 & x2 & y2 & w2 & -> & _ & _ & H & (-> & _)). apply cat_inv in H as (x3 & y3 & w3 & x4 & y4 & w4 & -> & _ & _ & (-> & _) & (-> & _)). rewrite app_nil_r. left. reflexivity.
  - apply tag_field_spec in H as (_ & _ & t & H). right. unfold Whitelist.whitelist in H.
    assert (E : map (fun l => Datatypes.fst (entry l)) (zh_tn_default_whitelist ++ zh_tn_erhua_whitelist) = tl keys) by (vm_compute; reflexivity). change (In x (tl keys)). rewrite <- E.
    rewrite map_app, in_app_iff, <- !(map_map entry Datatypes.fst). destruct H as [(I & _)|(I & _)]; [left|right]; exact (in_map Datatypes.fst _ _ I).
Qed.
Section Money.
Variables c m a ma g : text.
Hypothesis C : currency_name c m.
Hypothesis A : spoken a ma.
Hypothesis G : gap g.
Let x : text := c ++ g ++ a.
Lemma money_chars : forallb money_char x = true.
Proof.
  unfold x. rewrite !forallb_app, (currency_chars _ _ C). rewrite (all_imp known money_char a) with (2 := sp_known _ _ A) by (intros e K; unfold money_char; now rewrite K). destruct G as [-> | ->]; reflexivity.
Qed.
Lemma money_head : exists e r, x = e :: r /\ In e c.
Proof. destruct (currency_all _ _ C) as (_ & _ & N). unfold x. destruct c as [|e r]; [contradiction|]. exists e, (r ++ g ++ a). split; [reflexivity|now left]. Qed.
Lemma money_not_phone : ~ phone_text x.
Proof.
  intro P. apply phone_texts in P. destruct money_head as (e & r & E & I). rewrite E in P. cbn [forallb] in P. apply andb_true_iff in P as (P & _).
  destruct (currency_foreign _ _ _ C I) as (_ & F & _). assert (K : forallb (fun p : text * text => forallb (fun e => negb (phone_char e)) (Datatypes.fst p)) currencies = true) by (vm_compute; reflexivity).
  unfold currency_name in C. rewrite currencies_eq in C. rewrite forallb_forall in K. specialize (K _ C). cbn [Datatypes.fst] in K. rewrite forallb_forall in K. specialize (K e I). rewrite P in K. discriminate K.
Qed.
Lemma money_not_date y v : ~ denote (Date.tagger (r_tagger Range.rule)) x y v.
Proof.
  intro H. apply date_chars in H. destruct money_head as (e & r & E & I). rewrite E in H. cbn [forallb] in H. apply andb_true_iff in H as (H & _).
  destruct (currency_foreign _ _ _ C I) as (_ & _ & D & _). rewrite D in H. discriminate H.
Qed.
Lemma money_not_listed b y v : ~ denote (r_tagger (Whitelist.rule b)) x y v.
Proof.
  intro H. apply whitelist_keys in H. pose proof (proj1 (forallb_forall _ _) no_key _ H) as K. cbn beta in K. pose proof C as D. unfold currency_name in D. rewrite currencies_eq in D. rewrite forallb_forall in K. specialize (K _ D).
  cbn [Datatypes.fst] in K. apply negb_true_iff in K. unfold extends, x in K. rewrite firstn_app, firstn_all, Nat.sub_diag in K. cbn [firstn] in K. rewrite app_nil_r in K.
  rewrite skipn_app, skipn_all, Nat.sub_diag in K. cbn [skipn app] in K. rewrite forallb_app, (proj1 (gap_amount _ G)), (spoken_amount _ _ A) in K. destruct (text_eqb_spec c c) as [_|X]; [discriminate K|now apply X].
Qed.
Lemma money_unique c' g' b : x = c' ++ g' ++ b -> gap g' -> reads_as Money.currency c' -> reads_as Cardinal.number b -> c' = c /\ b = a.
Proof.
  intros E G' Rc Rb. destruct (currency_read _ Rc) as (m' & C'). assert (Mb : forallb money_char b = true) by (pose proof money_chars as M; rewrite E, !forallb_app in M; rewrite !andb_true_iff in M; tauto).
  pose proof (number_known b Mb Rb) as Kb. pose proof (number_inner _ Rb) as Ib. pose proof (spoken_inner _ _ A) as Ia. apply inner_both in Ia as (_ & Ia), Ib as (_ & Ib).
  assert (Sb : b <> []). { intros ->. destruct Rb as (z & w & Rb). revert Rb. apply FstEval.eats_sound. vm_compute. reflexivity. }
  pose proof (spoken_some _ _ A) as Sa. unfold x in E.
  assert (F : forall c0 m0, currency_name c0 m0 -> forallb (fun e => negb (amount_char e)) c0 = true) by (intros c0 m0 C0; apply forallb_forall; intros e I; destruct (currency_foreign _ _ _ C0 I) as (-> & _); reflexivity).
  assert (Hd : forall h t, gap h -> forallb known t = true -> t <> [] -> match h ++ t with e :: _ => negb (amount_char e) | [] => false end = false).
  { intros h t [-> | ->] Kt Nt; [|reflexivity]. destruct t as [|e t]; [contradiction|]. cbn [forallb] in Kt. apply andb_true_iff in Kt as (Ke & _). cbn [app]. unfold amount_char. now rewrite Ke. }
  apply (EnNumberProofs5.split_unique (fun e => negb (amount_char e))) in E as (E & E2); [|exact (F _ _ C)|exact (F _ _ C')|exact (Hd _ _ G (sp_known _ _ A) Sa)|exact (Hd _ _ G' Kb Sb)].
  apply gap_before in E2 as (E2 & _); try assumption. auto.
Qed.
Lemma currency_unquoted t z w : denote Money.currency t z w -> forallb unquoted t = true.
Proof. assert (R : reads unquoted Money.currency = true) by (vm_compute; reflexivity). exact (reads_sound _ _ R _ _ _). Qed.
Lemma money_verbal : forallb unquoted a = true -> forallb unquoted c = true -> forall z w,
  denote ((delete (u "value: """) + Money.number + delete (u """ ")) + (delete (u "currency: """) + Money.currency + delete (u """")))%fst
    (u "value: """ ++ a ++ u """ " ++ u "currency: """ ++ c ++ u """") z w <-> z = ma ++ m /\ w = 0%Z.
Proof.
  intros Ua Uc z w. split.
  - intro H. apply cat_inv in H as (x1 & y1 & w1 & x2 & y2 & w2 & E & -> & -> & H1 & H2). apply shed_denote in H1 as (va & -> & Ha). apply shed_denote in H2 as (vc & -> & Hc). rewrite <- !app_assoc in E.
    apply quoted_pair in E as (<- & <-); [|exact Ua|exact Uc|exact (number_unquoted _ _ _ Ha)|exact (currency_unquoted _ _ _ Hc)].
    apply (sp_reads _ _ A) in Ha as (-> & ->). apply (currency_just _ _ C) in Hc as (-> & ->). auto.
  - intros (-> & ->). change 0%Z with (0 + 0)%Z.
    replace (u "value: """ ++ a ++ u """ " ++ u "currency: """ ++ c ++ u """") with ((u "value: """ ++ a ++ u """ ") ++ (u "currency: """ ++ c ++ u """")) by now rewrite <- !app_assoc.
    apply cat_i; apply shed_denote; eexists; (split; [reflexivity|]); [now apply (sp_reads _ _ A)|now apply (currency_just _ _ C)].
Qed.
Lemma name_safe : forallb safe m = true.
Proof.
  apply forallb_forall. intros e I. apply (safe_at_once names names_safe). assert (K : forallb (fun p : text * text => forallb (fun e => existsb (N.eqb e) names) (snd p)) currencies = true) by (vm_compute; reflexivity).
  pose proof C as D. unfold currency_name in D. rewrite currencies_eq in D. rewrite forallb_forall in K. specialize (K _ D). cbn [snd] in K. rewrite forallb_forall in K. specialize (K e I).
  apply existsb_exists in K as (e' & J & E). apply N.eqb_eq in E. now subst e'.
Qed.
Lemma money_said : said_as x (ma ++ m).
Proof.
  pose proof (known_valid _ (sp_known _ _ A)) as Va. pose proof (known_bare _ (sp_known _ _ A)) as Ba. destruct (currency_valid _ _ C) as (Vc & Bc).
  apply (said_fields (u "money") Money.rule 10500 x _ (money_fields c a) [(u "value", a); (u "currency", c)] only_money); try reflexivity.
  - unfold x. rewrite !forallb_app, Vc, Va, (proj2 (gap_amount _ G)). reflexivity.
  - exact money_not_phone.
  - unfold good_values, money_fields. cbn [forallb Datatypes.fst snd]. rewrite Va, Vc. reflexivity.
  - unfold money_fields. cbn [map Datatypes.fst]. repeat constructor; cbn [In]; intuition discriminate.
  - discriminate.
  - discriminate.
  - rewrite forallb_app, (all_safe _ (sp_words _ _ A)). exact name_safe.
  - unfold Money.rule. cbn [r_tagger]. apply PlainRules.tokens_added. exists (shown (money_fields c a)). split; [unfold fields_token, shown; rewrite <- !app_assoc; reflexivity|].
    apply money_i; try assumption; [exists m; now apply (currency_just _ _ C)|exact (spoken_reads _ _ A)].
  - intros o s k y v I W H. pose proof (whole_no_less o s x _ v I money_not_phone H) as P. destruct (money_first o s k x _ v money_chars I W H) as [->|[(b & ->)|[-> |L]]]; [| | |split; lia].
    + exfalso. exact (money_not_date _ _ H).
    + exfalso. exact (money_not_listed _ _ _ H).
    + cbn [s_weight s_rule] in W, H. injection W as <-. split; [lia|]. intros _. unfold Money.rule in H. cbn [r_tagger] in H. apply PlainRules.tokens_added in H as (z & Ey & H).
      apply money_inv in H as (c' & g' & b & E & G' & Rc & Rb & ->). apply money_unique in E as (-> & ->); try assumption.
      unfold fields_token. change (u " } ") with (u " }" ++ u " ") in Ey. unfold shown in Ey. rewrite !app_assoc in Ey. apply app_inv_tail in Ey. rewrite Ey, <- !app_assoc. reflexivity.
  - intros z w. unfold Money.rule. cbn [r_verbalizer].
    assert (E : fields_token (u "money") [(u "value", a); (u "currency", c)] = Money.name ++ u " { " ++ (u "value: """ ++ a ++ u """ " ++ u "currency: """ ++ c ++ u """") ++ u " }").
    { unfold fields_token, piece. cbn [map join Datatypes.fst snd]. rewrite (bare_escape _ Ba), (bare_escape _ Bc), <- !app_assoc. reflexivity. }
    rewrite E, tokens_inner. apply money_verbal; [exact (bare_unquoted _ Ba)|exact (bare_unquoted _ Bc)].
Qed.
End Money.
