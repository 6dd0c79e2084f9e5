(** Whole times of day of the Japanese normaliser (C75). *)
From Coq Require Import List NArith ZArith Bool String Lia Arith.
From Verif Require Import Text TextFacts TokenModel Fst FstFacts FstRun GrammarModel GrammarSpec GrammarAccept NumeralSpec EnglishNumeralSpec DataJaTn JaTnModel ZhTnEndSpec ZhDateSpec ZhAmountSpec JaNumeralSpec JaAmountSpec WholeSpec.
From Verif Require Import BoundaryChar Letters Apart OneToken TokenVerbal Fields ZhNumberProofs ZhTnRead ZhTnPost ZhDate ZhDate2 ZhAmount ZhMoney ZhTime JaApart JaHead JaPost JaNumber JaNumber2 JaDate JaDate2 JaDate3 JaTnRead JaTnRead2 PropsJaDate PropsJaNumber JaFraction JaMoney JaTime JaTime2.
From Verif Require EndToEnd EnNumberProofs5 PlainRules FstEval Whole PipelineModel.
Import ListNotations.
Local Open Scope list_scope.

Lemma jshort_time p : List.length p = 1 \/ List.length p = 2 -> Forall digit_char p -> (forallb jtime_word (ja_hour_words p) && (forallb jtime_word (ja_minute_words p) && forallb jtime_word (ja_second_words p)))%bool = true.
Proof. apply (short_all (fun p => forallb jtime_word (ja_hour_words p) && (forallb jtime_word (ja_minute_words p) && forallb jtime_word (ja_second_words p)))%bool). vm_compute. reflexivity. Qed.
Lemma jhour_word h : ja_hour_text h -> forallb jtime_word (ja_hour_words h) = true.
Proof. intros (L & F & _). pose proof (jshort_time h L F) as H. rewrite !andb_true_iff in H. tauto. Qed.
Lemma jminute_word h : minute_text h -> forallb jtime_word (ja_minute_words h) = true /\ forallb jtime_word (ja_second_words h) = true.
Proof. intros (L & F & _). pose proof (jshort_time h (or_intror L) F) as H. rewrite !andb_true_iff in H. tauto. Qed.
Definition jsecond_said (so : option text) : text := match so with Some s => ja_second_words s | None => [] end.
Definition opt_noon (no : option (text * text)) : option text := match no with Some (_, t) => Some t | None => None end.
Section Opt.
Variable o : options.
Lemma trange_none x y w : forallb tchar x = true -> ~ denote (r_tagger (Range.rule o)) x y w.
Proof. apply (apart2_sound tchar tchar_valid). destruct o as [t i p [] v]; vm_compute; reflexivity. Qed.
Lemma jtime_tagged x fs : denote (Time.time o) x (shown fs) 0%Z -> denote (Time.tagger o (r_tagger (Range.rule o))) x (fields_token (u "time") fs ++ u " ") 0%Z.
Proof.
  intro H. unfold Time.tagger. rewrite <- (app_nil_r x), <- (app_nil_r (fields_token _ _ ++ _)). change 0%Z with (0 + 0)%Z. apply cat_i; [|right; cbn; auto].
  apply PlainRules.tokens_added. exists (shown fs). split; [|exact H]. unfold fields_token, shown. rewrite <- !app_assoc. reflexivity.
Qed.
Lemma jtime_single x y v : forallb tchar x = true -> denote (Time.tagger o (r_tagger (Range.rule o))) x (y ++ u " ") v -> exists z w, denote (Time.time o) x z w /\ forall fs, z = shown fs -> y = fields_token (u "time") fs.
Proof.
  intros K H. unfold Time.tagger in H. apply cat_inv in H as (x1 & y1 & w1 & x2 & y2 & w2 & -> & Ey & -> & H1 & H2). apply PlainRules.tokens_added in H1 as (z & -> & H1). apply tapp in K as (K1 & K2). destruct H2 as [H2|(-> & -> & ->)].
  - exfalso. apply cat_inv in H2 as (x3 & y3 & w3 & x4 & y4 & w4 & -> & -> & -> & H3 & H4). apply tapp in K2 as (K3 & _). exact (trange_none _ _ _ K3 H3).
  - rewrite app_nil_r in *. exists z, w1. split; [exact H1|]. intros fs ->.
    unfold fields_token. change (u " } ") with (u " }" ++ u " ") in Ey. unfold shown in Ey. rewrite !app_assoc in Ey. apply app_inv_tail in Ey. rewrite Ey, <- !app_assoc. reflexivity.
Qed.
(** ** With minutes *)
Section Said.
Variables (h m : text) (so : option text) (no : option (text * text)) (dn : text).
Hypothesis Hour : ja_hour_text h.
Hypothesis Minute : minute_text m.
Hypothesis Second : good_sec minute_text so.
Hypothesis Noon : match no with Some (g, t) => gap g /\ ja_noon_words t = Some dn | None => dn = [] end.
Let x : text := h ++ u ":" ++ m ++ jsec so ++ jnoon no.
Let d : text := dn ++ ja_hour_words h ++ ja_minute_words m ++ jsecond_said so.
Let fs' : list (text * text) := match no with Some (_, t) => [(u "noon", t)] | None => [] end ++ [(u "hour", h); (u "minute", m)] ++ match so with Some s => [(u "second", s)] | None => [] end.
Lemma jhour_fine : forallb tchar h = true /\ forallb vchar h = true /\ forallb bare h = true.
Proof. apply digits_tchar. now destruct Hour as (_ & F & _). Qed.
Lemma jminute_fine : forallb tchar m = true /\ forallb vchar m = true /\ forallb bare m = true.
Proof. apply digits_tchar. now destruct Minute as (_ & F & _). Qed.
Lemma jsecond_fine : forallb tchar (jsec so) = true /\ match so with Some s => forallb vchar s = true /\ forallb bare s = true | None => True end.
Proof. destruct so as [s|]; [|auto]. destruct Second as (_ & F & _). apply digits_tchar in F as (T & V & B). cbn [jsec]. rewrite tapp. auto. Qed.
Lemma jnoon_fine : forallb tchar (jnoon no) = true /\ forallb jtime_word dn = true /\ match no with Some (_, t) => forallb vchar t = true /\ forallb bare t = true | None => True end.
Proof. destruct no as [(g & t)|]; [|rewrite Noon; auto]. destruct Noon as (G & W). apply jnoon_said in W as (W & T & V & B & _). cbn [jnoon]. rewrite tapp. split; [|auto]. split; [destruct G as [-> | ->]; reflexivity|exact T]. Qed.
Lemma jtime_chars : forallb tchar x = true.
Proof. unfold x. rewrite !tapp. split; [apply jhour_fine|]. split; [reflexivity|]. split; [apply jminute_fine|]. split; [apply jsecond_fine|apply jnoon_fine]. Qed.
Lemma jtime_colon : In 58%N x.
Proof. unfold x. apply in_app_iff. right. now left. Qed.
Lemma jtime_safe : forallb jsafe d = true.
Proof.
  apply jtime_word_safe. unfold d. rewrite !forallb_app, (jhour_word h Hour), (proj1 (jminute_word m Minute)), (proj1 (proj2 jnoon_fine)). destruct so as [s|]; [exact (proj2 (jminute_word s Second))|reflexivity].
Qed.
Lemma jtime_reads : jtimed o x h m so no.
Proof.
  split; [reflexivity|exact jtime_chars| | | |].
  - exists (ja_hour_words h), 0%Z. apply (jhour_reads o h Hour). split; reflexivity.
  - exists (ja_minute_words m), 0%Z. apply (jminute_reads o m Minute). split; reflexivity.
  - destruct so as [s|]; [|exact I]. exists (ja_second_words s), 0%Z. apply (jsecond_reads o s Second). split; reflexivity.
  - destruct no as [(g & t)|]; [|exact I]. destruct Noon as (G & W). split; [exact G|]. exists dn, 0%Z. apply (jnoon_reads o t dn W). split; reflexivity.
Qed.
Lemma jtime_read : denote (Time.time o) x (shown (jtime_fields h m so no)) 0%Z.
Proof.
  unfold x. apply jtime_i; [apply jhour_fine|apply jminute_fine| | |exact (ZhTime.just_some _ _ _ (jhour_reads o h Hour))|exact (ZhTime.just_some _ _ _ (jminute_reads o m Minute))].
  - pose proof jsecond_fine as (_ & V). destruct so as [s|]; [|exact I]. split; [exact (proj1 V)|exact (ZhTime.just_some _ _ _ (jsecond_reads o s Second))].
  - pose proof jnoon_fine as (_ & _ & V). destruct no as [(g & t)|]; [|exact I]. destruct Noon as (G & W). split; [exact G|]. split; [exact (proj1 V)|exact (ZhTime.just_some _ _ _ (jnoon_reads o t dn W))].
Qed.
Lemma jtime_token y v : denote (Time.tagger o (r_tagger (Range.rule o))) x (y ++ u " ") v -> y = fields_token (u "time") (jtime_fields h m so no).
Proof.
  intros H. apply (jtime_single _ _ _ jtime_chars) in H as (z & w & H & Ey). apply Ey. apply (jtime_inv o _ _ _ jtime_chars) in H as [(h' & m' & so' & no' & T & ->)|(h' & t' & E & Rh & Rt & ->)].
  - now rewrite (jtimed_unique o _ _ _ _ _ _ _ _ _ jtime_reads T).
  - exfalso. pose proof jtime_chars as K. pose proof jtime_colon as J. rewrite E in K, J. apply tapp in K as (Kh & Kt). apply (jhour_fact o _ Kh) in Rh as (Rh & _). apply (jnoon_fact o _ Kt) in Rt as (_ & Rt).
    apply existsb_eqb in Rt. assert (A : forallb (forallb uncoloned) noon_texts = true) by (vm_compute; reflexivity). rewrite forallb_forall in A. specialize (A _ Rt). rewrite forallb_forall in A, Rh.
    apply in_app_iff in J as [J|J]; [specialize (Rh _ J); discriminate Rh|specialize (A _ J); discriminate A].
Qed.
Lemma jtime_verb z w : denote (delete_tokens Time.name (Time.verbalizer o)) (fields_token (u "time") fs') z w <-> z = d /\ w = 0%Z.
Proof.
  pose proof jhour_fine as (_ & _ & Bh). pose proof jminute_fine as (_ & _ & Bm). pose proof jsecond_fine as (_ & Bs). pose proof jnoon_fine as (_ & _ & Bn).
  assert (E : fields_token (u "time") fs' = Time.name ++ u " { " ++ (noon_part (opt_noon no) ++ jhour_part h ++ jminute_part m ++ second_part so) ++ u " }").
  { unfold fields_token, fs', piece, jhour_part, jminute_part. destruct no as [(g & t)|], so as [s|]; cbn [app map join Datatypes.fst snd noon_part second_part opt_noon] in *; rewrite ?(bare_escape _ Bh), ?(bare_escape _ Bm), ?(bare_escape _ (proj2 Bn)), ?(bare_escape _ (proj2 Bs)), <- ?app_assoc; reflexivity. }
  rewrite E, tokens_inner. unfold d. apply jtime_verbal.
  - destruct no as [(g & t)|]; [|exact Noon]. split; [exact (bare_unquoted _ (proj2 Bn))|exact (jnoon_reads o t dn (proj2 Noon))].
  - split; [exact (bare_unquoted _ Bh)|exact (jhour_reads o h Hour)].
  - split; [exact (bare_unquoted _ Bm)|exact (jminute_reads o m Minute)].
  - destruct so as [s|]; [|reflexivity]. split; [exact (bare_unquoted _ (proj2 Bs))|exact (jsecond_reads o s Second)].
Qed.
Lemma jtime_said : ja_said o x (marked o d).
Proof.
  apply (ja_said_fields o (u "time") (Time.rule o (r_tagger (Range.rule o))) 10500 x d (jtime_fields h m so no) fs' (only_jtime o)); try reflexivity.
  - generalize jtime_chars. apply all_imp. exact tchar_valid.
  - unfold x. intro E. apply app_eq_nil in E as (_ & E). discriminate E.
  - unfold jtime_fields. destruct so as [s|], no as [(g & t)|]; reflexivity.
  - pose proof jhour_fine as (_ & Vh & _). pose proof jminute_fine as (_ & Vm & _). pose proof jsecond_fine as (_ & Vs). pose proof jnoon_fine as (_ & _ & Vn).
    unfold good_values, jtime_fields. destruct so as [s|], no as [(g & t)|]; cbn [app forallb Datatypes.fst snd] in *; rewrite Vh, Vm, ?(proj1 Vn), ?(proj1 Vs); reflexivity.
  - unfold jtime_fields. destruct so as [s|], no as [(g & t)|]; cbn [app map Datatypes.fst]; repeat constructor; cbn [In]; intuition discriminate.
  - discriminate.
  - unfold jtime_fields, fs'. destruct so as [s|], no as [(g & t)|]; reflexivity.
  - unfold fs'. destruct so as [s|], no as [(g & t)|]; reflexivity.
  - unfold fs'. destruct so as [s|], no as [(g & t)|]; discriminate.
  - exact jtime_safe.
  - exact (jtime_tagged _ _ jtime_read).
  - intros s k y v I W H. pose proof (Whole.nonneg_sound _ (jrules_nonneg o s I) _ _ _ H) as P. destruct (jtime_first o s k x _ v jtime_chars jtime_colon I W H) as [-> |L]; [|split; lia].
    cbn [s_weight s_rule] in W, H. injection W as <-. split; [lia|]. intros _. exact (jtime_token y v H).
  - exact jtime_verb.
Qed.
End Said.
(** ** Hour and half of the day *)
Definition tdot (c : N) : bool := dig c || (c =? 46)%N.
Definition hour_noon (k : text) : bool := existsb (fun p : text * text => text_eqb (firstn (List.length (Datatypes.fst p)) k) (Datatypes.fst p) && existsb (text_eqb (skipn (List.length (Datatypes.fst p)) k)) noon_texts) jhours.
Definition tkeys : list text := filter (forallb tchar) (map (fun l => Datatypes.fst (entry l)) (ja_tn_default_whitelist ++ ja_tn_pyopenjtalk_transliteration)).
Lemma no_tkey : forallb (fun k => negb (hour_noon k)) tkeys = true.
Proof. vm_compute. reflexivity. Qed.
Definition tunits : list text := filter (forallb tchar) (map (fun l => Datatypes.fst (entry l)) (ja_tn_measure_units_en ++ ja_tn_measure_units_ja)).
Definition tunit_ok (k : text) : bool := match k with [] => false | c :: _ => negb (tdot c) && negb (existsb (text_eqb k) noon_texts) end.
Lemma no_tunit : forallb tunit_ok tunits = true.
Proof. vm_compute. reflexivity. Qed.
Section Noon.
Variables (h t dn : text).
Hypothesis Hour : ja_hour_text h.
Hypothesis Noon : ja_noon_words t = Some dn.
Let x : text := h ++ t.
Let fs : list (text * text) := [(u "hour", h); (u "noon", t)].
Lemma nhour : forallb tchar h = true /\ forallb vchar h = true /\ forallb bare h = true.
Proof. apply digits_tchar. now destruct Hour as (_ & F & _). Qed.
Lemma nnoon : In t noon_texts /\ forallb tchar t = true /\ forallb vchar t = true /\ forallb bare t = true /\ forallb jtime_word dn = true.
Proof. pose proof (jnoon_in _ _ Noon) as J. apply jnoon_said in Noon as (W & T & V & B & _). auto. Qed.
Lemma noon_chars : forallb tchar x = true.
Proof. unfold x. rewrite tapp. split; [apply nhour|apply nnoon]. Qed.
Lemma noon_letter : exists c r, t = c :: r /\ tdot c = false /\ (c =? 32)%N = false.
Proof.
  destruct nnoon as (J & _). assert (A : forallb (fun t => match t with [] => false | c :: _ => negb (tdot c) && negb (c =? 32)%N end) noon_texts = true) by (vm_compute; reflexivity).
  rewrite forallb_forall in A. specialize (A _ J). destruct t as [|c r]; [discriminate A|]. apply andb_true_iff in A as (A & B). exists c, r. split; [reflexivity|]. split; [now apply negb_true_iff|now apply negb_true_iff].
Qed.
Lemma digits_tdot a : forallb dig a = true -> forallb tdot a = true.
Proof. apply all_imp. intros c D. unfold tdot. now rewrite D. Qed.
Lemma hour_dig : forallb dig h = true.
Proof. destruct Hour as (_ & F & _). now apply digs_spec. Qed.
Lemma noon_not_confined : forallb tdot x = false.
Proof. destruct noon_letter as (c & r & E & D & _). unfold x. rewrite E, forallb_app. cbn [forallb]. now rewrite D, andb_false_r. Qed.
Lemma noon_not_key : ~ In x tkeys.
Proof.
  intro H. pose proof (proj1 (forallb_forall _ _) no_tkey _ H) as K. cbn beta in K. apply negb_true_iff in K. unfold hour_noon in K.
  assert (X : existsb (fun p : text * text => text_eqb (firstn (List.length (Datatypes.fst p)) x) (Datatypes.fst p) && existsb (text_eqb (skipn (List.length (Datatypes.fst p)) x)) noon_texts) jhours = true); [|rewrite X in K; discriminate K].
  apply existsb_exists. exists (h, ja_hour_words h). split.
  - pose proof (jhour_reads o h Hour (ja_hour_words h) 0%Z) as R. destruct R as (_ & R). specialize (R (conj eq_refl eq_refl)). apply (proj1 (tpre_reads o _ _ _ _ (proj1 nhour))) in R. now apply (one_table _ _ _ _ _ jhours_eq) in R as (R & _).
  - cbn [Datatypes.fst]. unfold x. rewrite firstn_app, firstn_all, Nat.sub_diag, skipn_app, skipn_all, Nat.sub_diag. cbn [firstn skipn app]. rewrite app_nil_r. destruct (text_eqb_spec h h) as [_|X]; [|now elim X].
    cbn [andb]. apply existsb_exists. exists t. split; [exact (proj1 nnoon)|]. destruct (text_eqb_spec t t) as [_|X]; [reflexivity|now elim X].
Qed.
Lemma noon_not_measure y w : ~ denote (r_tagger (Measure.rule o)) x y w.
Proof.
  intro H. apply PlainRules.tokens_added in H as (z & _ & H). apply tag_field_spec in H as (_ & _ & z' & H). apply (proj1 (tpre_reads o _ _ _ _ noon_chars)) in H. destruct H as [H|H].
  2:{ revert H. apply (apart2_sound tchar tchar_valid); [|exact noon_chars]. destruct o as [t' i p [] v]; vm_compute; reflexivity. }
  apply cat_inv in H as (x1 & y1 & w1 & un & y2 & w2 & E & -> & -> & H & Hu). apply cat_inv in H as (x3 & y3 & w3 & g & y4 & w4 & -> & -> & -> & H & Hg). apply cat_inv in H as (x5 & y5 & w5 & b & y6 & w6 & -> & -> & -> & Hp & Hb).
  pose proof noon_chars as K. rewrite E, !tapp in K. destruct K as (((K5 & Kb) & Kg) & Ku).
  destruct Hp as [Hp|(-> & -> & ->)].
  { revert Hp. apply (apart2_sound tchar tchar_valid); [|exact K5]. destruct o as [t' i p [] v]; vm_compute; reflexivity. }
  apply rmspace_denote' in Hg as (Hg & -> & ->).
  assert (Cb : forallb tdot b = true).
  { apply (proj1 (tpre_reads o _ _ _ _ Kb)) in Hb. revert Hb. apply (confined_sound tchar tdot tchar_valid); [vm_compute; reflexivity|exact Kb]. }
  assert (Cu : tunit_ok un = true).
  { apply (proj1 (forallb_forall _ _) no_tunit). unfold tunits. apply filter_In. split; [|exact Ku]. rewrite map_app, in_app_iff, <- !(map_map entry Datatypes.fst). destruct Hu as [(I & _)|(I & _)]; [left|right]; exact (in_map Datatypes.fst _ _ I). }
  destruct noon_letter as (c & r & Et & Dc & Sc). unfold x in E. cbn [app] in E. rewrite <- app_assoc in E.
  apply (EnNumberProofs5.split_unique tdot) in E as (_ & E); [|exact (digits_tdot _ hour_dig)|exact Cb|rewrite Et; exact Dc|].
  - destruct Hg as [-> | ->]; [|rewrite Et in E; injection E as -> _; discriminate Sc]. cbn [app] in E. subst un. destruct nnoon as (J & _). unfold tunit_ok in Cu. rewrite Et in Cu. apply andb_true_iff in Cu as (_ & Cu). apply negb_true_iff in Cu.
    rewrite <- Et in Cu. assert (X : existsb (text_eqb t) noon_texts = true) by (apply existsb_exists; exists t; split; [exact J|]; destruct (text_eqb_spec t t) as [_|X]; [reflexivity|now elim X]). rewrite X in Cu. discriminate Cu.
  - destruct Hg as [-> | ->]; [|reflexivity]. cbn [app]. destruct un as [|e r']; [reflexivity|]. unfold tunit_ok in Cu. apply andb_true_iff in Cu as (Cu & _). now apply negb_true_iff.
Qed.
Lemma tlisted s y v : s = Whitelist.rule o \/ s = Transliteration.rule o -> ~ denote (r_tagger s) x y v.
Proof.
  intros S H. apply noon_not_key. unfold tkeys. apply filter_In. split; [|exact noon_chars]. rewrite map_app, in_app_iff, <- !(map_map entry Datatypes.fst).
  destruct S as [-> | ->]; apply PlainRules.tokens_added in H as (z & _ & H); apply tag_field_spec in H as (_ & _ & z' & H); apply (proj1 (tpre_reads o _ _ _ _ noon_chars)) in H; destruct H as (I & _); [left|right]; exact (in_map Datatypes.fst _ _ I).
Qed.
Lemma noon_first s k y v : In s (rules o) -> s_weight s = Some k -> denote (r_tagger (s_rule s)) x y v -> s = RuleSpec (Time.rule o (r_tagger (Range.rule o))) (Some 10500%Z) true \/ (10500 < k)%Z.
Proof.
  intros I W H. destruct (if apart2 tchar (r_tagger (s_rule s)) then true else confined tchar tdot (r_tagger (s_rule s))) eqn:E.
  - exfalso. destruct (apart2 tchar (r_tagger (s_rule s))) eqn:A; [exact (apart2_sound tchar tchar_valid _ A _ _ _ noon_chars H)|].
    pose proof (confined_sound tchar tdot tchar_valid _ E _ _ _ noon_chars H) as F. rewrite noon_not_confined in F. discriminate F.
  - unfold rules in I. apply in_app_iff in I as [I|I].
    + cbn [In] in I. destruct I as [<-|[<-|[<-|[<-|[<-|[<-|[<-|[<-|[<-|[<-|[<-|[]]]]]]]]]]]]; cbn [s_weight] in W; try (injection W as <-); try discriminate W; auto; try (right; lia); exfalso.
      * revert E. clear. destruct o as [t' i p [] v']; vm_compute; discriminate.
      * revert E. clear. destruct o as [t' i p [] v']; vm_compute; discriminate.
      * exact (noon_not_measure _ _ H).
      * revert E. clear. destruct o as [t' i p [] v']; vm_compute; discriminate.
      * exact (tlisted _ _ _ (or_introl eq_refl) H).
    + destruct (transliterate o); [|destruct I]. destruct I as [<-|[]]. exfalso. exact (tlisted _ _ _ (or_intror eq_refl) H).
Qed.
Lemma noon_token y v : denote (Time.tagger o (r_tagger (Range.rule o))) x (y ++ u " ") v -> y = fields_token (u "time") fs.
Proof.
  intros H. apply (jtime_single _ _ _ noon_chars) in H as (z & w & H & Ey). apply Ey. apply (jtime_inv o _ _ _ noon_chars) in H as [(h' & m' & so' & no' & T & ->)|(h' & t' & E & Rh & Rt & ->)].
  - exfalso. pose proof (jt_text _ _ _ _ _ _ T) as E. assert (J : In 58%N x) by (rewrite E; apply in_app_iff; right; now left). unfold x in J.
    assert (A : forallb (forallb uncoloned) noon_texts = true) by (vm_compute; reflexivity). rewrite forallb_forall in A. specialize (A _ (proj1 nnoon)). pose proof hour_dig as D. rewrite forallb_forall in A, D.
    apply in_app_iff in J as [J|J]; [specialize (D _ J); discriminate D|specialize (A _ J); discriminate A].
  - pose proof noon_chars as K. rewrite E in K. apply tapp in K as (Kh & Kt). apply (jhour_fact o _ Kh) in Rh as (Rh & _). apply (jnoon_fact o _ Kt) in Rt as (Rt & _). unfold x in E.
    destruct noon_letter as (c & r & Et & Dc & _). assert (Dc' : dig c = false) by (unfold tdot in Dc; now apply orb_false_iff in Dc as (Dc & _)).
    apply (EnNumberProofs5.split_unique dig) in E as (-> & ->); [reflexivity|exact hour_dig|exact Rh|rewrite Et; exact Dc'|]. destruct t' as [|c' r']; [reflexivity|]. cbn [letter_head] in Rt. rewrite !andb_true_iff in Rt. apply negb_true_iff. tauto.
Qed.
Lemma noon_said_all : ja_said o x (marked o (dn ++ ja_hour_words h)).
Proof.
  destruct nhour as (_ & Vh & Bh). destruct nnoon as (_ & _ & Vt & Bt & Wd).
  apply (ja_said_fields o (u "time") (Time.rule o (r_tagger (Range.rule o))) 10500 x _ fs [(u "noon", t); (u "hour", h)] (only_jtime o)); try reflexivity.
  - generalize noon_chars. apply all_imp. exact tchar_valid.
  - unfold x. destruct noon_letter as (c & r & -> & _). intro E. apply app_eq_nil in E as (_ & E). discriminate E.
  - unfold good_values, fs. cbn [forallb Datatypes.fst snd]. rewrite Vh, Vt. reflexivity.
  - unfold fs. cbn [map Datatypes.fst]. repeat constructor; cbn [In]; intuition discriminate.
  - discriminate.
  - discriminate.
  - apply jtime_word_safe. rewrite forallb_app, Wd. exact (jhour_word h Hour).
  - apply jtime_tagged. right. unfold Time.h_noon. replace x with ((h ++ []) ++ t) by now rewrite app_nil_r. replace (shown fs) with ((piece (u "hour") (escape_value h) ++ u " ") ++ piece (u "noon") (escape_value t)) by (rewrite <- !app_assoc; reflexivity).
    change 0%Z with (0 + 0 + 0)%Z. apply cat_i; [apply cat_i; [|now cbn]|]; apply tagged; try assumption; [exact (ZhTime.just_some _ _ _ (jhour_reads o h Hour))|exact (ZhTime.just_some _ _ _ (jnoon_reads o t dn Noon))].
  - intros s k y v I W H. pose proof (Whole.nonneg_sound _ (jrules_nonneg o s I) _ _ _ H) as P. destruct (noon_first s k _ v I W H) as [-> |L]; [|split; lia].
    cbn [s_weight s_rule] in W, H. injection W as <-. split; [lia|]. intros _. exact (noon_token y v H).
  - intros z w. unfold Time.rule. cbn [r_verbalizer].
    assert (E : fields_token (u "time") [(u "noon", t); (u "hour", h)] = Time.name ++ u " { " ++ (noon_part (Some t) ++ jhour_part h) ++ u " }").
    { unfold fields_token, piece, jhour_part. cbn [map join Datatypes.fst snd noon_part]. rewrite (bare_escape _ Bh), (bare_escape _ Bt), <- !app_assoc. reflexivity. }
    rewrite E, tokens_inner. apply hnoon_verbal; (split; [now apply bare_unquoted|]); [exact (jnoon_reads o t dn Noon)|exact (jhour_reads o h Hour)].
Qed.
End Noon.
End Opt.
