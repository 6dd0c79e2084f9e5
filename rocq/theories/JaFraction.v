(** Numbers inside other texts of the Japanese normaliser, and written fractions (C73, C74). *)
From Coq Require Import List NArith ZArith Bool String Lia Arith.
From Verif Require Import Text TextFacts TokenModel Fst FstFacts FstRun GrammarModel GrammarSpec GrammarAccept NumeralSpec EnglishNumeralSpec DataJaTn JaTnModel ZhTnEndSpec ZhDateSpec ZhAmountSpec JaNumeralSpec JaAmountSpec WholeSpec.
From Verif Require Import BoundaryChar Letters Apart OneToken TokenVerbal Fields ZhNumberProofs ZhTnRead ZhDate ZhDate2 ZhAmount JaApart JaPost JaNumber JaNumber2 JaDate JaDate2 JaDate3 JaTnRead JaTnRead2 PropsJaDate PropsJaNumber.
From Verif Require EndToEnd EnNumberProofs5 PlainRules FstEval Whole PipelineModel.
Import ListNotations.
Local Open Scope list_scope.

(** ** A number the rules read in one way *)
Record jspoken (x m : text) : Prop := Jspoken {
  js_chars : forallb nchar x = true;
  js_reads : just Cardinal.number0 x m;
  js_safe : forallb jsafe m = true;
  js_shape : exists s r, x = s ++ r /\ (s = [] \/ exists c, s = [c] /\ dig c = false) /\ forallb (fun c => ichar c || (c =? 46)%N) r = true /\ r <> [] }.
Lemma number_jspoken s sw t n x f m : ja_sign_words s = Some sw -> decimal t n -> (n < 100000000)%N -> grouped t x -> Forall digit_char f ->
  just Cardinal.integer x m -> japanese_value m = Some n -> jspoken (numeral s x f) (sw ++ m ++ ja_point_words f).
Proof.
  intros S D L G F J V. pose proof (grouped_ichar t x (proj1 (proj2 D)) G) as X. pose proof (grouped_nonempty t x (proj1 D) G) as Nx. split.
  - exact (numeral_nchar s x f sw S X F).
  - eapply number_reads; eassumption.
  - rewrite !forallb_app, (jword_safe sw (proj1 (jsign_cases s sw S))), (value_safe m n V), (point_words_safe f F). reflexivity.
  - exists s, (x ++ points f). split; [reflexivity|]. split; [|split].
    + destruct (jsign_cases s sw S) as (_ & [(-> & _)|(c & -> & C)]); [auto|]. right. exists c. split; [reflexivity|]. destruct C as [->|[->| ->]]; reflexivity.
    + rewrite forallb_app. rewrite (all_imp ichar _ x) with (2 := X) by (intros c ->; reflexivity). destruct f as [|c f]; [reflexivity|].
      unfold points. cbn [andb]. rewrite forallb_app. rewrite (all_imp ichar _ (c :: f)) with (2 := digits_ichar _ F) by (intros a ->; reflexivity). reflexivity.
    + intro E. apply app_eq_nil in E as (E & _). contradiction.
Qed.
Lemma jspoken_some x m : jspoken x m -> x <> [].
Proof. intros H. destruct (js_shape _ _ H) as (s & r & -> & _ & _ & N). intro E. apply app_eq_nil in E as (_ & E). contradiction. Qed.
Lemma nchar_jchar x : forallb nchar x = true -> forallb jchar x = true.
Proof. apply all_imp. unfold nchar. intros c H. now apply andb_true_iff in H. Qed.
Lemma js_jchar x m : jspoken x m -> forallb jchar x = true.
Proof. intro H. exact (nchar_jchar _ (js_chars _ _ H)). Qed.
Lemma number_inner0 x y w : denote Cardinal.number0 x y w -> forallb inner x = true.
Proof. assert (R : reads inner Cardinal.number0 = true) by (vm_compute; reflexivity). exact (reads_sound _ _ R _ _ _). Qed.
Lemma jspoken_inner x m : jspoken x m -> forallb inner x = true.
Proof. intro H. apply (number_inner0 x m 0%Z). now apply (js_reads _ _ H). Qed.
Lemma jspoken_fine x m : jspoken x m -> fine false x = true.
Proof.
  assert (K : forall r, forallb (fun c => ichar c || (c =? 46)%N) r = true -> forall d, fine d r = true).
  { intros r. induction r as [|c r IH]; intros F d; [reflexivity|]. cbn [forallb fine] in *. apply andb_true_iff in F as (C & F). rewrite (IH F), andb_true_r.
    destruct (N.eqb_spec c 45) as [->|]; [discriminate C|now rewrite andb_false_r]. }
  intro H. destruct (js_shape _ _ H) as (s & r & -> & S & F & _). rewrite fine_app. destruct S as [-> |(c & -> & _)]; cbn [fine after andb negb]; now apply K.
Qed.
(** ** Dates among such texts *)
Lemma jdated_written x fs : jdated x fs -> ja_written_date x.
Proof.
  intros [a s b s' c (t & Y) M D S S'|a s b s' c D M (t & Y) S S'|a s b Y M S|a s b M Y S|a s b M D S].
  - left. exists t, a, s, b, s', c. auto 10.
  - left. exists t, c, s, b, s', a. auto 10.
  - right. exists b, s, a. auto 10.
  - right. exists a, s, b. auto 10.
  - right. exists a, s, b. auto 10.
Qed.
Lemma year_after d a : is_year a -> after d a = true.
Proof.
  intros (t & Y). apply year_shape in Y as (c & g & d1 & e & f & _ & -> & _ & _ & _ & De & Df). change (c :: g ++ [d1; e; f]) with ((c :: g) ++ [d1; e; f]). rewrite after_app. cbn [after]. unfold digit_char in Df. unfold dig. apply andb_true_iff. rewrite !N.leb_le. lia.
Qed.
Lemma short_after d a : (List.length a = 1 \/ List.length a = 2) -> Forall digit_char a -> after d a = true.
Proof. intros L F. apply digits_after; [exact F|]. intros ->. cbn in L. lia. Qed.
Lemma day_after d a : day_like a -> after d a = true.
Proof. intros (L & F & _). now apply short_after. Qed.
Lemma zero_after d a : zero_month a -> after d a = true.
Proof. intro Z. apply zero_month_text in Z as (L & F & _). now apply short_after. Qed.
Lemma jdated_after d x fs : jdated x fs -> after d x = true.
Proof.
  intros [a s b s' c Y M D S S'|a s b s' c D M Y S S'|a s b Y M S|a s b M Y S|a s b M D S].
  1, 2: change (a ++ s :: b ++ s' :: c) with (a ++ (s :: b) ++ ([s'] ++ c)); rewrite !after_app; auto using year_after, day_after.
  all: change (a ++ s :: b) with (a ++ [s] ++ b); rewrite !after_app; auto using year_after, day_after, zero_after.
Qed.
Section Opt.
Variable o : options.
Lemma simple_after d x y w : forallb jchar x = true -> denote (Date.simple_date o) x y w -> after d x = true.
Proof.
  intros K H. unfold Date.simple_date in H. destruct H as [[H|H]|H]; apply (jparts2 o _ _ _ _ _ _ _ K) in H as (a & s & b & -> & S & _ & H1 & H2);
    change (a ++ s :: b) with (a ++ [s] ++ b) in *; apply japp in K as (_ & K); apply japp in K as (_ & K); rewrite !after_app.
  all: first [apply year_after; exact (g_year_known o _ K H2) | apply day_after; exact (g_day_known o _ K H2) | apply zero_after; exact (g_mm_known o _ K H2) | destruct (g_month_known o _ K H2) as (L & F & _); now apply short_after].
Qed.
Lemma range_fine x y w : forallb jchar x = true -> denote (r_tagger (Range.rule o)) x y w -> x = u "-".
Proof.
  intros K H. apply PlainRules.tokens_added in H as (z & _ & H). apply tag_field_spec in H as (_ & _ & z' & H). apply (proj1 (pre_reads o _ _ _ _ K)) in H. destruct H as [[(-> & _)|(-> & _)]|(-> & _)]; [reflexivity|discriminate K..].
Qed.
Lemma jdate_written x y v : forallb jchar x = true -> fine false x = true -> denote (Date.tagger o (r_tagger (Range.rule o))) x y v -> ja_written_date x.
Proof.
  intros K F [H|H].
  - apply cat_inv in H as (x1 & y1 & w1 & x2 & y2 & w2 & -> & Ey & -> & H1 & H2). apply japp in K as (K1 & K2). apply PlainRules.tokens_added in H1 as (z & -> & H1). apply (jdate_inv o _ _ _ K1) in H1 as (fs1 & D1 & ->).
    destruct H2 as [H2|(-> & -> & ->)]; [|rewrite app_nil_r; exact (jdated_written _ _ D1)]. exfalso. apply cat_inv in H2 as (x3 & y3 & w3 & x4 & y4 & w4 & -> & -> & -> & H3 & H4). apply japp in K2 as (K3 & K4).
    apply (range_fine _ _ _ K3) in H3 as ->. rewrite fine_app, (jdated_after _ _ _ D1) in F. apply andb_true_iff in F as (_ & F). discriminate F.
  - exfalso. apply cat_inv in H as (x1 & y1 & w1 & x2 & y2 & w2 & -> & Ey & -> & H & H2). apply japp in K as (K & K2). apply cat_inv in H as (x3 & y3 & w3 & x4 & y4 & w4 & -> & -> & -> & H3 & H4). apply japp in K as (K3 & K4).
    apply PlainRules.tokens_added in H3 as (z' & _ & H3). apply (range_fine _ _ _ K4) in H4 as ->. rewrite <- app_assoc, fine_app, (simple_after _ _ _ _ K3 H3) in F. apply andb_true_iff in F as (_ & F). discriminate F.
Qed.
(** ** Fractions *)
Lemma jnumber_just x m : jspoken x m -> just (Cardinal.number o) x m.
Proof. intros H z w. rewrite <- (js_reads _ _ H z w). exact (pre_reads o _ _ _ _ (js_jchar _ _ H)). Qed.
Lemma jnumber_inner x : forallb jchar x = true -> reads_as (Cardinal.number o) x -> forallb inner x = true.
Proof. intros K (z & w & H). apply (proj1 (pre_reads o _ _ _ _ K)) in H. exact (number_inner0 _ _ _ H). Qed.
Definition jfraction_body : fst := (tag_field (u "numerator") (Fraction.number o) + Fraction.rmspace + Fraction.slash o + Fraction.rmspace + insert (u " ") + tag_field (u "denominator") (Fraction.number o))%fst.
Lemma jrmspace_denote x y w : denote Fraction.rmspace x y w <-> gap x /\ y = [] /\ w = 0%Z.
Proof. exact (rmspace_denote x y w). Qed.
Lemma slash_denote x y w : forallb jchar x = true -> (denote (Fraction.slash o) x y w <-> x = u "/" /\ y = [] /\ w = 0%Z).
Proof. intro K. unfold Fraction.slash. rewrite (pre_reads o _ _ _ _ K). reflexivity. Qed.
Lemma jfraction_inv x y w : forallb jchar x = true -> denote jfraction_body x y w -> exists a g g' b, x = a ++ g ++ u "/" ++ g' ++ b /\ gap g /\ gap g' /\ reads_as (Cardinal.number o) a /\ reads_as (Cardinal.number o) b /\ y = shown (fraction_fields a b).
Proof.
  intros K H. unfold jfraction_body in H. apply cat_inv in H as (x1 & y1 & w1 & b & y2 & w2 & -> & -> & -> & H & Hb). apply cat_inv in H as (x3 & y3 & w3 & x4 & y4 & w4 & -> & -> & -> & H & (-> & -> & ->)).
  apply cat_inv in H as (x5 & y5 & w5 & g' & y6 & w6 & -> & -> & -> & H & G'). apply cat_inv in H as (x7 & y7 & w7 & x8 & y8 & w8 & -> & -> & -> & H & S).
  apply cat_inv in H as (a & y9 & w9 & g & y10 & w10 & -> & -> & -> & Ha & G). rewrite !japp in K. apply slash_denote in S as (-> & -> & ->); [|tauto]. apply jrmspace_denote in G as (G & -> & ->). apply jrmspace_denote in G' as (G' & -> & ->).
  apply tag_field_spec in Ha as (_ & -> & za & Ha). apply tag_field_spec in Hb as (_ & -> & zb & Hb). exists a, g, g', b. rewrite !app_nil_r, <- !app_assoc. split; [reflexivity|].
  split; [exact G|]. split; [exact G'|]. split; [now exists za, w9|]. split; [now exists zb, w2|]. unfold shown, fraction_fields, piece. cbn [map join Datatypes.fst snd]. rewrite <- !app_assoc. reflexivity.
Qed.
Lemma jfraction_i a g g' b : forallb vchar a = true -> forallb vchar b = true -> gap g -> gap g' -> (exists z, denote (Cardinal.number o) a z 0%Z) -> (exists z, denote (Cardinal.number o) b z 0%Z) ->
  denote jfraction_body (a ++ g ++ u "/" ++ g' ++ b) (shown (fraction_fields a b)) 0%Z.
Proof.
  intros Va Vb G G' Ha Hb. replace (a ++ g ++ u "/" ++ g' ++ b) with (((((a ++ g) ++ u "/") ++ g') ++ []) ++ b) by now rewrite !app_nil_r, <- !app_assoc.
  replace (shown (fraction_fields a b)) with (((((piece (u "numerator") (escape_value a) ++ []) ++ []) ++ []) ++ u " ") ++ piece (u "denominator") (escape_value b)) by (rewrite !app_nil_r, <- !app_assoc; reflexivity).
  change 0%Z with ((((0 + 0) + 0) + 0 + 0) + 0)%Z. unfold jfraction_body. repeat apply cat_i; try (apply tagged; assumption); try (apply jrmspace_denote; auto); [apply slash_denote; auto|now cbn].
Qed.
Lemma only_jfraction : name_only (rules o) (u "fraction") (RuleSpec (Fraction.rule o) (Some 10500%Z) true).
Proof. destruct o as [[] i p f v]; PlainRules.only_tac. Qed.
Lemma jfraction_first s k x y v : forallb jchar x = true -> In s (rules o) -> s_weight s = Some k -> denote (r_tagger (s_rule s)) x y v ->
  s = RuleSpec (Date.rule o (r_tagger (Range.rule o))) (Some 10200%Z) true \/ s = RuleSpec (Fraction.rule o) (Some 10500%Z) true \/ (10500 < k)%Z.
Proof.
  intros K I W H. destruct (forallb (fun s => apart2 jchar (r_tagger (s_rule s))) [s]) eqn:E.
  - cbn [forallb] in E. rewrite andb_true_r in E. exfalso. exact (apart2_sound jchar jchar_valid _ E _ _ _ K H).
  - cbn [forallb] in E. rewrite andb_true_r in E. unfold rules in I. apply in_app_iff in I as [I|I].
    + cbn [In] in I. destruct I as [<-|[<-|[<-|[<-|[<-|[<-|[<-|[<-|[<-|[<-|[<-|[]]]]]]]]]]]]; cbn [s_weight] in W; try (injection W as <-); try discriminate W; auto; try (right; right; lia);
        exfalso; revert E; clear; destruct o as [t i p [] v]; vm_compute; discriminate.
    + destruct (transliterate o); [|destruct I]. destruct I as [<-|[]]. exfalso. revert E. clear. destruct o as [t i p [] v]; vm_compute; discriminate.
Qed.
Lemma jnumber_unquoted x z w : denote (Cardinal.number o) x z w -> forallb unquoted x = true.
Proof. apply unquoted_of. destruct o as [t i p [] v]; vm_compute; reflexivity. Qed.
Lemma jfraction_verbal a b ma mb : forallb unquoted a = true -> forallb unquoted b = true -> just (Cardinal.number o) a ma -> just (Cardinal.number o) b mb -> forall z w,
  denote ((delete (u "denominator: """) + Fraction.number o + delete (u """ ")) + insert (u "分の") + (delete (u "numerator: """) + Fraction.number o + delete (u """")))%fst
    (u "denominator: """ ++ b ++ u """ " ++ u "numerator: """ ++ a ++ u """") z w <-> z = mb ++ u "分の" ++ ma /\ w = 0%Z.
Proof.
  intros A B Ja Jb z w. split.
  - intro H. apply cat_inv in H as (x1 & y1 & w1 & x2 & y2 & w2 & E & -> & -> & H & H2). apply cat_inv in H as (x3 & y3 & w3 & x4 & y4 & w4 & -> & -> & -> & H3 & (-> & -> & ->)).
    apply shed_denote in H3 as (vb & -> & Hb). apply shed_denote in H2 as (va & -> & Ha). rewrite app_nil_r, <- !app_assoc in E.
    apply quoted_pair in E as (<- & <-); [|exact B|exact A|exact (jnumber_unquoted _ _ _ Hb)|exact (jnumber_unquoted _ _ _ Ha)].
    apply Ja in Ha as (-> & ->). apply Jb in Hb as (-> & ->). rewrite <- app_assoc. auto.
  - intros (-> & ->). rewrite (app_assoc mb). change 0%Z with ((0 + 0) + 0)%Z.
    replace (u "denominator: """ ++ b ++ u """ " ++ u "numerator: """ ++ a ++ u """") with (((u "denominator: """ ++ b ++ u """ ") ++ []) ++ (u "numerator: """ ++ a ++ u """")) by now rewrite app_nil_r, <- !app_assoc.
    apply cat_i; [apply cat_i; [|now cbn]|]; apply shed_denote; eexists; (split; [reflexivity|]); [now apply Jb|now apply Ja].
Qed.
Lemma jspoken_reads x m : jspoken x m -> exists z, denote (Cardinal.number o) x z 0%Z.
Proof. intro H. exists m. now apply (jnumber_just _ _ H). Qed.
Lemma gap_jchar g : gap g -> forallb jchar g = true.
Proof. intros [-> | ->]; reflexivity. Qed.
Section Fraction.
Variables a b ma mb g g' : text.
Hypothesis A : jspoken a ma.
Hypothesis B : jspoken b mb.
Hypothesis G : gap g.
Hypothesis G' : gap g'.
Let x : text := a ++ g ++ u "/" ++ g' ++ b.
Hypothesis NotDate : ~ ja_written_date x.
Lemma jfraction_chars : forallb jchar x = true.
Proof. unfold x. rewrite !forallb_app, (js_jchar _ _ A), (js_jchar _ _ B), (gap_jchar _ G), (gap_jchar _ G'). reflexivity. Qed.
Lemma jfraction_fine : fine false x = true.
Proof.
  unfold x. rewrite fine_app, (jspoken_fine _ _ A). cbn [andb]. rewrite fine_app, (gap_fine _ _ G). cbn [andb]. rewrite fine_app, fine_app. change (after (after (after false a) g) (u "/")) with false.
  rewrite (gap_fine _ _ G'), (gap_false _ G'), (jspoken_fine _ _ B). cbn. now rewrite andb_false_r.
Qed.
Lemma jfraction_said : ja_said o x (marked o (mb ++ u "分の" ++ ma)).
Proof.
  pose proof (jvalid _ (js_jchar _ _ A)) as Va. pose proof (jvalid _ (js_jchar _ _ B)) as Vb. pose proof (jbare _ (js_jchar _ _ A)) as Ba. pose proof (jbare _ (js_jchar _ _ B)) as Bb.
  apply (ja_said_fields o (u "fraction") (Fraction.rule o) 10500 x _ (fraction_fields a b) [(u "denominator", b); (u "numerator", a)] only_jfraction); try reflexivity.
  - exact (jvalid _ jfraction_chars).
  - intro E. apply app_eq_nil in E as (E & _). exact (jspoken_some _ _ A E).
  - unfold good_values, fraction_fields. cbn [forallb Datatypes.fst snd]. rewrite Va, Vb. reflexivity.
  - unfold fraction_fields. cbn [map Datatypes.fst]. repeat constructor; cbn [In]; intuition discriminate.
  - discriminate.
  - discriminate.
  - rewrite !forallb_app, (js_safe _ _ A), (js_safe _ _ B). vm_compute. reflexivity.
  - unfold Fraction.rule. cbn [r_tagger]. apply PlainRules.tokens_added. exists (shown (fraction_fields a b)). split; [unfold fields_token, shown; rewrite <- !app_assoc; reflexivity|].
    exact (jfraction_i a g g' b Va Vb G G' (jspoken_reads _ _ A) (jspoken_reads _ _ B)).
  - intros s k y v I W H. pose proof (Whole.nonneg_sound _ (jrules_nonneg o s I) _ _ _ H) as P. destruct (jfraction_first s k x _ v jfraction_chars I W H) as [->|[-> |L]]; [| |split; lia].
    + exfalso. apply NotDate. exact (jdate_written _ _ _ jfraction_chars jfraction_fine H).
    + cbn [s_weight s_rule] in W, H. injection W as <-. split; [lia|]. intros _. unfold Fraction.rule in H. cbn [r_tagger] in H. apply PlainRules.tokens_added in H as (z & Ey & H).
      apply (jfraction_inv _ _ _ jfraction_chars) in H as (a' & h & h' & b' & E & Gh & Gh' & Ra & Rb & ->). pose proof jfraction_chars as K. rewrite E, !japp in K. unfold x in E.
      apply fraction_unique in E as (<- & <-); try assumption; [|exact (jspoken_inner _ _ A)|exact (jspoken_inner _ _ B)|apply jnumber_inner; tauto..].
      unfold fields_token. change (u " } ") with (u " }" ++ u " ") in Ey. unfold shown in Ey. rewrite !app_assoc in Ey. apply app_inv_tail in Ey. rewrite Ey, <- !app_assoc. reflexivity.
  - intros z w. unfold Fraction.rule. cbn [r_verbalizer].
    assert (E : fields_token (u "fraction") [(u "denominator", b); (u "numerator", a)] = Fraction.name ++ u " { " ++ (u "denominator: """ ++ b ++ u """ " ++ u "numerator: """ ++ a ++ u """") ++ u " }").
    { unfold fields_token, piece. cbn [map join Datatypes.fst snd]. rewrite (bare_escape _ Ba), (bare_escape _ Bb), <- !app_assoc. reflexivity. }
    rewrite E, tokens_inner. apply jfraction_verbal; [exact (bare_unquoted _ Ba)|exact (bare_unquoted _ Bb)|exact (jnumber_just _ _ A)|exact (jnumber_just _ _ B)].
Qed.
End Fraction.
End Opt.
