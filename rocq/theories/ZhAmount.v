(** Numbers inside other texts of the Chinese normaliser, and written fractions (C68, C69). *)
From Coq Require Import List NArith ZArith Bool String Lia Arith.
From Verif Require Import Text TextFacts TokenModel Fst FstFacts FstRun GrammarModel GrammarSpec GrammarAccept NumeralSpec EnglishNumeralSpec DataZhTn ZhTnModel ZhTnEndSpec ZhDateSpec ZhAmountSpec WholeSpec.
From Verif Require Import BoundaryChar Letters Apart OneToken TokenVerbal Fields ZhNumberProofs ZhTnRead ZhTnTag ZhTnPost PropsZhTnEnd ZhWhole ZhDate ZhDate2.
From Verif Require EndToEnd EnNumberProofs5 PlainRules FstEval.
Import ListNotations.
Local Open Scope list_scope.

(** ** A number the rules read in one way *)
Record spoken (x m : text) : Prop := Spoken {
  sp_known : forallb known x = true;
  sp_reads : just Cardinal.number x m;
  sp_words : forallb word m = true;
  sp_shape : exists s r, x = s ++ r /\ (s = [] \/ exists c, s = [c] /\ dig c = false) /\ forallb (fun c => dig c || (c =? 46)%N) r = true /\ r <> [] }.
Lemma number_spoken s d t n f m : sign_words s = Some d -> decimal t n -> Forall digit_char f -> just Cardinal.integer t m -> chinese_value m = Some n ->
  spoken (numeral s t f) (words_of s f d m).
Proof.
  intros S D F J V. pose proof (numeral_known s t f d S (proj1 (proj2 D)) F) as K. split; [exact K| | |].
  - intros z w. rewrite (number_inv _ _ _ K). split; [|intro H; left; now apply (plain_said s d t m n f S D F J V)]. intros [H|H]; [now apply (plain_said s d t m n f S D F J V)|].
    exfalso. apply percent_shape in H as (x' & y' & E & _). exact (numeral_end s t f d S (proj1 D) (proj1 (proj2 D)) F x' E).
  - apply (words_ok s d t m f S F J).
  - exists s, (t ++ points f). split; [reflexivity|]. split; [|split].
    + destruct (sign_cases s d S) as [(-> & _)|(c & -> & C & _)]; [auto|]. right. exists c. split; [reflexivity|]. destruct C as [->|[->| ->]]; reflexivity.
    + destruct D as (_ & D & _). rewrite forallb_app. apply digs_spec in D. apply digs_spec in F. rewrite (all_imp dig _ t) with (2 := D) by (intros c ->; reflexivity). destruct f as [|c f]; [reflexivity|].
      unfold points. cbn [andb]. rewrite forallb_app. rewrite (all_imp dig _ (c :: f)) with (2 := F) by (intros a ->; reflexivity). reflexivity.
    + intro E. apply app_eq_nil in E as (E & _). now apply (proj1 D).
Qed.
Lemma spoken_some x m : spoken x m -> x <> [].
Proof. intros H. destruct (sp_shape _ _ H) as (s & r & -> & _ & _ & N). intro E. apply app_eq_nil in E as (_ & E). contradiction. Qed.
Lemma known_bare x : forallb known x = true -> forallb bare x = true.
Proof.
  apply all_imp. intros c K. unfold known, body, dig in K. unfold bare. rewrite !orb_true_iff, andb_true_iff, !N.leb_le, !N.eqb_eq in K. rewrite andb_true_iff, !negb_true_iff, !N.eqb_neq. lia.
Qed.
(** ** Dates among such texts *)
Definition amount_char (c : N) : bool := (known c || (c =? 47) || (c =? 32))%N.
Definition inner (c : N) : bool := negb ((c =? 47) || (c =? 32))%N.
Lemma inner_known x : forallb amount_char x = true -> forallb inner x = true -> forallb known x = true.
Proof.
  rewrite !forallb_forall. intros A B c I. specialize (A c I). specialize (B c I). unfold amount_char, inner in *. apply negb_true_iff in B. apply orb_false_iff in B as (B1 & B2). now rewrite B1, B2, !orb_false_r in A.
Qed.
Lemma reads_known g x : reads inner g = true -> forallb amount_char x = true -> reads_as g x -> forallb known x = true.
Proof. intros R A (z & w & H). apply inner_known; [exact A|]. exact (reads_sound _ _ R _ _ _ H). Qed.
Definition month_text_check (x : text) : bool := (((List.length x =? 1)%nat || (List.length x =? 2)%nat) && forallb dig x && (1 <=? decimal_value x)%N && (decimal_value x <=? 12)%N)%bool.
Lemma month_text_known x : forallb known x = true -> reads_as Date.g_month x -> month_text x.
Proof.
  intros K (z & w & H). apply (two_tables _ _ months _ _ _ months_eq) in H as (I & _).
  assert (A : forallb (fun p : text * text => negb (forallb known (Datatypes.fst p)) || month_text_check (Datatypes.fst p)) months = true) by (vm_compute; reflexivity).
  rewrite forallb_forall in A. specialize (A _ I). cbn [Datatypes.fst] in A. rewrite K in A. cbn [negb orb] in A. unfold month_text_check in A. rewrite !andb_true_iff, orb_true_iff, !Nat.eqb_eq, !N.leb_le in A.
  destruct A as (((L & D) & B) & C). split; [exact L|]. split; [now apply digs_spec|auto].
Qed.
Lemma dated_written x fs : forallb amount_char x = true -> dated x fs -> written_date x.
Proof.
  assert (Ry : reads inner Date.g_year = true) by (vm_compute; reflexivity). assert (Rm : reads inner Date.g_month = true) by (vm_compute; reflexivity).
  assert (Rd : reads inner Date.g_day = true) by (vm_compute; reflexivity). assert (R2 : reads inner Date.mm = true) by (vm_compute; reflexivity).
  assert (Y : forall a, forallb amount_char a = true -> reads_as Date.g_year a -> year_like a) by (intros a A H; pose proof (reads_known _ _ Ry A H) as K; destruct H as (z & w & H); exact (year_known _ _ _ K H)).
  assert (M : forall a, forallb amount_char a = true -> reads_as Date.g_month a -> month_text a) by (intros a A H; pose proof (reads_known _ _ Rm A H) as K; exact (month_text_known _ K H)).
  assert (D : forall a, forallb amount_char a = true -> reads_as Date.g_day a -> day_like a) by (intros a A H; pose proof (reads_known _ _ Rd A H) as K; destruct H as (z & w & H); exact (day_known _ _ _ K H)).
  assert (M2 : forall a, forallb amount_char a = true -> reads_as Date.mm a -> month_like a) by (intros a A H; pose proof (reads_known _ _ R2 A H) as K; destruct H as (z & w & H); exact (month_known _ _ _ K H)).
  clear Ry Rm Rd R2. intros A H. destruct H; repeat (rewrite forallb_app in A; cbn [forallb] in A); rewrite !andb_true_iff in A.
  - left. exists a, s, b, s', c. split; [now apply Y|split; [now apply M|split; [now apply D|split; [assumption|split; [assumption|now left]]]]].
  - left. exists c, s, b, s', a. split; [now apply Y|split; [now apply M|split; [now apply D|split; [assumption|split; [assumption|now right]]]]].
  - right. exists b, s, a. split; [now apply M2|split; [assumption|]]. left. split; [now apply Y|reflexivity].
  - right. exists a, s, b. split; [now apply M2|split; [assumption|]]. right. split; [left; now apply Y|reflexivity].
  - right. exists a, s, b. split; [now apply M2|split; [assumption|]]. right. split; [right; now apply D|reflexivity].
Qed.
(** A date ends in a digit, so a range of dates has a digit before the hyphen. *)
Fixpoint fine (d : bool) (x : text) : bool := match x with [] => true | c :: r => negb (d && (c =? 45)%N) && fine (dig c) r end.
Fixpoint after (d : bool) (x : text) : bool := match x with [] => d | c :: r => after (dig c) r end.
Lemma fine_app d a b : fine d (a ++ b) = (fine d a && fine (after d a) b)%bool.
Proof. revert d. induction a as [|c a IH]; intro d; [reflexivity|]. cbn [app fine after]. now rewrite IH, andb_assoc. Qed.
Lemma after_app d a b : after d (a ++ b) = after (after d a) b.
Proof. revert d. induction a as [|c a IH]; intro d; [reflexivity|]. cbn [app after]. apply IH. Qed.
Lemma fine_none d x : forallb (fun c => dig c || (c =? 46)%N) x = true -> fine d x = true.
Proof.
  revert d. induction x as [|c x IH]; intro d; [reflexivity|]. cbn [forallb fine]. intro F. apply andb_true_iff in F as (C & F). rewrite (IH _ F), andb_true_r.
  destruct (N.eqb_spec c 45) as [->|]; [discriminate C|now rewrite andb_false_r].
Qed.
Lemma spoken_fine x m : spoken x m -> fine false x = true.
Proof.
  intro H. destruct (sp_shape _ _ H) as (s & r & -> & S & F & _). rewrite fine_app. destruct S as [-> |(c & -> & _)]; cbn [fine after andb negb]; now apply fine_none.
Qed.
Lemma after_digits d x : forallb dig x = true -> x <> [] -> after d x = true.
Proof.
  revert d. induction x as [|c x IH]; intros d F N; [contradiction|]. cbn [forallb] in F. apply andb_true_iff in F as (C & F). cbn [after]. destruct x as [|c' x]; [exact C|]. now apply IH.
Qed.
Lemma digits_after d p : Forall digit_char p -> p <> [] -> after d p = true.
Proof. intros F. apply after_digits. now apply digs_spec. Qed.
Lemma written_after d x : written_date x -> after d x = true.
Proof.
  intros [(y & s & m & s' & p & Y & M & D & _ & _ & [-> | ->])|(m & s & p & M & _ & [(Y & ->)|(P & ->)])]; rewrite !after_app; apply digits_after.
  all: unfold year_like, month_like, day_like in *; try tauto; intros ->; cbn [List.length] in *; try lia; destruct P as [(P & _)|([P|P] & _)]; discriminate P.
Qed.
Lemma date_written x y v : forallb amount_char x = true -> fine false x = true -> denote (Date.tagger (r_tagger Range.rule)) x y v -> written_date x.
Proof.
  intros A F H. unfold Date.tagger in H. apply cat_inv in H as (x1 & y1 & w1 & x2 & y2 & w2 & -> & Ey & -> & H1 & H2). apply PlainRules.tokens_added in H1 as (z & -> & H1). apply date_inv in H1 as (fs1 & D1 & ->).
  rewrite forallb_app in A. apply andb_true_iff in A as (A1 & A2). apply (dated_written _ _ A1) in D1.
  destruct H2 as [H2|(-> & -> & ->)]; [|now rewrite app_nil_r]. exfalso.
  apply cat_inv in H2 as (x3 & y3 & w3 & x4 & y4 & w4 & -> & -> & -> & H3 & _). apply PlainRules.tokens_added in H3 as (z3 & _ & H3). apply tag_field_spec in H3 as (_ & _ & z' & H3).
  destruct H3 as [(-> & _)|(-> & _)].
  - rewrite fine_app, (written_after _ _ D1) in F. apply andb_true_iff in F as (_ & F). discriminate F.
  - rewrite forallb_app in A2. apply andb_true_iff in A2 as (A2 & _). discriminate A2.
Qed.
(** ** Fractions *)
Lemma number_inner x : reads_as Cardinal.number x -> forallb inner x = true.
Proof. assert (R : reads inner Cardinal.number = true) by (vm_compute; reflexivity). intros (z & w & H). exact (reads_sound _ _ R _ _ _ H). Qed.
Definition unslashed (c : N) : bool := negb (c =? 47)%N.
Definition unspaced (c : N) : bool := negb (c =? 32)%N.
Lemma inner_both x : forallb inner x = true -> forallb unslashed x = true /\ forallb unspaced x = true.
Proof. intro F. split; (generalize F; apply all_imp; intros c C; unfold inner, unslashed, unspaced in *; apply negb_true_iff, orb_false_iff in C as (C1 & C2); now rewrite ?C1, ?C2). Qed.
Lemma rmspace_denote x y w : denote Fraction.rmspace x y w <-> gap x /\ y = [] /\ w = 0%Z.
Proof.
  unfold Fraction.rmspace, gap. cbn [ques denote]. split.
  - intros [(-> & -> & ->)|(-> & -> & ->)]; auto.
  - intros ([-> | ->] & -> & ->); [right|left]; cbn; auto.
Qed.
Definition fraction_fields (a b : text) : list (text * text) := [(u "numerator", a); (u "denominator", b)].
Definition fraction_body : fst := (tag_field (u "numerator") Fraction.number + Fraction.rmspace + delete (u "/") + Fraction.rmspace + insert (u " ") + tag_field (u "denominator") Fraction.number)%fst.
Lemma fraction_inv x y w : denote fraction_body x y w -> exists a g g' b, x = a ++ g ++ u "/" ++ g' ++ b /\ gap g /\ gap g' /\ reads_as Cardinal.number a /\ reads_as Cardinal.number b /\ y = shown (fraction_fields a b).
Proof.
  intro H. unfold fraction_body in H. apply cat_inv in H as (x1 & y1 & w1 & b & y2 & w2 & -> & -> & -> & H & Hb). apply cat_inv in H as (x3 & y3 & w3 & x4 & y4 & w4 & -> & -> & -> & H & (-> & -> & ->)).
  apply cat_inv in H as (x5 & y5 & w5 & g' & y6 & w6 & -> & -> & -> & H & G'). apply cat_inv in H as (x7 & y7 & w7 & x8 & y8 & w8 & -> & -> & -> & H & (-> & -> & ->)).
  apply cat_inv in H as (a & y9 & w9 & g & y10 & w10 & -> & -> & -> & Ha & G). apply rmspace_denote in G as (G & -> & ->). apply rmspace_denote in G' as (G' & -> & ->).
  apply tag_field_spec in Ha as (_ & -> & za & Ha). apply tag_field_spec in Hb as (_ & -> & zb & Hb). exists a, g, g', b. rewrite !app_nil_r, <- !app_assoc. split; [reflexivity|].
  split; [exact G|]. split; [exact G'|]. split; [now exists za, w9|]. split; [now exists zb, w2|]. unfold shown, fraction_fields, piece. cbn [map join Datatypes.fst snd]. rewrite <- !app_assoc. reflexivity.
Qed.
Lemma fraction_i a g g' b : forallb vchar a = true -> forallb vchar b = true -> gap g -> gap g' -> (exists z, denote Cardinal.number a z 0%Z) -> (exists z, denote Cardinal.number b z 0%Z) ->
  denote fraction_body (a ++ g ++ u "/" ++ g' ++ b) (shown (fraction_fields a b)) 0%Z.
Proof.
  intros Va Vb G G' Ha Hb. replace (a ++ g ++ u "/" ++ g' ++ b) with (((((a ++ g) ++ u "/") ++ g') ++ []) ++ b) by now rewrite !app_nil_r, <- !app_assoc.
  replace (shown (fraction_fields a b)) with (((((piece (u "numerator") (escape_value a) ++ []) ++ []) ++ []) ++ u " ") ++ piece (u "denominator") (escape_value b)) by (rewrite !app_nil_r, <- !app_assoc; reflexivity).
  change 0%Z with ((((0 + 0) + 0) + 0 + 0) + 0)%Z. unfold fraction_body. repeat apply cat_i; try (apply tagged; assumption); try (apply rmspace_denote; auto); now cbn.
Qed.
Lemma gap_unslashed g : gap g -> forallb unslashed g = true.
Proof. intros [-> | ->]; reflexivity. Qed.
Lemma gap_after a g a' g' : forallb unspaced a = true -> forallb unspaced a' = true -> gap g -> gap g' -> a ++ g = a' ++ g' -> a = a' /\ g = g'.
Proof.
  assert (K : forall b c : text, forallb unspaced b = true -> b = c ++ u " " -> False) by (intros b c F ->; rewrite forallb_app in F; apply andb_true_iff in F as (_ & F); discriminate F).
  intros A A' [-> | ->] [-> | ->] E; rewrite ?app_nil_r in E.
  - auto.
  - exfalso. exact (K _ _ A E).
  - exfalso. symmetry in E. exact (K _ _ A' E).
  - apply app_inv_tail in E. auto.
Qed.
Lemma gap_before a g a' g' : forallb unspaced a = true -> forallb unspaced a' = true -> gap g -> gap g' -> g ++ a = g' ++ a' -> a = a' /\ g = g'.
Proof.
  assert (K : forall b c : text, forallb unspaced b = true -> b = u " " ++ c -> False) by (intros b c F ->; discriminate F).
  intros A A' [-> | ->] [-> | ->] E; cbn [app] in E.
  - auto.
  - exfalso. exact (K _ _ A E).
  - exfalso. symmetry in E. exact (K _ _ A' E).
  - apply (app_inv_head (u " ")) in E. auto.
Qed.
Lemma fraction_unique a g h b a' g' h' b' : forallb inner a = true -> forallb inner b = true -> forallb inner a' = true -> forallb inner b' = true -> gap g -> gap h -> gap g' -> gap h' ->
  a ++ g ++ u "/" ++ h ++ b = a' ++ g' ++ u "/" ++ h' ++ b' -> a = a' /\ b = b'.
Proof.
  intros A B A' B' G H G' H' E. apply inner_both in A as (A & As), B as (B & Bs), A' as (A' & As'), B' as (B' & Bs'). rewrite (app_assoc a), (app_assoc a') in E.
  apply (EnNumberProofs5.split_unique unslashed) in E as (E & E2); [| | |reflexivity|reflexivity]; [|rewrite forallb_app, A, gap_unslashed by assumption; reflexivity|rewrite forallb_app, A', gap_unslashed by assumption; reflexivity].
  injection E2 as E2. apply gap_after in E as (E & _); try assumption. apply gap_before in E2 as (E2 & _); try assumption. auto.
Qed.
Lemma only_fraction o : name_only (rules o) (u "fraction") (RuleSpec Fraction.rule (Some 10500%Z) true).
Proof. destruct o as [i [] t p f v]; PlainRules.only_tac. Qed.
(** The other rules that could read such a text for as little. *)
Lemma fraction_first o s k x y v : forallb amount_char x = true -> In s (rules o) -> s_weight s = Some k -> denote (r_tagger (s_rule s)) x y v ->
  s = RuleSpec (Date.rule (r_tagger Range.rule)) (Some 10200%Z) true \/ s = RuleSpec Fraction.rule (Some 10500%Z) true \/ (10500 < k)%Z.
Proof.
  intros K I W H. unfold rules in I. cbn [In] in I.
  assert (Aw : forall r, apart amount_char (r_tagger (Whitelist.rule r)) = true) by (intros []; vm_compute; reflexivity).
  assert (As : apart amount_char (r_tagger Sport.rule) = true) by (vm_compute; reflexivity).
  assert (Ae : apart amount_char (r_tagger Measure.rule) = true) by (vm_compute; reflexivity).
  assert (Am : apart amount_char (r_tagger Money.rule) = true) by (vm_compute; reflexivity).
  assert (At : apart amount_char (r_tagger (Time.rule (r_tagger Range.rule))) = true) by (vm_compute; reflexivity).
  destruct I as [<-|[<-|[<-|[<-|[<-|[<-|[<-|[<-|[<-|[<-|[<-|[]]]]]]]]]]]]; cbn [s_weight s_rule] in W, H; try (injection W as <-); try discriminate W; auto; try (right; right; lia); exfalso; revert H; apply apart_known with amount_char; auto.
Qed.
Lemma number_unquoted x z w : denote Cardinal.number x z w -> forallb unquoted x = true.
Proof. assert (R : reads unquoted Cardinal.number = true) by (vm_compute; reflexivity). exact (reads_sound _ _ R _ _ _). Qed.
Lemma quoted_pair k a k' b v v' : forallb unquoted a = true -> forallb unquoted b = true -> forallb unquoted v = true -> forallb unquoted v' = true ->
  k ++ a ++ u """ " ++ k' ++ b ++ u """" = k ++ v ++ u """ " ++ k' ++ v' ++ u """" -> a = v /\ b = v'.
Proof.
  intros A B V V' E. change (u """ ") with (34%N :: u " ") in E. cbn [app] in E. apply value_split in E as (-> & E); [|assumption..]. injection E as E.
  change (u """") with (34%N :: []) in E. apply value_split in E as (-> & _); [|assumption..]. auto.
Qed.
Lemma fraction_verbal a b ma mb : forallb unquoted a = true -> forallb unquoted b = true -> just Cardinal.number a ma -> just Cardinal.number b mb -> forall z w,
  denote ((delete (u "denominator: """) + Fraction.number + delete (u """ ")) + insert (u "分之") + (delete (u "numerator: """) + Fraction.number + delete (u """")))%fst
    (u "denominator: """ ++ b ++ u """ " ++ u "numerator: """ ++ a ++ u """") z w <-> z = mb ++ u "分之" ++ ma /\ w = 0%Z.
Proof.
  intros A B Ja Jb z w. split.
  - intro H. apply cat_inv in H as (x1 & y1 & w1 & x2 & y2 & w2 & E & -> & -> & H & H2). apply cat_inv in H as (x3 & y3 & w3 & x4 & y4 & w4 & -> & -> & -> & H3 & (-> & -> & ->)).
    apply shed_denote in H3 as (vb & -> & Hb). apply shed_denote in H2 as (va & -> & Ha). rewrite app_nil_r, <- !app_assoc in E.
    apply quoted_pair in E as (<- & <-); [|exact B|exact A|exact (number_unquoted _ _ _ Hb)|exact (number_unquoted _ _ _ Ha)].
    apply Ja in Ha as (-> & ->). apply Jb in Hb as (-> & ->). rewrite <- app_assoc. auto.
  - intros (-> & ->). rewrite (app_assoc mb). change 0%Z with ((0 + 0) + 0)%Z.
    replace (u "denominator: """ ++ b ++ u """ " ++ u "numerator: """ ++ a ++ u """") with (((u "denominator: """ ++ b ++ u """ ") ++ []) ++ (u "numerator: """ ++ a ++ u """")) by now rewrite app_nil_r, <- !app_assoc.
    apply cat_i; [apply cat_i; [|now cbn]|]; apply shed_denote; eexists; (split; [reflexivity|]); [now apply Jb|now apply Ja].
Qed.
Lemma spoken_reads x m : spoken x m -> exists z, denote Cardinal.number x z 0%Z.
Proof. intro H. exists m. now apply (sp_reads _ _ H). Qed.
Lemma spoken_inner x m : spoken x m -> forallb inner x = true.
Proof. intro H. apply number_inner. destruct (spoken_reads _ _ H) as (z & R). now exists z, 0%Z. Qed.
Lemma spoken_amount x m : spoken x m -> forallb amount_char x = true.
Proof. intro H. generalize (sp_known _ _ H). apply all_imp. intros c K. unfold amount_char. now rewrite K. Qed.
Lemma gap_amount g : gap g -> forallb amount_char g = true /\ forallb vchar g = true.
Proof. intros [-> | ->]; split; reflexivity. Qed.
Lemma amount_valid x : forallb amount_char x = true -> forallb vchar x = true.
Proof.
  apply all_imp. intros c C. unfold amount_char in C. rewrite !orb_true_iff, !N.eqb_eq in C. destruct C as [[C| ->]| ->]; try reflexivity.
  pose proof (known_valid [c]) as V. cbn [forallb] in V. rewrite C, !andb_true_r in V. exact (V eq_refl).
Qed.
Lemma gap_fine d g : gap g -> fine d g = true.
Proof. intros [-> | ->]; [reflexivity|]. cbn. now rewrite andb_false_r. Qed.
Lemma gap_false g : gap g -> after false g = false.
Proof. intros [-> | ->]; reflexivity. Qed.
Section Fraction.
Variables a b ma mb g g' : text.
Hypothesis A : spoken a ma.
Hypothesis B : spoken b mb.
Hypothesis G : gap g.
Hypothesis G' : gap g'.
Let x : text := a ++ g ++ u "/" ++ g' ++ b.
Hypothesis NotDate : ~ written_date x.
Lemma fraction_chars : forallb amount_char x = true.
Proof. unfold x. rewrite !forallb_app, (spoken_amount _ _ A), (spoken_amount _ _ B), (proj1 (gap_amount _ G)), (proj1 (gap_amount _ G')). reflexivity. Qed.
Lemma fraction_fine : fine false x = true.
Proof.
  unfold x. rewrite fine_app, (spoken_fine _ _ A). cbn [andb]. rewrite fine_app, (gap_fine _ _ G). cbn [andb]. rewrite fine_app, fine_app. change (after (after (after false a) g) (u "/")) with false.
  rewrite (gap_fine _ _ G'), (gap_false _ G'), (spoken_fine _ _ B). cbn. now rewrite andb_false_r.
Qed.
Lemma fraction_not_phone : ~ phone_text x.
Proof.
  intro P. apply phone_texts in P. unfold x in P. rewrite !forallb_app in P. apply andb_true_iff in P as (_ & P). apply andb_true_iff in P as (_ & P). apply andb_true_iff in P as (P & _). vm_compute in P. discriminate P.
Qed.
Lemma fraction_said : said_as x (mb ++ u "分之" ++ ma).
Proof.
  pose proof (known_valid _ (sp_known _ _ A)) as Va. pose proof (known_valid _ (sp_known _ _ B)) as Vb. pose proof (known_bare _ (sp_known _ _ A)) as Ba. pose proof (known_bare _ (sp_known _ _ B)) as Bb.
  apply (said_fields (u "fraction") Fraction.rule 10500 x _ (fraction_fields a b) [(u "denominator", b); (u "numerator", a)] only_fraction); try reflexivity.
  - exact (amount_valid _ fraction_chars).
  - exact fraction_not_phone.
  - unfold good_values, fraction_fields. cbn [forallb Datatypes.fst snd]. rewrite Va, Vb. reflexivity.
  - unfold fraction_fields. cbn [map Datatypes.fst]. repeat constructor; cbn [In]; intuition discriminate.
  - discriminate.
  - discriminate.
  - rewrite !forallb_app, (all_safe _ (sp_words _ _ A)), (all_safe _ (sp_words _ _ B)). vm_compute. reflexivity.
  - unfold Fraction.rule. cbn [r_tagger]. apply PlainRules.tokens_added. exists (shown (fraction_fields a b)). split; [unfold fields_token, shown; rewrite <- !app_assoc; reflexivity|].
    exact (fraction_i a g g' b Va Vb G G' (spoken_reads _ _ A) (spoken_reads _ _ B)).
  - intros o s k y v I W H. pose proof (whole_no_less o s x _ v I fraction_not_phone H) as P. destruct (fraction_first o s k x _ v fraction_chars I W H) as [->|[-> |L]]; [| |split; lia].
    + exfalso. apply NotDate. exact (date_written _ _ _ fraction_chars fraction_fine H).
    + cbn [s_weight s_rule] in W, H. injection W as <-. split; [lia|]. intros _. unfold Fraction.rule in H. cbn [r_tagger] in H. apply PlainRules.tokens_added in H as (z & Ey & H).
      apply fraction_inv in H as (a' & h & h' & b' & E & Gh & Gh' & Ra & Rb & ->). unfold x in E.
      apply fraction_unique in E as (<- & <-); try assumption; [|exact (spoken_inner _ _ A)|exact (spoken_inner _ _ B)|exact (number_inner _ Ra)|exact (number_inner _ Rb)].
      unfold fields_token. change (u " } ") with (u " }" ++ u " ") in Ey. unfold shown in Ey. rewrite !app_assoc in Ey. apply app_inv_tail in Ey. rewrite Ey, <- !app_assoc. reflexivity.
  - intros z w. unfold Fraction.rule. cbn [r_verbalizer].
    assert (E : fields_token (u "fraction") [(u "denominator", b); (u "numerator", a)] = Fraction.name ++ u " { " ++ (u "denominator: """ ++ b ++ u """ " ++ u "numerator: """ ++ a ++ u """") ++ u " }").
    { unfold fields_token, piece. cbn [map join Datatypes.fst snd]. rewrite (bare_escape _ Ba), (bare_escape _ Bb), <- !app_assoc. reflexivity. }
    rewrite E, tokens_inner. apply fraction_verbal; [exact (bare_unquoted _ Ba)|exact (bare_unquoted _ Bb)|exact (sp_reads _ _ A)|exact (sp_reads _ _ B)].
Qed.
End Fraction.
