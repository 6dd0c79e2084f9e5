(** Japanese dates: one token for a text, and what the verbaliser says for it (C72). *)
From Coq Require Import List NArith ZArith Bool String Lia Arith.
From Verif Require Import Text TextFacts TokenModel Fst FstFacts FstRun GrammarModel GrammarSpec GrammarAccept NumeralSpec EnglishNumeralSpec DataJaTn JaTnModel ZhTnEndSpec ZhDateSpec JaNumeralSpec WholeSpec PlainSpec.
From Verif Require Import BoundaryChar Letters Apart OneToken TokenVerbal Fields ZhNumberProofs ZhNumberProofs2 ZhTnRead ZhDate ZhDate2 JaNumber JaNumber2 JaApart JaPost JaDate JaDate2.
From Verif Require EndToEnd EnNumberProofs5 PlainRules FstEval Whole.
Import ListNotations.
Local Open Scope list_scope.

(** ** A text is a date in one way *)
Lemma digit_nosep a : Forall digit_char a -> forallb nosep a = true.
Proof.
  assert (A : forallb nosep ten = true) by (vm_compute; reflexivity). rewrite forallb_forall in A. rewrite forallb_forall, Forall_forall. intros F c I. exact (A c (ten_digits c (F c I))).
Qed.
Lemma jyear_facts a : is_year a -> forallb nosep a = true /\ 4 <= List.length a.
Proof.
  intros (t & H). apply year_shape in H as (c & g & d & e & f & _ & -> & G & Nc & Dd & De & Df). split.
  - cbn [forallb]. rewrite forallb_app. assert (C : forallb nosep [c] = true) by (apply digit_nosep; constructor; [exact (nz_digit c Nc)|constructor]). assert (T : forallb nosep [d; e; f] = true) by (apply digit_nosep; repeat (constructor; [assumption|]); constructor).
    cbn [forallb] in C. rewrite andb_true_r in C. rewrite C, T. destruct G as [-> | ->]; reflexivity.
  - cbn [List.length]. rewrite app_length. cbn [List.length]. lia.
Qed.
Lemma jmonth_facts a : month_text a -> forallb nosep a = true /\ List.length a <= 2.
Proof. intros (L & F & _). split; [now apply digit_nosep|lia]. Qed.
Lemma jday_facts a : day_like a -> forallb nosep a = true /\ List.length a <= 2.
Proof. intros (L & F & _). split; [now apply digit_nosep|lia]. Qed.
Lemma jzero_facts a : zero_month a -> forallb nosep a = true /\ List.length a <= 2.
Proof. intro H. exact (jmonth_facts a (zero_month_text a H)). Qed.
Ltac jfacts := repeat match goal with
  | H : is_year _ |- _ => apply jyear_facts in H as (? & ?)
  | H : month_text _ |- _ => apply jmonth_facts in H as (? & ?)
  | H : day_like _ |- _ => apply jday_facts in H as (? & ?)
  | H : zero_month _ |- _ => apply jzero_facts in H as (? & ?)
  end.
Lemma jdated_unique x fs fs' : jdated x fs -> jdated x fs' -> fs = fs'.
Proof.
  intros H H'. destruct H; remember (a ++ s :: _) as x eqn:E in H'; destruct H'; jfacts;
    (apply sep_split in E as (-> & -> & E); [|assumption..]);
    try (apply sep_split in E as (-> & -> & ->); [|assumption..]);
    try reflexivity; try lia; try (exfalso; eapply sep_once; [|exact E|]; assumption); try (exfalso; symmetry in E; eapply sep_once; [|exact E|]; assumption); subst; try reflexivity; lia.
Qed.
Lemma jdated_seps x fs : jdated x fs -> (1 <= seps x <= 2)%nat.
Proof.
  intros H. destruct H; jfacts; repeat (rewrite ?seps_app; rewrite seps_cons by assumption); rewrite ?seps_app; rewrite ?seps_none by assumption; lia.
Qed.
Lemma digits_jchar a : Forall digit_char a -> forallb jchar a = true.
Proof.
  assert (A : forallb jchar ten = true) by (vm_compute; reflexivity). rewrite forallb_forall in A. rewrite forallb_forall, Forall_forall. intros F c I. exact (A c (ten_digits c (F c I))).
Qed.
Lemma year_jchar a : is_year a -> forallb jchar a = true.
Proof.
  intros (t & H). apply year_shape in H as (c & g & d & e & f & _ & -> & G & Nc & Dd & De & Df). change (c :: g ++ [d; e; f]) with ([c] ++ g ++ [d; e; f]). rewrite !forallb_app.
  rewrite (digits_jchar [c]), (digits_jchar [d; e; f]); [destruct G as [-> | ->]; reflexivity|repeat (constructor; [assumption|]); constructor|constructor; [exact (nz_digit c Nc)|constructor]].
Qed.
Lemma month_jchar a : month_text a -> forallb jchar a = true.
Proof. intros (_ & F & _). now apply digits_jchar. Qed.
Lemma day_jchar a : day_like a -> forallb jchar a = true.
Proof. intros (_ & F & _). now apply digits_jchar. Qed.
Lemma zero_jchar a : zero_month a -> forallb jchar a = true.
Proof. intro H. exact (month_jchar a (zero_month_text a H)). Qed.
Lemma sep_jchar1 s : date_sep s -> jchar s = true.
Proof. intros [-> |[-> | ->]]; reflexivity. Qed.
Lemma jdated_jchar x fs : jdated x fs -> forallb jchar x = true /\ forallb (fun kv : text * text => forallb jchar (snd kv)) fs = true.
Proof.
  intro H. destruct H; (split; [repeat (rewrite ?forallb_app; cbn [forallb]); rewrite ?sep_jchar1 by assumption|cbn [forallb snd]]);
    rewrite ?andb_true_iff; repeat split; auto using year_jchar, month_jchar, day_jchar, zero_jchar.
Qed.

(** ** The verbaliser *)
Lemma unquoted_of g : Datatypes.fst (avoidsb 34 g) = true -> forall x y w, denote g x y w -> forallb unquoted x = true.
Proof.
  intros A x y w H. pose proof (proj1 (avoidsb_sound 34 g) A x y w H) as N. apply forallb_forall. intros c I. unfold unquoted. apply negb_true_iff, N.eqb_neq. intros ->. exact (N I).
Qed.
Section Opt.
Variable o : options.
Lemma jdate_verbal yo b dayo dy dm dd : opt_reads (Date.g_year o) yo dy -> opt_reads (Date.g_month o) (Some b) dm -> opt_reads (Date.g_day o) dayo dd -> forall z w,
  denote (Date.verbalizer o) (year_part yo ++ (u "month: """ ++ b ++ u """") ++ day_part dayo) z w <-> z = dy ++ dm ++ dd /\ w = 0%Z.
Proof.
  assert (Ry : Datatypes.fst (avoidsb 34 (Date.g_year o)) = true) by (destruct o as [t i p [] v]; vm_compute; reflexivity).
  assert (Rm : Datatypes.fst (avoidsb 34 (Date.g_month o)) = true) by (destruct o as [t i p [] v]; vm_compute; reflexivity).
  assert (Rd : Datatypes.fst (avoidsb 34 (Date.g_day o)) = true) by (destruct o as [t i p [] v]; vm_compute; reflexivity).
  intros Y M D z w. unfold Date.verbalizer. split.
  - intro H. apply cat_inv in H as (x1 & y1 & w1 & xd & yd & wd & E & -> & -> & H & Hd). apply cat_inv in H as (xy & yy & wy & xm & ym & wm & -> & -> & -> & Hy & Hm).
    apply shed_denote in Hm as (vm & -> & Hm). pose proof (unquoted_of _ Rm _ _ _ Hm) as Um. destruct M as (Ub & M).
    assert (T : xy = year_part yo /\ vm = b /\ xd = day_part dayo).
    { destruct Hy as [Hy|(-> & -> & ->)].
      - apply shed_denote in Hy as (vy & -> & Hy). pose proof (unquoted_of _ Ry _ _ _ Hy) as Uy. destruct yo as [a|]; [|exfalso; clear -E; cbn [year_part] in E; rewrite <- !app_assoc in E; discriminate E].
        destruct Y as (Ua & Y). unfold year_part in E. rewrite <- !app_assoc in E. change (u """ ") with (34%N :: u " ") in E. rewrite <- !app_comm_cons in E.
        apply value_split in E as (<- & E); [|exact Ua|exact Uy]. apply app_inv_head in E. change (u """") with (34%N :: []) in E. rewrite <- !app_comm_cons in E. apply value_split in E as (<- & E); [|exact Ub|exact Um]. cbn [app] in E. auto.
      - destruct yo as [a|]; [exfalso; clear -E; cbn [year_part app] in E; rewrite <- !app_assoc in E; discriminate E|]. cbn [year_part app] in *. rewrite <- !app_assoc in E. change (u """") with (34%N :: []) in E. rewrite <- !app_comm_cons in E.
        apply value_split in E as (<- & E); [|exact Ub|exact Um]. cbn [app] in E. auto. }
    destruct T as (-> & -> & ->). apply M in Hm as (-> & ->).
    assert (Ty : yy = dy /\ wy = 0%Z).
    { destruct Hy as [Hy|(E' & -> & ->)].
      - apply shed_denote in Hy as (vy & E' & Hy). pose proof (unquoted_of _ Ry _ _ _ Hy) as Uy. destruct yo as [a|]; [|discriminate E']. destruct Y as (Ua & Y). unfold year_part in E'.
        change (u """ ") with (34%N :: u " ") in E'. apply value_split in E' as (<- & _); [|exact Ua|exact Uy]. now apply Y in Hy.
      - destruct yo as [a|]; [discriminate E'|]. now rewrite Y. }
    assert (Td : yd = dd /\ wd = 0%Z).
    { destruct Hd as [Hd|(E' & -> & ->)].
      - apply shed_denote in Hd as (vd & E' & Hd). pose proof (unquoted_of _ Rd _ _ _ Hd) as Ud. destruct dayo as [a|]; [|discriminate E']. destruct D as (Ua & D). unfold day_part in E'.
        change (u """") with (34%N :: []) in E'. apply value_split in E' as (<- & _); [|exact Ua|exact Ud]. now apply D in Hd.
      - destruct dayo as [a|]; [discriminate E'|]. now rewrite D. }
    destruct Ty as (-> & ->), Td as (-> & ->). rewrite <- app_assoc. auto.
  - intros (-> & ->). rewrite !app_assoc. rewrite <- app_assoc with (l := year_part yo). change 0%Z with (0 + 0 + 0)%Z. rewrite <- (app_assoc (year_part yo)). apply cat_i; [apply cat_i|].
    + destruct yo as [a|]; [left; apply shed_denote; exists a; split; [reflexivity|now apply Y]|right; cbn; auto].
    + apply shed_denote. exists b. split; [now rewrite <- !app_assoc|now apply M].
    + destruct dayo as [a|]; [left; apply shed_denote; exists a; split; [reflexivity|now apply D]|right; cbn; auto].
Qed.
Lemma g_year_reads t a : year_of t a -> exists m, japanese_value m = Some (decimal_value t) /\ forall z w, denote (Date.g_year o) a z w <-> z = m ++ u "年" /\ w = 0%Z.
Proof.
  intro Y. assert (K : forallb jchar a = true) by (apply year_jchar; now exists t). destruct (year_said t a Y) as (m & J & V & _). exists m. split; [exact V|]. intros z w. unfold Date.g_year, Cardinal.thousand. split.
  - intro H. apply cat_inv in H as (x1 & y1 & w1 & x2 & y2 & w2 & E & -> & -> & H & (-> & -> & ->)). rewrite app_nil_r in E. subst x1. apply (proj1 (pre_reads o _ _ _ _ K)) in H. apply J in H as (-> & ->). auto.
  - intros (-> & ->). rewrite <- (app_nil_r a). change 0%Z with (0 + 0)%Z. apply cat_i; [|now cbn]. apply (proj2 (pre_reads o _ _ _ _ K)). apply J. auto.
Qed.
Lemma g_month_reads p : month_text p -> forall z w, denote (Date.g_month o) p z w <-> z = month_words p /\ w = 0%Z.
Proof. intros M z w. rewrite <- (jmonth_reads p M). exact (pre_reads o _ _ _ _ (month_jchar p M)). Qed.
Lemma g_day_reads p : day_like p -> forall z w, denote (Date.g_day o) p z w <-> z = day_words p /\ w = 0%Z.
Proof. intros D z w. rewrite <- (jday_reads p D). exact (pre_reads o _ _ _ _ (day_jchar p D)). Qed.
Lemma g_mm_reads p : zero_month p -> exists z, denote (Date.g_mm o) p z 0%Z.
Proof. intro M. destruct (jmm_reads p M) as (z & H). exists z. exact (proj2 (pre_reads o _ _ _ _ (zero_jchar p M)) H). Qed.
End Opt.

(** ** The words of a numeral are plain Japanese *)
Definition jwords : text := Eval vm_compute in u "一二三四五六七八九十百千万億年月日点プラスマイナ".
Definition jword (c : N) : bool := existsb (N.eqb c) jwords.
Lemma jword_good c : jword c = true -> jsafe c = true /\ JaTnModel.charset c = true.
Proof.
  assert (A : forallb (fun c => jsafe c && JaTnModel.charset c) jwords = true) by (vm_compute; reflexivity). rewrite forallb_forall in A.
  unfold jword. intro H. apply existsb_exists in H as (a & I & E). apply N.eqb_eq in E. subst a. specialize (A c I). now apply andb_true_iff in A.
Qed.
Lemma jword_safe x : forallb jword x = true -> forallb jsafe x = true.
Proof. apply all_imp. intros c H. exact (proj1 (jword_good c H)). Qed.
Lemma jword_marked o x : forallb jword x = true -> marked o x = x.
Proof.
  unfold marked. induction x as [|c x IH]; [reflexivity|]. cbn [forallb flat_map]. intro K. apply andb_true_iff in K as (C & K). rewrite (IH K). destruct (jword_good c C) as (_ & ->). cbn [negb]. rewrite andb_false_r. reflexivity.
Qed.
Lemma lookup_in {A} (l : list (string * A)) c v : lookup l c = Some v -> existsb (fun e => text_eqb (u (Datatypes.fst e)) [c]) l = true.
Proof.
  unfold lookup. destruct (find _ l) as [e|] eqn:F; [|discriminate]. intros _. apply find_some in F as (I & E). apply existsb_exists. exists e. auto.
Qed.
Lemma ja_word_char s c s' : ja_word s c = Some s' -> jword c = true.
Proof.
  assert (T : forall A (l : list (string * A)), forallb (fun e => forallb jword (u (Datatypes.fst e))) l = true -> forall v, lookup l c = Some v -> jword c = true).
  { intros A l G v L. apply lookup_in in L. apply existsb_exists in L as (e & I & E). destruct (text_eqb_spec (u (Datatypes.fst e)) [c]) as [E'|]; [clear E; rename E' into E|discriminate E]. rewrite forallb_forall in G. specialize (G e I). cbn beta in G. rewrite E in G. cbn [forallb] in G. now rewrite andb_true_r in G. }
  destruct s as [dn sec dg un bg]. unfold ja_word.
  destruct (lookup ja_digit_words c) eqn:L1; [intros _; refine (T _ _ _ _ L1); vm_compute; reflexivity|].
  destruct (lookup ja_unit_words c) eqn:L2; [intros _; refine (T _ _ _ _ L2); vm_compute; reflexivity|].
  destruct (lookup ja_big_words c) eqn:L3; [intros _; refine (T _ _ _ _ L3); vm_compute; reflexivity|]. discriminate.
Qed.
Lemma ja_words_chars t : forall s s', ja_words s t = Some s' -> forallb jword t = true.
Proof.
  induction t as [|c t IH]; intros s s'; [reflexivity|]. cbn [ja_words forallb]. destruct (ja_word s c) as [s1|] eqn:E; [|discriminate]. intro H. rewrite (ja_word_char _ _ _ E), (IH _ _ H). reflexivity.
Qed.
Lemma value_chars m n : japanese_value m = Some n -> m = u "〇" \/ forallb jword m = true.
Proof.
  unfold japanese_value. destruct (text_eqb_spec m (u "〇")) as [E|E]; [intros _; now left|]. destruct (ja_words jr_start m) as [s|] eqn:W; [|discriminate]. intros _. right. exact (ja_words_chars _ _ _ W).
Qed.
Lemma value_chars_nz m n : japanese_value m = Some n -> n <> 0%N -> forallb jword m = true.
Proof.
  intros V N. destruct (value_chars m n V) as [-> |H]; [|exact H]. exfalso. apply N. vm_compute in V. congruence.
Qed.
