(** Property C84: a spoken date through the whole Chinese inverse normaliser.

    Vocabulary: [spoken_year t] and [two_digits] (ZhItnDateSpec.v): the digits of a year said digit by
    digit, and a number below 100 with two digits; [digit_word] and [small_words] (ZhTnEndSpec.v,
    ZhDateSpec.v): a digit and a number below 100 as they are said; [year_like], [month_text],
    [month_like], [day_like] and [date_sep]: the written dates of property C67.  [zh_itn_said o w d]
    (ZhItnSaid.v): the inverse normaliser with the options [o] answers [d] for [w]; [said_as x w]
    (PropsZhTnEnd.v): the normaliser answers [w] for [x] whatever its options; both alone or among
    characters that no rule but the one of single characters reads, whatever the engine. *)
From Coq Require Import List NArith ZArith Bool String Lia Arith.
From Verif Require Import Text TextFacts TokenModel Fst FstFacts GrammarModel GrammarSpec NumeralSpec EnglishNumeralSpec DataZhItn ZhItnModel ZhTnEndSpec ZhDateSpec ZhItnDateSpec BoundarySpec WholeSpec BoundaryLaw PlainSpec.
From Verif Require Import PipelineModel Boundary BoundaryChar Letters OneToken TokenVerbal Fields Fields2 Least ZhItnVerbal ZhItnSaid ZhItnDate ZhItnDate2.
From Verif Require PlainRules EndToEnd TokenProofs2 Whole PropsZhTnEnd PropsZhDate.
Import ListNotations.
Local Open Scope list_scope.

Lemma tagged k g x d : forallb zc x = true -> denote g x d 0%Z -> denote (tag_field k g) x (piece k x) 0%Z.
Proof. intros K H. apply tag_field_spec. split; [exact (all_sub _ _ _ zc_valid K)|]. split; [unfold piece; now rewrite (bare_escape x (all_sub _ _ _ zc_bare K))|eauto]. Qed.
Lemma nonneg_date : Whole.nonneg (r_tagger Date.rule) = true.
Proof. vm_compute. reflexivity. Qed.
Definition date_out_char : N -> bool := among (u "0123456789/年").
Lemma out_kept c : date_out_char c = true -> kept c = true.
Proof. apply among_all. vm_compute. reflexivity. Qed.
Lemma digits_out t : Forall digit_char t -> forallb date_out_char t = true.
Proof. intro F. rewrite Forall_forall in F. apply forallb_forall. intros c I. assert (A : forallb date_out_char ZhDate.ten = true) by (vm_compute; reflexivity). rewrite forallb_forall in A. apply A, in_ten, F, I. Qed.
Lemma two_out i : (1 <= i <= 31)%N -> forallb date_out_char (two_digits i) = true.
Proof. intro L. apply (first_in 31) in L. revert i L. apply forallb_forall. vm_compute. reflexivity. Qed.
Lemma year_part t : spoken_year t -> stamped (u "year", flat_map digit_word t ++ [YEAR]).
Proof. intros (F & _). eexists _, YEAR. repeat split. exact (words_zc t F). Qed.
Lemma month_part i : (1 <= i <= 12)%N -> stamped (u "month", small_words i ++ [MONTH]).
Proof. intro L. eexists _, MONTH. repeat split. apply small_num. lia. Qed.
Lemma day_part i c : (1 <= i <= 31)%N -> c = DAY \/ c = HAO -> stamped (u "day", small_words i ++ [c]).
Proof. intros L [->| ->]; eexists _, _; repeat split; apply small_num; lia. Qed.
Section Said.
Variables (o : options) (oy od : option (text * text)) (m dm : text).
Definition parts : list (text * text) := match oy with Some (y, _) => [(u "year", y)] | None => [] end ++ [(u "month", m)] ++ match od with Some (d, _) => [(u "day", d)] | None => [] end.
Hypothesis Two : oy <> None \/ od <> None.
Hypothesis Sy : forall y d, oy = Some (y, d) -> stamped (u "year", y) /\ forallb date_out_char d = true /\ forall z w, denote Date.g_year y z w <-> z = d /\ w = 0%Z.
Hypothesis Sm : stamped (u "month", m).
Hypothesis Om : forallb date_out_char dm = true.
Hypothesis Rm : forall z w, denote Date.g_month m z w <-> z = dm /\ w = 0%Z.
Hypothesis Sd : forall y d, od = Some (y, d) -> stamped (u "day", y) /\ forallb date_out_char d = true /\ forall z w, denote Date.g_day y z w <-> z = d /\ w = 0%Z.
Lemma parts_stamped : Forall stamped parts.
Proof.
  unfold parts. apply Forall_app. split; [destruct oy as [[y d]|]; [constructor; [exact (proj1 (Sy y d eq_refl))|constructor]|constructor]|]. constructor; [exact Sm|]. destruct od as [[y d]|]; [constructor; [exact (proj1 (Sd y d eq_refl))|constructor]|constructor].
Qed.
Lemma parts_shown : shown parts = before oy ++ piece (u "month") m ++ behind od.
Proof. unfold parts, shown. destruct oy as [[y d]|], od as [[y' d']|]; cbn [app map join Datatypes.fst snd before behind]; rewrite <- ?app_assoc, ?app_nil_r; reflexivity. Qed.
Lemma parts_good : good_keys parts = true /\ good_values parts = true /\ NoDup (map Datatypes.fst parts) /\ parts <> [] /\ TokenProofs2.emitted zh_itn_token_orders (u "date") parts = parts.
Proof.
  assert (V : forall k v, stamped (k, v) -> forallb vchar v = true) by (intros k v H; exact (all_sub _ _ _ zc_valid (stamped_zc _ H))).
  pose proof (V _ _ Sm) as Vm. unfold parts. destruct oy as [[y d]|], od as [[y' d']|]; cbn [app];
    try pose proof (V _ _ (proj1 (Sy y d eq_refl))) as Vy; try pose proof (V _ _ (proj1 (Sd y' d' eq_refl))) as Vd; unfold good_values; cbn [forallb snd]; rewrite ?Vy, ?Vm, ?Vd; (split; [reflexivity|]; split; [reflexivity|]; split; [repeat constructor; cbn; intuition discriminate|]; split; [discriminate|reflexivity]).
Qed.
Lemma two_parts : 2 <= List.length parts.
Proof. unfold parts. destruct oy as [[y d]|], od as [[y' d']|]; cbn; try lia. destruct Two; congruence. Qed.
Theorem date_said : zh_itn_said o (flat_map snd parts) (front oy ++ dm ++ back od).
Proof.
  pose proof parts_stamped as F. pose proof (all_zc _ F) as K. destruct parts_good as (Gk & Gv & Gd & Gn & Go). pose proof two_parts as Tw. pose proof (all_count _ F) as Ct.
  assert (Ky : match oy with Some (y, _) => forallb zc y = true | None => True end) by (destruct oy as [[y d]|]; [exact (stamped_zc _ (proj1 (Sy y d eq_refl)))|exact I]).
  assert (Kd : match od with Some (y, _) => forallb zc y = true | None => True end) by (destruct od as [[y d]|]; [exact (stamped_zc _ (proj1 (Sd y d eq_refl)))|exact I]).
  pose proof (stamped_zc _ Sm) as Km. cbn [snd] in Km.
  apply (zh_itn_said_fields o zc 9500 (u "date") Date.rule 10200 _ _ parts parts (only_zh_itn_date o)); try reflexivity; try assumption; try lia.
  - exact (all_sub _ _ _ zc_valid K).
  - intro E. rewrite E in Ct. cbn in Ct. lia.
  - apply date_floor.
  - apply (all_sub _ _ _ out_kept). rewrite !forallb_app, Om. destruct oy as [[y d]|], od as [[y' d']|]; cbn [front back]; rewrite ?forallb_app; try rewrite (proj1 (proj2 (Sy y d eq_refl))); try rewrite (proj1 (proj2 (Sd y' d' eq_refl))); reflexivity.
  - apply PlainRules.tokens_added. exists (shown parts). split; [rewrite (parts_token _ F), <- !app_assoc; reflexivity|]. rewrite parts_shown.
    pose proof (tagged (u "month") Date.g_month m dm Km (proj2 (Rm _ _) (conj eq_refl eq_refl))) as Pm.
    assert (Py : forall y d, oy = Some (y, d) -> denote Date.year y (piece (u "year") y ++ u " ") 0%Z).
    { intros y d E. destruct (Sy y d E) as (S & _ & R). rewrite <- (app_nil_r y) at 1. change 0%Z with (0 + 0)%Z. apply cat_i; [exact (tagged _ _ _ d (stamped_zc _ S) (proj2 (R _ _) (conj eq_refl eq_refl)))|now cbn]. }
    assert (Pd : forall y d, od = Some (y, d) -> denote Date.day y (u " " ++ piece (u "day") y) 0%Z).
    { intros y d E. destruct (Sd y d E) as (S & _ & R). change y with ([] ++ y) at 1. change 0%Z with (0 + 0)%Z. apply cat_i; [now cbn|exact (tagged _ _ _ d (stamped_zc _ S) (proj2 (R _ _) (conj eq_refl eq_refl)))]. }
    unfold parts. destruct oy as [[y d]|], od as [[y' d']|]; cbn [app flat_map snd before behind]; rewrite ?app_nil_r.
    + left. left. left. pose proof (cat_i _ _ _ _ _ _ _ _ (cat_i _ _ _ _ _ _ _ _ (Py _ _ eq_refl) Pm) (Pd _ _ eq_refl)) as X. rewrite <- !app_assoc in X. rewrite <- !app_assoc. exact X.
    + left. left. right. pose proof (cat_i _ _ _ _ _ _ _ _ (Py _ _ eq_refl) Pm) as X. exact X.
    + left. right. exact (cat_i _ _ _ _ _ _ _ _ Pm (Pd _ _ eq_refl)).
    + destruct Two; congruence.
  - intros s k y v I W H. destruct (date_others o s k _ _ _ I W K H) as [->|L]; [|lia]. cbn [s_weight date_spec] in W. injection W as <-. cbn [s_rule date_spec] in H. pose proof (Whole.nonneg_sound _ nonneg_date _ _ _ H) as P. split; [lia|]. intros _.
    apply PlainRules.tokens_added in H as (t & Et & H). apply (app_inv_tail (u " ")). rewrite Et. destruct (date_parse _ _ _ K H) as [(fs & F' & _ & E & ->)|(S & _)].
    + apply stamped_inj in E as <-; [|exact F|exact F']. rewrite (parts_token _ F), <- !app_assoc. reflexivity.
    + exfalso. assert (E : parts = [(u "year", flat_map snd parts)]) by (apply stamped_inj; [exact F|auto|cbn [flat_map snd]; now rewrite app_nil_r]). rewrite E in Tw. cbn in Tw. lia.
  - intros z w. rewrite (parts_token _ F). cbn [r_verbalizer Date.rule]. unfold Date.name. rewrite tokens_inner, parts_shown. apply date_verbal; auto.
    + intros y d E. exact (proj2 (proj2 (Sy y d E))).
    + intros y d E. exact (proj2 (proj2 (Sd y d E))).
Qed.
End Said.

(** Year, month and day: 二零二四年三月五日 is written 2024/03/05, and so is 二零二四年三月五号. *)
Theorem C84_year_month_day o t i k c : spoken_year t -> (1 <= i <= 12)%N -> (1 <= k <= 31)%N -> c = u "日" \/ c = u "号" ->
  zh_itn_said o (flat_map digit_word t ++ u "年" ++ small_words i ++ u "月" ++ small_words k ++ c) (t ++ u "/" ++ two_digits i ++ u "/" ++ two_digits k).
Proof.
  intros Y I K C. assert (exists c', c = [c'] /\ (c' = DAY \/ c' = HAO)) as (c' & -> & C') by (destruct C as [->| ->]; eexists; split; [reflexivity|auto|reflexivity|auto]).
  pose proof (date_said o (Some (flat_map digit_word t ++ [YEAR], t)) (Some (small_words k ++ [c'], two_digits k)) (small_words i ++ [MONTH]) (two_digits i) ltac:(left; discriminate)) as X.
  unfold parts in X. cbn [app flat_map snd front back] in X. rewrite app_nil_r, <- !app_assoc in X. apply X.
  - intros y d [= <- <-]. split; [now apply year_part|]. split; [exact (digits_out t (proj1 Y))|]. intros z w. now apply year_read.
  - now apply month_part.
  - apply two_out. lia.
  - intros z w. now apply month_read.
  - intros y d [= <- <-]. split; [now apply day_part|]. split; [now apply two_out|]. intros z w. now apply day_read.
Qed.
Print Assumptions C84_year_month_day.
Theorem C84_year_month o t i : spoken_year t -> (1 <= i <= 12)%N ->
  zh_itn_said o (flat_map digit_word t ++ u "年" ++ small_words i ++ u "月") (t ++ u "/" ++ two_digits i).
Proof.
  intros Y I. pose proof (date_said o (Some (flat_map digit_word t ++ [YEAR], t)) None (small_words i ++ [MONTH]) (two_digits i) ltac:(left; discriminate)) as X.
  unfold parts in X. cbn [app flat_map snd front back] in X. rewrite !app_nil_r, <- !app_assoc in X. apply X.
  - intros y d [= <- <-]. split; [now apply year_part|]. split; [exact (digits_out t (proj1 Y))|]. intros z w. now apply year_read.
  - now apply month_part.
  - apply two_out. lia.
  - intros z w. now apply month_read.
  - discriminate.
Qed.
Print Assumptions C84_year_month.
Theorem C84_month_day o i k c : (1 <= i <= 12)%N -> (1 <= k <= 31)%N -> c = u "日" \/ c = u "号" ->
  zh_itn_said o (small_words i ++ u "月" ++ small_words k ++ c) (two_digits i ++ u "/" ++ two_digits k).
Proof.
  intros I K C. assert (exists c', c = [c'] /\ (c' = DAY \/ c' = HAO)) as (c' & -> & C') by (destruct C as [->| ->]; eexists; split; [reflexivity|auto|reflexivity|auto]).
  pose proof (date_said o None (Some (small_words k ++ [c'], two_digits k)) (small_words i ++ [MONTH]) (two_digits i) ltac:(right; discriminate)) as X.
  unfold parts in X. cbn [app flat_map snd front back] in X. rewrite app_nil_r, <- !app_assoc in X. apply X.
  - discriminate.
  - now apply month_part.
  - apply two_out. lia.
  - intros z w. now apply month_read.
  - intros y d [= <- <-]. split; [now apply day_part|]. split; [now apply two_out|]. intros z w. now apply day_read.
Qed.
Print Assumptions C84_month_day.

(** A year alone keeps its 年. *)
Definition dc_chars : text := Eval vm_compute in u "零一二三四五六七八九年".
Definition dc : N -> bool := among dc_chars.
Lemma dc_zc c : dc c = true -> zc c = true.
Proof. apply among_all. vm_compute. reflexivity. Qed.
Definition fits_year (s : rule_spec) : bool :=
  match s_weight s with Some k => match both dc stampc (r_tagger (s_rule s)) with (Never, _) => true | (AtLeast z, m) => (9500 <=? k + z)%Z && ((k =? 10200)%Z || (10200 <? k + z)%Z || match m with Some n => n <=? 0 | None => false end) | (Unsure, _) => false end | None => true end.
Lemma year_fits o : forallb fits_year (rules o) = true.
Proof. destruct o as [r [] [] []]; vm_compute; reflexivity. Qed.
Lemma year_floor o : forallb (floor_on dc 9500) (rules o) = true.
Proof.
  pose proof (year_fits o) as F. rewrite forallb_forall in F |- *. intros s I. specialize (F s I). unfold fits_year in F. unfold floor_on. destruct (s_weight s) as [k|]; [|reflexivity]. rewrite both_eq in F. destruct (least dc _); [reflexivity| |discriminate F]. now apply andb_true_iff in F as (F & _).
Qed.
Lemma year_others o s k x y w : In s (rules o) -> s_weight s = Some k -> forallb dc x = true -> denote (r_tagger (s_rule s)) x y w -> s = date_spec \/ (10200 < k + w)%Z \/ count stampc x <= 0.
Proof.
  intros I W K H. destruct (Z.eq_dec k 10200) as [->|N]; [left; now apply (weight_date o)|right]. pose proof (proj1 (forallb_forall _ _) (year_fits o) s I) as F. unfold fits_year in F. rewrite W, both_eq in F. apply Z.eqb_neq in N. rewrite N in F.
  pose proof (least_sound dc _ x y w K H) as L. pose proof (marks_sound dc stampc _ x y w K H) as M. destruct (least dc _); [destruct L| |discriminate F]. apply andb_true_iff in F as (_ & F). cbn [low_ok orb] in L, F. apply orb_true_iff in F as [F|F]; [left; apply Z.ltb_lt in F; lia|right]. destruct (marks dc stampc _) as [n|]; [|discriminate F]. cbn in M, F. apply Nat.leb_le in F. lia.
Qed.
Lemma words_dc t : Forall digit_char t -> forallb dc (flat_map digit_word t) = true.
Proof.
  assert (A : forallb (fun c => forallb dc (digit_word c)) ZhDate.ten = true) by (vm_compute; reflexivity). rewrite forallb_forall in A.
  intro F. induction F as [|c t D F IH]; [reflexivity|]. cbn [flat_map]. now rewrite forallb_app, (A c (in_ten c D)), IH.
Qed.
Theorem C84_year o t : spoken_year t -> zh_itn_said o (flat_map digit_word t ++ u "年") (t ++ u "年").
Proof.
  intro Y. change (u "年") with [YEAR]. set (x := flat_map digit_word t ++ [YEAR]). pose proof (year_part t Y) as S. fold x in S. pose proof (stamped_zc _ S) as Kz. cbn [snd] in Kz.
  assert (K : forallb dc x = true) by (unfold x; rewrite forallb_app, (words_dc t (proj1 Y)); reflexivity). pose proof (all_sub _ _ _ zc_valid Kz) as V.
  assert (Tok : fields_token (u "date") [(u "year", x); (u "preserve_order", u "true")] = u "date" ++ u " { " ++ (piece (u "year") x ++ marker) ++ u " }").
  { unfold fields_token. cbn [map join Datatypes.fst snd]. rewrite (bare_escape x (all_sub _ _ _ zc_bare Kz)), <- !app_assoc. reflexivity. }
  apply (zh_itn_said_fields o dc 9500 (u "date") Date.rule 10200 x _ [(u "year", x); (u "preserve_order", u "true")] [(u "year", x); (u "preserve_order", u "true")] (only_zh_itn_date o)); try reflexivity; try assumption; try lia; try discriminate.
  - unfold x. intro E. now apply app_eq_nil in E as (_ & E).
  - apply year_floor.
  - unfold good_values. cbn [forallb snd]. rewrite V. reflexivity.
  - repeat constructor; cbn; intuition discriminate.
  - apply (all_sub _ _ _ out_kept). rewrite forallb_app, (digits_out t (proj1 Y)). reflexivity.
  - apply PlainRules.tokens_added. exists (piece (u "year") x ++ marker). split; [rewrite Tok, <- !app_assoc; reflexivity|]. right. rewrite <- (app_nil_r x) at 1. change 0%Z with (0 + 0)%Z. apply cat_i; [|now cbn]. apply (tagged _ _ _ (t ++ [YEAR]) Kz). now apply year_only_read.
  - intros s k y v I W H. destruct (year_others o s k _ _ _ I W K H) as [->|[L|L]]; [|split; lia|pose proof (stamped_count _ S) as C; cbn [snd] in C; lia].
    cbn [s_weight date_spec] in W. injection W as <-. cbn [s_rule date_spec] in H. pose proof (Whole.nonneg_sound _ nonneg_date _ _ _ H) as P. split; [lia|]. intros _.
    apply PlainRules.tokens_added in H as (t' & Et & H). apply (app_inv_tail (u " ")). rewrite Et. destruct (date_parse _ _ _ Kz H) as [(fs & F' & L & E & ->)|(_ & ->)].
    + exfalso. assert (X : fs = [(u "year", x)]) by (apply stamped_inj; [exact F'|auto|cbn [flat_map snd]; now rewrite app_nil_r]). rewrite X in L. cbn in L. lia.
    + rewrite Tok, <- !app_assoc. reflexivity.
  - intros z w. rewrite Tok. cbn [r_verbalizer Date.rule]. unfold Date.name. rewrite tokens_inner. apply year_verbal; [exact Kz|]. intros z' w'. now apply year_only_read.
Qed.
Print Assumptions C84_year.
(** What the normaliser says for a written date, the inverse normaliser writes as year/month/day. *)
Lemma year_like_spoken y : year_like y -> spoken_year y.
Proof. intros (L & F & N). split; [exact F|auto]. Qed.
Theorem C84_round_year_month_day o y s m s' d : year_like y -> month_text m -> day_like d -> date_sep s -> date_sep s' ->
  exists w, PropsZhTnEnd.said_as (y ++ [s] ++ m ++ [s'] ++ d) w /\ PropsZhTnEnd.said_as (d ++ [s] ++ m ++ [s'] ++ y) w /\
    zh_itn_said o w (y ++ u "/" ++ two_digits (decimal_value m) ++ u "/" ++ two_digits (decimal_value d)).
Proof.
  intros Y M D S S'. eexists. split; [exact (PropsZhDate.C67_year_month_day y s m s' d Y M D S S')|]. split; [exact (PropsZhDate.C67_day_month_year y s m s' d Y M D S S')|].
  unfold year_words, month_words, day_words. rewrite <- !app_assoc. apply C84_year_month_day; [now apply year_like_spoken|exact (proj2 (proj2 M))|exact (proj2 (proj2 D))|now left].
Qed.
Print Assumptions C84_round_year_month_day.
Theorem C84_round_year_month o y s m : year_like y -> month_like m -> date_sep s ->
  exists w, PropsZhTnEnd.said_as (y ++ [s] ++ m) w /\ PropsZhTnEnd.said_as (m ++ [s] ++ y) w /\ zh_itn_said o w (y ++ u "/" ++ m).
Proof.
  intros Y M S. destruct (PropsZhDate.C67_year_month y s m Y M S) as (A & B). eexists. split; [exact A|]. split; [exact B|].
  assert (E : two_digits (decimal_value m) = m).
  { destruct M as (L & F & _). pose proof (ZhDate.short_all (fun p => match p with [_] => true | _ => text_eqb (two_digits (decimal_value p)) p end) ltac:(vm_compute; reflexivity) m (or_intror L) F) as T. cbv beta in T. destruct m as [|a [|b m]]; try discriminate L. now apply text_eqb_eq. }
  rewrite <- E at 2. unfold year_words, month_words. rewrite <- !app_assoc. apply C84_year_month; [now apply year_like_spoken|exact (proj2 (proj2 M))].
Qed.
Print Assumptions C84_round_year_month.
(** The hypotheses are met: 二零二四年三月十五号 is written 2024/03/15. *)
Example C84_witness (o : options) : zh_itn_said o (u "二零二四年三月十五号") (u "2024/03/15").
Proof.
  refine (C84_year_month_day o (u "2024") 3 15 (u "号") _ _ _ (or_intror eq_refl)); try lia. split; [repeat constructor; vm_compute; intro X; discriminate X|]. right. split; [right; reflexivity|discriminate].
Qed.
