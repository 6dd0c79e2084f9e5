(** Dates of the Japanese normaliser once more (C72), now with the fact that 一十 is not said in the year:
    what the round trip (C83) needs. *)
From Coq Require Import List NArith ZArith Bool String Lia.
From Verif Require Import Text TextFacts TokenModel Fst FstFacts GrammarModel GrammarSpec GrammarAccept NumeralSpec EnglishNumeralSpec DataJaTn JaTnModel ZhTnEndSpec ZhDateSpec ZhAmountSpec JaNumeralSpec JaAmountSpec WholeSpec BoundarySpec BoundaryLaw PlainSpec.
From Verif Require Import NbestModel PropsBoundary BoundaryChar Letters OneToken Fields ZhNumberProofs ZhTnRead ZhDate ZhDate2 JaPost JaDate JaDate2 JaDate3 JaSpoken3 JaTen PropsJaDate.
From Verif Require EndToEnd PlainRules PropsZhSpoken Whole.
Import ListNotations.
Local Open Scope list_scope.

Lemma thousand_never x y w : denote Cardinal.thousand0 x y w -> ~ one_ten y.
Proof. intro H. apply free_one_ten. apply (may_sound _ _ _ _ H). vm_compute. reflexivity. Qed.
Lemma year_word_free t y o : year_of t y -> exists w, japanese_value w = Some (decimal_value t) /\ is_year y /\ (forall z v, denote (Date.g_year o) y z v <-> z = w ++ u "年" /\ v = 0%Z) /\ forallb jword w = true /\ ~ one_ten w.
Proof.
  intro Y. destruct (year_word t y o Y) as (w & V & I & R & J). exists w. do 4 (split; [assumption|]).
  pose proof (proj2 (R _ _) (conj eq_refl eq_refl)) as H. unfold Date.g_year, Cardinal.thousand in H. apply cat_inv in H as (x1 & y1 & w1 & x2 & y2 & w2 & E & E2 & _ & H & (-> & -> & ->)). rewrite app_nil_r in E. subst x1.
  assert (K : forallb jchar y = true) by (apply year_jchar; exact I). apply (proj1 (pre_reads o _ _ _ _ K)) in H. apply app_inv_tail in E2. subst y1. exact (thousand_never _ _ _ H).
Qed.
Lemma ymd_words o t y s m s' d : year_of t y -> month_text m -> day_like d -> date_sep s -> date_sep s' ->
  exists w, japanese_value w = Some (decimal_value t) /\ ~ one_ten w /\
    ja_said o (y ++ [s] ++ m ++ [s'] ++ d) (w ++ u "年" ++ month_words m ++ day_words d) /\ ja_said o (d ++ [s] ++ m ++ [s'] ++ y) (w ++ u "年" ++ month_words m ++ day_words d).
Proof.
  intros Y M D S S'. destruct (year_word_free t y o Y) as (w & V & Y1 & Y2 & Y3 & O). exists w. split; [exact V|]. split; [exact O|]. rewrite (app_assoc w). split.
  - change (y ++ [s] ++ m ++ [s'] ++ d) with (y ++ s :: m ++ s' :: d).
    apply (jdate_said o _ _ w [(u "year", y); (u "month", m); (u "day", d)] (Some y) m (Some d)); auto; try reflexivity.
    + now apply jdated_ymd.
    + do 4 left. apply jparts3_i; parts Y2.
  - change (d ++ [s] ++ m ++ [s'] ++ y) with (d ++ s :: m ++ s' :: y).
    apply (jdate_said o _ _ w [(u "day", d); (u "month", m); (u "year", y)] (Some y) m (Some d)); auto; try reflexivity.
    + now apply jdated_dmy.
    + do 3 left. right. apply jparts3_i; parts Y2.
Qed.
Lemma ym_words o t y s m : year_of t y -> zero_month m -> date_sep s ->
  exists w, japanese_value w = Some (decimal_value t) /\ ~ one_ten w /\
    ja_said o (y ++ [s] ++ m) (w ++ u "年" ++ month_words m) /\ ja_said o (m ++ [s] ++ y) (w ++ u "年" ++ month_words m).
Proof.
  intros Y M S. destruct (year_word_free t y o Y) as (w & V & Y1 & Y2 & Y3 & O). pose proof (zero_month_text m M) as M'. exists w. split; [exact V|]. split; [exact O|]. rewrite <- (app_nil_r (month_words m)), (app_assoc w). split.
  - change (y ++ [s] ++ m) with (y ++ s :: m). apply (jdate_said o _ _ w [(u "year", y); (u "month", m)] (Some y) m None); auto; try reflexivity.
    + now apply jdated_ym.
    + do 2 left. right. apply jparts2_i; parts Y2.
  - change (m ++ [s] ++ y) with (m ++ s :: y). apply (jdate_said o _ _ w [(u "month", m); (u "year", y)] (Some y) m None); auto; try reflexivity.
    + now apply jdated_my.
    + left. right. apply jparts2_i; parts Y2.
Qed.
(** The numbers below 100 as they are said mean what they should, and 一十 is not among them. *)
Definition small_right (p : text) : bool :=
  let n := decimal_value p in if (n =? 0)%N then true else
  match japanese_value (small_words n) with Some k => (k =? n)%N | None => false end && free (small_words n).
Lemma small_means p : (List.length p = 1 \/ List.length p = 2) -> Forall digit_char p -> decimal_value p <> 0%N ->
  japanese_value (small_words (decimal_value p)) = Some (decimal_value p) /\ ~ one_ten (small_words (decimal_value p)).
Proof.
  intros L F Z. assert (H : small_right p = true) by (revert L F; apply (short_all small_right); vm_compute; reflexivity).
  unfold small_right in H. cbv zeta in H. apply N.eqb_neq in Z. rewrite Z in H. apply andb_true_iff in H as (H & Fr). split; [|exact (free_one_ten _ Fr)].
  destruct (japanese_value (small_words (decimal_value p))) as [k|]; [|discriminate H]. apply N.eqb_eq in H. now rewrite H.
Qed.
Lemma year_decimal t y : year_of t y -> decimal t (decimal_value t) /\ (0 < decimal_value t < 10000)%N.
Proof.
  intro Y. pose proof (year_nz t y Y) as Nz. destruct Y as (L & F & H & _). split.
  - split; [intros ->; discriminate L|]. split; [exact F|]. split; [intro E; congruence|reflexivity].
  - destruct t as [|a [|b [|c [|d [|]]]]]; cbn [List.length] in L; try discriminate L. inversion_clear F as [|? ? Da F1]. inversion_clear F1 as [|? ? Db F2]. inversion_clear F2 as [|? ? Dc F3]. inversion_clear F3 as [|? ? Dd _].
    unfold digit_char in *. unfold decimal_value in *. cbn [fold_left] in *. lia.
Qed.
