(** Whole Japanese dates: the tokens (C71, C72). *)
From Coq Require Import List NArith ZArith Bool String Lia Arith.
From Verif Require Import Text TextFacts TokenModel Fst FstFacts FstRun GrammarModel GrammarSpec GrammarAccept NumeralSpec EnglishNumeralSpec DataJaTn JaTnModel ZhTnEndSpec ZhDateSpec JaNumeralSpec WholeSpec.
From Verif Require Import BoundaryChar Letters Apart OneToken TokenVerbal Fields ZhNumberProofs ZhNumberProofs2 ZhTnRead ZhDate ZhDate2 JaNumber JaNumber2 JaApart JaPost JaDate.
From Verif Require EndToEnd EnNumberProofs5 PlainRules FstEval ZhTnModel.
Import ListNotations.
Local Open Scope list_scope.

Section Opt.
Variable o : options.
Lemma jsign_denote x y w : forallb jchar x = true -> (denote (Date.rmsign o) x y w <-> exists c, x = [c] /\ date_sep c /\ y = u " " /\ w = 0%Z).
Proof.
  intro K. unfold Date.rmsign, date_sep. split.
  - intro H. apply cat_inv in H as (x1 & y1 & w1 & x2 & y2 & w2 & -> & -> & -> & H & (-> & -> & ->)). apply japp in K as (K & _). apply (proj1 (pre_reads o _ _ _ _ K)) in H.
    destruct H as [[(-> & -> & ->)|(-> & -> & ->)]|(-> & -> & ->)]; [exists 47%N|exists 45%N|exists 46%N]; cbn; auto 10.
  - intros (c & -> & H & -> & ->). change [c] with ([c] ++ []). change (u " ") with ([] ++ u " "). change 0%Z with (0 + 0)%Z. apply cat_i; [|now cbn]. apply (pre_reads o _ _ _ _ K).
    destruct H as [-> |[-> | ->]]; [left; left|left; right|right]; now cbn.
Qed.
Lemma jparts3 k1 g1 k2 g2 k3 g3 x y w : forallb jchar x = true -> denote (tag_field k1 g1 + Date.rmsign o + tag_field k2 g2 + Date.rmsign o + tag_field k3 g3)%fst x y w ->
  exists a s b s' c, x = a ++ s :: b ++ s' :: c /\ date_sep s /\ date_sep s' /\ y = shown [(k1, a); (k2, b); (k3, c)] /\ reads_as g1 a /\ reads_as g2 b /\ reads_as g3 c.
Proof.
  intros K H. apply cat_inv in H as (x1 & y1 & w1 & c & y2 & w2 & -> & -> & -> & H & H3). apply japp in K as (K & _). apply cat_inv in H as (x3 & y3 & w3 & x4 & y4 & w4 & -> & -> & -> & H & S'). apply japp in K as (K & K').
  apply cat_inv in H as (x5 & y5 & w5 & b & y6 & w6 & -> & -> & -> & H & H2). apply japp in K as (K & _). apply cat_inv in H as (a & y7 & w7 & x8 & y8 & w8 & -> & -> & -> & H1 & S). apply japp in K as (_ & K).
  apply (jsign_denote _ _ _ K) in S as (s & -> & S & -> & ->). apply (jsign_denote _ _ _ K') in S' as (s' & -> & S' & -> & ->).
  apply tag_field_spec in H1 as (_ & -> & H1). apply tag_field_spec in H2 as (_ & -> & H2). apply tag_field_spec in H3 as (_ & -> & H3).
  exists a, s, b, s', c. split; [apply nested_app|]. split; [exact S|]. split; [exact S'|]. split; [|split; [|split]; [destruct H1 as (z & H1); now exists z, w7|destruct H2 as (z & H2); now exists z, w6|destruct H3 as (z & H3); now exists z, w2]].
  unfold shown. cbn [map join Datatypes.fst snd]. unfold piece. rewrite <- !app_assoc. reflexivity.
Qed.
Lemma jparts2 k1 g1 k2 g2 x y w : forallb jchar x = true -> denote (tag_field k1 g1 + Date.rmsign o + tag_field k2 g2)%fst x y w ->
  exists a s b, x = a ++ s :: b /\ date_sep s /\ y = shown [(k1, a); (k2, b)] /\ reads_as g1 a /\ reads_as g2 b.
Proof.
  intros K H. apply cat_inv in H as (x5 & y5 & w5 & b & y6 & w6 & -> & -> & -> & H & H2). apply japp in K as (K & _). apply cat_inv in H as (a & y7 & w7 & x8 & y8 & w8 & -> & -> & -> & H1 & S). apply japp in K as (_ & K).
  apply (jsign_denote _ _ _ K) in S as (s & -> & S & -> & ->). apply tag_field_spec in H1 as (_ & -> & H1). apply tag_field_spec in H2 as (_ & -> & H2).
  exists a, s, b. split; [now rewrite <- app_assoc|]. split; [exact S|]. split; [|split; [destruct H1 as (z & H1); now exists z, w7|destruct H2 as (z & H2); now exists z, w6]].
  unfold shown. cbn [map join Datatypes.fst snd]. unfold piece. rewrite <- !app_assoc. reflexivity.
Qed.
Lemma sep_jchar s : date_sep s -> forallb jchar [s] = true.
Proof. intros [-> |[-> | ->]]; reflexivity. Qed.
Lemma jparts3_i k1 g1 k2 g2 k3 g3 a s b s' c : forallb vchar a = true -> forallb vchar b = true -> forallb vchar c = true -> date_sep s -> date_sep s' ->
  (exists z, denote g1 a z 0%Z) -> (exists z, denote g2 b z 0%Z) -> (exists z, denote g3 c z 0%Z) ->
  denote (tag_field k1 g1 + Date.rmsign o + tag_field k2 g2 + Date.rmsign o + tag_field k3 g3)%fst (a ++ s :: b ++ s' :: c) (shown [(k1, a); (k2, b); (k3, c)]) 0%Z.
Proof.
  intros Va Vb Vc S S' H1 H2 H3. rewrite <- nested_app. replace (shown [(k1, a); (k2, b); (k3, c)]) with ((((piece k1 (escape_value a) ++ u " ") ++ piece k2 (escape_value b)) ++ u " ") ++ piece k3 (escape_value c)) by (rewrite <- !app_assoc; reflexivity).
  change 0%Z with ((((0 + 0) + 0) + 0) + 0)%Z. repeat apply cat_i; try (apply tagged; assumption); (apply jsign_denote; [now apply sep_jchar|eauto]).
Qed.
Lemma jparts2_i k1 g1 k2 g2 a s b : forallb vchar a = true -> forallb vchar b = true -> date_sep s ->
  (exists z, denote g1 a z 0%Z) -> (exists z, denote g2 b z 0%Z) ->
  denote (tag_field k1 g1 + Date.rmsign o + tag_field k2 g2)%fst (a ++ s :: b) (shown [(k1, a); (k2, b)]) 0%Z.
Proof.
  intros Va Vb S H1 H2. replace (a ++ s :: b) with ((a ++ [s]) ++ b) by now rewrite <- app_assoc. replace (shown [(k1, a); (k2, b)]) with ((piece k1 (escape_value a) ++ u " ") ++ piece k2 (escape_value b)) by (rewrite <- !app_assoc; reflexivity).
  change 0%Z with ((0 + 0) + 0)%Z. repeat apply cat_i; try (apply tagged; assumption). apply jsign_denote; [now apply sep_jchar|eauto].
Qed.
(** ** The parts behind the preprocessor *)
Definition is_year (a : text) : Prop := exists t, year_of t a.
Lemma g_year_known a : forallb jchar a = true -> reads_as (Date.g_year o) a -> is_year a.
Proof.
  intros K (z & w & H). unfold Date.g_year, Cardinal.thousand in H. apply cat_inv in H as (x1 & y1 & w1 & x2 & y2 & w2 & -> & -> & -> & H & (-> & -> & ->)). rewrite app_nil_r in *.
  apply (proj1 (pre_reads o _ _ _ _ K)) in H. exact (thousand_known _ _ _ K H).
Qed.
Lemma g_month_known a : forallb jchar a = true -> reads_as (Date.g_month o) a -> month_text a.
Proof. intros K (z & w & H). apply (proj1 (pre_reads o _ _ _ _ K)) in H. exact (jmonth_known _ _ _ H). Qed.
Lemma g_day_known a : forallb jchar a = true -> reads_as (Date.g_day o) a -> day_like a.
Proof. intros K (z & w & H). apply (proj1 (pre_reads o _ _ _ _ K)) in H. exact (jday_known _ _ _ H). Qed.
Lemma g_mm_known a : forallb jchar a = true -> reads_as (Date.g_mm o) a -> zero_month a.
Proof. intros K (z & w & H). apply (proj1 (pre_reads o _ _ _ _ K)) in H. exact (jmm_known _ _ _ H). Qed.
(** ** The five forms *)
Inductive jdated : text -> list (text * text) -> Prop :=
| jdated_ymd a s b s' c : is_year a -> month_text b -> day_like c -> date_sep s -> date_sep s' -> jdated (a ++ s :: b ++ s' :: c) [(u "year", a); (u "month", b); (u "day", c)]
| jdated_dmy a s b s' c : day_like a -> month_text b -> is_year c -> date_sep s -> date_sep s' -> jdated (a ++ s :: b ++ s' :: c) [(u "day", a); (u "month", b); (u "year", c)]
| jdated_ym a s b : is_year a -> zero_month b -> date_sep s -> jdated (a ++ s :: b) [(u "year", a); (u "month", b)]
| jdated_my a s b : zero_month a -> is_year b -> date_sep s -> jdated (a ++ s :: b) [(u "month", a); (u "year", b)]
| jdated_md a s b : zero_month a -> day_like b -> date_sep s -> jdated (a ++ s :: b) [(u "month", a); (u "day", b)].
Ltac pieces := repeat match goal with
  | K : forallb jchar (_ ++ _) = true |- _ => apply japp in K as (? & ?)
  | K : forallb jchar (_ :: _) = true |- _ => cbn [forallb] in K; apply andb_true_iff in K as (_ & K)
  end.
Lemma jdate_inv x y w : forallb jchar x = true -> denote (Date.date o) x y w -> exists fs, jdated x fs /\ y = shown fs.
Proof.
  intros K [[[[H|H]|H]|H]|H].
  - apply (jparts3 _ _ _ _ _ _ _ _ _ K) in H as (a & s & b & s' & c & -> & S & S' & -> & H1 & H2 & H3). pieces. eexists. split; [apply jdated_ymd; auto using g_year_known, g_month_known, g_day_known|reflexivity].
  - apply (jparts3 _ _ _ _ _ _ _ _ _ K) in H as (a & s & b & s' & c & -> & S & S' & -> & H1 & H2 & H3). pieces. eexists. split; [apply jdated_dmy; auto using g_year_known, g_month_known, g_day_known|reflexivity].
  - apply (jparts2 _ _ _ _ _ _ _ K) in H as (a & s & b & -> & S & -> & H1 & H2). pieces. eexists. split; [apply jdated_ym; auto using g_year_known, g_mm_known|reflexivity].
  - apply (jparts2 _ _ _ _ _ _ _ K) in H as (a & s & b & -> & S & -> & H1 & H2). pieces. eexists. split; [apply jdated_my; auto using g_year_known, g_mm_known|reflexivity].
  - apply (jparts2 _ _ _ _ _ _ _ K) in H as (a & s & b & -> & S & -> & H1 & H2). pieces. eexists. split; [apply jdated_md; auto using g_day_known, g_mm_known|reflexivity].
Qed.
Lemma sep_count a s b : date_sep s -> (1 <= seps (a ++ s :: b))%nat.
Proof. intro S. rewrite seps_app, (seps_cons s b S). lia. Qed.
Lemma jdate_seps1 x fs : jdated x fs -> (1 <= seps x)%nat.
Proof. intro H. destruct H; now apply sep_count. Qed.
Lemma simple_seps x y w : forallb jchar x = true -> denote (Date.simple_date o) x y w -> (1 <= seps x)%nat.
Proof. intros K [[H|H]|H]; apply (jparts2 _ _ _ _ _ _ _ K) in H as (a & s & b & -> & S & _); now apply sep_count. Qed.
Lemma range_sep x y w : forallb jchar x = true -> denote (r_tagger (Range.rule o)) x y w -> seps x = 1.
Proof.
  intros K H. apply PlainRules.tokens_added in H as (z & _ & H). apply tag_field_spec in H as (_ & _ & z' & H). apply (proj1 (pre_reads o _ _ _ _ K)) in H. destruct H as [[(-> & _)|(-> & _)]|(-> & _)]; [reflexivity|discriminate K..].
Qed.
(** One date, or at least three separators. *)
Lemma jdate_tagged x y v : forallb jchar x = true -> (seps x <= 2)%nat -> denote (Date.tagger o (r_tagger (Range.rule o))) x (y ++ u " ") v -> exists fs, jdated x fs /\ y = fields_token (u "date") fs.
Proof.
  intros K S [H|H].
  - apply cat_inv in H as (x1 & y1 & w1 & x2 & y2 & w2 & -> & Ey & -> & H1 & H2). apply japp in K as (K1 & K2). apply PlainRules.tokens_added in H1 as (z & -> & H1). apply (jdate_inv _ _ _ K1) in H1 as (fs1 & D1 & ->).
    destruct H2 as [H2|(-> & -> & ->)].
    + exfalso. apply cat_inv in H2 as (x3 & y3 & w3 & x4 & y4 & w4 & -> & -> & -> & H3 & H4). apply japp in K2 as (K3 & K4). apply PlainRules.tokens_added in H4 as (z4 & _ & H4). apply (jdate_inv _ _ _ K4) in H4 as (fs4 & D4 & _).
      apply (range_sep _ _ _ K3) in H3. apply jdate_seps1 in D1, D4. rewrite !seps_app in S. lia.
    + rewrite app_nil_r in *. exists fs1. split; [exact D1|]. unfold fields_token. change (u " } ") with (u " }" ++ u " ") in Ey. unfold shown in Ey. rewrite !app_assoc in Ey. apply app_inv_tail in Ey. rewrite Ey, <- !app_assoc. reflexivity.
  - exfalso. apply cat_inv in H as (x1 & y1 & w1 & x2 & y2 & w2 & -> & Ey & -> & H & H2). apply japp in K as (K & K2). apply cat_inv in H as (x3 & y3 & w3 & x4 & y4 & w4 & -> & -> & -> & H3 & H4). apply japp in K as (K3 & K4).
    apply PlainRules.tokens_added in H2 as (z & _ & H2). apply PlainRules.tokens_added in H3 as (z' & _ & H3). apply (range_sep _ _ _ K4) in H4. apply (simple_seps _ _ _ K2) in H2. apply (simple_seps _ _ _ K3) in H3. rewrite !seps_app in S. lia.
Qed.
End Opt.
