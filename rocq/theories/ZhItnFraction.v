(** Fractions of the Chinese inverse normaliser: the tokens of x分之y (C86). *)
From Coq Require Import List NArith ZArith Bool String Lia Arith.
From Verif Require Import Text TextFacts TokenModel Fst FstFacts GrammarModel GrammarSpec GrammarAccept NumeralSpec EnglishNumeralSpec ZhSpokenSpec BoundarySpec WholeSpec.
From Verif Require Import DataZhItn ZhItnModel ZhSpokenProofs ZhSpokenProofs2 ZhSpokenProofs3 ZhSpokenProofs4 ZhSpokenProofs5 ZhSpokenProofs6.
From Verif Require Import TokenVerbal Apart JaHead ZhItnTag ZhItnTag2.
From Verif Require Import NbestModel NbestSpec EngineSpec PipelineModel Boundary BoundaryRules BoundaryChar BoundaryLaw BoundaryLawProofs PlainSpec Letters Whole OneToken Fields Fields2 PropsBoundary ZhItnVerbal Least ZhItnSaid ZhItnPercent.
From Verif Require EndToEnd FstEval.
From Verif Require Import PlainRules.
Import ListNotations.
Local Open Scope list_scope.

(** ** The costs of the tokens before a percentage *)
Definition t_cost (l : list cls) : option Z := omin (more 10600 (match l with [] => None | c :: r => fpieces r [c] end)) (f_liang l).
Fixpoint tp (l p : list cls) : option Z :=
  match l with
  | [] => match p with [] => Some 0%Z | _ => t_cost (rev p) end
  | c :: r => omin (tp r (c :: p)) (match p with [] => None | _ => match t_cost (rev p) with Some w => osum (Some w) (tp r [c]) | None => None end end)
  end.
Lemma tp_token l p v : rev p ++ l <> [] -> at_most (t_cost (rev p ++ l)) v -> at_most (tp l p) v.
Proof.
  revert p. induction l as [|c l IH]; intros p N A.
  - rewrite app_nil_r in *. cbn [tp]. destruct p as [|d p]; [destruct (N eq_refl)|exact A].
  - cbn [tp]. apply omin_l. apply IH; cbn [rev]; rewrite <- app_assoc; assumption.
Qed.
Lemma tp_more a c r p v t : rev p ++ a <> [] -> at_most (t_cost (rev p ++ a)) v -> at_most (tp r [c]) t -> at_most (tp (a ++ c :: r) p) (v + t).
Proof.
  revert p. induction a as [|x a IH]; intros p N E L.
  - rewrite app_nil_r in *. cbn [app tp]. apply omin_r. destruct p as [|d p]; [destruct (N eq_refl)|]. destruct E as (k & -> & E), L as (b & -> & L). cbn [osum]. exists (k + b)%Z. split; [reflexivity|lia].
  - cbn [app tp]. apply omin_l. apply IH; [..|exact L]; cbn [rev]; rewrite <- app_assoc; assumption.
Qed.
Definition hdear (l : list cls) : bool :=
  match rev l with
  | Hu :: r => match r, c_number l, tp (rev r) [] with _ :: _, Some c, Some v => (c <? v)%Z | _, Some _, None => true | _, _, _ => false end
  | _ => true
  end.
Lemma all_hdear : forallb hdear shapes = true.
Proof. vm_compute. reflexivity. Qed.
(** ** Tokens with 之 *)
Definition sep (c : N) : bool := N.eqb c FEN || N.eqb c ZHI.
Definition plainer (o : options) : list rule := [Date.rule; Whitelist.rule; Money.rule o; Time.rule; Cardinal.rule o; Math.rule o; LicensePlate.rule; TrainNumber.rule].
Lemma apart_four : forallb (fun r => apart pc (r_tagger r)) [Date.rule; Time.rule; LicensePlate.rule; TrainNumber.rule] = true.
Proof. vm_compute. reflexivity. Qed.
Lemma apart_money o : apart pc (r_tagger (Money.rule o)) = true.
Proof. destruct o as [a b [] []]; vm_compute; reflexivity. Qed.
Lemma apart_math o : apart pc (r_tagger (Math.rule o)) = true.
Proof. destruct o as [a b c []]; vm_compute; reflexivity. Qed.
Lemma whitelist_none : marks pc sep (r_tagger Whitelist.rule) = Some 0.
Proof. vm_compute. reflexivity. Qed.
Lemma number_none m : marks pc sep (Cardinal.number m) = Some 0.
Proof. destruct m; vm_compute; reflexivity. Qed.
Lemma exclude_none m : marks pc sep (Cardinal.number_exclude_0_to_9 m) = Some 0.
Proof. destruct m; vm_compute; reflexivity. Qed.
Lemma formats_none m : marks pc sep (Cardinal.formats m) = Some 0.
Proof. destruct m; vm_compute; reflexivity. Qed.
Lemma zero_out e p y w : marks pc sep e = Some 0 -> forallb pc p = true -> existsb sep p = true -> ~ denote e p y w.
Proof.
  intros N K I H. pose proof (marks_sound pc sep e p y w K H) as M. rewrite N in M. cbn [upto] in M. assert (A : count sep p <> 0); [|lia].
  clear -I. induction p as [|c p IH]; [discriminate I|]. cbn [existsb count] in *. destruct (sep c); [lia|]. specialize (IH I). lia.
Qed.
Lemma zero_free e p y w : marks pc sep e = Some 0 -> forallb pc p = true -> denote e p y w -> existsb sep p = false.
Proof. intros N K H. destruct (existsb sep p) eqn:E; [exfalso; exact (zero_out e p y w N K E H)|reflexivity]. Qed.
Lemma one_free o p y w : forallb pc p = true -> denote (Cardinal.one o) p y w -> existsb sep p = false.
Proof.
  intros K H. pose proof (formats_none (enable_million o)) as Zf. pose proof (number_none (enable_million o)) as Zn. pose proof (exclude_none (enable_million o)) as Ze.
  unfold Cardinal.one in H. destruct (enable_standalone_number o); [destruct (enable_0_to_9 o)|exact (zero_free _ _ _ _ Zf K H)].
  - destruct H as [H|(v & _ & H)]; [exact (zero_free _ _ _ _ Zf K H)|exact (zero_free _ _ _ _ Zn K H)].
  - destruct H as [H|(v & _ & H)]; [exact (zero_free _ _ _ _ Zf K H)|exact (zero_free _ _ _ _ Ze K H)].
Qed.
Lemma cardinal_free o p y w : forallb pc p = true -> denote (Cardinal.cardinal o) p y w -> existsb sep p = false.
Proof.
  intros K [H|(v & _ & H)]; [exact (one_free o p y w K H)|]. apply cat_inv in H as (x1 & y1 & w1 & x2 & y2 & w2 & -> & _ & _ & H & G). rewrite forallb_app, andb_true_iff in K. destruct K as (K1 & K2). rewrite existsb_app, (one_free o x1 y1 w1 K1 H). cbn [orb].
  apply cat_inv in G as (x3 & y3 & w3 & x4 & y4 & w4 & -> & _ & _ & G1 & G2). assert (G : star (denote (insert (u " ") + Cardinal.one o)%fst) (x3 ++ x4) (y3 ++ y4) (w3 + w4)%Z) by now constructor.
  clear -G K2. induction G as [|a b v a' b' v' A S IH]; [reflexivity|]. rewrite forallb_app, andb_true_iff in K2. destruct K2 as (Ka & Kb). rewrite existsb_app, (IH Kb), orb_false_r. apply cat_inv in A as (x5 & y5 & w5 & x6 & y6 & w6 & -> & _ & _ & (-> & _) & A). exact (one_free o x6 y6 w6 Ka A).
Qed.
Lemma plainer_out o r p y w : In r (plainer o) -> forallb pc p = true -> existsb sep p = true -> ~ denote (r_tagger r) p y w.
Proof.
  intros I K E. pose proof apart_four as F. cbn [forallb] in F. rewrite !andb_true_iff in F. destruct F as (F1 & F2 & F3 & F4 & _).
  assert (A : forall r', apart pc (r_tagger r') = true -> ~ denote (r_tagger r') p y w) by (intros r' A; exact (apart_known pc _ _ _ _ A K)).
  unfold plainer in I. cbn [In] in I. destruct I as [<-|[<-|[<-|[<-|[<-|[<-|[<-|[<-|[]]]]]]]]]; auto using apart_money, apart_math.
  - apply zero_out; [exact whitelist_none|exact K|exact E].
  - cbn [r_tagger Cardinal.rule]. intro H. apply tokens_added in H as (t' & _ & H). apply tag_field_spec in H as (_ & _ & z & H). apply cardinal_free in H; [congruence|exact K].
Qed.
Definition above (e : fst) : bool := match least pc e with Never => true | AtLeast z => (-10500 <=? z)%Z | Unsure => false end.
Lemma fraction_above o : above (r_tagger (Fraction.rule o)) = true.
Proof. destruct o as [a b c []]; vm_compute; reflexivity. Qed.
Lemma measure_above o : above (r_tagger (Measure.rule o)) = true.
Proof. destruct o as [a b [] []]; vm_compute; reflexivity. Qed.
Lemma above_sound e p y w : above e = true -> forallb pc p = true -> denote e p y w -> (-10500 <= w)%Z.
Proof. intros A K H. unfold above in A. pose proof (least_sound pc e p y w K H) as L. destruct (least pc e); cbn [low_ok] in L; [destruct L| |discriminate A]. apply Z.leb_le in A. lia. Qed.
Definition zhi_none (e : fst) : bool := match marks pc (N.eqb ZHI) e with Some O => true | _ => false end.
Lemma none_out e p y w : zhi_none e = true -> forallb pc p = true -> In ZHI p -> ~ denote e p y w.
Proof.
  intros N K I H. unfold zhi_none in N. pose proof (marks_sound pc (N.eqb ZHI) e p y w K H) as M. destruct (marks pc (N.eqb ZHI) e) as [[|m]|]; try discriminate N. cbn [upto] in M.
  assert (A : count (N.eqb ZHI) p <> 0); [|lia]. clear -I. induction p as [|c p IH]; [destruct I|]. cbn [count]. destruct I as [->|I]; [rewrite N.eqb_refl; lia|specialize (IH I); lia].
Qed.
Lemma measure_none o : zhi_none (Measure.measure o) = true /\ zhi_none (Measure.measure_sp o) = true /\ zhi_none (Measure.money_colloquial o) = true.
Proof. destruct o as [a b [] []]; vm_compute; auto. Qed.
Lemma number_seps o a d w : forallb pc a = true -> denote (Cardinal.number (enable_million o)) a d w -> forallb (fun c => negb (sep c)) a = true.
Proof.
  intros K H. pose proof (marks_sound pc sep _ a d w K H) as M. rewrite (number_none (enable_million o)) in M. cbn [upto] in M. clear -M. induction a as [|c a IH]; [reflexivity|]. cbn [count forallb] in *. destruct (sep c); cbn in *; [lia|apply IH; lia].
Qed.
Lemma first_sep a q r s : forallb (fun c => negb (sep c)) a = true -> forallb (fun c => negb (sep c)) q = true -> a ++ FEN :: r = q ++ FEN :: s -> a = q /\ r = s.
Proof.
  revert q. induction a as [|c a IH]; intros [|d q] A Q E; cbn [app forallb] in *.
  - injection E as ->. auto.
  - injection E as <- _. discriminate Q.
  - injection E as -> _. discriminate A.
  - injection E as <- E. apply andb_true_iff in A as (_ & A), Q as (_ & Q). destruct (IH q A Q E) as (-> & ->). auto.
Qed.
Definition fraction_fields (a b : text) : list (text * text) := [(u "sign", []); (u "denominator", a ++ u "分之"); (u "numerator", b)].
Section Tokens.
Variable o : options.
Notation number := (Cardinal.number (enable_million o)).
Lemma pc_bare p : forallb pc p = true -> forallb bare p = true.
Proof. intro K. rewrite forallb_forall in K |- *. intros a I. specialize (K a I). revert K. apply chars_all. vm_compute. reflexivity. Qed.
Lemma fraction_parts p t w : forallb pc p = true -> denote (Weight (-10000) (Fraction.parts o Fraction.sign) ∪ Fraction.parts o Fraction.g_sign)%fst p t w ->
  exists a b d1 d2 w1 w2, p = a ++ u "分之" ++ b /\ denote number a d1 w1 /\ denote number b d2 w2 /\ w = (w1 + w2)%Z /\ t = piece (u "sign") [] ++ u " " ++ piece (u "denominator") (a ++ u "分之") ++ u " " ++ piece (u "numerator") b.
Proof.
  intros K [H|H].
  { exfalso. revert H. apply (apart_known pc); [|exact K]. destruct o as [x y z []]; vm_compute; reflexivity. }
  unfold Fraction.parts in H. apply cat_inv in H as (x1 & y1 & w1 & x2 & y2 & w2 & -> & -> & -> & H & H2). apply cat_inv in H as (x3 & y3 & w3 & x4 & y4 & w4 & -> & -> & -> & H & (-> & -> & ->)). apply cat_inv in H as (x5 & y5 & w5 & x6 & y6 & w6 & -> & -> & -> & H & H6). apply cat_inv in H as (x7 & y7 & w7 & x8 & y8 & w8 & -> & -> & -> & H7 & (-> & -> & ->)).
  rewrite !app_nil_r in *. rewrite !forallb_app, !andb_true_iff in K. destruct K as ((K7 & K6) & K2).
  apply tag_field_spec in H7 as (_ & -> & z7 & H7). apply tag_field_spec in H6 as (_ & -> & z6 & H6). apply tag_field_spec in H2 as (_ & -> & z2 & H2).
  assert (x7 = [] /\ w7 = 0%Z) as (-> & ->).
  { destruct H7 as [H7|(-> & _ & ->)]; [exfalso|auto]. revert H7. apply (apart_known pc); [vm_compute; reflexivity|exact K7]. }
  unfold Fraction.g_denominator in H6. apply cat_inv in H6 as (a & d1 & v1 & x9 & y9 & v2 & -> & -> & -> & H6 & (-> & -> & ->)).
  exists a, x2, d1, z2, v1, w2. cbn [app]. split; [now rewrite <- app_assoc|]. split; [exact H6|]. split; [exact H2|]. split; [lia|].
  rewrite (bare_escape _ (pc_bare _ K6)), (bare_escape _ (pc_bare _ K2)). change (escape_value []) with (@nil N). unfold piece. rewrite <- !app_assoc. reflexivity.
Qed.
Lemma percent_inv p d w : forallb pc p = true -> denote (Measure.percent o) p d w -> exists s b, p = u "百分" ++ s ++ b /\ (s = u "之" \/ s = []) /\ (denote number b (removelast d) w \/ b = [BAI]).
Proof.
  intros K H.
  apply cat_inv in H as (x1 & y1 & w1 & x2 & y2 & w2 & -> & -> & -> & H & (-> & -> & ->)). apply cat_inv in H as (x3 & y3 & w3 & x4 & y4 & w4 & -> & -> & -> & H & Hb). apply cat_inv in H as (x5 & y5 & w5 & x6 & y6 & w6 & -> & -> & -> & H & Hz). apply cat_inv in H as (x7 & y7 & w7 & x8 & y8 & w8 & -> & -> & -> & Hs & (-> & -> & ->)).
  rewrite !app_nil_r in *. rewrite !forallb_app, !andb_true_iff in K. destruct K as (((K7 & _) & K6) & K4).
  assert (x7 = [] /\ y7 = [] /\ w7 = 0%Z) as (-> & -> & ->).
  { destruct Hs as [Hs|Hs]; [exfalso|exact Hs]. revert Hs. apply (apart_known pc); [vm_compute; reflexivity|exact K7]. }
  cbn [app] in *. assert (y6 = [] /\ w6 = 0%Z /\ (x6 = u "之" \/ x6 = [])) as (-> & -> & Hx) by (destruct Hz as [(-> & -> & ->)|(-> & -> & ->)]; auto). clear Hz.
  exists x6, x4. split; [now rewrite <- app_assoc|]. split; [exact Hx|].
  destruct Hb as [Hb|Hb]; apply cat_inv in Hb as (a1 & b1 & v1 & a2 & b2 & v2 & -> & -> & -> & H1 & H2); rewrite forallb_app, andb_true_iff in K4; destruct K4 as (Ka & Kb).
  - destruct H2 as [H2|(-> & -> & ->)]; [exfalso|left; rewrite !app_nil_r; cbn [app]; change (u "%") with [37%N]; rewrite removelast_last; replace (0 + 0 + 0 + (v1 + 0) + 0)%Z with v1 by lia; exact H1]. apply cat_inv in H2 as (a3 & b3 & v3 & a4 & b4 & v4 & -> & _ & _ & H2 & _). rewrite forallb_app, andb_true_iff in Kb. revert H2. apply (apart_known pc); [vm_compute; reflexivity|exact (proj1 Kb)].
  - destruct H1 as [H1|(-> & -> & ->)]; [exfalso|right; destruct H2 as (-> & _); reflexivity]. apply cat_inv in H1 as (a3 & b3 & v3 & a4 & b4 & v4 & -> & _ & _ & _ & H2'). rewrite forallb_app, andb_true_iff in Ka. revert H2'. apply (apart_known pc); [vm_compute; reflexivity|exact (proj2 Ka)].
Qed.
Variable e : fst.
Hypothesis Union : tagger_union (rules o) = Some e.
Lemma sep_token p t w : forallb pc p = true -> existsb sep p = true -> denote e p t w -> (0 <= w)%Z.
Proof.
  intros K I H. apply (taggers_spec _ _ Union) in H as (s & k & I' & Ek & H). pose proof (plainer_out o) as Oth.
  unfold rules in I'. cbn [In] in I'.
  repeat destruct I' as [I'|I']; [..|destruct I']; rewrite <- I' in H, Ek; cbn [s_weight s_rule] in H, Ek; injection Ek as <-;
    try (exfalso; revert H; apply Oth; [unfold plainer; cbn [In]; tauto|exact K|exact I]).
  - apply (above_sound _ _ _ _ (fraction_above o) K) in H. lia.
  - apply (above_sound _ _ _ _ (measure_above o) K) in H. lia.
  - pose proof (Whole.nonneg_sound (r_tagger Char.rule) eq_refl _ _ _ H). lia.
Qed.
(** A token with 之 is a character, a fraction or a percentage. *)
Lemma zhi_token p t w : forallb pc p = true -> In ZHI p -> denote e p t w ->
  (w = 1000000%Z /\ List.length p = 1) \/
  (exists a b d1 d2 w1 w2, p = a ++ u "分之" ++ b /\ denote number a d1 w1 /\ denote number b d2 w2 /\ w = (w1 + w2 + 10500)%Z /\ t = fields_token (u "fraction") (fraction_fields a b) ++ u " ") \/
  (exists z v, denote (Measure.percent o) p z v /\ w = (v + 10500)%Z).
Proof.
  intros K I H. apply (taggers_spec _ _ Union) in H as (s & k & I' & Ek & H). pose proof (plainer_out o) as Oth.
  assert (Ez : existsb sep p = true) by (apply existsb_exists; exists ZHI; split; [exact I|reflexivity]).
  unfold rules in I'. cbn [In] in I'.
  repeat destruct I' as [I'|I']; [..|destruct I']; rewrite <- I' in H, Ek; cbn [s_weight s_rule] in H, Ek; injection Ek as <-;
    try (exfalso; revert H; apply Oth; [unfold plainer; cbn [In]; tauto|exact K|exact Ez]).
  - right. left. unfold Fraction.rule in H. cbn [r_tagger] in H. apply tokens_added in H as (t' & -> & H). apply fraction_parts in H as (a & b & d1 & d2 & w1 & w2 & -> & Ha & Hb & Ew & ->); [|exact K].
    exists a, b, d1, d2, w1, w2. split; [reflexivity|]. split; [exact Ha|]. split; [exact Hb|]. split; [lia|]. rewrite !forallb_app, !andb_true_iff in K. destruct K as (Ka & _ & Kb).
    unfold fields_token, fraction_fields. cbn [map join Datatypes.fst snd]. rewrite (bare_escape (a ++ u "分之")), (bare_escape b (pc_bare _ Kb)) by (rewrite forallb_app, (pc_bare _ Ka); reflexivity). change (escape_value []) with (@nil N). rewrite <- !app_assoc. reflexivity.
  - right. right. unfold Measure.rule in H. cbn [r_tagger] in H. apply tokens_added in H as (t' & _ & [H|H]).
    + apply tag_field_spec in H as (_ & _ & z & H). destruct (measure_none o) as (B1 & B2 & B3). exists z, (w - 10500)%Z. split; [|lia].
      destruct H as [[[H|H]|H]|H]; [exfalso; revert H; now apply none_out|exfalso; revert H; now apply none_out|exact H|exfalso; revert H; now apply none_out].
    + exfalso. apply cat_inv in H as (x1 & y1 & w1 & x2 & y2 & w2 & -> & _ & _ & H & _). rewrite forallb_app, andb_true_iff in K. revert H. apply (apart_known pc); [|exact (proj1 K)]. vm_compute. reflexivity.
  - left. unfold Char.rule in H. cbn [r_tagger] in H. apply tokens_added in H as (t' & _ & H).
    apply cat_inv in H as (x1 & y1 & w1 & x2 & y2 & w2 & E1 & -> & Ew & H & (-> & -> & ->)).
    apply cat_inv in H as (x3 & y3 & w3 & x4 & y4 & w4 & -> & -> & -> & (-> & -> & ->) & H). rewrite app_nil_r in E1. cbn [app] in E1. subst x4.
    destruct H as [[(c' & -> & _ & _ & ->)|(-> & _ & ->)]|(-> & _ & ->)]; (split; [lia|reflexivity]).
Qed.
Lemma any_fine a d w : fine o a -> denote number a d w -> c_number (shape a) = Some w.
Proof. intros (Sa & La) H. apply (number0_cost (enable_million o) a d); [|exact La]. now apply number_only. Qed.
(** ** The tokens of a prefix of the denominator *)
Lemma fine_nonneg p t w : star (denote e) p t w -> fine o p -> (0 <= w)%Z.
Proof.
  intro H. induction H as [|p t1 w1 q t2 w2 H S IH]; intros F; [lia|]. apply fine_app in F as (Fp & Fq). specialize (IH Fq).
  apply (token_known o p (proj1 Fp) (proj2 Fp) e _ _ Union) in H as [(z & v & C & -> & _)|[(E & A)| ->]]; [|apply f_cost_nonneg in A; lia|lia].
  apply (cardinal_cut o p z v Fp) in C as (s & C & Ls). pose proof (cuts_nonneg _ _ C). lia.
Qed.
Lemma front_cuts b v p t w : c_number b = Some v -> star (denote e) p t w -> fine o p -> (1000000 <= w)%Z \/ exists s, ZhItnTag.cuts (shape p ++ b) s /\ (s <= w + v + 1000)%Z.
Proof.
  intros Cb H. induction H as [|p t1 w1 q t2 w2 H S IH]; intros F.
  - right. exists (v + 1000)%Z. split; [now constructor|lia].
  - apply fine_app in F as (Fp & Fq). specialize (IH Fq). pose proof (fine_nonneg _ _ _ S Fq) as Nq. rewrite shape_app, <- app_assoc.
    apply (token_known o p (proj1 Fp) (proj2 Fp) e _ _ Union) in H as [(z & k & C & -> & _)|[(E & A)| ->]]; [| |left; lia].
    + apply (cardinal_cut o p z k Fp) in C as (s & C & Ls). pose proof (cuts_nonneg _ _ C). destruct IH as [L|(s2 & C2 & L)]; [left; lia|]. right. exists (s + s2)%Z. split; [now apply cuts_app|lia].
    + pose proof (f_cost_nonneg _ _ A). destruct IH as [L|(s2 & C2 & L)]; [left; lia|]. right. exists (w1 + s2)%Z. split; [|lia]. constructor; [|exact A|exact C2]. destruct E as (a & ->). rewrite shape_app. now destruct (shape a).
Qed.
Lemma front_dear b v p t w c : c_number b = Some v -> p <> [] -> star (denote e) p t w -> fine o p -> c_number (shape p ++ b) = Some c -> (1000000 <= w)%Z \/ (c < w + v)%Z.
Proof.
  intros Cb N H F Cx. destruct (star_first o 0%N (or_intror eq_refl) e Union _ _ _ H) as [(-> & _)|(c0 & r & t1 & w1 & q & t2 & w2 & -> & _ & -> & H1 & Hs)]; [congruence|].
  change (c0 :: r ++ q) with ((c0 :: r) ++ q) in *. set (p := c0 :: r) in *. apply fine_app in F as (Fp & Fq). pose proof (fine_nonneg _ _ _ Hs Fq) as Nq. rewrite shape_app, <- app_assoc in Cx.
  destruct (front_cuts b v q t2 w2 Cb Hs Fq) as [L|(s2 & C2 & L)].
  - left. pose proof (fine_nonneg _ _ _ (star_one _ _ _ _ H1) Fp). lia.
  - apply (token_known o p (proj1 Fp) (proj2 Fp) e _ _ Union) in H1 as [(z & k & C & -> & _)|[(E & A)| ->]]; [| |left; lia].
    + apply (cardinal_cut o p z k Fp) in C as (s & C & Ls). pose proof (two_dear _ _ _ _ _ Cx C C2). lia.
    + pose proof (cuts_dear _ _ _ _ _ Cx A C2). lia.
Qed.
Lemma l_one a v : c_number (shape a) = Some v -> at_most (f_liang (shape (a ++ u "两"))) (v + 10500).
Proof.
  intros E. rewrite shape_app. change (shape (u "两")) with [Dg]. unfold f_liang. rewrite rev_unit.
  destruct (rev (shape a)) as [|c r] eqn:R.
  - exfalso. assert (shape a = []) as X by (rewrite <- (rev_involutive (shape a)), R; reflexivity). rewrite X in E. discriminate.
  - assert (X : shape a = rev (c :: r)) by (rewrite <- R, rev_involutive; reflexivity). rewrite X in E.
    destruct c; try apply omin_l; rewrite E; exists (v + 10500)%Z; (split; [reflexivity|lia]).
Qed.
Lemma l_two a v : c_number (shape a) = Some v -> at_most (f_liang (shape (a ++ u "万两"))) (v + 5500).
Proof.
  intros E. rewrite shape_app. change (shape (u "万两")) with [Wa; Dg]. unfold f_liang.
  rewrite rev_app_distr. cbn [rev app]. rewrite rev_involutive. apply omin_r. rewrite E. exists (v + 5500)%Z. split; [reflexivity|lia].
Qed.
(** The same as [token_known], with the cost of a weight alone. *)
Lemma token_weighed x t w : fine o x -> denote e x t w ->
  (exists z v, denote (Cardinal.cardinal o) x z v /\ w = (v + 10600)%Z) \/ at_most (f_liang (shape x)) w \/ w = 1000000%Z.
Proof.
  intros (Smooth & Low) H. pose proof (smooth_known x Smooth) as K. apply (taggers_spec _ _ Union) in H as (s & k & I & Ek & H).
  assert (A : forall e', apart known e' = true -> denote e' x t (w - k)%Z -> False) by (intros e' A; exact (apart_known known e' _ _ _ A K)).
  pose proof (other_rules o) as Oth. unfold rules in I. cbn [In] in I.
  repeat destruct I as [I|I]; [..|destruct I]; rewrite <- I in H, Ek; cbn [s_weight s_rule] in H, Ek; injection Ek as <-;
    try (exfalso; revert H; apply A; apply Oth; cbn [In]; tauto).
  - exfalso. unfold Whitelist.rule, value_rule in H. cbn [r_tagger] in H. apply tokens_added in H as (t' & _ & H).
    apply tag_field_spec in H as (_ & _ & z & H). apply (table_known known) in H as (H & _); [|exact K].
    apply (in_map (fun p => smooth (shape (Datatypes.fst p)))) in H. cbn [Datatypes.fst] in H. rewrite Smooth in H.
    vm_compute in H. intuition discriminate.
  - right. left. unfold Measure.rule in H. cbn [r_tagger] in H. apply tokens_added in H as (t' & _ & [H|H]).
    + apply tag_field_spec in H as (_ & _ & z & H). apply (measure_known o x Smooth Low) in H as (a & v & C & [(-> & Ew)|(-> & Ew)]).
      * replace w with (v + 10500)%Z by lia. now apply l_one.
      * replace w with (v + 5500)%Z by lia. now apply l_two.
    + exfalso. apply cat_inv in H as (x1 & y1 & w1 & x2 & y2 & w2 & -> & -> & _ & H & _).
      rewrite forallb_app, andb_true_iff in K. destruct K as (K & _). revert H. apply (apart_known known); [|exact K]. vm_compute. reflexivity.
  - left. apply cardinal_tagged in H as (-> & z & H); [|exact (known_plain x K)]. exists z, (w - 10600)%Z. split; [exact H|lia].
  - right. right. unfold Char.rule in H. cbn [r_tagger] in H. apply tokens_added in H as (t' & _ & H).
    apply cat_inv in H as (x1 & y1 & w1 & x2 & y2 & w2 & -> & -> & Ew & H & (-> & -> & ->)).
    apply cat_inv in H as (x3 & y3 & w3 & x4 & y4 & w4 & -> & -> & -> & (-> & -> & ->) & H). 
    destruct H as [[(c & _ & _ & _ & ->)|(_ & _ & ->)]|(_ & _ & ->)]; lia.
Qed.
Lemma token_t p t w : fine o p -> p <> [] -> denote e p t w -> (1000000 <= w)%Z \/ at_most (t_cost (shape p)) w.
Proof.
  intros F N H. apply token_weighed in H as [(z & k & C & ->)|[A| ->]]; [| |left; lia|exact F].
  - right. apply (cardinal_cut o p z k F) in C as (s & C & Ls). apply cuts_pieces in C as (c & r & -> & (b & Eb & Lb)). unfold t_cost. apply omin_l. rewrite Eb. cbn [more osum]. eexists. split; [reflexivity|lia].
  - right. unfold t_cost. now apply omin_r.
Qed.
Lemma shape_some p : p <> [] -> shape p <> [].
Proof. destruct p; [congruence|discriminate]. Qed.
Lemma front_t p t w : star (denote e) p t w -> fine o p -> (1000000 <= w)%Z \/ at_most (tp (shape p) []) w.
Proof.
  intro H. induction H as [|p t1 w1 q t2 w2 H S IH]; intros F; [right; exists 0%Z; split; [reflexivity|lia]|]. apply fine_app in F as (Fp & Fq). specialize (IH Fq). pose proof (fine_nonneg _ _ _ S Fq) as Nq. pose proof (fine_nonneg _ _ _ (star_one _ _ _ _ H) Fp) as Np.
  destruct p as [|c0 r]; [exfalso; exact (empty_none o 0%N (or_intror eq_refl) e Union _ _ H)|]. set (p := c0 :: r) in *. assert (Ne : p <> []) by discriminate.
  apply token_t in H as [L|A]; [left; lia| |exact Fp|exact Ne]. destruct IH as [L|B]; [left; lia|]. right. rewrite shape_app. destruct q as [|c q].
  - change (shape []) with (@nil cls) in *. rewrite app_nil_r. apply (tp_token _ []); [cbn [rev app]; now apply shape_some|]. cbn [rev app]. destruct A as (k & E & L). exists k. split; [exact E|lia].
  - change (shape (c :: q)) with (cls_of c :: shape q) in *. apply (tp_more _ _ _ []); [cbn [rev app]; now apply shape_some|exact A|].
    cbn [tp] in B. destruct B as (k & E & L). destruct (tp (shape q) [cls_of c]) as [z|]; [|discriminate E]. cbn [omin] in E. exists z. split; [reflexivity|]. injection E as ->. exact L.
Qed.
(** ** The whole text *)
Variables (x y : text) (n m : N).
Hypothesis Sx : spoken_number x = Some n.
Hypothesis Sy : spoken_number y = Some m.
Hypothesis Mx : (enable_million o = true \/ n < 1000000)%N.
Hypothesis My : (enable_million o = true \/ m < 1000000)%N.
Hypothesis Nl : ~ ends_liang y.
Lemma Fx : fine o x.
Proof. exact (x_fine o x n Sx Mx). Qed.
Lemma Fy : fine o y.
Proof. exact (x_fine o y m Sy My). Qed.
Lemma Kx : forallb pc x = true.
Proof. exact (x_pc o x n Sx Mx). Qed.
Lemma Ky : forallb pc y = true.
Proof. exact (x_pc o y m Sy My). Qed.
Lemma known_no_sep p : fine o p -> forallb (fun c => negb (sep c)) p = true.
Proof. intros (S & _). apply smooth_known in S. rewrite forallb_forall in S |- *. intros c I. specialize (S c I). apply (chars_all ZhItnTag.numerals (fun c => negb (sep c))); [vm_compute; reflexivity|exact S]. Qed.
Lemma tail_dear a b v c t w : y = a ++ b -> c_number (shape a) = Some v -> c_number (shape y) = Some c -> star (denote e) b t w -> (b = [] /\ t = [] /\ w = 0%Z /\ v = c) \/ (c < v + w)%Z.
Proof.
  intros E Ca Cy H. pose proof (cost_bounds _ _ Cy). pose proof (cost_bounds _ _ Ca). pose proof Fy as F. rewrite E in F. apply fine_app in F as (_ & Fb).
  assert (Nb : ~ ends_liang b) by (intros (r & ->); apply Nl; exists (a ++ r); rewrite E; now rewrite app_assoc).
  destruct (tokens_cut o e Union b t w H Fb Nb) as [(-> & -> & ->)|[L|(s & Cb & L)]].
  - left. rewrite app_nil_r in E. subst a. repeat split; congruence.
  - right. lia.
  - right. rewrite E, shape_app in Cy. pose proof (cuts_dear _ _ _ _ _ Cy (f_number _ _ Ca) Cb). lia.
Qed.
Lemma x_not_hundred : x <> [BAI].
Proof. intros E. pose proof (spoken_shape _ _ Sx) as I. rewrite E in I. pose proof (proj1 (forallb_forall _ _) all_hdear _ I) as B. discriminate B. Qed.
Lemma hundred_dear p t w c : x = p ++ [BAI] -> c_number (shape x) = Some c -> star (denote e) p t w -> (1000000 <= w)%Z \/ (c < w)%Z.
Proof.
  intros E C H. pose proof Fx as F. rewrite E in F. apply fine_app in F as (Fp & _). destruct (front_t _ _ _ H Fp) as [L|(k & A & L)]; [auto|]. right.
  pose proof (proj1 (forallb_forall _ _) all_hdear _ (spoken_shape _ _ Sx)) as B. unfold hdear in B. rewrite C in B. rewrite E, shape_app in B. change (shape [BAI]) with [Hu] in B. rewrite rev_unit in B.
  destruct (rev (shape p)) as [|k0 l0] eqn:R; [vm_compute in B; discriminate B|]. assert (X : rev (k0 :: l0) = shape p) by (rewrite <- R; apply rev_involutive). rewrite X, A in B. apply Z.ltb_lt in B. lia.
Qed.
Ltac far := repeat match goal with H : ?P |- _ => lazymatch P with (_ <= _)%Z => fail | (_ < _)%Z => fail | (_ <= _ <= _)%Z => fail | @eq Z _ _ => fail | @eq nat _ _ => fail | le _ _ => fail | Z => fail | nat => fail | _ => clear H end end; lia.
Lemma fraction_tokens cx cy : c_number (shape x) = Some cx -> c_number (shape y) = Some cy -> forall q p0 t0 w0, x = p0 ++ q -> star (denote e) p0 t0 w0 -> forall t w, star (denote e) (q ++ u "分之" ++ y) t w ->
  (cx + cy + 10500 <= w0 + w)%Z /\ (w0 + w = cx + cy + 10500 -> t0 ++ t = fields_token (u "fraction") (fraction_fields x y) ++ u " ")%Z.
Proof.
  intros Cx Cy. pose proof (cost_bounds _ _ Cx) as Bx. pose proof (cost_bounds _ _ Cy) as By.
  induction q as [q IH] using (induction_ltof1 _ (@List.length N)). intros p0 t0 w0 Ex S0 t w H.
  pose proof Fx as F. rewrite Ex in F. apply fine_app in F as (F0 & Fq). pose proof (fine_nonneg _ _ _ S0 F0) as N0.
  assert (Kq : forallb pc q = true) by (pose proof Kx as K; rewrite Ex, forallb_app, andb_true_iff in K; tauto).
  assert (KQ : forallb pc (q ++ u "分之" ++ y) = true) by (rewrite !forallb_app, Kq, Ky; reflexivity).
  destruct (star_first o 0%N (or_intror eq_refl) e Union _ _ _ H) as [(E & _)|(c0 & r & t1 & w1 & rest & t2 & w2 & E & -> & -> & H1 & Hs)]; [exfalso; destruct q; discriminate E|].
  change (c0 :: r ++ rest) with ((c0 :: r) ++ rest) in E. assert (Np : c0 :: r <> []) by discriminate. set (p := c0 :: r) in *. clearbody p. pose proof KQ as KQ'. rewrite E, forallb_app, andb_true_iff in KQ'. destruct KQ' as (Kp & Kr).
  assert (Into : forall l, q = p ++ l -> rest = l ++ u "分之" ++ y -> (cx + cy + 10500 <= w0 + (w1 + w2))%Z /\ (w0 + (w1 + w2) = cx + cy + 10500 -> t0 ++ t1 ++ t2 = fields_token (u "fraction") (fraction_fields x y) ++ u " ")%Z).
  { intros l -> ->. rewrite Z.add_assoc, app_assoc. apply (IH l) with (p0 := p0 ++ p); [unfold ltof; rewrite app_length; destruct p; [congruence|cbn; far]|now rewrite <- app_assoc| |exact Hs].
    clear -S0 H1. induction S0 as [|a b v a' b' v' A S IH]; cbn [app]; [rewrite Z.add_0_l; now apply star_one|]. rewrite <- !app_assoc, <- Z.add_assoc. now constructor. }
  apply app_eq_app in E as (l & [(El & Er)|(El & Er)]); [now apply (Into l)|]. destruct l as [|c1 l]; [apply (Into []); [rewrite app_nil_r in El |- *; now symmetry|symmetry; exact Er]|].
  change (u "分之" ++ y) with (FEN :: ZHI :: y) in Er. injection Er as <- Er.
  assert (Sp : existsb sep p = true) by (rewrite El, existsb_app; cbn; apply orb_true_r). pose proof (sep_token p t1 w1 Kp Sp H1) as N1.
  destruct l as [|c2 l].
  - cbn [app] in Er. subst rest. assert (L : (1000000 <= w2)%Z); [|far]. revert Hs. apply (loose o 0%N (or_intror eq_refl) e Union); [exact Kr|reflexivity|discriminate|]. intros t' w' Hy. exact (fine_nonneg _ _ _ Hy Fy).
  - injection Er as <- Ey. rename l into y1. pose proof Fy as F. rewrite Ey in F. apply fine_app in F as (Fy1 & Fy2). assert (Iz : In ZHI p) by (rewrite El; apply in_app_iff; right; right; left; reflexivity).
    pose proof (fine_nonneg _ _ _ Hs Fy2) as N2.
    destruct (zhi_token p t1 w1 Kp Iz H1) as [(-> & Lp)|[(a & b & d1 & d2 & v1 & v2 & Ep & Ha & Hb & -> & ->)|(z & v & Hp & ->)]].
    + exfalso. rewrite El, app_length in Lp. cbn in Lp. far.
    + rewrite El in Ep. change (u "分之" ++ b) with (FEN :: ZHI :: b) in Ep. rewrite El, forallb_app, andb_true_iff in Kp.
      assert (Ka : forallb (fun c => negb (sep c)) a = true).
      { apply (number_seps o a d1 v1); [|exact Ha]. assert (X : forallb pc (q ++ FEN :: ZHI :: y1) = true) by (rewrite forallb_app; apply andb_true_iff; exact Kp). rewrite Ep, forallb_app, andb_true_iff in X. tauto. }
      apply first_sep in Ep as (<- & Eb); [|exact (known_no_sep _ Fq)|exact Ka]. injection Eb as <-. pose proof (any_fine _ _ _ Fq Ha) as Cq. pose proof (any_fine _ _ _ Fy1 Hb) as C1. pose proof (cost_bounds _ _ Cq). pose proof (cost_bounds _ _ C1).
      pose proof (tail_dear y1 rest v2 cy t2 w2 Ey C1 Cy Hs) as T. destruct p0 as [|c p0'].
      * cbn [app] in Ex. subst q. assert (v1 = cx) as -> by congruence. destruct (star_first o 0%N (or_intror eq_refl) e Union _ _ _ S0) as [(_ & -> & ->)|(? & ? & ? & ? & ? & ? & ? & E & _)]; [|discriminate E].
        destruct T as [(-> & -> & -> & ->)|T]; [|split; far]. rewrite app_nil_r in Ey. subst y1. split; [far|]. intros _. now rewrite app_nil_r.
      * rewrite Ex, shape_app in Cx. destruct (front_dear (shape q) v1 (c :: p0') t0 w0 cx Cq ltac:(discriminate) S0 F0 Cx) as [L|L]; destruct T as [(_ & _ & -> & ->)|T]; split; far.
    + pose proof Kp as Kp'. destruct (percent_inv p z v Kp Hp) as (s & b & Ep & Es & Hb). rewrite El in Ep. change (u "百分" ++ s ++ b) with ([BAI] ++ FEN :: s ++ b) in Ep.
      apply first_sep in Ep as (Eq & Eb); [|exact (known_no_sep _ Fq)|reflexivity].
      assert (Hy : denote number y1 (removelast z) v).
      { rewrite El, forallb_app, andb_true_iff in Kp. destruct Kp as (_ & Kl). rewrite Eq in *. destruct Es as [->| ->].
        - cbn [app] in Eb. injection Eb as <-. destruct Hb as [Hb| ->]; [exact Hb|]. exfalso. exact (x_head y m Sy Nl rest Ey).
        - exfalso. cbn [app] in Eb. subst b. destruct Hb as [Hb|Hb]; [|discriminate Hb]. refine (not_begun _ ZHI y1 _ _ (proj1 (number_begin o)) _ eq_refl Hb). cbn [forallb] in Kl |- *. apply andb_true_iff in Kl as (_ & Kl). exact Kl. }
      pose proof (any_fine _ _ _ Fy1 Hy) as C1. pose proof (cost_bounds _ _ C1). pose proof (tail_dear y1 rest v cy t2 w2 Ey C1 Cy Hs) as T. rewrite Eq in Ex.
      destruct (hundred_dear p0 t0 w0 cx Ex Cx S0) as [L|L]; destruct T as [(_ & _ & -> & ->)|T]; split; far.
Qed.
End Tokens.
