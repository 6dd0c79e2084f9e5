(** The date rule of the Chinese inverse normaliser on whole dates: parsing, verbalising and the other
    rules (C84). *)
From Coq Require Import List NArith ZArith Bool String Lia Arith.
From Verif Require Import Text TextFacts TokenModel Fst FstFacts GrammarModel GrammarSpec NumeralSpec EnglishNumeralSpec DataZhItn ZhItnModel ZhTnEndSpec ZhDateSpec ZhItnDateSpec BoundarySpec WholeSpec.
From Verif Require Import Boundary BoundaryChar Letters OneToken TokenVerbal Fields Fields2 Least ZhItnVerbal ZhItnSaid ZhItnDate.
From Verif Require PlainRules EndToEnd TokenProofs2.
Import ListNotations.
Local Open Scope list_scope.

Definition shown (fs : list (text * text)) : text := join (u " ") (map (fun kv => piece (Datatypes.fst kv) (snd kv)) fs).
Definition marker : text := Eval vm_compute in u " preserve_order: ""true""".
(** ** The tagger *)
Lemma part_known k g x y w : (forall x y w, forallb zc x = true -> denote g x y w -> stamped (k, x)) -> forallb zc x = true -> denote (tag_field k g) x y w -> stamped (k, x) /\ y = piece k x.
Proof.
  intros G K H. apply tag_field_spec in H as (_ & -> & z & H). split; [exact (G _ _ _ K H)|]. unfold piece. now rewrite (bare_escape x (all_sub _ _ _ zc_bare K)).
Qed.
Lemma del_year x y w : denote (delete [YEAR]) x y w -> x = [YEAR].
Proof. now intros (-> & _). Qed.
Lemma acc_year x y w : denote (accep [YEAR]) x y w -> x = [YEAR].
Proof. now intros (-> & _). Qed.
Lemma yearf_known x y w : forallb zc x = true -> denote (tag_field (u "year") Date.g_year) x y w -> stamped (u "year", x) /\ y = piece (u "year") x.
Proof. apply part_known. intros x' y' w' K H. exact (year_known (delete [YEAR]) x' y' w' del_year K H). Qed.
Lemma yearo_known x y w : forallb zc x = true -> denote (tag_field (u "year") Date.g_year_only) x y w -> stamped (u "year", x) /\ y = piece (u "year") x.
Proof. apply part_known. intros x' y' w' K H. exact (year_known (accep [YEAR]) x' y' w' acc_year K H). Qed.
Lemma monthf_known x y w : forallb zc x = true -> denote Date.month x y w -> stamped (u "month", x) /\ y = piece (u "month") x.
Proof. apply part_known. intros x' y' w' K H. exact (month_known x' y' w' K H). Qed.
Lemma dayf_known x y w : forallb zc x = true -> denote (tag_field (u "day") Date.g_day) x y w -> stamped (u "day", x) /\ y = piece (u "day") x.
Proof. apply part_known. intros x' y' w' K H. exact (day_known x' y' w' K H). Qed.
Lemma yearp_known x y w : forallb zc x = true -> denote Date.year x y w -> stamped (u "year", x) /\ y = piece (u "year") x ++ u " ".
Proof.
  intros K H. apply cat_inv in H as (x1 & y1 & w1 & x2 & y2 & w2 & -> & -> & -> & H & (-> & -> & ->)). rewrite app_nil_r in *. apply yearf_known in H as (S & ->); auto.
Qed.
Lemma dayp_known x y w : forallb zc x = true -> denote Date.day x y w -> stamped (u "day", x) /\ y = u " " ++ piece (u "day") x.
Proof.
  intros K H. apply cat_inv in H as (x1 & y1 & w1 & x2 & y2 & w2 & -> & -> & -> & (-> & -> & ->) & H). apply dayf_known in H as (S & ->); auto.
Qed.
Lemma date_parse x t w : forallb zc x = true -> denote Date.date x t w ->
  (exists fs, Forall stamped fs /\ 2 <= List.length fs /\ x = flat_map snd fs /\ t = shown fs) \/ (stamped (u "year", x) /\ t = piece (u "year") x ++ marker).
Proof.
  intros K [[[H|H]|H]|H].
  - left. apply cat_inv in H as (x1 & y1 & w1 & x2 & y2 & w2 & -> & -> & -> & H & H3). apply cat_inv in H as (x3 & y3 & w3 & x4 & y4 & w4 & -> & -> & -> & H1 & H2). rewrite !forallb_app, !andb_true_iff in K. destruct K as ((K1 & K2) & K3).
    apply yearp_known in H1 as (S1 & ->); [|exact K1]. apply monthf_known in H2 as (S2 & ->); [|exact K2]. apply dayp_known in H3 as (S3 & ->); [|exact K3].
    exists [(u "year", x3); (u "month", x4); (u "day", x2)]. split; [auto|]. split; [cbn; lia|]. unfold shown. cbn [flat_map snd map join Datatypes.fst]. rewrite app_nil_r, <- !app_assoc. auto.
  - left. apply cat_inv in H as (x1 & y1 & w1 & x2 & y2 & w2 & -> & -> & -> & H1 & H2). rewrite !forallb_app, !andb_true_iff in K. destruct K as (K1 & K2).
    apply yearp_known in H1 as (S1 & ->); [|exact K1]. apply monthf_known in H2 as (S2 & ->); [|exact K2].
    exists [(u "year", x1); (u "month", x2)]. split; [auto|]. split; [cbn; lia|]. unfold shown. cbn [flat_map snd map join Datatypes.fst]. rewrite app_nil_r, <- !app_assoc. auto.
  - left. apply cat_inv in H as (x1 & y1 & w1 & x2 & y2 & w2 & -> & -> & -> & H1 & H2). rewrite !forallb_app, !andb_true_iff in K. destruct K as (K1 & K2).
    apply monthf_known in H1 as (S1 & ->); [|exact K1]. apply dayp_known in H2 as (S2 & ->); [|exact K2].
    exists [(u "month", x1); (u "day", x2)]. split; [auto|]. split; [cbn; lia|]. unfold shown. cbn [flat_map snd map join Datatypes.fst]. rewrite app_nil_r. auto.
  - right. apply cat_inv in H as (x1 & y1 & w1 & x2 & y2 & w2 & -> & -> & -> & H & (-> & -> & ->)). rewrite app_nil_r in *. apply yearo_known in H as (S & ->); auto.
Qed.
Lemma parts_token fs : Forall stamped fs -> fields_token (u "date") fs = u "date" ++ u " { " ++ shown fs ++ u " }".
Proof.
  intro F. unfold fields_token, shown. do 2 f_equal. f_equal. f_equal. induction F as [|kv fs H F IH]; [reflexivity|]. cbn [map]. rewrite IH. now rewrite (bare_escape _ (all_sub _ _ _ zc_bare (stamped_zc _ H))).
Qed.
(** ** The verbaliser *)
Lemma zc_part k x : forallb bare k = true -> forallb zc x = true -> ~ In 92%N (piece k x).
Proof. intros B K. apply piece_no_bsl; [exact B|exact (all_sub _ _ _ zc_bare K)]. Qed.
Lemma space_slash r : ~ In 92%N r -> ~ In 92%N (u " " ++ r).
Proof. intros N I. apply in_app_iff in I as [I|I]; [vm_compute in I; intuition discriminate|contradiction]. Qed.
Lemma field_head k g t d w rest k' x r : hd 0%N k <> hd 0%N k' -> k <> [] -> k' <> [] -> denote (verbalize_field k (Some g) false) t d w -> t ++ rest = piece k' x ++ r -> False.
Proof.
  intros Nk K K' H E. apply vfield_denote in H as (v & -> & _). destruct k as [|a k]; [congruence|]. destruct k' as [|b k']; [congruence|]. unfold piece in E. cbn in E, Nk. injection E as E _. congruence.
Qed.
Section Verb.
Variables (oy od : option (text * text)) (m dm : text).
Definition before (p : option (text * text)) : text := match p with Some (y, _) => piece (u "year") y ++ u " " | None => [] end.
Definition behind (p : option (text * text)) : text := match p with Some (d, _) => u " " ++ piece (u "day") d | None => [] end.
Definition front (p : option (text * text)) : text := match p with Some (_, d) => d ++ u "/" | None => [] end.
Definition back (p : option (text * text)) : text := match p with Some (_, d) => u "/" ++ d | None => [] end.
Hypothesis Ky : match oy with Some (y, _) => forallb zc y = true | None => True end.
Hypothesis Km : forallb zc m = true.
Hypothesis Kd : match od with Some (d, _) => forallb zc d = true | None => True end.
Hypothesis Ry : forall y d, oy = Some (y, d) -> forall z w, denote Date.g_year y z w <-> z = d /\ w = 0%Z.
Hypothesis Rm : forall z w, denote Date.g_month m z w <-> z = dm /\ w = 0%Z.
Hypothesis Rd : forall y d, od = Some (y, d) -> forall z w, denote Date.g_day y z w <-> z = d /\ w = 0%Z.
Lemma behind_slash : ~ In 92%N (behind od).
Proof. destruct od as [[d dd]|]; [apply space_slash, zc_part; [reflexivity|exact Kd]|intros []]. Qed.
Lemma date_verbal z w : denote Date.verbalizer (before oy ++ piece (u "month") m ++ behind od) z w <-> z = front oy ++ dm ++ back od /\ w = 0%Z.
Proof.
  pose proof behind_slash as Ts. pose proof (all_sub _ _ _ zc_bare Km) as Bm.
  assert (Ms : ~ In 92%N (piece (u "month") m ++ behind od)) by (intro I; apply in_app_iff in I as [I|I]; [exact (zc_part (u "month") m eq_refl Km I)|exact (Ts I)]). split.
  - intros [H|H].
    + apply cat_inv in H as (x1 & y1 & w1 & x2 & y2 & w2 & E & -> & -> & H & H2). apply cat_inv in H as (x3 & y3 & w3 & x4 & y4 & w4 & -> & -> & -> & H3 & H4). rewrite <- app_assoc in E.
      assert (Y : y3 = front oy /\ w3 = 0%Z /\ x4 ++ x2 = piece (u "month") m ++ behind od).
      { destruct oy as [[y dy]|]; cbn [before front] in *.
        - destruct H3 as [H3|(-> & -> & ->)]; [|exfalso; exact (field_head (u "month") _ x4 y4 w4 x2 (u "year") y (u " " ++ piece (u "month") m ++ behind od) ltac:(vm_compute; discriminate) ltac:(discriminate) ltac:(discriminate) H4 ltac:(cbn [app] in E; rewrite <- E; rewrite <- !app_assoc; reflexivity))].
          apply cat_inv in H3 as (x5 & y5 & w5 & x6 & y6 & w6 & -> & -> & -> & H3 & (-> & -> & ->)). apply cat_inv in H3 as (x7 & y7 & w7 & x8 & y8 & w8 & -> & -> & -> & H3 & (-> & -> & ->)). rewrite <- !app_assoc in E.
          destruct (vfield_cut false (u "year") Date.g_year x7 y7 w7 (u " " ++ [] ++ x4 ++ x2) y (u " " ++ piece (u "month") m ++ behind od) (all_sub _ _ _ zc_bare Ky) (space_slash _ Ms) H3 (eq_sym E)) as (G & _ & E2).
          apply app_inv_head in E2. apply (Ry y dy eq_refl) in G as (-> & ->). rewrite app_nil_r. auto.
        - destruct H3 as [H3|(-> & -> & ->)]; [exfalso|split; [reflexivity|]; split; [reflexivity|]; cbn [app] in E; now rewrite <- E].
          apply cat_inv in H3 as (x5 & y5 & w5 & x6 & y6 & w6 & -> & -> & -> & H3 & (-> & -> & ->)). apply cat_inv in H3 as (x7 & y7 & w7 & x8 & y8 & w8 & -> & -> & -> & H3 & (-> & -> & ->)). rewrite <- !app_assoc in E. cbn [app] in E.
          exact (field_head (u "year") _ x7 y7 w7 _ (u "month") m (behind od) ltac:(vm_compute; discriminate) ltac:(discriminate) ltac:(discriminate) H3 (eq_sym E)). }
      destruct Y as (-> & -> & E2). destruct (vfield_cut false (u "month") Date.g_month x4 y4 w4 x2 m (behind od) Bm Ts H4 E2) as (G & _ & ->). apply Rm in G as (-> & ->).
      assert (D : y2 = back od /\ w2 = 0%Z).
      { destruct od as [[d dd]|]; cbn [behind back] in *; destruct H2 as [H2|(E3 & -> & ->)].
        - apply cat_inv in H2 as (x5 & y5 & w5 & x6 & y6 & w6 & E3 & -> & -> & (-> & -> & ->) & H2). cbn [app] in E3.
          destruct (vfield_cut true (u "day") Date.g_day x6 y6 w6 [] d [] (all_sub _ _ _ zc_bare Kd) (fun I => I) H2 ltac:(rewrite !app_nil_r; symmetry; exact E3)) as (G & _). apply (Rd d dd eq_refl) in G as (-> & ->). auto.
        - discriminate E3.
        - exfalso. apply cat_inv in H2 as (x5 & y5 & w5 & x6 & y6 & w6 & E3 & -> & -> & (-> & -> & ->) & H2). apply vfield_denote in H2 as (v & -> & _). discriminate E3.
        - auto. }
      destruct D as (-> & ->). rewrite <- app_assoc. auto.
    + exfalso. apply cat_inv in H as (x1 & y1 & w1 & x2 & y2 & w2 & E & -> & -> & H & (-> & -> & ->)). destruct oy as [[y dy]|]; cbn [before] in E.
      * rewrite <- app_assoc in E. destruct (vfield_cut false (u "year") Date.g_year_only x1 y1 w1 (u " preserve_order: ""true""") y (u " " ++ piece (u "month") m ++ behind od) (all_sub _ _ _ zc_bare Ky) (space_slash _ Ms) H (eq_sym E)) as (_ & _ & E2). discriminate E2.
      * cbn [app] in E. exact (field_head (u "year") _ x1 y1 w1 _ (u "month") m (behind od) ltac:(vm_compute; discriminate) ltac:(discriminate) ltac:(discriminate) H (eq_sym E)).
  - intros (-> & ->). left.
    assert (A : denote (ques (verbalize_field (u "year") (Some Date.g_year) false + delete (u " ") + insert (u "/")))%fst (before oy) (front oy) 0%Z).
    { destruct oy as [[y dy]|]; cbn [before front]; [left|right; now cbn].
      pose proof (vfield_i false (u "year") Date.g_year y dy 0%Z (all_sub _ _ _ zc_bare Ky) (all_sub _ _ _ zc_valid Ky) (proj2 (Ry y dy eq_refl _ _) (conj eq_refl eq_refl))) as P.
      pose proof (cat_i _ _ _ _ _ _ _ _ (cat_i _ (delete (u " ")) _ _ _ (u " ") [] 0%Z P ltac:(now cbn)) (ltac:(now cbn) : denote (insert (u "/")) [] (u "/") 0%Z)) as X. rewrite !app_nil_r in X. exact X. }
    pose proof (vfield_i false (u "month") Date.g_month m dm 0%Z Bm (all_sub _ _ _ zc_valid Km) (proj2 (Rm _ _) (conj eq_refl eq_refl))) as B.
    assert (C : denote (ques (insert (u "/") + verbalize_field (u "day") (Some Date.g_day) true))%fst (behind od) (back od) 0%Z).
    { destruct od as [[d dd]|]; cbn [behind back]; [left|right; now cbn].
      pose proof (vfield_i true (u "day") Date.g_day d dd 0%Z (all_sub _ _ _ zc_bare Kd) (all_sub _ _ _ zc_valid Kd) (proj2 (Rd d dd eq_refl _ _) (conj eq_refl eq_refl))) as P.
      exact (cat_i (insert (u "/")) _ [] (u "/") 0%Z _ _ _ ltac:(now cbn) P). }
    pose proof (cat_i _ _ _ _ _ _ _ _ (cat_i _ _ _ _ _ _ _ _ A B) C) as X. rewrite <- !app_assoc in X. exact X.
Qed.
End Verb.
Lemma year_verbal y d : forallb zc y = true -> (forall z w, denote Date.g_year_only y z w <-> z = d /\ w = 0%Z) -> forall z w, denote Date.verbalizer (piece (u "year") y ++ marker) z w <-> z = d /\ w = 0%Z.
Proof.
  intros K R z w. assert (Ns : ~ In 92%N marker) by (vm_compute; intuition discriminate). split.
  - intros [H|H].
    + exfalso. apply cat_inv in H as (x1 & y1 & w1 & x2 & y2 & w2 & E & -> & -> & H & H2). apply cat_inv in H as (x3 & y3 & w3 & x4 & y4 & w4 & -> & -> & -> & H3 & H4). rewrite <- app_assoc in E.
      destruct H3 as [H3|(-> & -> & ->)]; [|exact (field_head (u "month") _ x4 y4 w4 x2 (u "year") y marker ltac:(vm_compute; discriminate) ltac:(discriminate) ltac:(discriminate) H4 (eq_sym E))].
      apply cat_inv in H3 as (x5 & y5 & w5 & x6 & y6 & w6 & -> & -> & -> & H3 & (-> & -> & ->)). apply cat_inv in H3 as (x7 & y7 & w7 & x8 & y8 & w8 & -> & -> & -> & H3 & (-> & -> & ->)). rewrite <- !app_assoc in E.
      destruct (vfield_cut false (u "year") Date.g_year x7 y7 w7 (u " " ++ [] ++ x4 ++ x2) y marker (all_sub _ _ _ zc_bare K) Ns H3 (eq_sym E)) as (_ & _ & E2). apply vfield_denote in H4 as (v & -> & _). discriminate E2.
    + apply cat_inv in H as (x1 & y1 & w1 & x2 & y2 & w2 & E & -> & -> & H & (-> & -> & ->)). destruct (vfield_cut false (u "year") Date.g_year_only x1 y1 w1 _ y marker (all_sub _ _ _ zc_bare K) Ns H (eq_sym E)) as (G & _). apply R in G as (-> & ->). rewrite app_nil_r. auto.
  - intros (-> & ->). right. rewrite <- (app_nil_r d). change 0%Z with (0 + 0)%Z. apply cat_i; [|now cbn]. exact (vfield_i false (u "year") Date.g_year_only y d 0%Z (all_sub _ _ _ zc_bare K) (all_sub _ _ _ zc_valid K) (proj2 (R _ _) (conj eq_refl eq_refl))).
Qed.
(** ** The other rules *)
Definition date_spec : rule_spec := RuleSpec Date.rule (Some 10200%Z) true.
Lemma only_zh_itn_date o : name_only (rules o) (u "date") date_spec.
Proof. destruct o as [a b c d]; PlainRules.only_tac. Qed.
Definition fits (s : rule_spec) : bool :=
  match s_weight s with Some k => match both zc stampc (r_tagger (s_rule s)) with (Never, _) => true | (AtLeast z, m) => (9500 <=? k + z)%Z && ((k =? 10200)%Z || match m with Some n => n <=? 1 | None => false end) | (Unsure, _) => false end | None => true end.
Lemma date_fits o : forallb fits (rules o) = true.
Proof. destruct o as [r [] [] []]; vm_compute; reflexivity. Qed.
Lemma date_floor o : forallb (floor_on zc 9500) (rules o) = true.
Proof.
  pose proof (date_fits o) as F. rewrite forallb_forall in F |- *. intros s I. specialize (F s I). unfold fits in F. unfold floor_on. destruct (s_weight s) as [k|]; [|reflexivity]. rewrite both_eq in F. destruct (least zc _); [reflexivity| |discriminate F]. now apply andb_true_iff in F as (F & _).
Qed.
Lemma weight_date o s : In s (rules o) -> s_weight s = Some 10200%Z -> s = date_spec.
Proof. unfold rules. cbn [In]. intros I W. repeat (destruct I as [<-|I]; [first [discriminate W|reflexivity]|]). destruct I. Qed.
Lemma date_others o s k x y w : In s (rules o) -> s_weight s = Some k -> forallb zc x = true -> denote (r_tagger (s_rule s)) x y w -> s = date_spec \/ count stampc x <= 1.
Proof.
  intros I W K H. destruct (Z.eq_dec k 10200) as [->|N]; [left; now apply (weight_date o)|right]. pose proof (proj1 (forallb_forall _ _) (date_fits o) s I) as F. unfold fits in F. rewrite W, both_eq in F. apply Z.eqb_neq in N. rewrite N in F.
  pose proof (least_sound zc _ x y w K H) as L. pose proof (marks_sound zc stampc _ x y w K H) as M. destruct (least zc _); [destruct L| |discriminate F]. apply andb_true_iff in F as (_ & F). destruct (marks zc stampc _) as [n|]; [|discriminate F]. cbn in M, F. apply Nat.leb_le in F. lia.
Qed.
