(** Property C80: a spoken date through the whole Japanese inverse normaliser.

    Vocabulary (NumeralSpec.v, JaNumeralSpec.v): [decimal d n] says that [d] are the decimal digits of
    [n]; [japanese_value] is the number a Japanese numeral stands for; [one_ten m] says that 一十
    occurs in [m].  [ja_itn_said o x d] (JaItnSaid.v): with the options [o], normalize answers [d] for
    [x], alone or among characters that no rule but the one of single characters reads, whatever the
    engine. *)
From Coq Require Import List NArith ZArith Bool String Lia.
From Verif Require Import Text TextFacts TokenModel Fst FstFacts FstRun GrammarModel GrammarSpec GrammarAccept NumeralSpec EnglishNumeralSpec DataJaItn JaItnModel ZhTnEndSpec JaNumeralSpec WholeSpec BoundarySpec BoundaryLaw PlainSpec.
From Verif Require Import NbestModel PropsBoundary BoundaryChar Letters Apart OneToken TokenVerbal Fields Fields2 ZhNumberProofs JaApart JaHead JaItnSaid JaSpoken JaSpoken2 JaSpoken3 JaSpoken4 JaTen JaItnDate PropsJaSpoken.
From Verif Require Import PipelineModel NbestWitness.
From Verif Require EndToEnd PlainRules PropsZhSpoken Whole GrammarEngine EnNumberProofs4.
Import ListNotations.
Local Open Scope list_scope.

Lemma only_itn_date o : name_only (rules o) (u "date") (RuleSpec (Date.rule o) (Some 10200%Z) true).
Proof. destruct o as [a b c d]; PlainRules.only_tac. Qed.
Definition nomonth (c : N) : bool := negb (c =? MONTH)%N.
Lemma whitelist_month o x y w : forallb dchar x = true -> denote (r_tagger (Whitelist.rule o)) x y w -> forallb nomonth x = true.
Proof. apply (confined_sound dchar nomonth dchar_valid). destruct o as [[] [] [] []]; vm_compute; reflexivity. Qed.
Lemma date_rules o s k : In s (rules o) -> s_weight s = Some k ->
  s = RuleSpec (Date.rule o) (Some 10200%Z) true \/ (10200 < k)%Z \/ s = RuleSpec (Whitelist.rule o) (Some 10100%Z) true.
Proof.
  intros I W. unfold rules in I.
  cbn [In] in I. destruct I as [<-|[<-|[<-|[<-|[<-|[<-|[<-|[<-|[<-|[<-|[]]]]]]]]]]]; cbn [s_weight] in W; try (injection W as <-); try discriminate W; auto 10; right; left; lia.
Qed.
(** ** The fields *)
Lemma part_read o G c x z w : forallb dchar x = true -> denote (preprocessor o @ (G + ques (Date.to + G) + delete [c]))%fst x z w <-> exists p, x = p ++ [c] /\ denote G p z w.
Proof. intro K. rewrite <- (stamp_denote G c x z w K). exact (still_pre dchar dchar_valid (preprocessor o) (G + ques (Date.to + G) + delete [c])%fst (still_d o) x z w K). Qed.
Lemma year_nums p z w : forallb dchar p = true -> denote Date.cardinal p z w -> forallb numc p = true.
Proof. apply (confined_sound dchar numc dchar_valid). vm_compute. reflexivity. Qed.
Lemma month_nums p z w : forallb dchar p = true -> denote Date.month0 p z w -> forallb numc p = true.
Proof. apply (confined_sound dchar numc dchar_valid). vm_compute. reflexivity. Qed.
Lemma day_nums p z w : forallb dchar p = true -> denote Date.day0 p z w -> forallb numc p = true.
Proof. apply (confined_sound dchar numc dchar_valid). vm_compute. reflexivity. Qed.
Lemma no_era o x z w : forallb dchar x = true -> ~ denote (Date.g_era_year o) x z w.
Proof.
  intros K H. assert (A : apart2 dchar (Date.g_era_year o) = true) by (destruct o as [[] [] [] []]; vm_compute; reflexivity). exact (apart2_sound dchar dchar_valid _ A _ _ _ K H).
Qed.
Lemma field_form o G c x t k w : (forall p z w, forallb dchar p = true -> denote G p z w -> forallb numc p = true) -> forallb dchar x = true -> denote (tag_field k (preprocessor o @ (G + ques (Date.to + G) + delete [c])))%fst x t w ->
  exists p, x = p ++ [c] /\ forallb numc p = true /\ t = piece k (p ++ [c]).
Proof.
  intros Gn K H. apply tag_field_spec in H as (_ & -> & z & H). apply (part_read o G c x z w K) in H as (p & -> & H). exists p. split; [reflexivity|]. rewrite (bare_escape _ (all_sub dchar bare _ dchar_bare K)). split; [|reflexivity].
  rewrite forallb_app, andb_true_iff in K. exact (Gn p z w (proj1 K) H).
Qed.
Definition date_fields (y : option text) (m : text) (d : option text) : list (text * text) :=
  match y with Some y => [(u "year", y ++ [YEAR])] | None => [] end ++ [(u "month", m ++ [MONTH])] ++ match d with Some d => [(u "day", d ++ [DAY])] | None => [] end.
Definition date_inner (y : option text) (m : text) (d : option text) : text :=
  match y with Some y => piece (u "year") (y ++ [YEAR]) ++ u " " | None => [] end ++ piece (u "month") (m ++ [MONTH]) ++ match d with Some d => u " " ++ piece (u "day") (d ++ [DAY]) | None => [] end.
Lemma numc_bare x c : forallb numc x = true -> dchar c = true -> forallb bare (x ++ [c]) = true.
Proof. intros K C. rewrite forallb_app, (all_sub numc bare _ (fun c H => dchar_bare c (numc_dchar c H)) K). cbn [forallb]. now rewrite (dchar_bare c C). Qed.
Lemma date_token y m d : onums y -> forallb numc m = true -> onums d -> fields_token (u "date") (date_fields y m d) = u "date" ++ u " { " ++ date_inner y m d ++ u " }".
Proof.
  intros Y M D. pose proof (numc_bare m MONTH M eq_refl) as Bm. unfold fields_token, date_fields, date_inner.
  destruct y as [y|], d as [d|]; cbn [onums] in *; try pose proof (numc_bare y YEAR Y eq_refl) as By; try pose proof (numc_bare d DAY D eq_refl) as Bd; cbn [app map join Datatypes.fst snd]; rewrite ?(bare_escape _ By), ?(bare_escape _ Bm), ?(bare_escape _ Bd); unfold piece; rewrite <- ?app_assoc, ?app_nil_r; reflexivity.
Qed.
Lemma date_parse o x t w : forallb dchar x = true -> denote (Date.date o) x t w -> exists y m d, x = ymd y m d /\ onums y /\ forallb numc m = true /\ onums d /\ t = date_inner y m d.
Proof.
  intros K H. assert (Ky := fun x t w => field_form o Date.cardinal YEAR x t (u "year") w year_nums). assert (Km := fun x t w => field_form o Date.month0 MONTH x t (u "month") w month_nums). assert (Kd := fun x t w => field_form o Date.day0 DAY x t (u "day") w day_nums).
  destruct H as [[[H|H]|H]|H].
  - apply cat_inv in H as (x1 & y1 & w1 & x2 & y2 & w2 & -> & -> & -> & H & H2). apply cat_inv in H as (x3 & y3 & w3 & x4 & y4 & w4 & -> & -> & -> & H1 & (-> & -> & ->)). rewrite app_nil_r in *. rewrite forallb_app, andb_true_iff in K. destruct K as (K1 & K2).
    apply Ky in H1 as (p & -> & P & ->); [|exact K1]. apply Km in H2 as (q & -> & Q & ->); [|exact K2]. exists (Some p), q, None. unfold ymd, date_inner. cbn [stamp onums]. rewrite !app_nil_r, <- !app_assoc. auto.
  - apply cat_inv in H as (x1 & y1 & w1 & x2 & y2 & w2 & -> & -> & -> & H & H2). apply cat_inv in H as (x3 & y3 & w3 & x4 & y4 & w4 & -> & -> & -> & H1 & (-> & -> & ->)). rewrite app_nil_r in *. rewrite forallb_app, andb_true_iff in K. destruct K as (K1 & K2).
    apply Km in H1 as (p & -> & P & ->); [|exact K1]. apply Kd in H2 as (q & -> & Q & ->); [|exact K2]. exists None, p, (Some q). unfold ymd, date_inner. cbn [stamp onums app]. rewrite <- !app_assoc. auto.
  - apply cat_inv in H as (x1 & y1 & w1 & x5 & y5 & w5 & -> & -> & -> & H & H3). apply cat_inv in H as (x2 & y2 & w2 & x6 & y6 & w6 & -> & -> & -> & H & (-> & -> & ->)). apply cat_inv in H as (x3 & y3 & w3 & x7 & y7 & w7 & -> & -> & -> & H & H2). apply cat_inv in H as (x8 & y8 & w8 & x4 & y4 & w4 & -> & -> & -> & H1 & (-> & -> & ->)).
    rewrite !app_nil_r in *. rewrite !forallb_app, !andb_true_iff in K. destruct K as ((K1 & K2) & K3). apply Ky in H1 as (p & -> & P & ->); [|exact K1]. apply Km in H2 as (q & -> & Q & ->); [|exact K2]. apply Kd in H3 as (r & -> & R & ->); [|exact K3].
    exists (Some p), q, (Some r). unfold ymd, date_inner. cbn [stamp onums]. rewrite <- !app_assoc. auto.
  - exfalso. apply tag_field_spec in H as (_ & _ & z & H). exact (no_era o x z w K H).
Qed.
(** ** The verbaliser *)
Lemma vpart k g c t z w rest x r d : forallb bare x = true -> ~ In 92%N r -> (forall z w, denote g x z w -> z = d /\ w = 0%Z) -> denote (verbalize_field k (Some g) false + insert c)%fst t z w -> t ++ rest = piece k x ++ r -> z = d ++ c /\ w = 0%Z /\ rest = r.
Proof.
  intros B Nr R H E. apply cat_inv in H as (x1 & y1 & w1 & x2 & y2 & w2 & -> & -> & -> & H & (-> & -> & ->)). rewrite app_nil_r in E. destruct (vfield_cut false k g x1 y1 w1 rest x r B Nr H E) as (G & _ & ->). apply R in G as (-> & ->). auto.
Qed.
Lemma vkey k g c t z w rest k' x r : hd 0%N k <> hd 0%N k' -> k <> [] -> k' <> [] -> denote (verbalize_field k (Some g) false + insert c)%fst t z w -> t ++ rest = piece k' x ++ r -> False.
Proof.
  intros Nk K K' H E. apply cat_inv in H as (x1 & y1 & w1 & x2 & y2 & w2 & -> & -> & -> & H & (-> & -> & ->)). apply vfield_denote in H as (v & -> & _). destruct k as [|a k]; [congruence|]. destruct k' as [|b k']; [congruence|]. unfold piece in E. cbn in E, Nk. injection E as E _. congruence.
Qed.
Lemma vpart_i k g c x d : forallb bare x = true -> forallb vchar x = true -> denote g x d 0%Z -> denote (verbalize_field k (Some g) false + insert c)%fst (piece k x) (d ++ c) 0%Z.
Proof. intros B V H. rewrite <- (app_nil_r (piece k x)). change 0%Z with (0 + 0)%Z. apply cat_i; [exact (vfield_i false k g x d 0%Z B V H)|now cbn]. Qed.
Lemma no_slash k x c : forallb bare k = true -> forallb numc x = true -> dchar c = true -> ~ In 92%N (piece k (x ++ [c])).
Proof. intros Bk K C. apply piece_no_bsl; [exact Bk|now apply numc_bare]. Qed.
Lemma space_slash r : ~ In 92%N r -> ~ In 92%N (u " " ++ r).
Proof. intros N I. apply in_app_iff in I as [I|I]; [vm_compute in I; intuition discriminate|contradiction]. Qed.
Section Verb.
Variables (o : options) (oy : option (text * text)) (m dm : text) (od : option (text * text)).
Definition heard (p : option (text * text)) : option text := match p with Some p => Some (Datatypes.fst p) | None => None end.
Definition shown (p : option (text * text)) (c : N) : text := match p with Some p => snd p ++ [c] | None => [] end.
Hypothesis Ny : onums (heard oy).
Hypothesis Nm : forallb numc m = true.
Hypothesis Nd : onums (heard od).
Hypothesis Two : oy <> None \/ od <> None.
Hypothesis Ry : forall y d, oy = Some (y, d) -> forall z w, denote (Date.g_year o) (y ++ [YEAR]) z w <-> z = d /\ w = 0%Z.
Hypothesis Rm : forall z w, denote (Date.g_month o) (m ++ [MONTH]) z w <-> z = dm /\ w = 0%Z.
Hypothesis Rd : forall y d, od = Some (y, d) -> forall z w, denote (Date.g_day o) (y ++ [DAY]) z w <-> z = d /\ w = 0%Z.
Let date_out : text := shown oy YEAR ++ (dm ++ [MONTH]) ++ shown od DAY.
Lemma tail_slash : ~ In 92%N (match heard od with Some d => u " " ++ piece (u "day") (d ++ [DAY]) | None => [] end).
Proof. destruct od as [[d dd]|]; cbn [heard Datatypes.fst onums] in *; [apply space_slash, no_slash; auto; reflexivity|intros []]. Qed.
Lemma date_verbal z w : denote (Date.verbalizer o) (date_inner (heard oy) m (heard od)) z w <-> z = date_out /\ w = 0%Z.
Proof.
  pose proof (numc_bare m MONTH Nm eq_refl) as Bm. pose proof tail_slash as Ts.
  assert (Vm : forallb vchar (m ++ [MONTH]) = true) by (rewrite forallb_app, (all_sub numc vchar _ (fun c H => dchar_valid c (numc_dchar c H)) Nm); reflexivity).
  assert (Rm' := fun z w => proj1 (Rm z w)). split.
  - intro H.
    (* the month, and whatever stands behind it *)
    assert (Mon : forall t z w rest, denote (Date.v_month o) t z w -> t ++ rest = piece (u "month") (m ++ [MONTH]) ++ match heard od with Some d => u " " ++ piece (u "day") (d ++ [DAY]) | None => [] end ->
      z = dm ++ [MONTH] /\ w = 0%Z /\ rest = match heard od with Some d => u " " ++ piece (u "day") (d ++ [DAY]) | None => [] end) by (intros t z0 w0 rest Ht E; exact (vpart _ _ _ _ _ _ _ _ _ _ Bm Ts Rm' Ht E)).
    assert (Dy : forall t z w, denote (Date.v_day o) t z w -> u " " ++ t = match heard od with Some d => u " " ++ piece (u "day") (d ++ [DAY]) | None => [] end -> z = shown od DAY /\ w = 0%Z).
    { intros t z0 w0 Ht E. destruct od as [[d dd]|]; cbn [heard Datatypes.fst onums shown snd] in *; [|discriminate E]. apply app_inv_head in E. pose proof (numc_bare d DAY Nd eq_refl) as Bd.
      destruct (vpart _ _ _ t z0 w0 [] (d ++ [DAY]) [] dd Bd (fun I => I) (fun z w => proj1 (Rd d dd eq_refl z w)) Ht ltac:(rewrite !app_nil_r; exact E)) as (-> & -> & _). auto. }
    assert (Yr : forall t z w rest, denote (Date.v_year o) t z w -> t ++ rest = date_inner (heard oy) m (heard od) -> oy <> None /\ z = shown oy YEAR /\ w = 0%Z /\
      rest = u " " ++ piece (u "month") (m ++ [MONTH]) ++ match heard od with Some d => u " " ++ piece (u "day") (d ++ [DAY]) | None => [] end).
    { intros t z0 w0 rest Ht E. unfold date_inner in E. destruct oy as [[y dy]|]; cbn [heard Datatypes.fst onums shown snd] in *.
      - split; [discriminate|]. pose proof (numc_bare y YEAR Ny eq_refl) as By. rewrite <- app_assoc in E.
        refine (vpart _ _ _ t z0 w0 rest (y ++ [YEAR]) _ dy By _ (fun z w => proj1 (Ry y dy eq_refl z w)) Ht E). apply space_slash. intro I. apply in_app_iff in I as [I|I]; [exact (no_slash (u "month") m MONTH eq_refl Nm eq_refl I)|exact (Ts I)].
      - exfalso. exact (vkey (u "year") _ _ t z0 w0 rest (u "month") _ _ ltac:(vm_compute; discriminate) ltac:(discriminate) ltac:(discriminate) Ht E). }
    assert (Nomonth : forall t z w rest, oy <> None -> denote (Date.v_month o) t z w -> t ++ rest = date_inner (heard oy) m (heard od) -> False).
    { intros t z0 w0 rest N Ht E. destruct oy as [[y dy]|]; [|congruence]. unfold date_inner in E. cbn [heard Datatypes.fst] in E. rewrite <- app_assoc in E. exact (vkey (u "month") _ _ t z0 w0 rest (u "year") _ _ ltac:(vm_compute; discriminate) ltac:(discriminate) ltac:(discriminate) Ht E). }
    destruct H as [[[H|H]|H]|H].
    + apply cat_inv in H as (x1 & y1 & w1 & x2 & y2 & w2 & E & -> & -> & H & H2). apply cat_inv in H as (x3 & y3 & w3 & x4 & y4 & w4 & -> & -> & -> & H1 & (-> & -> & ->)). rewrite <- app_assoc in E.
      destruct (Yr _ _ _ _ H1 (eq_sym E)) as (_ & -> & -> & E2). apply app_inv_head in E2. destruct (Mon x2 y2 w2 [] H2 ltac:(rewrite app_nil_r; exact E2)) as (-> & -> & E3).
      unfold date_out. destruct od as [[d dd]|]; [discriminate E3|]. cbn [shown]. rewrite !app_nil_r. auto.
    + apply cat_inv in H as (x1 & y1 & w1 & x2 & y2 & w2 & E & -> & -> & H & H2). apply cat_inv in H as (x3 & y3 & w3 & x4 & y4 & w4 & -> & -> & -> & H1 & (-> & -> & ->)). rewrite <- app_assoc in E.
      destruct oy as [p|] eqn:Eo; [exfalso; exact (Nomonth _ _ _ _ ltac:(discriminate) H1 (eq_sym E))|]. destruct (Mon _ _ _ _ H1 (eq_sym E)) as (-> & -> & E2). destruct (Dy _ _ _ H2 E2) as (-> & ->). unfold date_out. cbn [shown app]. rewrite !app_nil_r. auto.
    + apply cat_inv in H as (x1 & y1 & w1 & x5 & y5 & w5 & E & -> & -> & H & H3). apply cat_inv in H as (x2 & y2 & w2 & x6 & y6 & w6 & -> & -> & -> & H & (-> & -> & ->)). apply cat_inv in H as (x3 & y3 & w3 & x7 & y7 & w7 & -> & -> & -> & H & H2). apply cat_inv in H as (x8 & y8 & w8 & x4 & y4 & w4 & -> & -> & -> & H1 & (-> & -> & ->)).
      rewrite <- !app_assoc in E. destruct (Yr _ _ _ _ H1 (eq_sym E)) as (_ & -> & -> & E2). apply app_inv_head in E2. destruct (Mon _ _ _ _ H2 E2) as (-> & -> & E3). destruct (Dy _ _ _ H3 E3) as (-> & ->). unfold date_out. rewrite !app_nil_r, <- !app_assoc. auto.
    + exfalso. unfold date_inner in H. destruct oy as [[y dy]|]; cbn [heard Datatypes.fst onums] in *.
      * rewrite <- app_assoc in H. pose proof (numc_bare y YEAR Ny eq_refl) as By. set (r := u " " ++ piece (u "month") (m ++ [MONTH]) ++ match heard od with Some d => u " " ++ piece (u "day") (d ++ [DAY]) | None => [] end) in *.
        assert (Nr : ~ In 92%N r) by (apply space_slash; intro I; apply in_app_iff in I as [I|I]; [exact (no_slash (u "month") m MONTH eq_refl Nm eq_refl I)|exact (Ts I)]).
        destruct (vfield_cut false (u "year") (Date.g_era_year o) (piece (u "year") (y ++ [YEAR]) ++ r) z w [] (y ++ [YEAR]) r By Nr H (app_nil_r (piece (u "year") (y ++ [YEAR]) ++ r))) as (G & _).
        refine (no_era o _ _ _ _ G). rewrite forallb_app, (all_sub numc dchar _ numc_dchar Ny). reflexivity.
      * apply vfield_denote in H as (v & E & _). discriminate E.
  - intros (-> & ->). unfold date_out, date_inner. assert (Pm : denote (Date.v_month o) (piece (u "month") (m ++ [MONTH])) (dm ++ [MONTH]) 0%Z) by exact (vpart_i _ _ _ _ _ Bm Vm (proj2 (Rm _ _) (conj eq_refl eq_refl))).
    assert (Sp : denote (delete (u " ")) (u " ") [] 0%Z) by now cbn.
    assert (Py : forall y dy, oy = Some (y, dy) -> denote (Date.v_year o) (piece (u "year") (y ++ [YEAR])) (dy ++ [YEAR]) 0%Z).
    { intros y dy E. rewrite E in Ny. cbn [heard onums Datatypes.fst] in Ny. refine (vpart_i _ _ _ _ _ (numc_bare y YEAR Ny eq_refl) _ (proj2 (Ry y dy E _ _) (conj eq_refl eq_refl))). rewrite forallb_app, (all_sub numc vchar _ (fun c H => dchar_valid c (numc_dchar c H)) Ny). reflexivity. }
    assert (Pd : forall d dd, od = Some (d, dd) -> denote (Date.v_day o) (piece (u "day") (d ++ [DAY])) (dd ++ [DAY]) 0%Z).
    { intros y dy E. rewrite E in Nd. cbn [heard onums Datatypes.fst] in Nd. refine (vpart_i _ _ _ _ _ (numc_bare y DAY Nd eq_refl) _ (proj2 (Rd y dy E _ _) (conj eq_refl eq_refl))). rewrite forallb_app, (all_sub numc vchar _ (fun c H => dchar_valid c (numc_dchar c H)) Nd). reflexivity. }
    destruct oy as [[y dy]|], od as [[d dd]|]; cbn [heard Datatypes.fst shown snd] in *.
    + left. right. specialize (Py _ _ eq_refl). specialize (Pd _ _ eq_refl). pose proof (cat_i _ _ _ _ _ _ _ _ (cat_i _ _ _ _ _ _ _ _ (cat_i _ _ _ _ _ _ _ _ (cat_i _ _ _ _ _ _ _ _ Py Sp) Pm) Sp) Pd) as X. rewrite !app_nil_r in X. rewrite <- !app_assoc in X. rewrite <- !app_assoc. exact X.
    + left. left. left. specialize (Py _ _ eq_refl). pose proof (cat_i _ _ _ _ _ _ _ _ (cat_i _ _ _ _ _ _ _ _ Py Sp) Pm) as X. rewrite !app_nil_r in X. rewrite <- !app_assoc in X. rewrite !app_nil_r, <- !app_assoc. exact X.
    + left. left. right. specialize (Pd _ _ eq_refl). pose proof (cat_i _ _ _ _ _ _ _ _ (cat_i _ _ _ _ _ _ _ _ Pm Sp) Pd) as X. rewrite !app_nil_r in X. rewrite <- !app_assoc in X. cbn [app]. rewrite <- !app_assoc. exact X.
    + destruct Two; congruence.
Qed.
End Verb.
Lemma tag_part (o : options) (g : options -> fst) k x d : forallb dchar x = true -> denote (g o) x d 0%Z -> denote (tag_field k (g o)) x (piece k x) 0%Z.
Proof. intros K H. apply tag_field_spec. split; [exact (all_sub dchar vchar _ dchar_valid K)|]. rewrite (bare_escape _ (all_sub dchar bare _ dchar_bare K)). split; [reflexivity|eauto]. Qed.
Lemma numc_stamp x c : forallb numc x = true -> dchar c = true -> forallb dchar (x ++ [c]) = true.
Proof. intros K C. rewrite forallb_app, (all_sub numc dchar _ numc_dchar K). cbn [forallb]. now rewrite C. Qed.
Lemma date_said o oy m dm od : onums (heard oy) -> forallb numc m = true -> onums (heard od) -> oy <> None \/ od <> None ->
  (forall y d, oy = Some (y, d) -> forall z w, denote (Date.g_year o) (y ++ [YEAR]) z w <-> z = d /\ w = 0%Z) ->
  (forall z w, denote (Date.g_month o) (m ++ [MONTH]) z w <-> z = dm /\ w = 0%Z) ->
  (forall y d, od = Some (y, d) -> forall z w, denote (Date.g_day o) (y ++ [DAY]) z w <-> z = d /\ w = 0%Z) ->
  ja_itn_said o (ymd (heard oy) m (heard od)) (shown oy YEAR ++ (dm ++ [MONTH]) ++ shown od DAY).
Proof.
  intros Ny Nm Nd Two Ry Rm Rd.
  assert (K : forallb dchar (ymd (heard oy) m (heard od)) = true).
  { unfold ymd. rewrite !forallb_app, (all_sub numc dchar _ numc_dchar Nm). destruct oy as [[y dy]|], od as [[d dd]|]; cbn [heard Datatypes.fst stamp onums] in *; rewrite ?(numc_stamp y YEAR Ny eq_refl), ?(numc_stamp d DAY Nd eq_refl); reflexivity. }
  assert (Good : forall fs, fs = date_fields (heard oy) m (heard od) -> good_keys fs = true /\ good_values fs = true /\ NoDup (map Datatypes.fst fs) /\ fs <> [] /\ TokenProofs2.emitted ja_itn_token_orders (u "date") fs = fs).
  { intros fs ->. pose proof (all_sub dchar vchar _ dchar_valid (numc_stamp m MONTH Nm eq_refl)) as Vm. destruct oy as [[y dy]|], od as [[d dd]|]; cbn [heard Datatypes.fst onums date_fields app] in *;
      try pose proof (all_sub dchar vchar _ dchar_valid (numc_stamp y YEAR Ny eq_refl)) as Vy; try pose proof (all_sub dchar vchar _ dchar_valid (numc_stamp d DAY Nd eq_refl)) as Vd; unfold good_values; cbn [forallb snd]; rewrite ?Vy, ?Vm, ?Vd; (split; [reflexivity|]; split; [reflexivity|]; split; [repeat constructor; cbn; intuition discriminate|]; split; [discriminate|reflexivity]). }
  destruct (Good _ eq_refl) as (Gk & Gv & Gd & Gn & Go).
  apply (ja_itn_said_fields o (u "date") (Date.rule o) 10200 _ _ (date_fields (heard oy) m (heard od)) (date_fields (heard oy) m (heard od)) (only_itn_date o)) with (k0 := 0%Z) (kv := 0%Z); try reflexivity; try assumption.
  - exact (all_sub dchar vchar _ dchar_valid K).
  - unfold ymd. intro E. apply app_eq_nil in E as (_ & E). apply app_eq_nil in E as (E & _). destruct m; discriminate E.
  - cbn [Date.rule r_tagger]. apply PlainRules.tokens_added. exists (date_inner (heard oy) m (heard od)). rewrite (date_token _ _ _ Ny Nm Nd). split; [rewrite <- !app_assoc; reflexivity|].
    pose proof (tag_part o Date.g_month (u "month") _ dm (numc_stamp m MONTH Nm eq_refl) (proj2 (Rm _ _) (conj eq_refl eq_refl))) as Pm. assert (Sp : denote (insert (u " ")) [] (u " ") 0%Z) by now cbn. unfold ymd, date_inner.
    destruct oy as [[y dy]|], od as [[d dd]|]; cbn [heard Datatypes.fst stamp onums] in *;
      try pose proof (tag_part o Date.g_year (u "year") _ dy (numc_stamp y YEAR Ny eq_refl) (proj2 (Ry y dy eq_refl _ _) (conj eq_refl eq_refl))) as Py; try pose proof (tag_part o Date.g_day (u "day") _ dd (numc_stamp d DAY Nd eq_refl) (proj2 (Rd d dd eq_refl _ _) (conj eq_refl eq_refl))) as Pd.
    + left. right. pose proof (cat_i _ _ _ _ _ _ _ _ (cat_i _ _ _ _ _ _ _ _ (cat_i _ _ _ _ _ _ _ _ (cat_i _ _ _ _ _ _ _ _ Py Sp) Pm) Sp) Pd) as X. rewrite !app_nil_r in X. rewrite <- !app_assoc in X. rewrite <- !app_assoc. exact X.
    + left. left. left. pose proof (cat_i _ _ _ _ _ _ _ _ (cat_i _ _ _ _ _ _ _ _ Py Sp) Pm) as X. rewrite !app_nil_r in X. rewrite <- !app_assoc in X. rewrite !app_nil_r, <- !app_assoc. exact X.
    + left. left. right. pose proof (cat_i _ _ _ _ _ _ _ _ (cat_i _ _ _ _ _ _ _ _ Pm Sp) Pd) as X. rewrite !app_nil_r in X. rewrite <- !app_assoc in X. cbn [app]. rewrite <- !app_assoc. exact X.
    + destruct Two; congruence.
  - intros r wt y w Ir W H. pose proof (Whole.nonneg_sound _ (itn_nonneg o r Ir) _ _ _ H) as P. destruct (date_rules o r wt Ir W) as [->|[Lw| ->]]; [|split; lia|].
    + cbn [s_weight] in W. injection W as <-. split; [lia|]. intros _. cbn [s_rule Date.rule r_tagger] in H. apply PlainRules.tokens_added in H as (t & Et & H). destruct (date_parse o _ _ _ K H) as (y' & m' & d' & E & Ny' & Nm' & Nd' & ->).
      apply ymd_inj in E as (<- & <- & <-); try assumption. apply (app_inv_tail (u " ")). rewrite Et, (date_token _ _ _ Ny Nm Nd). rewrite <- !app_assoc. reflexivity.
    + exfalso. pose proof (whitelist_month o _ _ _ K H) as X. unfold ymd in X. rewrite !forallb_app, !andb_true_iff in X. destruct X as (_ & (_ & X) & _). discriminate X.
  - assert (R : forall z w, denote (r_verbalizer (Date.rule o)) (fields_token (u "date") (date_fields (heard oy) m (heard od))) z w <-> z = shown oy YEAR ++ (dm ++ [MONTH]) ++ shown od DAY /\ w = 0%Z).
    { intros z w. rewrite (date_token _ _ _ Ny Nm Nd). cbn [Date.rule r_verbalizer]. unfold Date.name. rewrite tokens_inner. now apply date_verbal. }
    split; [now apply R|]. intros z w H. apply R in H as (-> & ->). split; [lia|reflexivity].
Qed.
Lemma year_field o y d : forallb numc y = true -> just Cardinal.ten_thousand_minus y d -> forall z w, denote (Date.g_year o) (y ++ [YEAR]) z w <-> z = d /\ w = 0%Z.
Proof.
  intros K J z w. etransitivity; [exact (part_read o Date.cardinal YEAR _ z w (numc_stamp y YEAR K eq_refl))|]. split; [intros (p & E & H); apply app_inj_tail in E as (<- & _); now apply J|intro H; exists y; split; [reflexivity|now apply J]].
Qed.
Lemma table_field o tbl c x d : forallb numc x = true -> dchar c = true -> (forall z, In (x, z) tbl <-> z = d) -> forall z w, denote (preprocessor o @ (Table tbl + ques (Date.to + Table tbl) + delete [c]))%fst (x ++ [c]) z w <-> z = d /\ w = 0%Z.
Proof.
  intros K C I z w. etransitivity; [exact (part_read o (Table tbl) c _ z w (numc_stamp x c K C))|]. split.
  - intros (p & E & (Iz & ->)). apply app_inj_tail in E as (<- & _). split; [now apply I|reflexivity].
  - intros (-> & ->). exists x. split; [reflexivity|]. split; [now apply I|reflexivity].
Qed.
(** ** The dates *)
Theorem C80_year_month_day o y n m i d k : japanese_value y = Some n -> (0 < n < 10000)%N -> ~ one_ten y -> japanese_value m = Some i -> (1 <= i <= 12)%N -> ~ one_ten m -> japanese_value d = Some k -> (1 <= k <= 31)%N -> ~ one_ten d ->
  exists yd md dd, decimal yd n /\ decimal md i /\ decimal dd k /\ ja_itn_said o (y ++ u "年" ++ m ++ u "月" ++ d ++ u "日") (yd ++ u "年" ++ md ++ u "月" ++ dd ++ u "日").
Proof.
  intros Vy Ly Oy Vm Lm Om Vd Ld Od. destruct (year_reads y n Vy Ly Oy) as (yd & Dy & Jy & _). destruct (table_reads months 12 0 m i months_ok Vm ltac:(lia) ltac:(lia) eq_refl Om) as (md & Dm & Im). destruct (table_reads days 31 0 d k days_ok Vd ltac:(lia) ltac:(lia) eq_refl Od) as (dd & Dd & Id).
  exists yd, md, dd. do 3 (split; [assumption|]). destruct (value_nums y n Vy ltac:(lia)) as (Ky & _). destruct (value_nums m i Vm ltac:(lia)) as (Km & _). destruct (value_nums d k Vd ltac:(lia)) as (Kd & _).
  pose proof (date_said o (Some (y, yd)) m md (Some (d, dd)) Ky Km Kd ltac:(left; discriminate)) as X. unfold ymd in X. cbn [heard Datatypes.fst snd shown stamp] in X. rewrite <- !app_assoc in X. apply X.
  - intros y' d' [= <- <-]. exact (year_field o y yd Ky Jy).
  - exact (table_field o months MONTH m md Km eq_refl Im).
  - intros y' d' [= <- <-]. exact (table_field o days DAY d dd Kd eq_refl Id).
Qed.
Print Assumptions C80_year_month_day.
Theorem C80_year_month o y n m i : japanese_value y = Some n -> (0 < n < 10000)%N -> ~ one_ten y -> japanese_value m = Some i -> (1 <= i <= 12)%N -> ~ one_ten m ->
  exists yd md, decimal yd n /\ decimal md i /\ ja_itn_said o (y ++ u "年" ++ m ++ u "月") (yd ++ u "年" ++ md ++ u "月").
Proof.
  intros Vy Ly Oy Vm Lm Om. destruct (year_reads y n Vy Ly Oy) as (yd & Dy & Jy & _). destruct (table_reads months 12 0 m i months_ok Vm ltac:(lia) ltac:(lia) eq_refl Om) as (md & Dm & Im).
  exists yd, md. do 2 (split; [assumption|]). destruct (value_nums y n Vy ltac:(lia)) as (Ky & _). destruct (value_nums m i Vm ltac:(lia)) as (Km & _).
  pose proof (date_said o (Some (y, yd)) m md None Ky Km I ltac:(left; discriminate)) as X. unfold ymd in X. cbn [heard Datatypes.fst snd shown stamp] in X. rewrite !app_nil_r, <- !app_assoc in X. apply X.
  - intros y' d' [= <- <-]. exact (year_field o y yd Ky Jy).
  - exact (table_field o months MONTH m md Km eq_refl Im).
  - discriminate.
Qed.
Print Assumptions C80_year_month.
Theorem C80_month_day o m i d k : japanese_value m = Some i -> (1 <= i <= 12)%N -> ~ one_ten m -> japanese_value d = Some k -> (1 <= k <= 31)%N -> ~ one_ten d ->
  exists md dd, decimal md i /\ decimal dd k /\ ja_itn_said o (m ++ u "月" ++ d ++ u "日") (md ++ u "月" ++ dd ++ u "日").
Proof.
  intros Vm Lm Om Vd Ld Od. destruct (table_reads months 12 0 m i months_ok Vm ltac:(lia) ltac:(lia) eq_refl Om) as (md & Dm & Im). destruct (table_reads days 31 0 d k days_ok Vd ltac:(lia) ltac:(lia) eq_refl Od) as (dd & Dd & Id).
  exists md, dd. do 2 (split; [assumption|]). destruct (value_nums m i Vm ltac:(lia)) as (Km & _). destruct (value_nums d k Vd ltac:(lia)) as (Kd & _).
  pose proof (date_said o None m md (Some (d, dd)) I Km Kd ltac:(right; discriminate)) as X. unfold ymd in X. cbn [heard Datatypes.fst snd shown stamp app] in X. rewrite <- !app_assoc in X. apply X.
  - discriminate.
  - exact (table_field o months MONTH m md Km eq_refl Im).
  - intros y' d' [= <- <-]. exact (table_field o days DAY d dd Kd eq_refl Id).
Qed.
Print Assumptions C80_month_day.
Example C80_witness : exists o, ~ one_ten (u "二千二十四") /\ ~ one_ten (u "三") /\ ~ one_ten (u "二十五") /\ ja_itn_said o (u "二千二十四年三月二十五日") (u "2024年3月25日").
Proof.
  set (o := Options false true false false). exists o.
  assert (D1 : decimal (u "2024") 2024) by (split; [discriminate|split; [apply PropsZhSpoken.digits_of; reflexivity|split; [discriminate|reflexivity]]]).
  assert (D2 : decimal (u "3") 3) by (split; [discriminate|split; [apply PropsZhSpoken.digits_of; reflexivity|split; [discriminate|reflexivity]]]).
  assert (D3 : decimal (u "25") 25) by (split; [discriminate|split; [apply PropsZhSpoken.digits_of; reflexivity|split; [discriminate|reflexivity]]]).
  assert (O1 : ~ one_ten (u "二千二十四")) by (apply free_one_ten; reflexivity). assert (O2 : ~ one_ten (u "三")) by (apply free_one_ten; reflexivity). assert (O3 : ~ one_ten (u "二十五")) by (apply free_one_ten; reflexivity).
  do 3 (split; [assumption|]).
  destruct (C80_year_month_day o (u "二千二十四") 2024 (u "三") 3 (u "二十五") 25 eq_refl ltac:(lia) O1 eq_refl ltac:(lia) O2 eq_refl ltac:(lia) O3) as (a & b & c & Da & Db & Dc & H).
  rewrite (EnNumberProofs4.decimal_unique _ _ _ Da D1), (EnNumberProofs4.decimal_unique _ _ _ Db D2), (EnNumberProofs4.decimal_unique _ _ _ Dc D3) in H. exact H.
Qed.
