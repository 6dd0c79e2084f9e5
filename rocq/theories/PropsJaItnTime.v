(** Property C82: a spoken time through the whole Japanese inverse normaliser.

    Vocabulary as in PropsJaItnDate.v. *)
From Coq Require Import List NArith ZArith Bool String Lia.
From Verif Require Import Text TextFacts TokenModel Fst FstFacts FstRun GrammarModel GrammarSpec GrammarAccept NumeralSpec EnglishNumeralSpec DataJaItn JaItnModel ZhTnEndSpec JaNumeralSpec WholeSpec BoundarySpec BoundaryLaw PlainSpec.
From Verif Require Import NbestModel PropsBoundary BoundaryChar Letters Apart OneToken TokenVerbal Fields Fields2 ZhNumberProofs JaApart JaHead JaItnSaid JaSpoken JaSpoken2 JaSpoken3 JaSpoken4 JaTen JaItnDate PropsJaSpoken PropsJaItnDate.
From Verif Require Import PipelineModel NbestWitness.
From Verif Require EndToEnd PlainRules PropsZhSpoken Whole GrammarEngine EnNumberProofs4.
Import ListNotations.
Local Open Scope list_scope.

Definition hchars : text := Eval vm_compute in num_chars ++ u "時分秒".
Definition hchar (c : N) : bool := among hchars c.
Definition HOUR : N := Eval vm_compute in hd 0%N (u "時").
Definition MINUTE : N := Eval vm_compute in hd 0%N (u "分").
Definition SECOND : N := Eval vm_compute in hd 0%N (u "秒").
Lemma hchar_valid c : hchar c = true -> vchar c = true.
Proof. intro H. apply among_in in H. assert (A : forallb vchar hchars = true) by (vm_compute; reflexivity). rewrite forallb_forall in A. exact (A c H). Qed.
Lemma hchar_bare c : hchar c = true -> bare c = true.
Proof. intro H. apply among_in in H. assert (A : forallb bare hchars = true) by (vm_compute; reflexivity). rewrite forallb_forall in A. exact (A c H). Qed.
Lemma numc_hchar c : numc c = true -> hchar c = true.
Proof. intro H. apply among_in in H. assert (A : forallb hchar num_chars = true) by (vm_compute; reflexivity). rewrite forallb_forall in A. exact (A c H). Qed.
Lemma still_h o : still hchar (preprocessor o) = true.
Proof. destruct o as [[] [] [] []]; vm_compute; reflexivity. Qed.
Lemma only_itn_time o : name_only (rules o) (u "time") (RuleSpec (Time.rule o) (Some 10400%Z) true).
Proof. destruct o as [a b c d]; PlainRules.only_tac. Qed.
Lemma time_rules o s k : In s (rules o) -> s_weight s = Some k ->
  s = RuleSpec (Time.rule o) (Some 10400%Z) true \/ (10400 < k)%Z \/ apart2 hchar (r_tagger (s_rule s)) = true.
Proof.
  intros I W. unfold rules in I.
  cbn [In] in I. destruct I as [<-|[<-|[<-|[<-|[<-|[<-|[<-|[<-|[<-|[<-|[]]]]]]]]]]]; cbn [s_weight] in W; try (injection W as <-); try discriminate W; auto 10;
      try (right; left; lia); do 2 right; destruct o as [[] [] [] []]; vm_compute; reflexivity.
Qed.
(** ** The tables *)
Definition hours : list (text * text) := map Fst.entry ja_itn_time_hour.
Definition minutes : list (text * text) := map Fst.entry ja_itn_time_minute.
Definition seconds : list (text * text) := map Fst.entry ja_itn_time_second.
Definition bare_keys (tbl : list (text * text)) : list (text * text) := map (fun e => (removelast (Datatypes.fst e), snd e)) tbl.
(** Every line has the word of its field behind a numeral or behind characters that are in no numeral. *)
Definition endsb (tbl : list (text * text)) (c : N) : bool :=
  forallb (fun e => text_eqb (removelast (Datatypes.fst e) ++ [c]) (Datatypes.fst e) && (if forallb hchar (Datatypes.fst e) then forallb numc (removelast (Datatypes.fst e)) else true)) tbl.
Lemma ends_key tbl c k z : endsb tbl c = true -> In (k, z) tbl -> exists x, k = x ++ [c] /\ (forallb hchar k = true -> forallb numc x = true).
Proof.
  unfold endsb. rewrite forallb_forall. intros A I. specialize (A _ I). cbn [Datatypes.fst] in A. rewrite andb_true_iff in A. destruct A as (A & B). destruct (text_eqb_spec (removelast k ++ [c]) k) as [E|_]; [|discriminate A]. exists (removelast k). split; [now rewrite E|]. intro K. now rewrite K in B.
Qed.
Lemma bare_in tbl c x z : endsb tbl c = true -> In (x ++ [c], z) tbl <-> In (x, z) (bare_keys tbl).
Proof.
  intro A. unfold bare_keys. rewrite in_map_iff. split.
  - intro I. exists (x ++ [c], z). cbn [Datatypes.fst snd]. rewrite removelast_last. auto.
  - intros ((k & v) & E & I). cbn [Datatypes.fst snd] in E. injection E as <- <-. destruct (ends_key tbl c k v A I) as (x & -> & _). rewrite removelast_last. exact I.
Qed.
Lemma hours_end : endsb hours HOUR = true. Proof. vm_compute. reflexivity. Qed.
Lemma minutes_end : endsb minutes MINUTE = true. Proof. vm_compute. reflexivity. Qed.
Lemma seconds_end : endsb seconds SECOND = true. Proof. vm_compute. reflexivity. Qed.
(** The table of hours lacks the numeral of two, the tables of minutes and seconds that of fifty-two. *)
Lemma hours_ok : JaItnDate.table_ok (bare_keys hours) 24 2 = true. Proof. vm_compute. reflexivity. Qed.
Lemma minutes_ok : JaItnDate.table_ok (bare_keys minutes) 60 52 = true. Proof. vm_compute. reflexivity. Qed.
Lemma seconds_ok : JaItnDate.table_ok (bare_keys seconds) 60 52 = true. Proof. vm_compute. reflexivity. Qed.
Lemma clock_read o tbl c x z w : endsb tbl c = true -> forallb hchar x = true -> denote (preprocessor o @ Table tbl)%fst x z w -> exists p, x = p ++ [c] /\ forallb numc p = true.
Proof.
  intros A K H. apply (proj1 (still_pre hchar hchar_valid (preprocessor o) (Table tbl) (still_h o) x z w K)) in H as (I & _). destruct (ends_key tbl c x z A I) as (p & E & N). exists p. auto.
Qed.
Lemma clock_just o tbl c top skip x n : endsb tbl c = true -> JaItnDate.table_ok (bare_keys tbl) top skip = true -> (top < 100)%N -> hchar c = true -> japanese_value x = Some n -> (0 < n <= top)%N -> n <> skip -> ~ one_ten x ->
  exists d, decimal d n /\ forall z w, denote (preprocessor o @ Table tbl)%fst (x ++ [c]) z w <-> z = d /\ w = 0%Z.
Proof.
  intros A T L C V R Sk O. destruct (table_reads _ _ _ x n T V R Sk L O) as (d & D & I). exists d. split; [exact D|]. intros z w. destruct (value_nums x n V ltac:(lia)) as (K & _).
  assert (Kx : forallb hchar (x ++ [c]) = true) by (rewrite forallb_app, (all_sub numc hchar _ numc_hchar K); cbn [forallb]; now rewrite C).
  etransitivity; [exact (still_pre hchar hchar_valid (preprocessor o) (Table tbl) (still_h o) _ z w Kx)|]. split.
  - intros (Iz & ->). apply (bare_in tbl c x z A) in Iz. apply I in Iz. auto.
  - intros (-> & ->). split; [|reflexivity]. apply (bare_in tbl c x d A), I. reflexivity.
Qed.
(** ** Cutting a time *)
Definition hms (h : option text) (m : text) (s : option text) : text := stamp h HOUR ++ (m ++ [MINUTE]) ++ stamp s SECOND.
Lemma hms_inj y m d y' m' d' : onums y -> forallb numc m = true -> onums d -> onums y' -> forallb numc m' = true -> onums d' -> hms y m d = hms y' m' d' -> y = y' /\ m = m' /\ d = d'.
Proof.
  intros Y M D Y' M' D' E. unfold hms in E.
  assert (T : forall m m' d d', forallb numc m = true -> forallb numc m' = true -> onums d -> onums d' -> (m ++ [MINUTE]) ++ stamp d SECOND = (m' ++ [MINUTE]) ++ stamp d' SECOND -> m = m' /\ d = d').
  { clear. intros m m' d d' M M' D D' E. rewrite <- !app_assoc in E. cbn [app] in E. apply cut_num in E as (-> & _ & E); [|exact M|exact M'|reflexivity|reflexivity]. split; [reflexivity|].
    destruct d as [d|], d' as [d'|]; cbn [stamp] in E; [|destruct d; discriminate E|destruct d'; discriminate E|reflexivity]. apply app_inj_tail in E as (-> & _). reflexivity. }
  destruct y as [y|], y' as [y'|]; cbn [stamp app] in E.
  - rewrite <- !(app_assoc _ [HOUR]) in E. cbn [app] in E. apply cut_num in E as (-> & _ & E); [|exact Y|exact Y'|reflexivity|reflexivity]. destruct (T _ _ _ _ M M' D D' E) as (-> & ->). auto.
  - exfalso. rewrite <- !app_assoc in E. cbn [app] in E. apply cut_num in E as (_ & X & _); [discriminate X|exact Y|exact M'|reflexivity|reflexivity].
  - exfalso. rewrite <- !app_assoc in E. cbn [app] in E. apply cut_num in E as (_ & X & _); [discriminate X|exact M|exact Y'|reflexivity|reflexivity].
  - destruct (T _ _ _ _ M M' D D' E) as (-> & ->). auto.
Qed.
Definition time_fields (h : option text) (m : text) (s : option text) : list (text * text) :=
  match h with Some h => [(u "hour", h ++ [HOUR])] | None => [] end ++ [(u "minute", m ++ [MINUTE])] ++ match s with Some s => [(u "second", s ++ [SECOND])] | None => [] end.
Definition time_tail (s : option text) : text := match s with Some s => u " " ++ piece (u "second") (s ++ [SECOND]) | None => [] end.
Definition time_inner (h : option text) (m : text) (s : option text) : text :=
  match h with Some h => piece (u "hour") (h ++ [HOUR]) ++ u " " | None => [] end ++ piece (u "minute") (m ++ [MINUTE]) ++ time_tail s.
Lemma numc_hstamp x c : forallb numc x = true -> hchar c = true -> forallb hchar (x ++ [c]) = true.
Proof. intros K C. rewrite forallb_app, (all_sub numc hchar _ numc_hchar K). cbn [forallb]. now rewrite C. Qed.
Lemma numc_hbare x c : forallb numc x = true -> hchar c = true -> forallb bare (x ++ [c]) = true.
Proof. intros K C. exact (all_sub hchar bare _ hchar_bare (numc_hstamp x c K C)). Qed.
Lemma time_token y m d : onums y -> forallb numc m = true -> onums d -> fields_token (u "time") (time_fields y m d) = u "time" ++ u " { " ++ time_inner y m d ++ u " }".
Proof.
  intros Y M D. pose proof (numc_hbare m MINUTE M eq_refl) as Bm. unfold fields_token, time_fields, time_inner, time_tail.
  destruct y as [y|], d as [d|]; cbn [onums] in *; try pose proof (numc_hbare y HOUR Y eq_refl) as By; try pose proof (numc_hbare d SECOND D eq_refl) as Bd; cbn [app map join Datatypes.fst snd]; rewrite ?(bare_escape _ By), ?(bare_escape _ Bm), ?(bare_escape _ Bd); unfold piece; rewrite <- ?app_assoc, ?app_nil_r; reflexivity.
Qed.
Lemma clock_form o tbl c x t k w : endsb tbl c = true -> forallb hchar x = true -> denote (tag_field k (preprocessor o @ Table tbl)) x t w -> exists p, x = p ++ [c] /\ forallb numc p = true /\ t = piece k (p ++ [c]).
Proof.
  intros A K H. apply tag_field_spec in H as (_ & -> & z & H). destruct (clock_read o tbl c x z w A K H) as (p & -> & P). exists p. split; [reflexivity|]. split; [exact P|]. now rewrite (bare_escape _ (all_sub hchar bare _ hchar_bare K)).
Qed.
(** A time with minutes has no token but the one of its fields. *)
Lemma time_parse o y m d t w : onums y -> forallb numc m = true -> onums d -> denote (Time.time o) (hms y m d) t w -> t = time_inner y m d.
Proof.
  intros Ny Nm Nd H.
  assert (K : forallb hchar (hms y m d) = true).
  { unfold hms. rewrite !forallb_app, (all_sub numc hchar _ numc_hchar Nm). destruct y as [y|], d as [d|]; cbn [stamp onums] in *; rewrite ?(numc_hstamp y HOUR Ny eq_refl), ?(numc_hstamp d SECOND Nd eq_refl); reflexivity. }
  assert (Ky := fun x t w => clock_form o hours HOUR x t (u "hour") w hours_end). assert (Km := fun x t w => clock_form o minutes MINUTE x t (u "minute") w minutes_end). assert (Kd := fun x t w => clock_form o seconds SECOND x t (u "second") w seconds_end).
  assert (Hm : In MINUTE (hms y m d)) by (unfold hms; rewrite !in_app_iff; cbn [In]; auto).
  assert (Only : forall p c, numc c = false -> forallb numc p = true -> c <> MINUTE -> hms y m d = p ++ [c] -> False).
  { intros p c C P Nc E. rewrite E in Hm. apply in_app_iff in Hm as [I|[I|[]]]; [|congruence]. rewrite forallb_forall in P. specialize (P _ I). discriminate P. }
  destruct H as [[H|H]|H].
  - apply cat_inv in H as (x1 & y1 & w1 & xs & ys & ws & E & -> & -> & H & Hs). apply cat_inv in H as (xh & yh & wh & xm & ym & wm & -> & -> & -> & Hh & H2). rewrite <- app_assoc in E.
    assert (Kp : forallb hchar xh = true /\ forallb hchar xm = true /\ forallb hchar xs = true) by (rewrite E, !forallb_app, !andb_true_iff in K; exact K). destruct Kp as (Kh & Kmm & Ks). apply (Km _ _ _ Kmm) in H2 as (q & -> & Q & ->).
    assert (Fh : exists h, onums h /\ xh = stamp h HOUR /\ yh = match h with Some h => piece (u "hour") (h ++ [HOUR]) ++ u " " | None => [] end).
    { destruct Hh as [Hh|(-> & -> & ->)]; [|exists None; split; [exact I|split; reflexivity]]. apply cat_inv in Hh as (x3 & y3 & w3 & x4 & y4 & w4 & -> & -> & -> & H3 & (-> & -> & ->)). rewrite app_nil_r in *. apply (Ky _ _ _ Kh) in H3 as (p & -> & P & ->). exists (Some p). split; [exact P|]. split; reflexivity. }
    assert (Fs : exists s, onums s /\ xs = stamp s SECOND /\ ys = time_tail s).
    { destruct Hs as [Hs|(-> & -> & ->)]; [|exists None; split; [exact I|split; reflexivity]]. apply cat_inv in Hs as (x3 & y3 & w3 & x4 & y4 & w4 & -> & -> & -> & (-> & -> & ->) & H3). cbn [app] in *. apply (Kd _ _ _ Ks) in H3 as (p & -> & P & ->). exists (Some p). split; [exact P|]. split; reflexivity. }
    destruct Fh as (h & Nh & -> & ->), Fs as (s & Ns & -> & ->). change (stamp h HOUR ++ (q ++ [MINUTE]) ++ stamp s SECOND) with (hms h q s) in E. apply hms_inj in E as (<- & <- & <-); try assumption. unfold time_inner. rewrite <- !app_assoc. reflexivity.
  - exfalso. apply cat_inv in H as (x3 & y3 & w3 & x4 & y4 & w4 & E & -> & -> & H3 & (-> & -> & ->)). rewrite app_nil_r in E. rewrite E in K. apply (Ky _ _ _ K) in H3 as (p & -> & P & _). exact (Only p HOUR eq_refl P ltac:(discriminate) E).
  - exfalso. apply cat_inv in H as (x3 & y3 & w3 & x4 & y4 & w4 & E & -> & -> & (-> & -> & ->) & H3). cbn [app] in E. rewrite E in K. apply (Kd _ _ _ K) in H3 as (p & -> & P & _). exact (Only p SECOND eq_refl P ltac:(discriminate) E).
Qed.
(** ** The verbaliser *)
Lemma hno_slash k x c : forallb bare k = true -> forallb numc x = true -> hchar c = true -> ~ In 92%N (piece k (x ++ [c])).
Proof. intros Bk K C. apply piece_no_bsl; [exact Bk|now apply numc_hbare]. Qed.
Section Verb.
Variables (o : options) (oh : option (text * text)) (m dm : text) (os : option (text * text)).
Hypothesis Nh : onums (heard oh).
Hypothesis Nm : forallb numc m = true.
Hypothesis Ns : onums (heard os).
Hypothesis Rh : forall y d, oh = Some (y, d) -> forall z w, denote (Time.g_hour o) (y ++ [HOUR]) z w <-> z = d /\ w = 0%Z.
Hypothesis Rm : forall z w, denote (Time.g_minute o) (m ++ [MINUTE]) z w <-> z = dm /\ w = 0%Z.
Hypothesis Rs : forall y d, os = Some (y, d) -> forall z w, denote (Time.g_second o) (y ++ [SECOND]) z w <-> z = d /\ w = 0%Z.
Let time_out : text := shown oh HOUR ++ (dm ++ [MINUTE]) ++ shown os SECOND.
Lemma ttail_slash : ~ In 92%N (time_tail (heard os)).
Proof. destruct os as [[d dd]|]; cbn [heard Datatypes.fst onums time_tail] in *; [apply space_slash, hno_slash; auto; reflexivity|intros []]. Qed.
Lemma second_cut t z w : denote (Time.v_second o) t z w -> t = time_tail (heard os) -> z = shown os SECOND /\ w = 0%Z.
Proof.
  intros H E. apply cat_inv in H as (x1 & y1 & w1 & x2 & y2 & w2 & -> & -> & -> & H & (-> & -> & ->)). apply cat_inv in H as (x3 & y3 & w3 & x4 & y4 & w4 & -> & -> & -> & H3 & H4). rewrite app_nil_r in E.
  destruct os as [[d dd]|]; cbn [heard Datatypes.fst onums shown snd time_tail] in *.
  - pose proof (numc_hbare d SECOND Ns eq_refl) as Bd. destruct H3 as [(-> & -> & ->)|(-> & -> & ->)].
    + apply app_inv_head in E. destruct (vfield_cut false (u "second") _ x4 y4 w4 [] (d ++ [SECOND]) [] Bd (fun I => I) H4 ltac:(rewrite !app_nil_r; exact E)) as (G & _). apply (Rs d dd eq_refl) in G as (-> & ->). auto.
    + cbn [app] in E. exfalso. apply vfield_denote in H4 as (v & -> & _). discriminate E.
  - exfalso. apply app_eq_nil in E as (_ & ->). apply vfield_denote in H4 as (v & X & _). discriminate X.
Qed.
Lemma minute_cut t z w rest : denote (Time.v_minute o) t z w -> t ++ rest = piece (u "minute") (m ++ [MINUTE]) ++ time_tail (heard os) -> z = dm ++ [MINUTE] /\ w = 0%Z /\ rest = time_tail (heard os).
Proof. intros H E. exact (vpart (u "minute") _ _ t z w rest _ _ dm (numc_hbare m MINUTE Nm eq_refl) ttail_slash (fun z w => proj1 (Rm z w)) H E). Qed.
Lemma hour_cut t z w rest : denote (Time.v_hour o) t z w -> t ++ rest = time_inner (heard oh) m (heard os) -> oh <> None /\ z = shown oh HOUR /\ w = 0%Z /\
  (rest = u " " ++ piece (u "minute") (m ++ [MINUTE]) ++ time_tail (heard os) \/ rest = piece (u "minute") (m ++ [MINUTE]) ++ time_tail (heard os)).
Proof.
  intros H E. apply cat_inv in H as (x1 & y1 & w1 & x2 & y2 & w2 & -> & -> & -> & H & (-> & -> & ->)). apply cat_inv in H as (x3 & y3 & w3 & x4 & y4 & w4 & -> & -> & -> & H3 & H4). rewrite app_nil_r, <- app_assoc in E. unfold time_inner in E.
  destruct oh as [[h dh]|]; cbn [heard Datatypes.fst onums shown snd] in *.
  - split; [discriminate|]. pose proof (numc_hbare h HOUR Nh eq_refl) as Bh. rewrite <- app_assoc in E. set (r := u " " ++ piece (u "minute") (m ++ [MINUTE]) ++ time_tail (heard os)) in *.
    assert (Nr : ~ In 92%N r) by (apply space_slash; intro I; apply in_app_iff in I as [I|I]; [exact (hno_slash (u "minute") m MINUTE eq_refl Nm eq_refl I)|exact (ttail_slash I)]).
    destruct (vfield_cut false (u "hour") (Time.g_hour o) x3 y3 w3 (x4 ++ rest) (h ++ [HOUR]) r Bh Nr H3 E) as (G & _ & E2). apply (Rh h dh eq_refl) in G as (-> & ->).
    destruct H4 as [(-> & -> & ->)|(-> & -> & ->)]; rewrite app_nil_r; (split; [reflexivity|]; split; [reflexivity|]).
    + right. apply app_inv_head in E2. exact E2.
    + left. exact E2.
  - exfalso. apply vfield_denote in H3 as (v & -> & _). discriminate E.
Qed.
Lemma time_verbal z w : denote (Time.verbalizer o) (time_inner (heard oh) m (heard os)) z w <-> z = time_out /\ w = 0%Z.
Proof.
  split.
  - intros [[H|H]|H].
    + apply cat_inv in H as (x1 & y1 & w1 & xs & ys & ws & E & -> & -> & H & Hs). apply cat_inv in H as (xh & yh & wh & xm & ym & wm & -> & -> & -> & Hh & H2). rewrite <- app_assoc in E.
      assert (First : yh = shown oh HOUR /\ wh = 0%Z /\ xm ++ xs = piece (u "minute") (m ++ [MINUTE]) ++ time_tail (heard os)).
      { destruct Hh as [Hh|(-> & -> & ->)].
        - destruct (hour_cut xh yh wh (xm ++ xs) Hh (eq_sym E)) as (_ & -> & -> & [X|X]); [|auto]. exfalso. apply cat_inv in H2 as (x3 & y3 & w3 & x4 & y4 & w4 & -> & _ & _ & H3 & (-> & _)). apply vfield_denote in H3 as (v & -> & _). discriminate X.
        - cbn [app] in E. unfold time_inner in E. destruct oh as [[h dh]|]; cbn [heard Datatypes.fst shown] in *; [|auto]. exfalso. rewrite <- app_assoc in E. exact (vkey (u "minute") _ _ xm ym wm xs (u "hour") _ _ ltac:(vm_compute; discriminate) ltac:(discriminate) ltac:(discriminate) H2 (eq_sym E)). }
      destruct First as (-> & -> & E2). destruct (minute_cut xm ym wm xs H2 E2) as (-> & -> & E3). unfold time_out. destruct Hs as [Hs|(-> & -> & ->)].
      * destruct (second_cut xs ys ws Hs E3) as (-> & ->). rewrite <- !app_assoc. auto.
      * destruct os as [[s ds]|]; [discriminate E3|]. cbn [shown]. rewrite !app_nil_r. auto.
    + exfalso. unfold time_inner in H. apply cat_inv in H as (x1 & y1 & w1 & x2 & y2 & w2 & E & -> & -> & H & (-> & -> & ->)). apply cat_inv in H as (x3 & y3 & w3 & x4 & y4 & w4 & -> & -> & -> & H3 & H4). apply vfield_denote in H4 as (v & -> & _). destruct H3 as [(-> & _)|(-> & _)]; destruct oh as [[h dh]|]; discriminate E.
    + exfalso. destruct (hour_cut _ z w [] H (app_nil_r _)) as (_ & _ & _ & [X|X]); discriminate X.
  - intros (-> & ->). unfold time_out, time_inner. pose proof (numc_hbare m MINUTE Nm eq_refl) as Bm. pose proof (all_sub hchar vchar _ hchar_valid (numc_hstamp m MINUTE Nm eq_refl)) as Vm. left. left.
    assert (Sp : denote (ques (delete (u " "))) (u " ") [] 0%Z) by (left; now cbn).
    assert (Pm : denote (Time.v_minute o) (piece (u "minute") (m ++ [MINUTE])) (dm ++ [MINUTE]) 0%Z) by exact (vpart_i _ _ _ _ _ Bm Vm (proj2 (Rm _ _) (conj eq_refl eq_refl))).
    assert (Ph : denote (ques (Time.v_hour o)) (match heard oh with Some h => piece (u "hour") (h ++ [HOUR]) ++ u " " | None => [] end) (shown oh HOUR) 0%Z).
    { destruct oh as [[h dh]|]; cbn [heard Datatypes.fst shown snd onums] in *; [left|right; now cbn]. pose proof (vfield_i false (u "hour") _ _ dh 0%Z (numc_hbare h HOUR Nh eq_refl) (all_sub hchar vchar _ hchar_valid (numc_hstamp h HOUR Nh eq_refl)) (proj2 (Rh h dh eq_refl _ _) (conj eq_refl eq_refl))) as X.
      assert (Ins : denote (insert (u "時")) [] [HOUR] 0%Z) by now cbn. pose proof (cat_i _ _ _ _ _ _ _ _ (cat_i _ _ _ _ _ _ _ _ X Sp) Ins) as Y. cbn [lead app] in Y. rewrite !app_nil_r in Y. exact Y. }
    assert (Ps : denote (ques (Time.v_second o)) (time_tail (heard os)) (shown os SECOND) 0%Z).
    { destruct os as [[h dh]|]; cbn [heard Datatypes.fst shown snd onums time_tail] in *; [left|right; now cbn]. pose proof (vfield_i false (u "second") _ _ dh 0%Z (numc_hbare h SECOND Ns eq_refl) (all_sub hchar vchar _ hchar_valid (numc_hstamp h SECOND Ns eq_refl)) (proj2 (Rs h dh eq_refl _ _) (conj eq_refl eq_refl))) as X.
      assert (Ins : denote (insert (u "秒")) [] [SECOND] 0%Z) by now cbn. pose proof (cat_i _ _ _ _ _ _ _ _ (cat_i _ _ _ _ _ _ _ _ Sp X) Ins) as Y. cbn [lead app] in Y. rewrite !app_nil_r in Y. exact Y. }
    pose proof (cat_i _ _ _ _ _ _ _ _ (cat_i _ _ _ _ _ _ _ _ Ph Pm) Ps) as X. rewrite <- !app_assoc in X. rewrite <- !app_assoc. exact X.
Qed.
End Verb.
Lemma time_said o oh m dm os : onums (heard oh) -> forallb numc m = true -> onums (heard os) ->
  (forall y d, oh = Some (y, d) -> forall z w, denote (Time.g_hour o) (y ++ [HOUR]) z w <-> z = d /\ w = 0%Z) ->
  (forall z w, denote (Time.g_minute o) (m ++ [MINUTE]) z w <-> z = dm /\ w = 0%Z) ->
  (forall y d, os = Some (y, d) -> forall z w, denote (Time.g_second o) (y ++ [SECOND]) z w <-> z = d /\ w = 0%Z) ->
  ja_itn_said o (hms (heard oh) m (heard os)) (shown oh HOUR ++ (dm ++ [MINUTE]) ++ shown os SECOND).
Proof.
  intros Nh Nm Ns Rh Rm Rs.
  assert (K : forallb hchar (hms (heard oh) m (heard os)) = true).
  { unfold hms. rewrite !forallb_app, (all_sub numc hchar _ numc_hchar Nm). destruct oh as [[y dy]|], os as [[d dd]|]; cbn [heard Datatypes.fst stamp onums] in *; rewrite ?(numc_hstamp y HOUR Nh eq_refl), ?(numc_hstamp d SECOND Ns eq_refl); reflexivity. }
  assert (Good : forall fs, fs = time_fields (heard oh) m (heard os) -> good_keys fs = true /\ good_values fs = true /\ NoDup (map Datatypes.fst fs) /\ fs <> [] /\ TokenProofs2.emitted ja_itn_token_orders (u "time") fs = fs).
  { intros fs ->. pose proof (all_sub hchar vchar _ hchar_valid (numc_hstamp m MINUTE Nm eq_refl)) as Vm. destruct oh as [[y dy]|], os as [[d dd]|]; cbn [heard Datatypes.fst onums time_fields app] in *;
      try pose proof (all_sub hchar vchar _ hchar_valid (numc_hstamp y HOUR Nh eq_refl)) as Vy; try pose proof (all_sub hchar vchar _ hchar_valid (numc_hstamp d SECOND Ns eq_refl)) as Vd; unfold good_values; cbn [forallb snd]; rewrite ?Vy, ?Vm, ?Vd; (split; [reflexivity|]; split; [reflexivity|]; split; [repeat constructor; cbn; intuition discriminate|]; split; [discriminate|reflexivity]). }
  destruct (Good _ eq_refl) as (Gk & Gv & Gd & Gn & Go).
  apply (ja_itn_said_fields o (u "time") (Time.rule o) 10400 _ _ (time_fields (heard oh) m (heard os)) (time_fields (heard oh) m (heard os)) (only_itn_time o)) with (k0 := 0%Z) (kv := 0%Z); try reflexivity; try assumption.
  - exact (all_sub hchar vchar _ hchar_valid K).
  - unfold hms. intro E. apply app_eq_nil in E as (_ & E). apply app_eq_nil in E as (E & _). destruct m; discriminate E.
  - cbn [Time.rule r_tagger]. apply PlainRules.tokens_added. exists (time_inner (heard oh) m (heard os)). rewrite (time_token _ _ _ Nh Nm Ns). split; [rewrite <- !app_assoc; reflexivity|].
    assert (T : forall g k x c d, forallb numc x = true -> hchar c = true -> denote g (x ++ [c]) d 0%Z -> denote (tag_field k g) (x ++ [c]) (piece k (x ++ [c])) 0%Z).
    { intros g k x c d N C H. pose proof (numc_hstamp x c N C) as Kx. apply tag_field_spec. split; [exact (all_sub hchar vchar _ hchar_valid Kx)|]. rewrite (bare_escape _ (all_sub hchar bare _ hchar_bare Kx)). split; [reflexivity|eauto]. }
    pose proof (T _ (u "minute") m MINUTE dm Nm eq_refl (proj2 (Rm _ _) (conj eq_refl eq_refl))) as Pm. assert (Sp : denote (insert (u " ")) [] (u " ") 0%Z) by now cbn. unfold hms, time_inner. left. left.
    assert (Ph : denote (ques (tag_field (u "hour") (Time.g_hour o) + insert (u " "))) (stamp (heard oh) HOUR) (match heard oh with Some h => piece (u "hour") (h ++ [HOUR]) ++ u " " | None => [] end) 0%Z).
    { destruct oh as [[h dh]|]; cbn [heard Datatypes.fst stamp onums] in *; [left|right; now cbn]. pose proof (cat_i _ _ _ _ _ _ _ _ (T _ (u "hour") h HOUR dh Nh eq_refl (proj2 (Rh h dh eq_refl _ _) (conj eq_refl eq_refl))) Sp) as X. rewrite app_nil_r in X. exact X. }
    assert (Ps : denote (ques (insert (u " ") + tag_field (u "second") (Time.g_second o))) (stamp (heard os) SECOND) (time_tail (heard os)) 0%Z).
    { destruct os as [[h dh]|]; cbn [heard Datatypes.fst stamp onums time_tail] in *; [left|right; now cbn]. exact (cat_i _ _ _ _ _ _ _ _ Sp (T _ (u "second") h SECOND dh Ns eq_refl (proj2 (Rs h dh eq_refl _ _) (conj eq_refl eq_refl)))). }
    pose proof (cat_i _ _ _ _ _ _ _ _ (cat_i _ _ _ _ _ _ _ _ Ph Pm) Ps) as X. rewrite <- !app_assoc in X. rewrite <- !app_assoc. exact X.
  - intros r wt y w Ir W H. pose proof (Whole.nonneg_sound _ (itn_nonneg o r Ir) _ _ _ H) as P. destruct (time_rules o r wt Ir W) as [->|[Lw|A]]; [|split; lia|exfalso; exact (apart2_sound hchar hchar_valid _ A _ _ _ K H)].
    cbn [s_weight] in W. injection W as <-. split; [lia|]. intros _. cbn [s_rule Time.rule r_tagger] in H. apply PlainRules.tokens_added in H as (t & Et & H). apply (time_parse o _ _ _ t w Nh Nm Ns) in H. subst t.
    apply (app_inv_tail (u " ")). rewrite Et, (time_token _ _ _ Nh Nm Ns). rewrite <- !app_assoc. reflexivity.
  - assert (R : forall z w, denote (r_verbalizer (Time.rule o)) (fields_token (u "time") (time_fields (heard oh) m (heard os))) z w <-> z = shown oh HOUR ++ (dm ++ [MINUTE]) ++ shown os SECOND /\ w = 0%Z).
    { intros z w. rewrite (time_token _ _ _ Nh Nm Ns). cbn [Time.rule r_verbalizer]. unfold Time.name. rewrite tokens_inner. now apply time_verbal. }
    split; [now apply R|]. intros z w H. apply R in H as (-> & ->). split; [lia|reflexivity].
Qed.
(** ** The times *)
Definition hour_value (x : text) (n : N) : Prop := japanese_value x = Some n /\ (1 <= n <= 24)%N /\ n <> 2%N /\ ~ one_ten x.
Definition sixty_value (x : text) (n : N) : Prop := japanese_value x = Some n /\ (1 <= n <= 60)%N /\ n <> 52%N /\ ~ one_ten x.
Lemma hour_facts o x n : hour_value x n -> forallb numc x = true /\ exists d, decimal d n /\ forall z w, denote (Time.g_hour o) (x ++ [HOUR]) z w <-> z = d /\ w = 0%Z.
Proof. intros (V & L & S & O). split; [exact (proj1 (value_nums x n V ltac:(lia)))|]. exact (clock_just o hours HOUR 24 2 x n hours_end hours_ok eq_refl eq_refl V ltac:(lia) S O). Qed.
Lemma minute_facts o x n : sixty_value x n -> forallb numc x = true /\ exists d, decimal d n /\ forall z w, denote (Time.g_minute o) (x ++ [MINUTE]) z w <-> z = d /\ w = 0%Z.
Proof. intros (V & L & S & O). split; [exact (proj1 (value_nums x n V ltac:(lia)))|]. exact (clock_just o minutes MINUTE 60 52 x n minutes_end minutes_ok eq_refl eq_refl V ltac:(lia) S O). Qed.
Lemma second_facts o x n : sixty_value x n -> forallb numc x = true /\ exists d, decimal d n /\ forall z w, denote (Time.g_second o) (x ++ [SECOND]) z w <-> z = d /\ w = 0%Z.
Proof. intros (V & L & S & O). split; [exact (proj1 (value_nums x n V ltac:(lia)))|]. exact (clock_just o seconds SECOND 60 52 x n seconds_end seconds_ok eq_refl eq_refl V ltac:(lia) S O). Qed.
Theorem C82_hour_minute_second o h i m j s k : hour_value h i -> sixty_value m j -> sixty_value s k ->
  exists hd md sd, decimal hd i /\ decimal md j /\ decimal sd k /\ ja_itn_said o (h ++ u "時" ++ m ++ u "分" ++ s ++ u "秒") (hd ++ u "時" ++ md ++ u "分" ++ sd ++ u "秒").
Proof.
  intros Vh Vm Vs. destruct (hour_facts o h i Vh) as (Kh & hd & Dh & Rh). destruct (minute_facts o m j Vm) as (Km & md & Dm & Rm). destruct (second_facts o s k Vs) as (Ks & sd & Ds & Rs). exists hd, md, sd. do 3 (split; [assumption|]).
  pose proof (time_said o (Some (h, hd)) m md (Some (s, sd)) Kh Km Ks) as X. unfold hms in X. cbn [heard Datatypes.fst snd shown stamp] in X. rewrite <- !app_assoc in X. apply X; [intros y d [= <- <-]; exact Rh|exact Rm|intros y d [= <- <-]; exact Rs].
Qed.
Print Assumptions C82_hour_minute_second.
Theorem C82_hour_minute o h i m j : hour_value h i -> sixty_value m j ->
  exists hd md, decimal hd i /\ decimal md j /\ ja_itn_said o (h ++ u "時" ++ m ++ u "分") (hd ++ u "時" ++ md ++ u "分").
Proof.
  intros Vh Vm. destruct (hour_facts o h i Vh) as (Kh & hd & Dh & Rh). destruct (minute_facts o m j Vm) as (Km & md & Dm & Rm). exists hd, md. do 2 (split; [assumption|]).
  pose proof (time_said o (Some (h, hd)) m md None Kh Km I) as X. unfold hms in X. cbn [heard Datatypes.fst snd shown stamp] in X. rewrite !app_nil_r, <- !app_assoc in X. apply X; [intros y d [= <- <-]; exact Rh|exact Rm|discriminate].
Qed.
Print Assumptions C82_hour_minute.
Theorem C82_minute_second o m j s k : sixty_value m j -> sixty_value s k ->
  exists md sd, decimal md j /\ decimal sd k /\ ja_itn_said o (m ++ u "分" ++ s ++ u "秒") (md ++ u "分" ++ sd ++ u "秒").
Proof.
  intros Vm Vs. destruct (minute_facts o m j Vm) as (Km & md & Dm & Rm). destruct (second_facts o s k Vs) as (Ks & sd & Ds & Rs). exists md, sd. do 2 (split; [assumption|]).
  pose proof (time_said o None m md (Some (s, sd)) I Km Ks) as X. unfold hms in X. cbn [heard Datatypes.fst snd shown stamp app] in X. rewrite <- !app_assoc in X. apply X; [discriminate|exact Rm|intros y d [= <- <-]; exact Rs].
Qed.
Print Assumptions C82_minute_second.
Theorem C82_minute o m j : sixty_value m j -> exists md, decimal md j /\ ja_itn_said o (m ++ u "分") (md ++ u "分").
Proof.
  intro Vm. destruct (minute_facts o m j Vm) as (Km & md & Dm & Rm). exists md. split; [assumption|].
  pose proof (time_said o None m md None I Km I) as X. unfold hms in X. cbn [heard Datatypes.fst snd shown stamp app] in X. rewrite !app_nil_r in X. apply X; [discriminate|exact Rm|discriminate].
Qed.
Print Assumptions C82_minute.
(** Two o'clock is listed with the Chinese word 两: the rule of times reads no time at 二時. *)
Theorem C82_two_refuted : In (u "两時", u "2") hours /\ (exists n, japanese_value (u "二") = Some n /\ (1 <= n <= 24)%N) /\
  forall o m j t w, sixty_value m j -> ~ denote (r_tagger (Time.rule o)) (u "二時" ++ m ++ u "分") t w.
Proof.
  split; [vm_compute; tauto|]. split; [exists 2%N; split; [reflexivity|lia]|]. intros o m j t w Vm H. destruct (minute_facts o m j Vm) as (Km & _). cbn [Time.rule r_tagger] in H. apply PlainRules.tokens_added in H as (t' & _ & H).
  assert (No : forall z, ~ In (u "二時", z) hours).
  { intros z I. assert (A : forallb (fun e => negb (text_eqb (Datatypes.fst e) (u "二時"))) hours = true) by (vm_compute; reflexivity). rewrite forallb_forall in A. specialize (A _ I). discriminate A. }
  pose proof H as H0. change (u "二時" ++ m ++ u "分") with (stamp (Some (u "二")) HOUR ++ (m ++ [MINUTE])) in H0. rewrite <- (app_nil_r (stamp (Some (u "二")) HOUR ++ (m ++ [MINUTE]))), <- app_assoc in H0. change [] with (stamp None SECOND) in H0. apply (time_parse o (Some (u "二")) m None t' w eq_refl Km I) in H0. subst t'.
  assert (K : forallb hchar (u "二時" ++ m ++ u "分") = true) by (rewrite !forallb_app, (all_sub numc hchar _ numc_hchar Km); reflexivity).
  destruct H as [[H|H]|H].
  - apply cat_inv in H as (x1 & y1 & w1 & xs & ys & ws & E & Et & -> & H & Hs). apply cat_inv in H as (xh & yh & wh & xm & ym & wm & -> & -> & -> & Hh & H2). rewrite <- app_assoc in E. assert (Kh : forallb hchar xh = true) by (rewrite E, !forallb_app, !andb_true_iff in K; apply K).
    destruct Hh as [Hh|(-> & -> & ->)].
    + apply cat_inv in Hh as (x3 & y3 & w3 & x4 & y4 & w4 & -> & -> & -> & H3 & (-> & -> & ->)). rewrite app_nil_r in *. pose proof (clock_form o hours HOUR x3 y3 (u "hour") w3 hours_end Kh H3) as (p & -> & P & _). rewrite <- app_assoc in E. apply (cut_num (u "二") p HOUR _ HOUR _) in E as (<- & _ & _); [|reflexivity|exact P|reflexivity|reflexivity].
      apply tag_field_spec in H3 as (_ & _ & z & H3). apply (proj1 (still_pre hchar hchar_valid (preprocessor o) (string_file ja_itn_time_hour) (still_h o) _ z w3 Kh)) in H3 as (I & _). exact (No z I).
    + apply tag_field_spec in H2 as (_ & -> & _). discriminate Et.
  - apply cat_inv in H as (x3 & y3 & w3 & x4 & y4 & w4 & E & Et & -> & H3 & (-> & -> & ->)). rewrite app_nil_r in E. rewrite E in K. destruct (clock_form o hours HOUR x3 y3 (u "hour") w3 hours_end K H3) as (p & -> & P & _). change (u "二時" ++ m ++ u "分") with ((u "二時" ++ m) ++ [MINUTE]) in E || rewrite app_assoc in E. apply app_inj_tail in E as (_ & E). discriminate E.
  - apply cat_inv in H as (x3 & y3 & w3 & x4 & y4 & w4 & E & Et & -> & (-> & -> & ->) & H3). discriminate Et.
Qed.
Print Assumptions C82_two_refuted.
Example C82_witness : exists o, hour_value (u "三") 3 /\ sixty_value (u "四十五") 45 /\ ja_itn_said o (u "三時四十五分") (u "3時45分").
Proof.
  set (o := Options false true false false). exists o.
  assert (D1 : decimal (u "3") 3) by (split; [discriminate|split; [apply PropsZhSpoken.digits_of; reflexivity|split; [discriminate|reflexivity]]]).
  assert (D3 : decimal (u "45") 45) by (split; [discriminate|split; [apply PropsZhSpoken.digits_of; reflexivity|split; [discriminate|reflexivity]]]).
  assert (H3 : hour_value (u "三") 3) by (split; [reflexivity|split; [lia|split; [discriminate|apply free_one_ten; reflexivity]]]).
  assert (H4 : sixty_value (u "四十五") 45) by (split; [reflexivity|split; [lia|split; [discriminate|apply free_one_ten; reflexivity]]]). do 2 (split; [assumption|]).
  destruct (C82_hour_minute o _ _ _ _ H3 H4) as (a & b & Da & Db & H). rewrite (EnNumberProofs4.decimal_unique _ _ _ Da D1), (EnNumberProofs4.decimal_unique _ _ _ Db D3) in H. exact H.
Qed.
