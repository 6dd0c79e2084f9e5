(** Whole dates: one token, and what is said for it (C67). *)
From Coq Require Import List NArith ZArith Bool String Lia Arith.
From Verif Require Import Text TextFacts TokenModel Fst FstFacts FstRun GrammarModel GrammarSpec GrammarAccept NumeralSpec EnglishNumeralSpec DataZhTn ZhTnModel ZhTnEndSpec ZhDateSpec WholeSpec.
From Verif Require Import BoundaryChar Letters OneToken TokenVerbal Fields ZhTnRead ZhTnPost PropsZhTnEnd ZhWhole ZhDate.
From Verif Require EndToEnd EnNumberProofs5 PlainRules FstEval.
Import ListNotations.
Local Open Scope list_scope.

(** ** The tagger *)
Lemma rmsign_denote x y w : denote Date.rmsign x y w <-> exists c, x = [c] /\ date_sep c /\ y = u " " /\ w = 0%Z.
Proof.
  unfold Date.rmsign, date_sep. split.
  - intro H. apply cat_inv in H as (x1 & y1 & w1 & x2 & y2 & w2 & -> & -> & -> & H & (-> & -> & ->)).
    destruct H as [[(-> & -> & ->)|(-> & -> & ->)]|(-> & -> & ->)]; [exists 47%N|exists 45%N|exists 46%N]; cbn; auto 10.
  - intros (c & -> & H & -> & ->). change [c] with ([c] ++ []). change (u " ") with ([] ++ u " "). change 0%Z with (0 + 0)%Z. apply cat_i; [|now cbn].
    destruct H as [-> |[-> | ->]]; [left; left|left; right|right]; now cbn.
Qed.
Lemma nested_app (a b c : text) (s s' : N) : (((a ++ [s]) ++ b) ++ [s']) ++ c = a ++ s :: b ++ s' :: c.
Proof. rewrite <- !app_assoc. reflexivity. Qed.
Definition reads_as (g : fst) (x : text) : Prop := exists z w, denote g x z w.
Definition shown (fs : list (text * text)) : text := join (u " ") (map (fun kv => piece (Datatypes.fst kv) (escape_value (snd kv))) fs).
Lemma parts3 k1 g1 k2 g2 k3 g3 x y w : denote (tag_field k1 g1 + Date.rmsign + tag_field k2 g2 + Date.rmsign + tag_field k3 g3)%fst x y w ->
  exists a s b s' c, x = a ++ s :: b ++ s' :: c /\ date_sep s /\ date_sep s' /\ y = shown [(k1, a); (k2, b); (k3, c)] /\ reads_as g1 a /\ reads_as g2 b /\ reads_as g3 c.
Proof.
  intro H. apply cat_inv in H as (x1 & y1 & w1 & c & y2 & w2 & -> & -> & -> & H & H3). apply cat_inv in H as (x3 & y3 & w3 & x4 & y4 & w4 & -> & -> & -> & H & S').
  apply cat_inv in H as (x5 & y5 & w5 & b & y6 & w6 & -> & -> & -> & H & H2). apply cat_inv in H as (a & y7 & w7 & x8 & y8 & w8 & -> & -> & -> & H1 & S).
  apply rmsign_denote in S as (s & -> & S & -> & ->). apply rmsign_denote in S' as (s' & -> & S' & -> & ->).
  apply tag_field_spec in H1 as (_ & -> & H1). apply tag_field_spec in H2 as (_ & -> & H2). apply tag_field_spec in H3 as (_ & -> & H3).
  exists a, s, b, s', c. split; [apply nested_app|]. split; [exact S|]. split; [exact S'|]. split; [|split; [|split]; [destruct H1 as (z & H1); now exists z, w7|destruct H2 as (z & H2); now exists z, w6|destruct H3 as (z & H3); now exists z, w2]].
  unfold shown. cbn [map join Datatypes.fst snd]. unfold piece. rewrite <- !app_assoc. reflexivity.
Qed.
Lemma parts2 k1 g1 k2 g2 x y w : denote (tag_field k1 g1 + Date.rmsign + tag_field k2 g2)%fst x y w ->
  exists a s b, x = a ++ s :: b /\ date_sep s /\ y = shown [(k1, a); (k2, b)] /\ reads_as g1 a /\ reads_as g2 b.
Proof.
  intro H. apply cat_inv in H as (x5 & y5 & w5 & b & y6 & w6 & -> & -> & -> & H & H2). apply cat_inv in H as (a & y7 & w7 & x8 & y8 & w8 & -> & -> & -> & H1 & S).
  apply rmsign_denote in S as (s & -> & S & -> & ->). apply tag_field_spec in H1 as (_ & -> & H1). apply tag_field_spec in H2 as (_ & -> & H2).
  exists a, s, b. split; [now rewrite <- app_assoc|]. split; [exact S|]. split; [|split; [destruct H1 as (z & H1); now exists z, w7|destruct H2 as (z & H2); now exists z, w6]].
  unfold shown. cbn [map join Datatypes.fst snd]. unfold piece. rewrite <- !app_assoc. reflexivity.
Qed.
Lemma tagged k g a : forallb vchar a = true -> (exists z, denote g a z 0%Z) -> denote (tag_field k g) a (piece k (escape_value a)) 0%Z.
Proof. intros V H. apply tag_field_spec. auto. Qed.
Lemma parts3_i k1 g1 k2 g2 k3 g3 a s b s' c : forallb vchar a = true -> forallb vchar b = true -> forallb vchar c = true -> date_sep s -> date_sep s' ->
  (exists z, denote g1 a z 0%Z) -> (exists z, denote g2 b z 0%Z) -> (exists z, denote g3 c z 0%Z) ->
  denote (tag_field k1 g1 + Date.rmsign + tag_field k2 g2 + Date.rmsign + tag_field k3 g3)%fst (a ++ s :: b ++ s' :: c) (shown [(k1, a); (k2, b); (k3, c)]) 0%Z.
Proof.
  intros Va Vb Vc S S' H1 H2 H3. rewrite <- nested_app. replace (shown [(k1, a); (k2, b); (k3, c)]) with ((((piece k1 (escape_value a) ++ u " ") ++ piece k2 (escape_value b)) ++ u " ") ++ piece k3 (escape_value c)) by (rewrite <- !app_assoc; reflexivity).
  change 0%Z with ((((0 + 0) + 0) + 0) + 0)%Z. repeat apply cat_i; try (apply tagged; assumption); apply rmsign_denote; eauto.
Qed.
Lemma parts2_i k1 g1 k2 g2 a s b : forallb vchar a = true -> forallb vchar b = true -> date_sep s ->
  (exists z, denote g1 a z 0%Z) -> (exists z, denote g2 b z 0%Z) ->
  denote (tag_field k1 g1 + Date.rmsign + tag_field k2 g2)%fst (a ++ s :: b) (shown [(k1, a); (k2, b)]) 0%Z.
Proof.
  intros Va Vb S H1 H2. replace (a ++ s :: b) with ((a ++ [s]) ++ b) by now rewrite <- app_assoc. replace (shown [(k1, a); (k2, b)]) with ((piece k1 (escape_value a) ++ u " ") ++ piece k2 (escape_value b)) by (rewrite <- !app_assoc; reflexivity).
  change 0%Z with ((0 + 0) + 0)%Z. repeat apply cat_i; try (apply tagged; assumption). apply rmsign_denote; eauto.
Qed.
(** The five forms. *)
Inductive dated : text -> list (text * text) -> Prop :=
| dated_ymd a s b s' c : reads_as Date.g_year a -> reads_as Date.g_month b -> reads_as Date.g_day c -> date_sep s -> date_sep s' ->
    dated (a ++ s :: b ++ s' :: c) [(u "year", a); (u "month", b); (u "day", c)]
| dated_dmy a s b s' c : reads_as Date.g_day a -> reads_as Date.g_month b -> reads_as Date.g_year c -> date_sep s -> date_sep s' ->
    dated (a ++ s :: b ++ s' :: c) [(u "day", a); (u "month", b); (u "year", c)]
| dated_ym a s b : reads_as Date.g_year a -> reads_as Date.mm b -> date_sep s -> dated (a ++ s :: b) [(u "year", a); (u "month", b)]
| dated_my a s b : reads_as Date.mm a -> reads_as Date.g_year b -> date_sep s -> dated (a ++ s :: b) [(u "month", a); (u "year", b)]
| dated_md a s b : reads_as Date.mm a -> reads_as Date.g_day b -> date_sep s -> dated (a ++ s :: b) [(u "month", a); (u "day", b)].
Lemma date_inv x y w : denote Date.date x y w -> exists fs, dated x fs /\ y = shown fs.
Proof.
  intros [[[[H|H]|H]|H]|H].
  - apply parts3 in H as (a & s & b & s' & c & -> & S & S' & -> & H1 & H2 & H3). eexists. split; [now apply dated_ymd|reflexivity].
  - apply parts3 in H as (a & s & b & s' & c & -> & S & S' & -> & H1 & H2 & H3). eexists. split; [now apply dated_dmy|reflexivity].
  - apply parts2 in H as (a & s & b & -> & S & -> & H1 & H2). eexists. split; [now apply dated_ym|reflexivity].
  - apply parts2 in H as (a & s & b & -> & S & -> & H1 & H2). eexists. split; [now apply dated_my|reflexivity].
  - apply parts2 in H as (a & s & b & -> & S & -> & H1 & H2). eexists. split; [now apply dated_md|reflexivity].
Qed.
Definition nosep (c : N) : bool := negb ((c =? 47) || (c =? 45) || (c =? 46))%N.
Lemma sep_nosep s : date_sep s -> nosep s = false.
Proof. intros [-> |[-> | ->]]; reflexivity. Qed.
Lemma year_facts a : reads_as Date.g_year a -> forallb nosep a = true /\ List.length a = 4.
Proof.
  intros (z & w & H). split; [refine (reads_sound nosep Date.g_year _ _ _ _ H); vm_compute; reflexivity|].
  pose proof (lengths_sound Date.g_year [4] ltac:(vm_compute; reflexivity) _ _ _ H) as L. cbn in L. lia.
Qed.
Lemma table_facts (l : list (text * text)) a z : forallb (fun p => forallb nosep (Datatypes.fst p) && (List.length (Datatypes.fst p) <=? 2)%nat) l = true -> In (a, z) l -> forallb nosep a = true /\ List.length a <= 2.
Proof. intros A I. rewrite forallb_forall in A. specialize (A _ I). cbn [Datatypes.fst] in A. apply andb_true_iff in A as (A & L). apply Nat.leb_le in L. auto. Qed.
Lemma month_facts a : reads_as Date.g_month a -> forallb nosep a = true /\ List.length a <= 2.
Proof. intros (z & w & H). apply (two_tables _ _ months _ _ _ months_eq) in H as (I & _). refine (table_facts months a z _ I). vm_compute. reflexivity. Qed.
Lemma day_facts a : reads_as Date.g_day a -> forallb nosep a = true /\ List.length a <= 2.
Proof. intros (z & w & H). apply (two_tables _ _ days _ _ _ days_eq) in H as (I & _). refine (table_facts days a z _ I). vm_compute. reflexivity. Qed.
Lemma mm_facts a : reads_as Date.mm a -> forallb nosep a = true /\ List.length a <= 2.
Proof. intros (z & w & H). apply month_facts. exists z, w. right. exact H. Qed.
Lemma sep_split a s r a' s' r' : forallb nosep a = true -> forallb nosep a' = true -> date_sep s -> date_sep s' -> a ++ s :: r = a' ++ s' :: r' -> a = a' /\ s = s' /\ r = r'.
Proof.
  intros A A' S S' E. apply (EnNumberProofs5.split_unique nosep) in E as (-> & E); [|exact A|exact A'|exact (sep_nosep s S)|exact (sep_nosep s' S')]. now injection E as -> ->.
Qed.
Lemma sep_once b s c b' : date_sep s -> b ++ s :: c = b' -> forallb nosep b' = true -> False.
Proof. intros S <- F. rewrite forallb_app in F. cbn [forallb] in F. rewrite (sep_nosep s S) in F. rewrite andb_false_r in F. discriminate. Qed.
Ltac facts := repeat match goal with
  | H : reads_as Date.g_year _ |- _ => apply year_facts in H as (? & ?)
  | H : reads_as Date.g_month _ |- _ => apply month_facts in H as (? & ?)
  | H : reads_as Date.g_day _ |- _ => apply day_facts in H as (? & ?)
  | H : reads_as Date.mm _ |- _ => apply mm_facts in H as (? & ?)
  end.
Lemma dated_unique x fs fs' : dated x fs -> dated x fs' -> fs = fs'.
Proof.
  intros H H'. destruct H; remember (a ++ s :: _) as x eqn:E in H'; destruct H'; facts;
    (apply sep_split in E as (-> & -> & E); [|assumption..]);
    try (apply sep_split in E as (-> & -> & ->); [|assumption..]);
    try reflexivity; try lia; try (exfalso; eapply sep_once; [|exact E|]; assumption); try (exfalso; symmetry in E; eapply sep_once; [|exact E|]; assumption); subst; try reflexivity; lia.
Qed.
(** A range takes three separators. *)
Definition seps (x : text) : nat := List.length (filter (fun c => negb (nosep c)) x).
Lemma seps_app a b : seps (a ++ b) = seps a + seps b.
Proof. unfold seps. now rewrite filter_app, app_length. Qed.
Lemma seps_cons s r : date_sep s -> seps (s :: r) = S (seps r).
Proof. intro S. unfold seps. cbn [filter]. now rewrite (sep_nosep s S). Qed.
Lemma seps_none a : forallb nosep a = true -> seps a = 0.
Proof. unfold seps. induction a as [|c a IH]; [reflexivity|]. cbn [forallb filter]. intro F. apply andb_true_iff in F as (Fc & F). rewrite Fc. exact (IH F). Qed.
Lemma dated_seps x fs : dated x fs -> 1 <= seps x <= 2.
Proof.
  intros H. destruct H; facts; repeat (rewrite ?seps_app; rewrite seps_cons by assumption); rewrite ?seps_app; rewrite ?seps_none by assumption; lia.
Qed.
Definition untilde (c : N) : bool := negb (c =? 126)%N.
Lemma reads_untilde g a : reads untilde g = true -> reads_as g a -> forallb untilde a = true.
Proof. intros R (z & w & H). exact (reads_sound _ _ R _ _ _ H). Qed.
Lemma sep_untilde s : date_sep s -> untilde s = true.
Proof. intros [-> |[-> | ->]]; reflexivity. Qed.
Lemma dated_untilde x fs : dated x fs -> forallb untilde x = true.
Proof.
  assert (Y : reads untilde Date.g_year = true) by (vm_compute; reflexivity). assert (M : reads untilde Date.g_month = true) by (vm_compute; reflexivity).
  assert (D : reads untilde Date.g_day = true) by (vm_compute; reflexivity). assert (M2 : reads untilde Date.mm = true) by (vm_compute; reflexivity).
  intros H. destruct H; repeat (rewrite forallb_app; cbn [forallb]; rewrite sep_untilde by assumption); rewrite ?andb_true_iff; repeat split; try (eapply reads_untilde; [|eassumption]; assumption).
Qed.
Lemma date_token x fs y v : dated x fs -> denote (Date.tagger (r_tagger Range.rule)) x (y ++ u " ") v -> y = fields_token (u "date") fs.
Proof.
  intros D H. unfold Date.tagger in H. apply cat_inv in H as (x1 & y1 & w1 & x2 & y2 & w2 & -> & Ey & -> & H1 & H2). apply PlainRules.tokens_added in H1 as (z & -> & H1). apply date_inv in H1 as (fs1 & D1 & ->).
  destruct H2 as [H2|(-> & -> & ->)].
  - exfalso. apply cat_inv in H2 as (x3 & y3 & w3 & x4 & y4 & w4 & -> & -> & -> & H3 & H4). apply PlainRules.tokens_added in H4 as (z4 & _ & H4). apply date_inv in H4 as (fs4 & D4 & _).
    apply PlainRules.tokens_added in H3 as (z3 & _ & H3). apply tag_field_spec in H3 as (_ & _ & z' & H3).
    pose proof (dated_seps _ _ D) as L. pose proof (dated_seps _ _ D1) as L1. pose proof (dated_seps _ _ D4) as L4. pose proof (dated_untilde _ _ D) as U. rewrite !seps_app in L.
    destruct H3 as [(-> & _)|(-> & _)].
    + change (seps (u "-")) with 1 in L. lia.
    + rewrite !forallb_app in U. apply andb_true_iff in U as (_ & U). discriminate U.
  - rewrite app_nil_r in *. rewrite (dated_unique _ _ _ D D1). unfold fields_token. change (u " } ") with (u " }" ++ u " ") in Ey. unfold shown in Ey. rewrite !app_assoc in Ey. apply app_inv_tail in Ey. rewrite Ey, <- !app_assoc. reflexivity.
Qed.

(** ** The verbaliser *)
Definition year_part (yo : option text) : text := match yo with Some a => u "year: """ ++ a ++ u """ " | None => [] end.
Definition day_part (d : option text) : text := match d with Some a => u " day: """ ++ a ++ u """" | None => [] end.
Definition opt_reads (g : fst) (o : option text) (d : text) : Prop := match o with Some a => forallb unquoted a = true /\ (forall z w, denote g a z w <-> z = d /\ w = 0%Z) | None => d = [] end.
Lemma date_verbal yo b dayo dy dm dd : opt_reads Date.g_year yo dy -> opt_reads Date.g_month (Some b) dm -> opt_reads Date.g_day dayo dd -> forall z w,
  denote Date.verbalizer (year_part yo ++ (u "month: """ ++ b ++ u """") ++ day_part dayo) z w <-> z = dy ++ dm ++ dd /\ w = 0%Z.
Proof.
  assert (Ry : reads unquoted Date.g_year = true) by (vm_compute; reflexivity). assert (Rm : reads unquoted Date.g_month = true) by (vm_compute; reflexivity). assert (Rd : reads unquoted Date.g_day = true) by (vm_compute; reflexivity).
  intros Y M D z w. unfold Date.verbalizer. split.
  - intro H. apply cat_inv in H as (x1 & y1 & w1 & xd & yd & wd & E & -> & -> & H & Hd). apply cat_inv in H as (xy & yy & wy & xm & ym & wm & -> & -> & -> & Hy & Hm).
    apply shed_denote in Hm as (vm & -> & Hm). pose proof (reads_sound _ _ Rm _ _ _ Hm) as Um. destruct M as (Ub & M).
    assert (T : xy = year_part yo /\ vm = b /\ xd = day_part dayo).
    { destruct Hy as [Hy|(-> & -> & ->)].
      - apply shed_denote in Hy as (vy & -> & Hy). pose proof (reads_sound _ _ Ry _ _ _ Hy) as Uy. destruct yo as [a|]; [|exfalso; clear -E; cbn [year_part] in E; rewrite <- !app_assoc in E; discriminate E].
        destruct Y as (Ua & Y). unfold year_part in E. rewrite <- !app_assoc in E. change (u """ ") with (34%N :: u " ") in E. rewrite <- !app_comm_cons in E.
        apply value_split in E as (<- & E); [|exact Ua|exact Uy]. apply app_inv_head in E. change (u """") with (34%N :: []) in E. rewrite <- !app_comm_cons in E. apply value_split in E as (<- & E); [|exact Ub|exact Um]. cbn [app] in E. auto.
      - destruct yo as [a|]; [exfalso; clear -E; cbn [year_part app] in E; rewrite <- !app_assoc in E; discriminate E|]. cbn [year_part app] in *. rewrite <- !app_assoc in E. change (u """") with (34%N :: []) in E. rewrite <- !app_comm_cons in E.
        apply value_split in E as (<- & E); [|exact Ub|exact Um]. cbn [app] in E. auto. }
    destruct T as (-> & -> & ->). apply M in Hm as (-> & ->).
    assert (Ty : yy = dy /\ wy = 0%Z).
    { destruct Hy as [Hy|(E' & -> & ->)].
      - apply shed_denote in Hy as (vy & E' & Hy). pose proof (reads_sound _ _ Ry _ _ _ Hy) as Uy. destruct yo as [a|]; [|discriminate E']. destruct Y as (Ua & Y). unfold year_part in E'.
        change (u """ ") with (34%N :: u " ") in E'. apply value_split in E' as (<- & _); [|exact Ua|exact Uy]. now apply Y in Hy.
      - destruct yo as [a|]; [discriminate E'|]. now rewrite Y. }
    assert (Td : yd = dd /\ wd = 0%Z).
    { destruct Hd as [Hd|(E' & -> & ->)].
      - apply shed_denote in Hd as (vd & E' & Hd). pose proof (reads_sound _ _ Rd _ _ _ Hd) as Ud. destruct dayo as [a|]; [|discriminate E']. destruct D as (Ua & D). unfold day_part in E'.
        change (u """") with (34%N :: []) in E'. apply value_split in E' as (<- & _); [|exact Ua|exact Ud]. now apply D in Hd.
      - destruct dayo as [a|]; [discriminate E'|]. now rewrite D. }
    destruct Ty as (-> & ->), Td as (-> & ->). rewrite <- app_assoc. auto.
  - intros (-> & ->). rewrite !app_assoc. rewrite <- app_assoc with (l := year_part yo). change 0%Z with (0 + 0 + 0)%Z. rewrite <- (app_assoc (year_part yo)). apply cat_i; [apply cat_i|].
    + destruct yo as [a|]; [left; apply shed_denote; exists a; split; [reflexivity|now apply Y]|right; cbn; auto].
    + apply shed_denote. exists b. split; [now rewrite <- !app_assoc|now apply M].
    + destruct dayo as [a|]; [left; apply shed_denote; exists a; split; [reflexivity|now apply D]|right; cbn; auto].
Qed.
