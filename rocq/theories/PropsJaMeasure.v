(** Property C78: a spoken number with a unit through the whole Japanese inverse normaliser.

    Vocabulary (NumeralSpec.v, ZhTnEndSpec.v, JaNumeralSpec.v): [decimal d n] says that [d] are the
    decimal digits of [n]; [numeral s d f] is the sign [s], the digits [d] and the digits [f] after a
    point, or no point when there are none; [ja_sign_words] and [ja_point_words] are what is said for
    the sign and after the point, [japanese_value] is the number a Japanese numeral stands for;
    [one_ten m] says that 一十 occurs in [m].  [units] and [counters] are the lines of the data files
    unit_en.tsv and unit_ja.tsv.  [counted_ok o s n f] (JaUnit.v) says what the options ask for: a
    decimal, or numbers below ten, or a number from ten on without a sign.
    [ja_itn_said o x d] (JaItnSaid.v): with the options [o], normalize answers [d] for [x], alone or
    among characters that no rule but the one of single characters reads, whatever the engine. *)
From Coq Require Import List NArith ZArith Bool String Lia.
From Verif Require Import Text TextFacts TokenModel Fst FstFacts FstRun GrammarModel GrammarSpec GrammarAccept NumeralSpec EnglishNumeralSpec DataJaItn JaItnModel ZhTnEndSpec ZhDateSpec JaNumeralSpec WholeSpec BoundarySpec BoundaryLaw PlainSpec.
From Verif Require Import NbestModel PropsBoundary BoundaryChar Letters Apart OneToken TokenVerbal Fields ZhNumberProofs JaApart JaHead JaItnSaid JaSpoken JaSpoken2 JaSpoken3 JaSpoken4 JaUnit JaMeasure JaTen PropsJaSpoken.
From Verif Require Import PipelineModel NbestWitness.
From Verif Require EndToEnd PlainRules PropsZhSpoken Whole GrammarEngine.
Import ListNotations.
Local Open Scope list_scope.

Definition mchars : text := Eval vm_compute in nodup N.eq_dec (sp_chars ++ flat_map (fun l => Datatypes.fst (Fst.entry l)) ja_itn_measure_unit_en).
Definition mchar (c : N) : bool := among mchars c.
Definition cchars : text := Eval vm_compute in nodup N.eq_dec (sp_chars ++ flat_map (fun l => Datatypes.fst (Fst.entry l)) ja_itn_measure_unit_ja).
Definition cchar (c : N) : bool := among cchars c.
Definition tchars : text := Eval vm_compute in num_chars ++ u "零两時分秒".
Definition tchar (c : N) : bool := among tchars c.
Lemma mchar_valid c : mchar c = true -> vchar c = true.
Proof. intro H. apply among_in in H. assert (A : forallb vchar mchars = true) by (vm_compute; reflexivity). rewrite forallb_forall in A. exact (A c H). Qed.
Lemma cchar_valid c : cchar c = true -> vchar c = true.
Proof. intro H. apply among_in in H. assert (A : forallb vchar cchars = true) by (vm_compute; reflexivity). rewrite forallb_forall in A. exact (A c H). Qed.
Lemma known_in l c : forallb (fun c => among l c) sp_chars = true -> known c = true -> among l c = true.
Proof. intros A H. apply among_in in H. rewrite forallb_forall in A. exact (A c H). Qed.
Lemma known_mchar c : known c = true -> mchar c = true.
Proof. apply (known_in mchars). vm_compute. reflexivity. Qed.
Lemma known_cchar c : known c = true -> cchar c = true.
Proof. apply (known_in cchars). vm_compute. reflexivity. Qed.
Lemma only_itn_measure o : name_only (rules o) (u "measure") (RuleSpec (Measure.rule o) (Some 10500%Z) true).
Proof. destruct o as [a b c d]; PlainRules.only_tac. Qed.
Lemma still_m o : still mchar (preprocessor o) = true.
Proof. destruct o as [[] [] [] []]; vm_compute; reflexivity. Qed.
Lemma still_c o : still cchar (preprocessor o) = true.
Proof. destruct o as [[] [] [] []]; vm_compute; reflexivity. Qed.
Lemma m_bare x : forallb mchar x = true -> ~ In 34%N x /\ ~ In 92%N x.
Proof. intro K. rewrite forallb_forall in K. split; intro I; specialize (K _ I); vm_compute in K; discriminate K. Qed.
Lemma c_bare x : forallb cchar x = true -> ~ In 34%N x /\ ~ In 92%N x.
Proof. intro K. rewrite forallb_forall in K. split; intro I; specialize (K _ I); vm_compute in K; discriminate K. Qed.
(** The rules that compete. *)
Lemma unit_rules o s k : In s (rules o) -> s_weight s = Some k ->
  s = RuleSpec (Measure.rule o) (Some 10500%Z) true \/ s = RuleSpec (Cardinal.rule o) (Some 10600%Z) true \/ (10600 < k)%Z \/ s = RuleSpec (Money.rule o) (Some 10400%Z) true \/ s = RuleSpec (Time.rule o) (Some 10400%Z) true \/ apart2 mchar (r_tagger (s_rule s)) = true.
Proof.
  intros I W. unfold rules in I.
  cbn [In] in I. destruct I as [<-|[<-|[<-|[<-|[<-|[<-|[<-|[<-|[<-|[<-|[]]]]]]]]]]]; cbn [s_weight] in W; try (injection W as <-); try discriminate W; auto 10;
      try (right; right; left; lia); do 5 right; destruct o as [[] [] [] []]; vm_compute; reflexivity.
Qed.
Lemma time_chars o x y w : forallb mchar x = true -> denote (r_tagger (Time.rule o)) x y w -> forallb tchar x = true.
Proof. apply (confined_sound mchar tchar mchar_valid). destruct o as [[] [] [] []]; vm_compute; reflexivity. Qed.
Definition symbols : list (text * text) := map Fst.entry ja_itn_money_symbol.
Lemma money_parts o x y w : forallb mchar x = true -> denote (r_tagger (Money.rule o)) x y w -> exists p q z v c, x = p ++ q /\ denote (counts (enable_million o)) p z v /\ In (q, c) symbols.
Proof.
  intros K H. apply PlainRules.tokens_added in H as (t & _ & H). apply cat_inv in H as (x1 & y1 & w1 & q & y2 & w2 & -> & _ & _ & H & H2). apply cat_inv in H as (p & y3 & w3 & x4 & y4 & w4 & -> & _ & _ & H3 & (-> & _)).
  rewrite app_nil_r in *. rewrite forallb_app, andb_true_iff in K. destruct K as (K1 & K2).
  apply tag_field_spec in H3 as (_ & _ & z & H3). apply tag_field_spec in H2 as (_ & _ & c & H2).
  apply (proj1 (still_pre mchar mchar_valid (preprocessor o) _ (still_m o) p z w3 K1)) in H3. apply (proj1 (still_pre mchar mchar_valid (preprocessor o) _ (still_m o) q c w2 K2)) in H2. destruct H2 as (I & _).
  exists p, q, z, w3, c. split; [reflexivity|]. split; [exact (measure_counts o p z w3 H3)|exact I].
Qed.
Lemma symbol_heads q c : In (q, c) symbols -> head_in going q = false.
Proof.
  assert (A : forallb (fun e => negb (head_in going (Datatypes.fst e))) symbols = true) by (vm_compute; reflexivity). rewrite forallb_forall in A. intro I. specialize (A _ I). now apply negb_true_iff in A.
Qed.
(** A unit of the list: one way to write it, and none of 千, 毎 and 每 in its name. *)
Definition unit_word (k v : text) : Prop := In (k, v) units /\ (forall v', In (k, v') units -> v' = v) /\ ~ In 21315%N k /\ ~ In 27598%N k /\ ~ In 27599%N k.
Lemma unit_facts k v : In (k, v) units -> ~ In 21315%N k -> ~ In 27598%N k -> ~ In 27599%N k -> tame k /\ forallb mchar k = true /\ forallb tchar k = false /\ forall c, ~ In (k, c) symbols.
Proof.
  assert (A : forallb (fun e => let k := Datatypes.fst e in if among k 21315 then true else if among k 27598 then true else if among k 27599 then true else
    if tameb k then if forallb mchar k then if forallb tchar k then false else forallb (fun e => negb (text_eqb k (Datatypes.fst e))) symbols else false else false) units = true) by (vm_compute; reflexivity).
  rewrite forallb_forall in A. intros I N1 N2 N3. specialize (A _ I). cbn [Datatypes.fst] in A. cbv zeta in A.
  destruct (among k 21315) eqn:E1; [apply among_in in E1; contradiction|]. destruct (among k 27598) eqn:E2; [apply among_in in E2; contradiction|]. destruct (among k 27599) eqn:E3; [apply among_in in E3; contradiction|].
  destruct (tameb k) eqn:E4; [|discriminate]. destruct (forallb mchar k); [|discriminate]. destruct (forallb tchar k); [discriminate|]. split; [exact (tameb_sound k E4)|]. split; [reflexivity|]. split; [reflexivity|].
  rewrite forallb_forall in A. intros c Ic. specialize (A _ Ic). cbn [Datatypes.fst] in A. destruct (text_eqb_spec k k) as [_|X]; [discriminate A|congruence].
Qed.
Lemma ends_thousand s sw m n f : ja_sign_words s = Some sw -> japanese_value m = Some n -> (n < 100000000)%N -> Forall digit_char f -> (exists p, sw ++ m ++ ja_point_words f = p ++ u "千") -> f = [] /\ exists p, m = p ++ u "千".
Proof.
  intros Sg V L F (p & E). destruct (value_nums m n V L) as (_ & Nm). destruct (exists_last Nm) as (m' & c' & Em). change (u "千") with [21315%N] in E |- *. destruct f as [|c g].
  - split; [reflexivity|]. cbn [ja_point_words] in E. rewrite app_nil_r, Em, app_assoc in E. apply app_inj_tail in E as (_ & ->). now exists m'.
  - exfalso. destruct (exists_last (l := c :: g) ltac:(discriminate)) as (g' & b & Eg). assert (Db : digit_char b) by (rewrite Eg in F; apply Forall_app in F; destruct F as (_ & F); now inversion F).
    unfold ja_point_words in E. rewrite Eg in E. rewrite flat_map_app in E. cbn [flat_map] in E. rewrite app_nil_r, (digit_word_one b Db), !app_assoc in E. apply app_inj_tail in E as (_ & E).
    assert (C : (b = 48 \/ b = 49 \/ b = 50 \/ b = 51 \/ b = 52 \/ b = 53 \/ b = 54 \/ b = 55 \/ b = 56 \/ b = 57)%N) by (unfold digit_char in Db; lia).
    destruct C as [-> |[-> |[-> |[-> |[-> |[-> |[-> |[-> |[-> | ->]]]]]]]]]; vm_compute in E; discriminate E.
Qed.
Section Unit.
Variables (o : options) (s sw m d f : text) (n : N) (k : text).
Hypothesis Sg : ja_sign_words s = Some sw.
Hypothesis V : japanese_value m = Some n.
Hypothesis L : (n < 100000000)%N.
Hypothesis F : Forall digit_char f.
Hypothesis J : just (Cardinal.positive_integer (enable_million o)) m d.
Hypothesis D : decimal d n.
Hypothesis Tame : tame k.
Hypothesis Mk : forallb mchar k = true.
Hypothesis Tk : forallb tchar k = false.
Hypothesis Sk : forall c, ~ In (k, c) symbols.
Let T := sw ++ m ++ ja_point_words f.
Lemma unit_m : forallb mchar (T ++ k) = true.
Proof. unfold T. rewrite forallb_app, Mk, (all_sub known mchar _ known_mchar (number_known s sw m f n Sg V L F)). reflexivity. Qed.
Lemma no_money y w : ~ denote (r_tagger (Money.rule o)) (T ++ k) y w.
Proof.
  intro H. destruct (money_parts o _ y w unit_m H) as (p & q & z & v & c & E & H1 & I). destruct Tame as (_ & Hd & Vk & _).
  destruct (cut_number s sw m f n Sg V L F (enable_million o) p q k z v (eq_sym E) Vk H1 Hd (symbol_heads q c I)) as (_ & ->). exact (Sk c I).
Qed.
Lemma no_time y w : ~ denote (r_tagger (Time.rule o)) (T ++ k) y w.
Proof. intro H. pose proof (time_chars o _ y w unit_m H) as C. rewrite forallb_app, andb_true_iff in C. destruct C as (_ & C). congruence. Qed.
Lemma some_unit : T ++ k <> [].
Proof. intro E. apply app_eq_nil in E as (E & _). exact (number_some sw m f n V L E). Qed.
End Unit.
Lemma unit_said o s sw m n d f k v : ja_sign_words s = Some sw -> japanese_value m = Some n -> (n < 100000000)%N -> Forall digit_char f -> just (Cardinal.positive_integer (enable_million o)) m d -> decimal d n ->
  counted_ok o s n f -> unit_word k v -> ~ (k = u "キロメートル" /\ f = [] /\ exists p, m = p ++ u "千") ->
  ja_itn_said o ((sw ++ m ++ ja_point_words f) ++ k) (numeral s d f ++ v).
Proof.
  intros Sg V L F J D Ok (I & U & N1 & N2 & N3) Kilo. destruct (unit_facts k v I N1 N2 N3) as (Tame & Mk & Tk & Sk).
  assert (Kilo' : ~ (k = KM /\ exists p, sw ++ m ++ ja_point_words f = p ++ u "千")) by (intros (E & X); apply Kilo; split; [exact E|exact (ends_thousand s sw m n f Sg V L F X)]).
  pose proof (unit_m s sw m f n k Sg V L F Mk) as K.
  apply (ja_itn_said_value o (u "measure") (Measure.graph o) 10500 _ _ (only_itn_measure o)) with (kv := 0%Z); try reflexivity.
  - exact (all_sub mchar vchar _ mchar_valid K).
  - exact (m_bare _ K).
  - exact (some_unit sw m f n k V L).
  - split.
    + apply (proj2 (still_pre mchar mchar_valid (preprocessor o) (Measure.measure o) (still_m o) _ _ _ K)). exact (measure_unit o s sw m d f n Sg V L F J D k v Ok I).
    + intros z w H. apply (proj1 (still_pre mchar mchar_valid (preprocessor o) (Measure.measure o) (still_m o) _ _ _ K)) in H.
      destruct (measure_parse o s sw m d f n Sg V L F J D k Tame Kilo' z w H) as (_ & [(v' & I' & -> & ->)|(_ & _ & ->)]); [|lia]. rewrite (U v' I'). split; [lia|reflexivity].
  - intros r wt y w Ir W H. pose proof (Whole.nonneg_sound _ (itn_nonneg o r Ir) _ _ _ H) as P. destruct (unit_rules o r wt Ir W) as [->|[->|[Lw|[->|[->|A]]]]].
    + now left.
    + right. cbn [s_weight] in W. injection W as <-. lia.
    + right. lia.
    + exfalso. exact (no_money o s sw m f n k Sg V L F Tame Mk Sk _ _ H).
    + exfalso. exact (no_time o s sw m f n k Sg V L F Mk Tk _ _ H).
    + exfalso. exact (apart2_sound mchar mchar_valid _ A _ _ _ K H).
Qed.
(** A spoken number with a listed unit is written with its digits and the sign of the unit. *)
Theorem C78_unit o s sw m n f k v : ja_sign_words s = Some sw -> japanese_value m = Some n -> (n < 100000000)%N -> ~ one_ten m -> Forall digit_char f ->
  enable_million o = true \/ (n < 1000000)%N -> counted_ok o s n f -> unit_word k v -> ~ (k = u "キロメートル" /\ f = [] /\ exists p, m = p ++ u "千") ->
  exists d, decimal d n /\ ja_itn_said o ((sw ++ m ++ ja_point_words f) ++ k) (numeral s d f ++ v).
Proof.
  intros S V L O F M Ok U Kilo. destruct (int_reads (enable_million o) m n V L M O) as (d & D & J). exists d. split; [exact D|]. exact (unit_said o s sw m n d f k v S V L F J D Ok U Kilo).
Qed.
Print Assumptions C78_unit.

(** ** Percentages *)
Definition nchars : text := Eval vm_compute in spelled_chars ++ sign_words_chars ++ u "億兆".
Definition nchar (c : N) : bool := among nchars c.
Definition PER : text := Eval vm_compute in u "パーセント".
Lemma percent_just o s sw m n d f : ja_sign_words s = Some sw -> japanese_value m = Some n -> (n < 100000000)%N -> Forall digit_char f -> just (Cardinal.positive_integer (enable_million o)) m d ->
  just (Cardinal.graph o) ((sw ++ m ++ ja_point_words f) ++ PER) (numeral s d f ++ u "%").
Proof.
  intros Sg V L F J. set (T := sw ++ m ++ ja_point_words f). set (M := enable_million o) in *.
  assert (KT : forallb vchar (T ++ PER) = true) by (rewrite forallb_app, (all_sub known vchar T known_valid (number_known s sw m f n Sg V L F)); vm_compute; reflexivity).
  assert (No : forall e z w, confined vchar nchar e = true -> ~ denote e (T ++ PER) z w).
  { intros e z w C H. pose proof (confined_sound vchar nchar (fun c H => H) e C _ _ _ KT H) as X. rewrite forallb_app, andb_true_iff in X. apply proj2 in X. vm_compute in X. discriminate X. }
  assert (P : just (Cardinal.percent M) (T ++ PER) (numeral s d f ++ u "%")).
  { intros z w. split.
    - intro H. apply cat_inv in H as (x1 & y1 & w1 & x2 & y2 & w2 & E & -> & -> & H & (-> & -> & ->)). change (u "パーセント") with PER in E. apply app_inv_tail in E. subst x1. destruct H as [H|H].
      + apply (number_reads M s sw m d f n Sg V L F J) in H as (_ & -> & ->). auto.
      + apply (decimal_reads M s sw m d f n Sg V L F J) in H as (_ & -> & ->). auto.
    - intros (-> & ->). change 0%Z with (0 + 0)%Z. apply cat_i; [|apply cross_i]. destruct f as [|c g]; [left; now apply (number_reads M s sw m d [] n Sg V L F J)|right; now apply (decimal_reads M s sw m d (c :: g) n Sg V L F J)]. }
  assert (Q : just (Cardinal.formats M) (T ++ PER) (numeral s d f ++ u "%")).
  { intros z w. split.
    - intros [[[H|H]|H]|H]; [| | |now apply P].
      + exfalso. revert H. apply No. vm_compute. reflexivity.
      + exfalso. revert H. apply No. destruct M; vm_compute; reflexivity.
      + exfalso. revert H. apply No. vm_compute. reflexivity.
    - intro H. right. now apply P. }
  intros z w. unfold Cardinal.graph. fold M. destruct (enable_standalone_number o); [destruct (enable_0_to_9 o)|exact (Q z w)].
  - split; [|intro H; left; now apply Q]. intros [H|H]; [now apply Q|]. exfalso. revert H. apply No. destruct M; vm_compute; reflexivity.
  - split; [|intro H; left; now apply Q]. intros [H|H]; [now apply Q|]. exfalso. revert H. apply No. destruct M; vm_compute; reflexivity.
Qed.
Lemma percent_unit : unit_word PER (u "%").
Proof.
  assert (A : existsb (fun e => text_eqb (Datatypes.fst e) PER && text_eqb (snd e) (u "%")) units && forallb (fun e => if text_eqb (Datatypes.fst e) PER then text_eqb (snd e) (u "%") else true) units = true) by (vm_compute; reflexivity).
  apply andb_true_iff in A as (A & B). apply existsb_exists in A as ((k, v) & I & E). cbn [Datatypes.fst snd] in E. apply andb_true_iff in E as (E1 & E2). destruct (text_eqb_spec k PER) as [->|]; [|discriminate]. destruct (text_eqb_spec v (u "%")) as [->|]; [|discriminate].
  split; [exact I|]. split. { intros v' I'. rewrite forallb_forall in B. specialize (B _ I'). cbn [Datatypes.fst snd] in B. destruct (text_eqb_spec PER PER) as [_|X]; [|congruence]. now destruct (text_eqb_spec v' (u "%")). }
  repeat split; vm_compute; intuition discriminate.
Qed.
Lemma counted_dec o s n f : counted_ok o s n f \/ ~ counted_ok o s n f.
Proof.
  unfold counted_ok. destruct f as [|c g]; [|left; left; discriminate]. destruct (enable_0_to_9 o); [left; auto|]. destruct s as [|c s]; [|right; intros [X|[X|(X & _)]]; [congruence|discriminate|discriminate]].
  destruct (N.le_gt_cases 10 n); [left; auto|right; intros [X|[X|(_ & X)]]; [congruence|discriminate|lia]].
Qed.
(** A spoken percentage is always written with digits and the percent sign, whatever the options. *)
Theorem C78_percent o s sw m n f : ja_sign_words s = Some sw -> japanese_value m = Some n -> (n < 100000000)%N -> ~ one_ten m -> Forall digit_char f -> enable_million o = true \/ (n < 1000000)%N ->
  exists d, decimal d n /\ ja_itn_said o ((sw ++ m ++ ja_point_words f) ++ u "パーセント") (numeral s d f ++ u "%").
Proof.
  intros Sg V L O F M. destruct (int_reads (enable_million o) m n V L M O) as (d & D & J). exists d. split; [exact D|]. change (u "パーセント") with PER.
  destruct (counted_dec o s n f) as [Ok|No]; [apply unit_said with (n := n); try assumption; [exact percent_unit|intros (E & _); discriminate E]|].
  destruct percent_unit as (Ip & _ & N1 & N2 & N3). destruct (unit_facts PER (u "%") Ip N1 N2 N3) as (Tame & Mk & Tk & Sk).
  assert (Kilo' : ~ (PER = KM /\ exists p, sw ++ m ++ ja_point_words f = p ++ u "千")) by (intros (E & _); discriminate E).
  pose proof (unit_m s sw m f n PER Sg V L F Mk) as K.
  apply (ja_itn_said_value o (u "cardinal") (Cardinal.cardinal o) 10600 _ _ (only_itn_cardinal o)) with (kv := 0%Z); try reflexivity.
  - exact (all_sub mchar vchar _ mchar_valid K).
  - exact (m_bare _ K).
  - exact (some_unit sw m f n PER V L).
  - assert (R : just (Cardinal.cardinal o) ((sw ++ m ++ ja_point_words f) ++ PER) (numeral s d f ++ u "%")) by (intros z w; rewrite <- (percent_just o s sw m n d f Sg V L F J z w); exact (still_pre mchar mchar_valid (preprocessor o) (Cardinal.graph o) (still_m o) _ z w K)).
    split; [now apply R|]. intros z w H. apply R in H as (-> & ->). split; [lia|reflexivity].
  - intros r wt y w Ir W H. pose proof (Whole.nonneg_sound _ (itn_nonneg o r Ir) _ _ _ H) as P. destruct (unit_rules o r wt Ir W) as [->|[->|[Lw|[->|[->|A]]]]].
    + exfalso. apply No. apply PlainRules.tokens_added in H as (z & _ & H). apply tag_field_spec in H as (_ & _ & d' & H). apply (proj1 (still_pre mchar mchar_valid (preprocessor o) (Measure.measure o) (still_m o) _ _ _ K)) in H.
      exact (proj1 (measure_parse o s sw m d f n Sg V L F J D PER Tame Kilo' _ _ H)).
    + now left.
    + right. lia.
    + exfalso. exact (no_money o s sw m f n PER Sg V L F Tame Mk Sk _ _ H).
    + exfalso. exact (no_time o s sw m f n PER Sg V L F Mk Tk _ _ H).
    + exfalso. exact (apart2_sound mchar mchar_valid _ A _ _ _ K H).
Qed.
Print Assumptions C78_percent.

(** ** Counters *)
Definition less (x : text) (c : N) : bool := if cchar c then negb (among x c) else false.
Lemma less_valid x c : less x c = true -> vchar c = true.
Proof. unfold less. destruct (cchar c) eqn:E; [intros _; now apply cchar_valid|discriminate]. Qed.
Lemma counter_rules o s k : In s (rules o) -> s_weight s = Some k ->
  s = RuleSpec (Measure.rule o) (Some 10500%Z) true \/ (10510 < k)%Z \/ s = RuleSpec (Date.rule o) (Some 10200%Z) true \/ s = RuleSpec (Time.rule o) (Some 10400%Z) true \/ s = RuleSpec (Whitelist.rule o) (Some 10100%Z) true \/ apart2 cchar (r_tagger (s_rule s)) = true.
Proof.
  intros I W. unfold rules in I.
  cbn [In] in I. destruct I as [<-|[<-|[<-|[<-|[<-|[<-|[<-|[<-|[<-|[<-|[]]]]]]]]]]]; cbn [s_weight] in W; try (injection W as <-); try discriminate W; auto 10;
      try (right; left; lia); do 5 right; destruct o as [[] [] [] []]; vm_compute; reflexivity.
Qed.
Lemma counter_time o x y w : forallb cchar x = true -> denote (r_tagger (Time.rule o)) x y w -> forallb tchar x = true.
Proof. apply (confined_sound cchar tchar cchar_valid). destruct o as [[] [] [] []]; vm_compute; reflexivity. Qed.
(** A date has its month, and a year or a day. *)
Lemma counter_date o x y w : forallb cchar x = true -> denote (r_tagger (Date.rule o)) x y w -> In 26376%N x /\ (In 24180%N x \/ In 26085%N x).
Proof.
  intros K H. assert (A : forall l, apart2 (less l) (r_tagger (Date.rule o)) = true -> exists c, In c l /\ In c x).
  { intros l A. destruct (forallb (less l) x) eqn:E; [exfalso; exact (apart2_sound (less l) (less_valid l) _ A _ _ _ E H)|].
    assert (X : existsb (fun c => among l c) x = true).
    { clear -K E. induction x as [|c x IH]; [discriminate|]. cbn [forallb existsb] in *. apply andb_true_iff in K as (K1 & K2). unfold less in E at 1. rewrite K1 in E. destruct (among l c); [reflexivity|]. cbn [negb andb orb] in *. exact (IH K2 E). }
    apply existsb_exists in X as (c & I & Ic). apply among_in in Ic. eauto. }
  destruct (A [26376%N]) as (c & [<-|[]] & I); [destruct o as [[] [] [] []]; vm_compute; reflexivity|]. split; [exact I|].
  destruct (A [24180%N; 26085%N]) as (c' & [<-|[<-|[]]] & I'); [destruct o as [[] [] [] []]; vm_compute; reflexivity|now left|now right].
Qed.
Lemma counter_listed o x y w : forallb cchar x = true -> denote (r_tagger (Whitelist.rule o)) x y w -> x = u "十八番" \/ x = u "二百十日".
Proof.
  intros K H. apply PlainRules.tokens_added in H as (z & _ & H). apply tag_field_spec in H as (_ & _ & d & H). apply (proj1 (still_pre cchar cchar_valid (preprocessor o) _ (still_c o) x d w K)) in H. destruct H as (I & _).
  assert (A : forallb (fun q => if text_eqb (Datatypes.fst q) (u "十八番") then true else if text_eqb (Datatypes.fst q) (u "二百十日") then true else negb (forallb cchar (Datatypes.fst q))) (map Fst.entry ja_itn_default_whitelist) = true) by (vm_compute; reflexivity).
  rewrite forallb_forall in A. specialize (A _ I). cbn [Datatypes.fst] in A. destruct (text_eqb_spec x (u "十八番")) as [E|_]; [now left|]. destruct (text_eqb_spec x (u "二百十日")) as [E|_]; [now right|]. rewrite K in A. discriminate A.
Qed.
(** A counter of the list that is no unit too, and not 時, 分 or 秒. *)
Definition counter_word (k : text) : Prop := In (k, k) counters /\ (forall v, ~ In (k, v) units) /\ k <> u "時" /\ k <> u "分" /\ k <> u "秒".
Lemma counter_facts k : counter_word k -> tame k /\ forallb cchar k = true /\ forallb tchar k = false /\ ~ (In 26376%N k /\ (In 24180%N k \/ In 26085%N k)).
Proof.
  assert (A : forallb (fun e => let k := Datatypes.fst e in if text_eqb k (u "時") then true else if text_eqb k (u "分") then true else if text_eqb k (u "秒") then true else
    if tameb k then if forallb cchar k then if forallb tchar k then false else negb (among k 26376 && (among k 24180 || among k 26085)) else false else false) counters = true) by (vm_compute; reflexivity).
  rewrite forallb_forall in A. intros (I & _ & N1 & N2 & N3). specialize (A _ I). cbn [Datatypes.fst] in A. cbv zeta in A.
  destruct (text_eqb_spec k (u "時")); [contradiction|]. destruct (text_eqb_spec k (u "分")); [contradiction|]. destruct (text_eqb_spec k (u "秒")); [contradiction|].
  destruct (tameb k) eqn:E4; [|discriminate]. destruct (forallb cchar k); [|discriminate]. destruct (forallb tchar k); [discriminate|]. split; [exact (tameb_sound k E4)|]. split; [reflexivity|]. split; [reflexivity|].
  intros (M & Y). apply among_in in M. rewrite M in A. destruct Y as [Y|Y]; apply among_in in Y; rewrite Y in A; [discriminate A|]. rewrite orb_true_r in A. discriminate A.
Qed.
Lemma ckilo k : counter_word k -> k <> KM.
Proof.
  intros (_ & U & _) ->. assert (A : existsb (fun e => text_eqb (Datatypes.fst e) KM) units = true) by (vm_compute; reflexivity). apply existsb_exists in A as ((a, b) & I & E). cbn [Datatypes.fst] in E. destruct (text_eqb_spec a KM) as [->|]; [|discriminate]. exact (U b I).
Qed.
Theorem C78_counter o s sw m n f k : ja_sign_words s = Some sw -> japanese_value m = Some n -> (n < 100000000)%N -> ~ one_ten m -> Forall digit_char f ->
  enable_million o = true \/ (n < 1000000)%N -> counted_ok o s n f -> counter_word k -> (sw ++ m ++ ja_point_words f) ++ k <> u "十八番" -> (sw ++ m ++ ja_point_words f) ++ k <> u "二百十日" ->
  exists d, decimal d n /\ ja_itn_said o ((sw ++ m ++ ja_point_words f) ++ k) (numeral s d f ++ k).
Proof.
  intros Sg V L O F M Ok C X1 X2. destruct (int_reads (enable_million o) m n V L M O) as (d & D & J). exists d. split; [exact D|]. destruct (counter_facts k C) as (Tame & Ck & Tk & Dk). pose proof C as (I & U & _).
  assert (Kilo' : ~ (k = KM /\ exists p, sw ++ m ++ ja_point_words f = p ++ u "千")) by (intros (E & _); exact (ckilo k C E)).
  pose proof (number_known s sw m f n Sg V L F) as KT.
  assert (K : forallb cchar ((sw ++ m ++ ja_point_words f) ++ k) = true) by (rewrite forallb_app, Ck, (all_sub known cchar _ known_cchar KT); reflexivity).
  assert (Nk : forall c, known c = false -> ~ In c (sw ++ m ++ ja_point_words f)) by (intros c Hc Ic; rewrite forallb_forall in KT; specialize (KT c Ic); congruence).
  apply (ja_itn_said_value o (u "measure") (Measure.graph o) 10500 _ _ (only_itn_measure o)) with (kv := 10%Z); try reflexivity.
  - exact (all_sub cchar vchar _ cchar_valid K).
  - exact (c_bare _ K).
  - exact (some_unit sw m f n k V L).
  - split.
    + apply (proj2 (still_pre cchar cchar_valid (preprocessor o) (Measure.measure o) (still_c o) _ _ _ K)). exact (measure_counter o s sw m d f n Sg V L F J D k Ok I).
    + intros z w H. apply (proj1 (still_pre cchar cchar_valid (preprocessor o) (Measure.measure o) (still_c o) _ _ _ K)) in H.
      destruct (measure_parse o s sw m d f n Sg V L F J D k Tame Kilo' z w H) as (_ & [(v' & I' & _)|(_ & -> & ->)]); [destruct (U v' I')|]. split; [lia|reflexivity].
  - intros r wt y w Ir W H. pose proof (Whole.nonneg_sound _ (itn_nonneg o r Ir) _ _ _ H) as P. destruct (counter_rules o r wt Ir W) as [->|[Lw|[->|[->|[->|A]]]]].
    + now left.
    + right. lia.
    + exfalso. destruct (counter_date o _ _ _ K H) as (I1 & I2). apply Dk. split.
      * apply in_app_iff in I1 as [I1|I1]; [destruct (Nk 26376%N eq_refl I1)|exact I1].
      * destruct I2 as [I2|I2]; apply in_app_iff in I2 as [I2|I2]; [destruct (Nk 24180%N eq_refl I2)|now left|destruct (Nk 26085%N eq_refl I2)|now right].
    + exfalso. pose proof (counter_time o _ _ _ K H) as T. rewrite forallb_app, andb_true_iff in T. destruct T as (_ & T). congruence.
    + exfalso. destruct (counter_listed o _ _ _ K H) as [E|E]; [exact (X1 E)|exact (X2 E)].
    + exfalso. exact (apart2_sound cchar cchar_valid _ A _ _ _ K H).
Qed.
Print Assumptions C78_counter.

(** The exception for 千 before キロメートル is needed: 千キロメートル is listed as a unit too, so
    that 二万三千キロメートル reads as 23000km and as 20003km, and neither costs more than the other. *)
Lemma unit_listed k v : existsb (fun e => text_eqb (Datatypes.fst e) k && text_eqb (snd e) v) units = true -> In (k, v) units.
Proof.
  intro A. apply existsb_exists in A as ((a, b) & I & E). cbn [Datatypes.fst snd] in E. apply andb_true_iff in E as (E1 & E2). destruct (text_eqb_spec a k) as [->|]; [|discriminate]. destruct (text_eqb_spec b v) as [->|]; [|discriminate]. exact I.
Qed.
Theorem C78_kilometre_refuted : exists o, japanese_value (u "二万三千") = Some 23000%N /\ counted_ok o [] 23000 [] /\ In (u "キロメートル", u "km") units /\
  denote (Measure.graph o) (u "二万三千キロメートル") (u "23000km") 0%Z /\ denote (Measure.graph o) (u "二万三千キロメートル") (u "20003km") 0%Z /\
  forall z w, denote (Measure.graph o) (u "二万三千キロメートル") z w -> (0 <= w)%Z.
Proof.
  set (o := Options false true false false). exists o.
  assert (K : forallb mchar (u "二万三千キロメートル") = true) by (vm_compute; reflexivity).
  assert (D1 : decimal (u "23000") 23000) by (split; [discriminate|split; [apply PropsZhSpoken.digits_of; reflexivity|split; [discriminate|reflexivity]]]).
  assert (D2 : decimal (u "20003") 20003) by (split; [discriminate|split; [apply PropsZhSpoken.digits_of; reflexivity|split; [discriminate|reflexivity]]]).
  assert (V1 : japanese_value (u "二万三千") = Some 23000%N) by reflexivity. assert (V2 : japanese_value (u "二万三") = Some 20003%N) by reflexivity.
  assert (Ok1 : counted_ok o [] 23000 []) by (right; right; split; [reflexivity|vm_compute; discriminate]). assert (Ok2 : counted_ok o [] 20003 []) by (right; right; split; [reflexivity|vm_compute; discriminate]).
  split; [exact V1|]. split; [exact Ok1|]. split; [apply unit_listed; vm_compute; reflexivity|]. split; [|split].
  - apply (proj2 (still_pre mchar mchar_valid (preprocessor o) (Measure.measure o) (still_m o) _ _ _ K)).
    destruct (int_reads (enable_million o) (u "二万三千") 23000 V1 eq_refl (or_intror eq_refl) (free_one_ten (u "二万三千") eq_refl)) as (d & D & J). rewrite (EnNumberProofs4.decimal_unique _ _ _ D D1) in J.
    exact (measure_unit o [] [] (u "二万三千") (u "23000") [] 23000 eq_refl V1 eq_refl (Forall_nil _) J D1 (u "キロメートル") (u "km") Ok1 (unit_listed (u "キロメートル") (u "km") ltac:(vm_compute; reflexivity))).
  - apply (proj2 (still_pre mchar mchar_valid (preprocessor o) (Measure.measure o) (still_m o) _ _ _ K)).
    destruct (int_reads (enable_million o) (u "二万三") 20003 V2 eq_refl (or_intror eq_refl) (free_one_ten (u "二万三") eq_refl)) as (d & D & J). rewrite (EnNumberProofs4.decimal_unique _ _ _ D D2) in J.
    exact (measure_unit o [] [] (u "二万三") (u "20003") [] 20003 eq_refl V2 eq_refl (Forall_nil _) J D2 (u "千キロメートル") (u "km") Ok2 (unit_listed (u "千キロメートル") (u "km") ltac:(vm_compute; reflexivity))).
  - intros z w. apply Whole.nonneg_sound. vm_compute. reflexivity.
Qed.
Print Assumptions C78_kilometre_refuted.

Lemma gram_word : unit_word (u "グラム") (u "g").
Proof.
  split; [apply unit_listed; vm_compute; reflexivity|]. split.
  { assert (B : forallb (fun e => if text_eqb (Datatypes.fst e) (u "グラム") then text_eqb (snd e) (u "g") else true) units = true) by (vm_compute; reflexivity).
    intros v' I'. rewrite forallb_forall in B. specialize (B _ I'). cbn [Datatypes.fst snd] in B. destruct (text_eqb_spec (u "グラム") (u "グラム")) as [_|X]; [|congruence]. now destruct (text_eqb_spec v' (u "g")). }
  repeat split; vm_compute; intuition discriminate.
Qed.
Lemma book_word : counter_word (u "冊").
Proof.
  split. { assert (A : existsb (fun e => text_eqb (Datatypes.fst e) (u "冊") && text_eqb (snd e) (u "冊")) counters = true) by (vm_compute; reflexivity).
    apply existsb_exists in A as ((a, b) & I & E). cbn [Datatypes.fst snd] in E. apply andb_true_iff in E as (E1 & E2). destruct (text_eqb_spec a (u "冊")) as [->|]; [|discriminate]. destruct (text_eqb_spec b (u "冊")) as [->|]; [|discriminate]. exact I. }
  split; [|repeat split; discriminate].
  assert (B : forallb (fun e => negb (text_eqb (Datatypes.fst e) (u "冊"))) units = true) by (vm_compute; reflexivity). intros v I. rewrite forallb_forall in B. specialize (B _ I). cbn [Datatypes.fst] in B. destruct (text_eqb_spec (u "冊") (u "冊")) as [_|X]; [discriminate B|congruence].
Qed.
Example C78_witness : exists o, unit_word (u "グラム") (u "g") /\ counter_word (u "冊") /\ counted_ok o [] 25 (u "5") /\ counted_ok o [] 25 [] /\
  ja_itn_said o (u "二十五点五グラム") (u "25.5g") /\ ja_itn_said o (u "二十五冊") (u "25冊") /\ ja_itn_said o (u "マイナス五パーセント") (u "-5%").
Proof.
  set (o := Options false true false false). exists o.
  assert (D : decimal (u "25") 25) by (split; [discriminate|split; [apply PropsZhSpoken.digits_of; reflexivity|split; [discriminate|reflexivity]]]).
  assert (D5 : decimal (u "5") 5) by (split; [discriminate|split; [apply PropsZhSpoken.digits_of; reflexivity|split; [discriminate|reflexivity]]]).
  assert (O1 : ~ one_ten (u "二十五")) by (apply free_one_ten; reflexivity). assert (O2 : ~ one_ten (u "五")) by (apply free_one_ten; reflexivity).
  assert (Ok1 : counted_ok o [] 25 (u "5")) by (left; discriminate). assert (Ok2 : counted_ok o [] 25 []) by (right; right; split; [reflexivity|vm_compute; discriminate]).
  split; [exact gram_word|]. split; [exact book_word|]. split; [exact Ok1|]. split; [exact Ok2|]. split; [|split].
  - destruct (C78_unit o [] [] (u "二十五") 25 (u "5") (u "グラム") (u "g") eq_refl eq_refl eq_refl O1 (PropsZhSpoken.digits_of (u "5") eq_refl) (or_intror eq_refl) Ok1 gram_word) as (d & Dd & H); [intros (E & _); discriminate E|].
    rewrite (EnNumberProofs4.decimal_unique _ _ _ Dd D) in H. exact H.
  - destruct (C78_counter o [] [] (u "二十五") 25 [] (u "冊") eq_refl eq_refl eq_refl O1 (Forall_nil _) (or_intror eq_refl) Ok2 book_word) as (d & Dd & H); [discriminate|discriminate|].
    rewrite (EnNumberProofs4.decimal_unique _ _ _ Dd D) in H. exact H.
  - destruct (C78_percent o (u "-") (u "マイナス") (u "五") 5 [] eq_refl eq_refl eq_refl O2 (Forall_nil _) (or_intror eq_refl)) as (d & Dd & H).
    rewrite (EnNumberProofs4.decimal_unique _ _ _ Dd D5) in H. exact H.
Qed.
