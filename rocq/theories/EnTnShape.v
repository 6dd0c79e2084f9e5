(** The tokens the English normalisation grammar writes. *)
From Coq Require Import List NArith ZArith Bool String Lia.
From Verif Require Import Text TextFacts TokenModel TokenSpec TokenProofs2 TokenProofs3.
From Verif Require Import Fst GrammarModel GrammarSpec FstFacts ShapeSpec GrammarShape SpacedShape.
From Verif Require Import DataEnTn EnTnModel.
From Verif Require EnglishSpec.
Import EnglishSpec(tame, hyphen_as_space).
From Verif Require PropsShape EnItnShape.
Import EnItnModel(strings, labels, inverted, DELETE_SPACE, DELETE_EXTRA_SPACE, NOT_SPACE).
Import ListNotations.
Local Open Scope list_scope.

(** ** Graphs that copy their input, and graphs that write spaces only *)
Fixpoint copies (e : fst) : bool :=
  match e with
  | Cross x y => text_eqb x y
  | Class _ | Input _ | Except _ => true
  | Table l => forallb (fun r => text_eqb (Datatypes.fst r) (snd r)) l
  | Union a b | Cat a b | Compose a b => copies a && copies b
  | Star a | Weight _ a => copies a
  | Erase _ | Rewrite _ _ _ => false
  end.
Lemma copies_sound e : copies e = true -> forall x y w, denote e x y w -> y = x.
Proof.
  induction e as [x0 y0|p|l|a IHa b IHb|a IHa b IHb|a IHa|k a IHa|a IHa b IHb|a IHa|a IHa|a IHa|tau IHt l r];
    cbn [copies denote]; intros C x y w.
  - intros (-> & -> & _). now destruct (text_eqb_spec x0 y0).
  - now intros (c & -> & -> & _).
  - intros (I & _). rewrite forallb_forall in C. apply C in I. cbn in I. now destruct (text_eqb_spec x y).
  - apply andb_true_iff in C as (Ca & Cb). intros [H|H]; eauto.
  - apply andb_true_iff in C as (Ca & Cb). intros (x1 & y1 & w1 & x2 & y2 & w2 & -> & -> & _ & H1 & H2).
    now rewrite (IHa Ca _ _ _ H1), (IHb Cb _ _ _ H2).
  - induction 1 as [|x y w x' y' w' H S IH]; [reflexivity|]. now rewrite IH, (IHa C _ _ _ H).
  - intros (v & _ & H). eauto.
  - apply andb_true_iff in C as (Ca & Cb). intros (m & w1 & w2 & _ & H1 & H2).
    now rewrite (IHb Cb _ _ _ H2), (IHa Ca _ _ _ H1).
  - now intros (-> & _).
  - discriminate.
  - now intros (-> & _).
  - discriminate.
Qed.
Definition spaces (t : text) : bool := forallb (N.eqb 32) t.
Fixpoint blanks (e : fst) : bool :=
  match e with
  | Cross _ y => spaces y
  | Table l => forallb (fun r => spaces (snd r)) l
  | Union a b | Cat a b => blanks a && blanks b
  | Star a | Weight _ a => blanks a
  | Compose _ b => blanks b
  | Erase _ => true
  | Class _ | Input _ | Except _ | Rewrite _ _ _ => false
  end.
Lemma spaces_app a b : spaces a = true -> spaces b = true -> spaces (a ++ b) = true.
Proof. unfold spaces. intros A B. now rewrite forallb_app, A, B. Qed.
Lemma blanks_spaces e : blanks e = true -> forall x y w, denote e x y w -> spaces y = true.
Proof.
  induction e as [x0 y0|p|l|a IHa b IHb|a IHa b IHb|a IHa|k a IHa|a IHa b IHb|a IHa|a IHa|a IHa|tau IHt l r];
    cbn [blanks denote]; intros C x y w; try discriminate.
  - now intros (_ & -> & _).
  - intros (I & _). rewrite forallb_forall in C. now apply C in I.
  - apply andb_true_iff in C as (Ca & Cb). intros [H|H]; eauto.
  - apply andb_true_iff in C as (Ca & Cb). intros (x1 & y1 & w1 & x2 & y2 & w2 & -> & -> & _ & H1 & H2).
    apply spaces_app; eauto.
  - induction 1 as [|x y w x' y' w' H S IH]; [reflexivity|]. apply spaces_app; eauto.
  - intros (v & _ & H). eauto.
  - intros (m & w1 & w2 & _ & _ & H). eauto.
  - now intros (-> & _).
Qed.
Lemma spaces_repeat t : spaces t = true -> t = repeat 32%N (List.length t).
Proof.
  induction t as [|c t IH]; [reflexivity|]. unfold spaces in *. cbn [forallb List.length repeat]. rewrite andb_true_iff. intros (E & S). apply N.eqb_eq in E.
  now rewrite <- E, <- IH.
Qed.
Lemma fields_blanks e : blanks e = true -> fields e [[]].
Proof.
  intros B x y w H. exists [], []. split; [cbn; auto|]. split; [|split; constructor].
  rewrite (spaces_repeat y (blanks_spaces e B _ _ _ H)). constructor.
Qed.
Lemma fields_filter a b l : copies a = true -> fields b l -> fields (a @ b)%fst l.
Proof. intros C F x y w (m & w1 & w2 & _ & H1 & H2). apply (copies_sound a C) in H1 as ->. exact (F _ _ _ H2). Qed.
Lemma fields_priority q r l l' : fields q l -> fields r l' -> fields (priority_union q r) (l ++ l').
Proof. intros Q R. apply fields_union; [exact Q|]. now apply fields_filter. Qed.
(** A value copied without escaping, from a graph that reads no quotes and backslashes. *)
Definition bare (e : fst) : Prop := forall x y w, denote e x y w -> forallb plain x = true.
Lemma bare_decodes x : forallb plain x = true -> decodes x x.
Proof.
  induction x as [|c x IH]; [constructor|]. cbn [forallb]. rewrite andb_true_iff. intros (P & F). unfold plain in P.
  rewrite !andb_true_iff, !negb_true_iff, !N.eqb_neq in P. constructor; tauto.
Qed.
Lemma fields_raw key g : is_name key -> bare g ->
  fields (insert (key ++ u ": """) + input_projection g + insert (u """"))%fst [[(key, g)]].
Proof.
  intros N B x y w (x1 & y1 & w1 & x2 & y2 & w2 & -> & -> & -> &
    (x3 & y3 & w3 & x4 & y4 & w4 & -> & -> & -> & (-> & -> & ->) & (<- & z & G)) & (-> & -> & ->)).
  pose proof (B _ _ _ G) as P. exists [(key, g)], [(key, x4)]. split; [cbn; auto|]. split.
  - rewrite <- !app_assoc.
    pose proof (ft_cons 0 key _ x4 [] [] N (bare_decodes _ P) (ft_nil 0)) as T. now rewrite app_nil_r in T.
  - split; [|cbn [app]; rewrite app_nil_r; apply within_one]. constructor; [|constructor]. split; [reflexivity|]. split; [|eauto].
    apply vtext_spec. rewrite forallb_forall in *. intros c I. apply P in I. unfold plain in I. now rewrite !andb_true_iff in I.
Qed.
Lemma bare_cross x y : forallb plain x = true -> bare (Cross x y).
Proof. intros P a b w (-> & _). exact P. Qed.
Lemma bare_class p : (forall c, p c = true -> plain c = true) -> bare (Class p).
Proof. intros P x y w (c & -> & _ & C & _). cbn. now rewrite (P c C). Qed.
Lemma bare_table l : forallb (fun r => forallb plain (Datatypes.fst r)) l = true -> bare (Table l).
Proof. intros P x y w (I & _). rewrite forallb_forall in P. now apply P in I. Qed.
Lemma bare_union a b : bare a -> bare b -> bare (a ∪ b)%fst.
Proof. intros A B x y w [H|H]; [exact (A _ _ _ H)|exact (B _ _ _ H)]. Qed.
Lemma bare_cat a b : bare a -> bare b -> bare (a + b)%fst.
Proof.
  intros A B x y w (x1 & y1 & w1 & x2 & y2 & w2 & -> & _ & _ & H1 & H2). rewrite forallb_app, (A _ _ _ H1). exact (B _ _ _ H2).
Qed.
Lemma bare_star a : bare a -> bare (Star a).
Proof.
  intros A x y w H. cbn [denote] in H. induction H as [|x y w x' y' w' H S IH]; [reflexivity|].
  now rewrite forallb_app, (A _ _ _ H).
Qed.
Lemma bare_compose a b : bare a -> bare (a @ b)%fst.
Proof. intros A x y w (m & w1 & w2 & _ & H & _). exact (A _ _ _ H). Qed.
Lemma bare_erase a : bare a -> bare (Erase a).
Proof. intros A x y w (_ & z & H). exact (A _ _ _ H). Qed.

Lemma fields_ext e e' l : (forall x y w, denote e x y w -> exists w', denote e' x y w') -> fields e' l -> fields e l.
Proof. intros X F x y w H. destruct (X _ _ _ H) as (w' & H'). exact (F _ _ _ H'). Qed.
(** A constant field and a space. *)
Lemma fields_constant key v : is_name key -> added (key, v) = true -> forallb plain v = true ->
  fields (insert (key ++ u ": """ ++ v ++ u """ ")) [[(key, accep v)]].
Proof.
  intros N K P. assert (Pv : forall c, In c v -> c <> 34%N /\ c <> 92%N).
  { intros c I. rewrite forallb_forall in P. apply P in I. unfold plain in I.
    rewrite !andb_true_iff, !negb_true_iff, !N.eqb_neq in I. tauto. }
  assert (Vv : valid_text v).
  { apply vtext_spec. rewrite forallb_forall in *. intros c I. apply P in I. unfold plain in I. now rewrite !andb_true_iff in I. }
  apply fields_ext with (e' := (insert (repeat 32%N 0 ++ key ++ u ": """ ++ v ++ u """") + insert (u " "))%fst).
  - intros x y w (-> & -> & ->). exists 0%Z, [], (repeat 32%N 0 ++ key ++ u ": """ ++ v ++ u """"), 0%Z, [], (u " "), 0%Z.
    split; [reflexivity|]. split; [|repeat split]. cbn [repeat app]. rewrite <- !app_assoc. reflexivity.
  - exact (fields_cat _ _ _ _ (fields_added 0 key v N K Vv Pv) fields_space).
Qed.

(** ** The texts, and how they are read *)
Lemma tame_app x y : tame (x ++ y) -> tame x /\ tame y.
Proof. unfold tame. rewrite !in_app_iff. tauto. Qed.
Lemma hyphen_refl c : hyphen_as_space c c.
Proof. now left. Qed.
Notation tokens1 := (SpacedShape.tokens1 tame hyphen_as_space).
Notation lays := (SpacedShape.lays tame hyphen_as_space).
(** One token, of the table. *)
Definition rule_ok (e : fst) : Prop :=
  exists A, forallb (PropsShape.in_table en_tn_tokens) A = true /\ tokens1 e A.

Ltac field_step :=
  first
    [ eassumption | apply fields_tag; name_tac
    | apply fields_blanks; lazy; reflexivity
    | apply fields_filter; [lazy; reflexivity|]
    | apply fields_ques | apply fields_union | apply fields_weight | apply fields_priority | apply fields_cat ].
Ltac rule_tac :=
  eexists; split; [|apply tokens1_i;
    [exact hyphen_refl|name_tac|EnItnShape.not_verbatim|repeat field_step|cbn [product flat_map map app]; nodup_tac]];
  lazy; reflexivity.
Lemma cardinal_ok : rule_ok (r_tagger Cardinal.rule).
Proof. cbn [Cardinal.rule r_tagger]. unfold Cardinal.optional_minus. rule_tac. Qed.
Lemma ordinal_ok : rule_ok (r_tagger Ordinal.rule).
Proof. cbn [Ordinal.rule r_tagger]. rule_tac. Qed.
Lemma decimal_ok : rule_ok (r_tagger Decimal.rule).
Proof.
  cbn [Decimal.rule r_tagger].
  unfold Decimal.final_graph_wo_negative, Decimal.with_quantity, Decimal.get_quantity, Decimal.final_graph_wo_sign,
    Decimal.optional_graph_negative, Cardinal.optional_minus, Decimal.graph_integer, Decimal.graph_fractional. rule_tac.
Qed.
Lemma fraction_ok : rule_ok (r_tagger Fraction.rule).
Proof. cbn [Fraction.rule r_tagger]. unfold Fraction.graph, Fraction.integer_tag, Fraction.slash. rule_tac. Qed.
Lemma time_ok : rule_ok (r_tagger Time.rule).
Proof.
  cbn [Time.rule r_tagger]. unfold Time.structured_graph, Time.graph_hm, Time.graph_h, Time.graph_hm2, Time.graph_hms,
    Time.hours, Time.minutes, Time.minutes_zero, Time.seconds, Time.seconds_zero, Time.suffix_optional, Time.zone_optional, Time.suffix_tag.
  rule_tac.
Qed.
Lemma serial_ok : rule_ok (r_tagger Serial.rule).
Proof. cbn [Serial.rule r_tagger]. rule_tac. Qed.
Lemma whitelist_ok : rule_ok (r_tagger WhiteList.rule).
Proof. cbn [WhiteList.rule r_tagger]. rule_tac. Qed.
Lemma range_ok ys : rule_ok (r_tagger (Range.rule ys)).
Proof. cbn [Range.rule r_tagger]. rule_tac. Qed.
Lemma unit_bare : bare Measure.unit_only_graph.
Proof.
  assert (U0 : bare Measure.unit0) by (apply bare_union; apply bare_table; vm_compute; reflexivity).
  assert (Al : bare ALPHA).
  { apply bare_class. intros c C. unfold is_alpha, in_range in C. unfold plain, vchar.
    rewrite orb_true_iff, !andb_true_iff, !N.leb_le in C.
    rewrite !andb_true_iff, !negb_true_iff, !N.eqb_neq, orb_true_iff, !andb_true_iff, !N.leb_le, !N.ltb_lt. lia. }
  assert (Lo : bare TO_LOWER) by (apply bare_table; vm_compute; reflexivity).
  assert (Sp : bare SPACE).
  { apply bare_class. intros c C. apply white_space in C. unfold white in C. unfold plain, vchar.
    rewrite !andb_true_iff, !negb_true_iff, !N.eqb_neq, orb_true_iff, !andb_true_iff, !N.leb_le, !N.ltb_lt. lia. }
  assert (Gu : bare Measure.graph_unit).
  { apply bare_union; [exact U0|]. apply bare_compose. repeat (apply bare_cat || apply bare_star || apply bare_union); assumption. }
  unfold Measure.unit_only_graph. apply bare_cat; [|exact Gu]. apply bare_cat; [|apply bare_cross; reflexivity].
  apply bare_union; apply bare_cat; try (apply bare_cross; reflexivity).
  apply bare_erase, bare_union; [exact Sp|apply bare_cross; reflexivity].
Qed.
Lemma unit_graph_fields :
  fields Measure.unit_graph [[(u "integer", accep (u "-")); (u "units", Measure.unit_only_graph)]].
Proof.
  apply fields_ext with (e' := (insert (u "integer" ++ u ": """ ++ u "-" ++ u """ ")
    + (insert (u "units" ++ u ": """) + input_projection Measure.unit_only_graph + insert (u """")))%fst).
  - intros x y w (x1 & y1 & w1 & x2 & y2 & w2 & -> & -> & -> &
      (x3 & y3 & w3 & x4 & y4 & w4 & -> & -> & -> & (-> & -> & ->) & H) & (-> & -> & ->)).
    exists (0 + w4 + 0)%Z. apply (cat_i (insert (u "integer" ++ u ": """ ++ u "-" ++ u """ ")) _ [] (u "integer: ""-"" ") 0%Z
      (([] ++ x4) ++ []) (((u "units: """) ++ y4) ++ u """") (0 + w4 + 0)%Z).
    + repeat split.
    + apply cat_i; [|repeat split]. apply cat_i; [repeat split|exact H].
  - refine (fields_cat _ _ _ _ (fields_constant (u "integer") (u "-") _ eq_refl eq_refl) (fields_raw (u "units") _ _ unit_bare)); name_tac.
Qed.
Lemma measure_ok : rule_ok (r_tagger Measure.rule).
Proof.
  cbn [Measure.rule r_tagger]. pose proof unit_graph_fields as U.
  assert (A : fields (insert (u "units: ""address"" ")) [[(u "units", accep (u "address"))]])
    by (refine (fields_constant (u "units") (u "address") _ eq_refl eq_refl); name_tac).
  assert (M : fields (insert (u "units: ""math"" ")) [[(u "units", accep (u "math"))]])
    by (refine (fields_constant (u "units") (u "math") _ eq_refl eq_refl); name_tac).
  unfold Measure.final_graph, Measure.subgraph_decimal, Measure.subgraph_cardinal, Measure.decimal_dash_alpha, Measure.decimal_times,
    Measure.alpha_dash_decimal, Measure.subgraph_fraction, Measure.address_tag, Measure.math_tag, Measure.unit_plural_tag, Measure.unit_singular_tag,
    Measure.optional_graph_negative,
    Decimal.final_graph_wo_negative, Decimal.with_quantity, Decimal.get_quantity, Decimal.final_graph_wo_sign,
    Cardinal.optional_minus, Decimal.graph_integer, Decimal.graph_fractional, Fraction.graph, Fraction.integer_tag, Fraction.slash.
  rule_tac.
Qed.
Lemma money_ok : rule_ok (r_tagger Money.rule).
Proof.
  cbn [Money.rule r_tagger].
  unfold Money.final_graph, Money.graph_integer_only, Money.optional_zero_fraction, Money.graph_decimal, Money.graph_maj_singular, Money.graph_maj_plural,
    Decimal.final_graph_wo_negative_w_abbr, Decimal.with_quantity, Decimal.get_quantity, Decimal.final_graph_wo_sign,
    Cardinal.optional_minus, Decimal.graph_integer, Decimal.graph_fractional.
  rule_tac.
Qed.
Lemma telephone_ok : rule_ok (r_tagger Telephone.rule).
Proof.
  cbn [Telephone.rule r_tagger].
  unfold Telephone.graph, Telephone.graph0, Telephone.number_part, Telephone.country_code, Telephone.extension.
  rule_tac.
Qed.
Lemma electronic_ok : rule_ok (r_tagger Electronic.rule).
Proof.
  cbn [Electronic.rule r_tagger].
  unfold Electronic.graph, Electronic.username, Electronic.domain_tag, Electronic.protocol_tag.
  rule_tac.
Qed.
(** ** The date rule *)
(** Read with a space for the hyphen before the year. *)
Definition simul (e e' : fst) : Prop :=
  forall x y w, denote e x y w -> exists x' w', Forall2 hyphen_as_space x x' /\ denote e' x' y w'.
Lemma hyphen_same x : Forall2 hyphen_as_space x x.
Proof. induction x; constructor; auto. now left. Qed.
Lemma simul_refl e : simul e e.
Proof. intros x y w H. exists x, w. split; [apply hyphen_same|exact H]. Qed.
Lemma simul_cat a a' b b' : simul a a' -> simul b b' -> simul (a + b)%fst (a' + b')%fst.
Proof.
  intros A B x y w (x1 & y1 & w1 & x2 & y2 & w2 & -> & -> & -> & H1 & H2).
  destruct (A _ _ _ H1) as (x1' & w1' & F1 & D1). destruct (B _ _ _ H2) as (x2' & w2' & F2 & D2).
  exists (x1' ++ x2'), (w1' + w2')%Z. split; [now apply Forall2_app|now apply cat_i].
Qed.
Lemma simul_union a a' b b' : simul a a' -> simul b b' -> simul (a ∪ b)%fst (a' ∪ b')%fst.
Proof.
  intros A B x y w [H|H]; [destruct (A _ _ _ H) as (x' & w' & F & D)|destruct (B _ _ _ H) as (x' & w' & F & D)];
    exists x', w'; (split; [exact F|]); [now left|now right].
Qed.
Lemma simul_weight k a a' : simul a a' -> simul (Weight k a) (Weight k a').
Proof. intros A x y w (v & -> & H). destruct (A _ _ _ H) as (x' & w' & F & D). exists x', (w' + k)%Z. split; [exact F|]. now exists w'. Qed.
Lemma simul_hyphen g e : simul ((Cross (u "-") (u " ") + g) @ e)%fst ((Cross (u " ") (u " ") + g) @ e)%fst.
Proof.
  intros x y w (m & w1 & w2 & -> & (x1 & y1 & v1 & x2 & y2 & v2 & -> & -> & -> & (-> & -> & ->) & H1) & H2).
  exists (u " " ++ x2), (0 + v2 + w2)%Z. split; [apply Forall2_app; [|apply hyphen_same]; constructor; [right; split; reflexivity|constructor]|].
  exists (u " " ++ y2), (0 + v2)%Z, w2. split; [reflexivity|]. split; [|exact H2]. apply cat_i; [repeat split|exact H1].
Qed.
Definition graph_mdy' (ys : fst) : fst :=
  (Date.month_tag + ((DELETE_EXTRA_SPACE + Date.day_tag) ∪ (accep (u " ") + Date.day_tag) ∪ Date.graph_year ys
               ∪ (DELETE_EXTRA_SPACE + Date.day_tag + Date.graph_year ys))
  ∪ (Date.month_tag + Cross (u "-") (u " ") + Date.day_tag
     + ques ((Cross (u " ") (u " ") + VSIGMA) @ Date.graph_year ys))
  ∪ Date.separators (fun delete_sep =>
       Date.month_numbers_tag + delete_sep + INSERT_SPACE + Date.day_tag + delete_sep + INSERT_SPACE
       + Weight (-100000) (Date.year_tag ys)))%fst.
Definition structured_graph' (ys : fst) : fst :=
  (Weight (-10000) (graph_mdy' ys ∪ Date.graph_dmy ys ∪ Date.graph_ymd ys) ∪ Date.year_tag ys ∪ Date.graph_fy)%fst.
Lemma structured_simul ys : simul (Date.structured_graph ys) (structured_graph' ys).
Proof.
  unfold Date.structured_graph, structured_graph'. repeat (apply simul_union || apply simul_weight); try apply simul_refl.
  unfold Date.graph_mdy, graph_mdy'. repeat apply simul_union; try apply simul_refl.
  apply simul_cat; [apply simul_refl|]. unfold ques. apply simul_union; [|apply simul_refl]. apply simul_hyphen.
Qed.
Lemma date_ok ys : rule_ok (r_tagger (Date.rule ys)).
Proof.
  cbn [Date.rule r_tagger].
  assert (F : exists l, fields (structured_graph' ys) l /\ Forall (fun fs => NoDup (map (@Datatypes.fst text fst) fs)) l /\
    forallb (PropsShape.in_table en_tn_tokens) (named Date.name l) = true).
  { eexists. split; [|split].
    - unfold structured_graph', graph_mdy', Date.graph_dmy, Date.graph_ymd, Date.graph_fy, Date.separators, Date.day_ex_month,
        Date.graph_year, Date.year_tag, Date.month_tag, Date.month_numbers_tag, Date.day_tag. repeat field_step.
    - cbn [product flat_map map app]. nodup_tac.
    - lazy. reflexivity. }
  destruct F as (l & F & N & T). exists (named Date.name l). split; [exact T|].
  apply tokens1_reading with (e' := structured_graph' ys); [name_tac|EnItnShape.not_verbatim|exact (structured_simul ys)|exact F|exact N].
Qed.
(** ** Words and punctuation *)
Lemma word_chars x y w : denote (plus Word.char) x y w -> y = x /\ forallb Word.word_char x = true.
Proof.
  intro H. split; [exact (copies_sound (plus Word.char) eq_refl _ _ _ H)|].
  destruct H as (x1 & y1 & w1 & x2 & y2 & w2 & -> & -> & -> & (c & -> & _ & C & _) & H). cbn [app forallb]. rewrite C. clear C.
  cbn [denote] in H. induction H as [|x y w x' y' w' (d & -> & _ & C & _) S IH]; [reflexivity|]. cbn [app forallb]. now rewrite C.
Qed.
Lemma word_char_plain c : Word.word_char c = true -> plain c = true.
Proof. unfold Word.word_char, plain. rewrite !andb_true_iff. tauto. Qed.
Lemma plain_texts x : forallb plain x = true -> forallb vchar x = true /\ escaped x x.
Proof.
  induction x as [|c x IH]; [split; [reflexivity|constructor]|]. cbn [forallb]. rewrite andb_true_iff. intros (P & F).
  destruct (IH F) as (V & E). unfold plain in P. rewrite !andb_true_iff, !negb_true_iff, !N.eqb_neq in P. destruct P as ((Vc & B) & Q).
  rewrite Vc, V. split; [reflexivity|]. now constructor.
Qed.
Lemma vsigma_reads x : forallb vchar x = true -> exists z v, denote VSIGMA x z v.
Proof.
  unfold VSIGMA, VCHAR. cbn [denote]. induction x as [|c x IH]; [intros _; exists [], 0%Z; constructor|]. cbn [forallb]. rewrite andb_true_iff.
  intros (C & F). destruct (IH F) as (z & v & S). exists ([c] ++ z), (0 + v)%Z. apply (star_app _ [c] [c] 0%Z x z v); [|exact S]. now exists c.
Qed.
Lemma word_ok : rule_ok (r_tagger Word.rule).
Proof.
  cbn [Word.rule r_tagger]. exists (named Word.name [[(u "v", VSIGMA)]]). split; [lazy; reflexivity|].
  refine (tokens1_verbatim _ _ hyphen_refl Word.name (u "v") VSIGMA _ _ _ _ _); [name_tac|name_tac|EnItnShape.key_tac|].
  intros x y w _ H. apply word_chars in H as (-> & F).
  assert (P : forallb plain x = true) by (rewrite forallb_forall in *; intros c I; apply word_char_plain; auto).
  apply plain_texts in P as (V & E). split; [exact V|]. split; [now apply escaped_fun|now apply vsigma_reads].
Qed.

Lemma escaped_app v b v' b' : escaped v b -> escaped v' b' -> escaped (v ++ v') (b ++ b').
Proof. intros E E'. induction E; cbn [app]; [exact E'|now apply esc_plain|now apply esc_quote|now apply esc_bsl]. Qed.
(** The value is the text escaped, or has a "<" and is the text itself. *)
Definition marked (x y : text) : Prop := forallb vchar x = true /\ (escaped x y \/ (In 60%N x /\ y = x)).
Lemma punct_mark_plain c : Punctuation.punct_mark c = true -> plain c = true.
Proof.
  unfold Punctuation.punct_mark. rewrite andb_true_iff, orb_true_iff. intros (H & _). unfold plain. destruct H as [H|H].
  - unfold Punctuation.unicode_mark in H. apply andb_true_iff in H as (H & Nb).
    assert (V : vchar c = true).
    { apply existsb_exists in H as ((a & b) & I & R).
      assert (B : forallb (fun r : N * N => (0 <? Datatypes.fst r)%N && ((snd r <? 55296)%N || ((57343 <? Datatypes.fst r)%N && (snd r <=? 1114111)%N))) unicode_punct = true)
        by (vm_compute; reflexivity).
      rewrite forallb_forall in B. apply B in I. cbn [Datatypes.fst snd] in *. clear B Nb. unfold in_range in R. unfold vchar.
      rewrite !andb_true_iff, ?orb_true_iff, ?andb_true_iff, ?N.ltb_lt, ?N.leb_le in *. lia. }
    rewrite V. rewrite negb_true_iff in Nb. cbn [existsb] in Nb. rewrite !orb_false_iff in Nb. destruct Nb as (_ & _ & Q & B & _).
    now rewrite Q, B.
  - apply existsb_exists in H as (d & I & E). apply N.eqb_eq in E. subst d.
    exact (proj1 (forallb_forall plain Punctuation.ascii_marks) eq_refl c I).
Qed.
Lemma marks_spec x y w : denote Punctuation.marks x y w -> forallb vchar x = true /\ escaped x y.
Proof.
  assert (One : forall x y w, denote (Punctuation.punct ∪ Cross [92%N] [92; 92]%N ∪ Cross [34%N] [92; 34]%N)%fst x y w ->
    forallb vchar x = true /\ escaped x y).
  { clear. intros x y w [[(c & -> & -> & C & _)|(-> & -> & _)]|(-> & -> & _)].
    - apply plain_texts. cbn [forallb]. now rewrite (punct_mark_plain c C).
    - split; [reflexivity|apply esc_bsl, esc_nil].
    - split; [reflexivity|apply esc_quote, esc_nil]. }
  intros (x1 & y1 & w1 & x2 & y2 & w2 & -> & -> & -> & H & S). apply One in H as (V & E).
  assert (R : forallb vchar x2 = true /\ escaped x2 y2).
  { cbn [denote] in S. clear -S One. induction S as [|x y w x' y' w' H S (V & E)]; [split; [reflexivity|constructor]|].
    apply One in H as (V' & E'). rewrite forallb_app, V, V'. split; [reflexivity|now apply escaped_app]. }
  destruct R as (V' & E'). rewrite forallb_app, V, V'. split; [reflexivity|now apply escaped_app].
Qed.
Lemma tag_chars_valid x y w : denote (Star Punctuation.tag_char) x y w -> forallb vchar x = true.
Proof.
  cbn [denote]. induction 1 as [|x y w x' y' w' (c & -> & _ & C & _) S IH]; [reflexivity|]. cbn [app forallb].
  rewrite IH. rewrite !andb_true_iff in C. now destruct C as (((-> & _) & _) & _).
Qed.
Lemma tag_chars_valid1 x y w : denote (plus Punctuation.tag_char) x y w -> forallb vchar x = true.
Proof.
  intros (x1 & y1 & w1 & x2 & y2 & w2 & -> & _ & _ & (c & -> & _ & C & _) & S). cbn [app forallb].
  rewrite (tag_chars_valid _ _ _ S). rewrite !andb_true_iff in C. now destruct C as (((-> & _) & _) & _).
Qed.
Lemma emphasis_spec x y w : denote Punctuation.emphasis x y w -> forallb vchar x = true /\ In 60%N x /\ y = x.
Proof.
  intro H. assert (y = x) as -> by exact (copies_sound Punctuation.emphasis eq_refl _ _ _ H).
  destruct H as (x1 & y1 & w1 & x2 & y2 & w2 & -> & _ & _ & (x3 & y3 & w3 & x4 & y4 & w4 & -> & _ & _ & (-> & _) & H) & (-> & _)).
  split; [|split; [now left|reflexivity]]. rewrite !forallb_app. cbn [forallb]. apply andb_true_iff. split; [|reflexivity]. apply andb_true_iff. split; [reflexivity|].
  destruct H as [(x5 & y5 & w5 & x6 & y6 & w6 & -> & _ & _ & H & H')|(x5 & y5 & w5 & x6 & y6 & w6 & -> & _ & _ & (-> & _) & H)];
    rewrite forallb_app, (tag_chars_valid1 _ _ _ H); [|reflexivity].
  destruct H' as [(-> & _)|(-> & _)]; reflexivity.
Qed.
Lemma graph_marked x y w : denote Punctuation.graph x y w -> marked x y.
Proof.
  unfold Punctuation.graph, priority_union. intros [H|(m & w1 & w2 & _ & H1 & H2)].
  - apply emphasis_spec in H as (V & I & ->). split; auto.
  - apply (copies_sound (Except Punctuation.emphasis) eq_refl) in H1 as ->. apply marks_spec in H2 as (V & E). split; auto.
Qed.
Lemma spaces_copy x y w : denote Punctuation.spaces x y w -> y = x /\ forallb plain x = true.
Proof.
  intro H. split; [exact (copies_sound Punctuation.spaces eq_refl _ _ _ H)|]. unfold Punctuation.spaces in H. cbn [denote] in H.
  induction H as [|x y w x' y' w' (v & _ & (-> & _)) S IH]; [reflexivity|exact IH].
Qed.
Lemma punct_value x y w : tame x -> denote (Punctuation.spaces + Punctuation.tagger_punct + Punctuation.spaces)%fst x y w ->
  forallb vchar x = true /\ y = escape_value x.
Proof.
  intros T (x1 & y1 & w1 & x2 & y2 & w2 & -> & -> & -> & (x3 & y3 & w3 & x4 & y4 & w4 & -> & -> & -> & H1 & H2) & H3).
  apply spaces_copy in H1 as (-> & P1). apply spaces_copy in H3 as (-> & P3).
  apply plain_texts in P1 as (V1 & E1). apply plain_texts in P3 as (V3 & E3).
  assert (M : marked x4 y4).
  { destruct H2 as [H|(v & _ & (m & v1 & v2 & _ & H & H'))]; [exact (graph_marked _ _ _ H)|].
    apply (copies_sound (at_least VCHAR 2) eq_refl) in H as ->. exact (graph_marked _ _ _ H'). }
  destruct M as (V4 & M). rewrite !forallb_app, V1, V3, V4. split; [reflexivity|].
  assert (E4 : escaped x4 y4).
  { destruct M as [E|(I & ->)]; [exact E|].
    assert (~ In 34%N x4 /\ ~ In 92%N x4) as (Q & B).
    { unfold tame in T. rewrite !in_app_iff in T. tauto. }
    clear -Q B. induction x4 as [|c x IH]; [constructor|]. cbn in Q, B.
    constructor; [intros ->; tauto|intros ->; tauto|]. apply IH; tauto. }
  apply escaped_fun. now repeat apply escaped_app.
Qed.
Lemma tokens1_ext e e' A : (forall x y w, denote e x y w -> exists w', denote e' x y w') -> tokens1 e' A -> tokens1 e A.
Proof. intros X T x y w Dx H. destruct (X _ _ _ H) as (w' & H'). exact (T _ _ _ Dx H'). Qed.
Lemma punct_ok : rule_ok (r_tagger Punctuation.rule).
Proof.
  cbn [Punctuation.rule r_tagger]. exists (named Punctuation.name [[(u "v", VSIGMA)]]). split; [lazy; reflexivity|].
  eapply tokens1_ext with (e' := add_tokens Punctuation.name (insert (u "v" ++ u ": """)
    + (Punctuation.spaces + Punctuation.tagger_punct + Punctuation.spaces) + insert (u """"))%fst).
  - intros x y w (x1 & y1 & w1 & x2 & y2 & w2 & -> & -> & -> & (x3 & y3 & w3 & x4 & y4 & w4 & -> & -> & -> & H3 &
      (x5 & y5 & w5 & x6 & y6 & w6 & -> & -> & -> & (x7 & y7 & w7 & x8 & y8 & w8 & -> & -> & -> &
        (x9 & y9 & w9 & xa & ya & wa & -> & -> & -> & (xb & yb & wb & xc & yc & wc & -> & -> & -> & Hb & Hc) & Ha) & H8) & H6)) & H2).
    exists (w3 + (wb + (wc + wa + w8) + w6) + w2)%Z.
    replace ((x3 ++ (((xb ++ xc) ++ xa) ++ x8) ++ x6) ++ x2) with ((x3 ++ (xb ++ ((xc ++ xa) ++ x8)) ++ x6) ++ x2) by now rewrite <- !app_assoc.
    replace ((y3 ++ (((yb ++ yc) ++ ya) ++ y8) ++ y6) ++ y2) with ((y3 ++ (yb ++ ((yc ++ ya) ++ y8)) ++ y6) ++ y2) by now rewrite <- !app_assoc.
    unfold add_tokens. repeat (apply cat_i; try assumption).
  - refine (tokens1_verbatim _ _ hyphen_refl Punctuation.name (u "v") VSIGMA _ _ _ _ _); [name_tac|name_tac|EnItnShape.key_tac|].
    intros x y w Dx H. destruct (punct_value x y w Dx H) as (V & E). split; [exact V|]. split; [exact E|now apply vsigma_reads].
Qed.

(** ** The tagger *)
Lemma rules_together l : Forall rule_ok l -> exists A, forallb (PropsShape.in_table en_tn_tokens) A = true /\ Forall (fun e => tokens1 e A) l.
Proof.
  induction 1 as [|e l (B & Tb & E) F (A & Ta & IH)]; [exists []; split; [reflexivity|constructor]|].
  exists (B ++ A). split; [now rewrite forallb_app, Tb, Ta|]. constructor.
  - eapply tokens1_more; [|exact E]. now apply incl_appl.
  - eapply Forall_impl; [|exact IH]. intros a. apply tokens1_more. now apply incl_appr.
Qed.
Lemma rule_weight k e : rule_ok e -> rule_ok (Weight k e).
Proof. intros (A & T & E). exists A. split; [exact T|now apply tokens1_weight]. Qed.
Lemma rules_ok ys : Forall rule_ok (punct_tagger :: taggers (rules ys)).
Proof.
  unfold taggers, rules, punct_tagger. cbn [flat_map s_weight s_rule app].
  repeat (constructor; [apply rule_weight|]); [..|constructor];
    [exact punct_ok|exact cardinal_ok|exact ordinal_ok|exact word_ok|exact (date_ok ys)|exact decimal_ok|exact fraction_ok|exact time_ok
    |exact measure_ok|exact money_ok|exact telephone_ok|exact electronic_ok|exact serial_ok|exact whitelist_ok|exact (range_ok ys)].
Qed.
Lemma delete_space_gap x y w : denote DELETE_SPACE x y w -> Forall white x /\ exists n, y = repeat 32%N n.
Proof.
  unfold DELETE_SPACE. cbn [denote]. induction 1 as [|x y w x' y' w' (-> & z & c & -> & _ & C & _) S (W & n & ->)]; [split; [constructor|now exists 0]|].
  split; [|now exists n]. constructor; [now apply white_space|exact W].
Qed.
Lemma erase_space_gap x y w : denote (Erase SPACE) x y w -> Forall white x /\ exists n, y = repeat 32%N n.
Proof.
  intros (-> & z & c & -> & _ & C & _). split; [|now exists 0]. constructor; [now apply white_space|constructor].
Qed.
Theorem en_tn_lays ys t : tagger ys = Some t ->
  exists A, forallb (PropsShape.in_table en_tn_tokens) A = true /\ lays A true t.
Proof.
  unfold tagger. destruct (tagger_union (rules ys)) as [e|] eqn:E; [|discriminate]. intros [= <-].
  destruct (rules_together _ (rules_ok ys)) as (A & T & F). exists A. split; [exact T|].
  pose proof (Forall_inv F) as P. pose proof (Forall_inv_tail F) as R. cbv beta in P.
  assert (C : lays A true e) by exact (lays_one _ _ _ _ (tokens1_union _ _ _ _ R _ E)).
  assert (Pu : lays A true punct_tagger) by exact (lays_one _ _ _ _ P).
  assert (Ds : lays A false DELETE_SPACE) by exact (lays_gap _ _ _ _ delete_space_gap).
  assert (Sp : lays A false (Erase SPACE)) by exact (lays_gap _ _ _ _ erase_space_gap).
  assert (Ps : lays A false (Star punct_tagger)) by exact (lays_star _ _ tame_app _ _ _ Pu).
  assert (To : lays A true (Star punct_tagger + e + Star punct_tagger)%fst)
    by exact (lays_cat _ _ tame_app _ _ _ true false (lays_cat _ _ tame_app _ _ _ false true Ps C) Ps).
  assert (Se : lays A false (Erase SPACE ∪ punct_tagger)%fst) by (apply lays_union; [exact Sp|exact (lays_weak _ _ _ _ _ Pu)]).
  unfold tagger_of. apply lays_compose_trim, lays_union; [|exact Pu].
  refine (lays_cat _ _ tame_app _ _ _ true false _ Ds). refine (lays_cat _ _ tame_app _ _ _ true false _ _).
  - exact (lays_cat _ _ tame_app _ _ _ false true Ds To).
  - exact (lays_star _ _ tame_app _ _ _ (lays_cat _ _ tame_app _ _ _ false true Se To)).
Qed.
