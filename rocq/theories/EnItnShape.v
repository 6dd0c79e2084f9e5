(** The tokens the English inverse normalisation grammar writes. *)
From Coq Require Import List NArith ZArith Bool String Lia.
From Verif Require Import Text TextFacts TokenModel TokenSpec.
From Verif Require Import Fst GrammarModel GrammarSpec FstFacts ShapeSpec GrammarShape SpacedShape EnItnModel.
Import ListNotations.
Local Open Scope list_scope.

Definition f (key : string) (g : fst) : field_shape := (u key, g).
Definition f_true := f "preserve_order" (accep (u "true")).
Definition date_shapes := named Date.name
  (let month := f "month" Date.g_month in let day := f "day" Date.day_graph in let year := f "year" Date.g_year in
   let the_day := f "day" Date.day_dmy in
   [ [month; day; year; f_true]; [month; day; f_true]; [month; year; f_true]; [the_day; month; year; f_true];
     [the_day; month; f_true]; [year; f_true]; [f "year" Date.year_decade; f_true];
     [f "day" Date.day_quarter; year; f_true]; [f "day" Date.day_half; year; f_true]; [f "year" Date.year_bc; f_true];
     [f "year" Date.year_century; f_true]; [f "year" Date.year_millennium; f_true] ]).
Definition time_shapes := named Time.name
  (let hour := f "hour" Time.g_hour in let noon := f "noon" Time.g_noon in let zone := f "zone" Time.g_zone in
   let to := f "hour" Time.g_hour_to in let style := f "style" (accep (u "to")) in
   [ [hour; f "minute" Time.g_oclock; zone]; [hour; f "minute" Time.g_oclock]; [hour; f "minute" Time.o_single];
     [hour; f "minute" (accep []); noon; zone]; [hour; f "minute" (accep []); noon];
     [hour; f "minute" Time.min_double; noon; zone]; [hour; f "minute" Time.min_double; noon];
     [f "hour" Time.hour_12; f "minute" Time.min_double];
     [hour; f "minute" Time.o_single; noon; zone]; [hour; f "minute" Time.o_single; noon];
     [f "minute" Time.g_past; hour]; [f "minute" Time.g_quarter_to; to; style];
     [f "minute" Time.g_min_to; to; noon; style] ]).
Definition measure_shapes := named Measure.name [[f "value" Measure.g_value; f "units" Measure.g_units]].
Definition money_shapes := named Money.name
  (let many := f "currency" Money.currency_plural in let quantity := f "quantity" Money.magnitude in
   [ [f "value" Money.cardinal_plural; many]; [f "value" Money.one; f "currency" Money.currency_singular];
     [f "value" Cardinal.up_to_999; quantity; many]; [f "value" Money.decimal_value; quantity; many];
     [f "value" Money.decimal_value; many]; [f "value" Money.decimal_no_int_value; many];
     [f "value" Cardinal.graph; many; f "decimal" Money.decimal_with_cents];
     [f "value" Cardinal.graph; many; f "decimal" Money.cents_graph];
     [f "currency" (insert (u "$")); f "decimal" Money.cents_only_decimal] ]).
Definition telephone_shapes := named Telephone.name
  (let cc := f "country_code" Telephone.country_code in
   let kind k := f "kind" (accep (u k)) in
   [ [cc; f "number_part" Telephone.phone; kind "phone"]; [f "number_part" Telephone.phone; kind "phone"];
     [f "number_part" Telephone.ssn; kind "ssn"]; [f "number_part" Telephone.ip; kind "ip"];
     [cc; f "number_part" Telephone.credit_card; kind "credit_card"];
     [f "number_part" Telephone.credit_card; kind "credit_card"];
     [f "number_part" Telephone.serial; kind "serial"] ]%string).
Definition electronic_shapes := named Electronic.name
  [ [f "username" Electronic.component; f "domain" Electronic.g_domain]; [f "protocol" Electronic.g_protocol] ].
Definition ordinal_shapes := named Ordinal.name [[f "integer" Ordinal.graph]].
Definition decimal_shapes := named Decimal.name
  (let neg := f "negative" Decimal.negative in let int := f "integer_part" Decimal.integer in
   let frac := f "fractional_part" Decimal.fractional in let quantity := f "quantity" Decimal.quantity in
   let small := f "integer_part" Cardinal.up_to_999 in let large := f "quantity" Decimal.quantity_no_thousand in
   [ [neg; int; frac]; [neg; frac]; [int; frac]; [frac]; [neg; int; frac; quantity]; [int; frac; quantity];
     [neg; small; large]; [small; large] ]).
Definition cardinal_shapes := named Cardinal.name
  [ [f "negative" Cardinal.negative; f "integer" Cardinal.integer]; [f "integer" Cardinal.integer] ].
Definition value_shapes (name : text) (g : fst) := named name [[f "value" g]].
Definition whitelist_shapes := value_shapes Whitelist.name Whitelist.graph.
Definition word_shapes := value_shapes Word.name (plus Word.valid_char).
Definition char_shapes := value_shapes Char.name VCHAR.
Definition punct_shapes := value_shapes Punctuation.name Punctuation.punct.
Definition en_itn_shapes : list token_shape :=
  date_shapes ++ time_shapes ++ measure_shapes ++ money_shapes ++ whitelist_shapes ++ telephone_shapes ++
  electronic_shapes ++ ordinal_shapes ++ decimal_shapes ++ cardinal_shapes ++ word_shapes ++ char_shapes ++ punct_shapes.

(** Every text, each character read as itself. *)
Definition any (x : text) : Prop := True.
Lemma any_app x y : any (x ++ y) -> any x /\ any y.
Proof. split; exact I. Qed.
Notation tokens1 := (SpacedShape.tokens1 any eq).
Notation lays := (SpacedShape.lays any eq).
Ltac plain_tac := vm_compute; intros H; repeat (destruct H as [<-|H]; [split; discriminate|]); destruct H.
Ltac valid_tac := apply vtext_spec; vm_compute; reflexivity.
Lemma mark_true : fields (insert (u " preserve_order: ""true""")) [[f_true]].
Proof. refine (fields_inserted 1 (u "true") _ _); [valid_tac|]. intros c; plain_tac. Qed.
Lemma mark_kind k : forallb plain (u k) = true ->
  fields (insert (u " kind: """ ++ u k ++ u """")) [[f "kind" (accep (u k))]].
Proof.
  intros P. refine (fields_mark 1 (u "kind") (u k) _ eq_refl _ _).
  - name_tac.
  - apply vtext_spec. rewrite forallb_forall in P |- *. intros c I. apply P in I. unfold plain in I.
    now rewrite !andb_true_iff in I.
  - intros c I. rewrite forallb_forall in P. apply P in I. unfold plain in I.
    rewrite !andb_true_iff, !negb_true_iff, !N.eqb_neq in I. tauto.
Qed.
Lemma mark_style : fields (insert (u " style: ""to""")) [[f "style" (accep (u "to"))]].
Proof. refine (fields_mark 1 (u "style") (u "to") _ eq_refl _ _); [name_tac|valid_tac|]. intros c; plain_tac. Qed.
Lemma mark_minute : fields (insert (u " minute: """"")) [[f "minute" (accep [])]].
Proof. refine (fields_blank 1 (u "minute") _). name_tac. Qed.
Ltac not_verbatim := let key := fresh in let H := fresh in
  intros key H; vm_compute in H; repeat (destruct H as [H|H]; [discriminate|]); destruct H.
Ltac one_tac :=
  eapply tokens1_more; [|apply tokens1_i; [reflexivity|name_tac|not_verbatim|field_tac|cbn [product flat_map map app]; nodup_tac]]; incl_tac.
Lemma date_one : tokens1 (r_tagger Date.rule) date_shapes.
Proof.
  cbn [Date.rule r_tagger]. pose proof mark_true.
  unfold Date.date, Date.mdy, Date.md, Date.my, Date.dmy, Date.dm, Date.y, Date.decade, Date.quarter, Date.half, Date.y_bc,
    Date.century, Date.millennium, Date.month, Date.day, Date.year, Date.po, ds, date_shapes, f.
  one_tac.
Qed.
Lemma time_one : tokens1 (r_tagger Time.rule) time_shapes.
Proof.
  cbn [Time.rule r_tagger]. pose proof mark_style. pose proof mark_minute.
  unfold Time.time, Time.hour, Time.minute, Time.suffix, Time.zone_opt, Time.style, ds, time_shapes, f. one_tac.
Qed.
Lemma measure_one : tokens1 (r_tagger Measure.rule) measure_shapes.
Proof. cbn [Measure.rule r_tagger]. unfold measure_shapes, ds, f. one_tac. Qed.
Lemma money_one : tokens1 (r_tagger Money.rule) money_shapes.
Proof. cbn [Money.rule r_tagger]. unfold Money.money, Money.value, Money.currency, Money.quantity, money_shapes, ds, f. one_tac. Qed.
Lemma telephone_one : tokens1 (r_tagger Telephone.rule) telephone_shapes.
Proof.
  cbn [Telephone.rule r_tagger].
  pose proof (mark_kind "phone" eq_refl). pose proof (mark_kind "ssn" eq_refl). pose proof (mark_kind "ip" eq_refl).
  pose proof (mark_kind "credit_card" eq_refl). pose proof (mark_kind "serial" eq_refl).
  unfold Telephone.graph, Telephone.optional_cc, Telephone.number_field, telephone_shapes, ds, f. one_tac.
Qed.
Lemma electronic_one : tokens1 (r_tagger Electronic.rule) electronic_shapes.
Proof. cbn [Electronic.rule r_tagger]. unfold electronic_shapes, ds, f. one_tac. Qed.
Lemma ordinal_one : tokens1 (r_tagger Ordinal.rule) ordinal_shapes.
Proof. cbn [Ordinal.rule r_tagger]. unfold ordinal_shapes, f. one_tac. Qed.
Lemma decimal_one : tokens1 (r_tagger Decimal.rule) decimal_shapes.
Proof.
  cbn [Decimal.rule r_tagger].
  unfold Decimal.graph, Decimal.quantity_graph, Decimal.cardinal_quantity, Decimal.optional_negative,
    Decimal.integer_part, Decimal.frac_part, decimal_shapes, ds, f. one_tac.
Qed.
Lemma cardinal_one : tokens1 (r_tagger Cardinal.rule) cardinal_shapes.
Proof. cbn [Cardinal.rule r_tagger]. unfold cardinal_shapes, ds, f. one_tac. Qed.
Lemma whitelist_one : tokens1 (r_tagger Whitelist.rule) whitelist_shapes.
Proof. cbn [Whitelist.rule r_tagger]. unfold whitelist_shapes, value_shapes, f. one_tac. Qed.
Lemma valid_char_spec x y w : denote (Star Word.valid_char) x y w -> forallb vchar x = true /\ y = x /\ escape_value x = x.
Proof.
  cbn [denote]. induction 1 as [|x y w x' y' w' (c & -> & -> & C & _) S (V & -> & E)]; [auto|].
  rewrite !andb_true_iff, !negb_true_iff in C. destruct C as (((Vc & _) & Q) & B).
  split; [cbn; now rewrite Vc|]. split; [reflexivity|]. cbn [app]. rewrite escape_step, Q, B, E. reflexivity.
Qed.
Ltac key_tac := let k := fresh in let H := fresh in
  intros k H; vm_compute in H; repeat (destruct H as [H|H]; [now injection H|]); destruct H.
Lemma word_one : tokens1 (r_tagger Word.rule) word_shapes.
Proof.
  cbn [Word.rule r_tagger]. unfold word_shapes. apply tokens1_verbatim with (key := u "value"); [reflexivity|name_tac|name_tac|key_tac|]. intros x y w _ H.
  pose proof H as (x1 & y1 & w1 & x2 & y2 & w2 & -> & -> & -> & H1 & H2).
  destruct (valid_char_spec (x1 ++ x2) (y1 ++ y2) (w1 + w2)%Z) as (V & E & Es); [exact (star_app _ _ _ _ _ _ _ H1 H2)|].
  split; [exact V|]. split; [now rewrite Es|]. eauto.
Qed.
Lemma char_one : tokens1 (r_tagger Char.rule) char_shapes.
Proof.
  cbn [Char.rule r_tagger]. apply tokens1_verbatim with (key := u "value"); [reflexivity|name_tac|name_tac|key_tac|]. intros x y w _ C.
  apply char_inv in C as (c & -> & V & -> & E). split; [cbn; now rewrite V|]. split.
  - now rewrite escape_step, app_nil_r.
  - exists [c], 0%Z, c. auto.
Qed.
Lemma punct_one : tokens1 (r_tagger Punctuation.rule) punct_shapes.
Proof.
  cbn [Punctuation.rule r_tagger]. apply tokens1_verbatim with (key := u "value"); [reflexivity|name_tac|name_tac|key_tac|]. intros x y w _ H.
  pose proof H as (c & -> & -> & C & ->). apply existsb_exists in C as (d & I & E). apply N.eqb_eq in E. subst d.
  split; [|split].
  - cbn [forallb]. rewrite andb_true_r.
    exact (proj1 (forallb_forall vchar Punctuation.marks) eq_refl c I).
  - assert (P : plain c = true) by exact (proj1 (forallb_forall plain Punctuation.marks) eq_refl c I).
    unfold plain in P. rewrite !andb_true_iff, !negb_true_iff in P. destruct P as ((_ & B) & Q).
    now rewrite escape_step, B, Q.
  - eauto.
Qed.
Ltac part := unfold en_itn_shapes; intros ? I; rewrite ?in_app_iff in I; rewrite !in_app_iff; tauto.
Ltac more L := eapply tokens1_more; [|exact L]; part.
Lemma rules_one : Forall (fun e => tokens1 e en_itn_shapes) (taggers rules).
Proof.
  unfold taggers, rules. cbn [flat_map app s_weight s_rule].
  repeat (apply Forall_cons; [apply tokens1_weight|]); [..|apply Forall_nil].
  - more date_one.
  - more time_one.
  - more measure_one.
  - more money_one.
  - more whitelist_one.
  - more telephone_one.
  - more electronic_one.
  - more ordinal_one.
  - more decimal_one.
  - more cardinal_one.
  - more word_one.
  - more char_one.
Qed.
Lemma des_gap x y w : denote DELETE_EXTRA_SPACE x y w -> Forall white x /\ exists n, y = repeat 32%N n.
Proof.
  intros (x1 & y1 & w1 & x2 & y2 & w2 & -> & -> & _ & (-> & z & H) & (-> & -> & _)). rewrite app_nil_r.
  split; [exact (plus_white _ _ _ H)|now exists 1].
Qed.
Lemma sentence_lays e : tokens1 e en_itn_shapes -> lays en_itn_shapes true (sentence e).
Proof.
  intro E. assert (P : lays en_itn_shapes true punct).
  { apply lays_one, tokens1_weight. more punct_one. }
  assert (D : lays en_itn_shapes false ds) by (apply lays_gap; exact ds_gap).
  assert (Q : lays en_itn_shapes false (ques ds)) by (apply lays_gap; exact (ques_gap _ ds_gap)).
  assert (T : lays en_itn_shapes true (token e)).
  { unfold token. refine (lays_cat _ _ any_app _ _ _ true false _ _).
    - refine (lays_cat _ _ any_app _ _ _ false true _ (lays_one _ _ _ _ E)). eapply (lays_star _ _ any_app). exact (lays_cat _ _ any_app _ _ _ _ _ P Q).
    - eapply (lays_star _ _ any_app). exact (lays_cat _ _ any_app _ _ _ _ _ Q P). }
  unfold sentence. refine (lays_cat _ _ any_app _ _ _ true false _ (lays_star _ _ any_app _ _ _ D)).
  refine (lays_cat _ _ any_app _ _ _ false true (lays_star _ _ any_app _ _ _ D) _).
  refine (lays_cat _ _ any_app _ _ _ true false T _). eapply (lays_star _ _ any_app).
  exact (lays_cat _ _ any_app _ _ _ false true (lays_gap _ _ _ _ des_gap) T).
Qed.
Theorem en_itn_lays t : tagger = Some t -> lays en_itn_shapes true t.
Proof.
  unfold tagger. destruct (tagger_union rules) as [e|] eqn:E; [|discriminate]. intros [= <-].
  apply sentence_lays. exact (tokens1_union _ _ _ _ rules_one _ E).
Qed.
Lemma en_itn_writes t x y w : tagger = Some t -> denote t x y w -> writes en_itn_shapes x y.
Proof.
  intros E H o. destruct (lays_writes _ _ (fun c => eq_refl) _ _ _ _ _ (en_itn_lays t E) I H o) as (ts & S & N & F & x' & Al & W).
  exists ts. split; [exact S|]. split; [exact N|]. split; [exact F|]. replace x with x'; [exact W|].
  clear -Al. induction Al as [|c d x x' -> A IH]; [reflexivity|]. now rewrite IH.
Qed.
