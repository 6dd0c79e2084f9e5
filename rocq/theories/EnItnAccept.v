(** The English inverse normalisation grammar verbalises the tokens it writes. *)
From Coq Require Import List NArith ZArith Bool String Lia.
From Verif Require Import Text TextFacts TokenModel TokenSpec PipelineModel.
From Verif Require Import Fst GrammarModel GrammarSpec FstFacts FstRun ShapeSpec GrammarShape GrammarAccept.
From Verif Require Import SpacedShape EnItnModel EnItnShape.
Import ListNotations.
Local Open Scope list_scope.

Notation os := en_itn_token_orders.
(** ** Reading a token from left to right *)
Definition ate (e : fst) (t rest : text) : Prop := exists s, t = s ++ rest /\ accepts e s.
Lemma ate_cat a b t m rest : ate a t m -> ate b m rest -> ate (a + b)%fst t rest.
Proof.
  intros (s & -> & A) (s' & -> & B). exists (s ++ s'). split; [apply app_assoc|now apply acc_cat].
Qed.
Lemma ate_delete lit t rest : t = lit ++ rest -> ate (delete lit) t rest.
Proof. intros ->. exists lit. split; [reflexivity|apply acc_delete]. Qed.
Lemma ate_insert lit t : ate (insert lit) t t.
Proof. exists []. split; [reflexivity|apply acc_insert]. Qed.
Lemma ate_none a t : ate (ques a) t t.
Proof. exists []. split; [reflexivity|apply acc_none]. Qed.
Lemma ate_some a t rest : ate a t rest -> ate (ques a) t rest.
Proof. intros (s & E & A). exists s. split; [exact E|now apply acc_some]. Qed.
Lemma ate_left a b t rest : ate a t rest -> ate (a ∪ b)%fst t rest.
Proof. intros (s & E & A). exists s. split; [exact E|now apply acc_left]. Qed.
Lemma ate_right a b t rest : ate b t rest -> ate (a ∪ b)%fst t rest.
Proof. intros (s & E & A). exists s. split; [exact E|now apply acc_right]. Qed.
Lemma ate_field key g (sp : bool) v e t rest :
  t = (if sp then u " " else []) ++ key ++ u ": """ ++ e ++ u """" ++ rest -> escape_value v = e -> reads g v ->
  ate (verbalize_field key (Some g) sp) t rest.
Proof.
  intros -> <- R. exists ((if sp then u " " else []) ++ key ++ u ": """ ++ escape_value v ++ u """").
  split; [now rewrite <- !app_assoc|now apply acc_vfield].
Qed.
Lemma ate_value key g (sp : bool) v e t rest :
  t = (if sp then u " " else []) ++ key ++ u ": """ ++ e ++ u """" ++ rest -> escape_value v = e -> reads g v ->
  ate (verbalize_field key None sp) t rest.
Proof.
  intros -> <- R. exists ((if sp then u " " else []) ++ key ++ u ": """ ++ escape_value v ++ u """").
  split; [now rewrite <- !app_assoc|now apply acc_vvalue, R].
Qed.
Lemma ate_no_space t : ate DELETE_SPACE t t.
Proof. exists []. split; [reflexivity|]. exists [], 0%Z. constructor. Qed.
Lemma ate_space t rest : t = u " " ++ rest -> ate DELETE_SPACE t rest.
Proof.
  intros ->. exists (u " "). split; [reflexivity|].
  exists [], 0%Z. apply (star_app _ (u " ") [] 0%Z [] [] 0%Z); [|constructor].
  split; [reflexivity|]. exists (u " "), 32%N. auto.
Qed.
Lemma ate_token name body s t : s = name ++ u " { " ++ t -> ate body t (u " }") -> tok_accepts (delete_tokens name body) s.
Proof. intros -> (b & -> & A). eapply tok_tokens; [exact A|reflexivity]. Qed.
Lemma reads_insert t : reads (insert t) [].
Proof. split; [constructor|apply acc_insert]. Qed.
(** A value read by one side of a union. *)
Ltac rd :=
  multimatch goal with
  | H : reads ?g _ |- reads ?g _ => exact H
  | |- reads (insert _) [] => apply reads_insert
  | |- reads (Union _ _) _ => apply reads_left; rd
  | |- reads (Union _ _) _ => apply reads_right; rd
  end.
Ltac same := lazy; reflexivity.
Ltac eat :=
  multimatch goal with
  | |- ate DELETE_SPACE _ _ => apply ate_no_space
  | |- ate DELETE_SPACE _ _ => eapply ate_space; same
  | |- ate (verbalize_field _ (Some _) _) _ _ => eapply ate_field; [same|eassumption|rd]
  | |- ate (verbalize_field _ None _) _ _ => eapply ate_value; [same|eassumption|eassumption]
  | |- ate (Cat _ _) _ _ => eapply ate_cat; [eat|eat]
  | |- ate (delete _) _ _ => eapply ate_delete; same
  | |- ate (insert _) _ _ => apply ate_insert
  | |- ate (ques _) _ _ => apply ate_some; eat
  | |- ate (ques _) _ _ => apply ate_none
  | |- ate (Union _ _) _ _ => apply ate_left; eat
  | |- ate (Union _ _) _ _ => apply ate_right; eat
  end.
Ltac shapes := repeat apply Forall_cons; [..|apply Forall_nil]; unfold f; members; fixed; lay os.
Ltac literals :=
  repeat match goal with |- context [escape_value (u ?s)] =>
    let r := eval vm_compute in (escape_value (u s)) in change (escape_value (u s)) with r end;
  repeat match goal with |- context [escape_value ?v] =>
    let e := fresh "e" in let E := fresh "E" in remember (escape_value v) as e eqn:E; symmetry in E end.
Ltac token_tac := eapply ate_token; [rewrite <- ?app_assoc; same|eat].
Lemma date_ok : Forall (shape_ok os (r_verbalizer Date.rule)) date_shapes.
Proof.
  unfold date_shapes, named, f_true. cbn [map Date.rule r_verbalizer]. shapes; literals;
  unfold Date.verbalizer, Date.optional_day, Date.optional_year, Date.v_month, Date.v_day, Date.v_year, Date.delete_po,
    Date.g_day, Date.g_years; token_tac.
Qed.
Lemma hour_12_ok v : reads Time.hour_12 v -> reads Time.g_hour v.
Proof. apply reads_right. Qed.
Lemma time_ok : Forall (shape_ok os (r_verbalizer Time.rule)) time_shapes.
Proof.
  unfold time_shapes, named. cbn [map Time.rule r_verbalizer]. shapes; literals;
  repeat match goal with R : reads Time.hour_12 _ |- _ => apply hour_12_ok in R end;
  unfold Time.v_regular, Time.v_to, Time.rest, Time.g_minutes, Time.g_minute; token_tac.
Qed.
Lemma measure_ok : Forall (shape_ok os (r_verbalizer Measure.rule)) measure_shapes.
Proof. unfold measure_shapes, named. cbn [map Measure.rule r_verbalizer]. shapes; literals; token_tac. Qed.
Lemma money_ok : Forall (shape_ok os (r_verbalizer Money.rule)) money_shapes.
Proof.
  unfold money_shapes, named. cbn [map Money.rule r_verbalizer]. shapes; literals;
  unfold Money.verbalizer, Money.v_currency, Money.v_decimal, Money.g_value, Money.g_currency, Money.g_decimal; token_tac.
Qed.
Lemma telephone_ok : Forall (shape_ok os (r_verbalizer Telephone.rule)) telephone_shapes.
Proof.
  unfold telephone_shapes, named. cbn [map Telephone.rule r_verbalizer]. shapes; literals;
  unfold Telephone.verbalizer, Telephone.v_kind; token_tac.
Qed.
Lemma electronic_ok : Forall (shape_ok os (r_verbalizer Electronic.rule)) electronic_shapes.
Proof. unfold electronic_shapes, named. cbn [map Electronic.rule r_verbalizer]. shapes; literals; token_tac. Qed.
Lemma large_ok v : reads Decimal.quantity_no_thousand v -> reads Decimal.quantity v.
Proof.
  intros (V & z & w & I & E). split; [exact V|]. exists z, w. split; [|exact E].
  apply in_map_iff in I as (t & Et & I). apply filter_In in I as (I & _). apply in_map_iff. eauto.
Qed.
Lemma decimal_ok : Forall (shape_ok os (r_verbalizer Decimal.rule)) decimal_shapes.
Proof.
  unfold decimal_shapes, named. cbn [map Decimal.rule r_verbalizer]. shapes; literals;
  repeat match goal with R : reads Decimal.quantity_no_thousand _ |- _ => apply large_ok in R end;
  unfold Decimal.verbalizer; token_tac.
Qed.
Lemma cardinal_ok : Forall (shape_ok os (r_verbalizer Cardinal.rule)) cardinal_shapes.
Proof. unfold cardinal_shapes, named. cbn [map Cardinal.rule r_verbalizer]. shapes; literals; token_tac. Qed.
Lemma whitelist_ok : Forall (shape_ok os (r_verbalizer Whitelist.rule)) whitelist_shapes.
Proof. unfold whitelist_shapes, value_shapes, named. cbn [map Whitelist.rule r_verbalizer]. shapes; literals; token_tac. Qed.
Lemma word_ok : Forall (shape_ok os (r_verbalizer Word.rule)) word_shapes.
Proof.
  unfold word_shapes, value_shapes, named. cbn [map Word.rule r_verbalizer]. unfold build_verbalizer.
  shapes; literals; token_tac.
Qed.
Lemma char_ok : Forall (shape_ok os (r_verbalizer Char.rule)) char_shapes.
Proof.
  unfold char_shapes, value_shapes, named. cbn [map Char.rule r_verbalizer]. unfold build_verbalizer.
  shapes; literals; token_tac.
Qed.
Lemma punct_ok : Forall (shape_ok os (r_verbalizer Punctuation.rule)) punct_shapes.
Proof.
  unfold punct_shapes, value_shapes, named. cbn [map Punctuation.rule r_verbalizer]. unfold build_verbalizer.
  shapes; literals; token_tac.
Qed.
(** The suffix of an ordinal: every text takes one. *)
Lemma vsigma_i x : forallb vchar x = true -> denote VSIGMA x x 0%Z.
Proof.
  induction x as [|c x IH]; [constructor|]. cbn [forallb]. rewrite andb_true_iff. intros (Vc & V).
  apply (star_app _ [c] [c] 0%Z x x 0%Z); [exists c; auto|exact (IH V)].
Qed.
Lemma last_not_nil l : accepts (Ordinal.last_not l) [].
Proof. exists [], 0%Z. left. repeat split. Qed.
Lemma last_not_snoc l x c : forallb vchar x = true -> vchar c = true -> existsb (N.eqb c) l = false ->
  accepts (Ordinal.last_not l) (x ++ [c]).
Proof.
  intros V Vc E. exists (x ++ [c]), (0 + 0)%Z. right. apply cat_i; [now apply vsigma_i|].
  exists c. rewrite Vc, E. auto.
Qed.
Lemma acc_cross x y : accepts (Cross x y) x.
Proof. exists y, 0%Z. repeat split. Qed.
Lemma snoc_cases {A} (x : list A) : x = [] \/ exists r c, x = r ++ [c].
Proof. destruct x as [|a x]; [auto|right]. destruct (@exists_last _ (a :: x)) as (r & c & ->); [discriminate|eauto]. Qed.
Lemma suffix_total x : forallb vchar x = true -> accepts Ordinal.add_suffix x.
Proof.
  intro V. unfold Ordinal.add_suffix.
  assert (Th : forall t, accepts (Ordinal.last_not [49; 50; 51]%N) t ->
    accepts (Ordinal.last_not [49; 50; 51]%N + Weight 100 (insert (u "th")))%fst t).
  { intros t H. rewrite <- (app_nil_r t). apply acc_cat; [exact H|]. apply acc_weight, acc_insert. }
  destruct (snoc_cases x) as [->|(r & c & ->)]; [apply acc_right, Th, last_not_nil|].
  rewrite forallb_app in V. cbn [forallb] in V. rewrite andb_true_r in V. apply andb_true_iff in V as (Vr & Vc).
  destruct (existsb (N.eqb c) [49; 50; 51]%N) eqn:E; [|now apply acc_right, Th, last_not_snoc].
  assert (C : c = 49%N \/ c = 50%N \/ c = 51%N).
  { cbn [existsb] in E. rewrite !orb_true_iff, !N.eqb_eq in E. destruct E as [E|[E|[E|E]]]; auto. discriminate. }
  clear E Vc. apply acc_left.
  destruct (snoc_cases r) as [->|(r' & d & ->)].
  - apply acc_right. apply acc_cat; [apply last_not_nil|].
    destruct C as [->|[->| ->]]; [apply acc_left, acc_left|apply acc_left, acc_right|apply acc_right]; apply acc_cross.
  - rewrite forallb_app in Vr. cbn [forallb] in Vr. rewrite andb_true_r in Vr. apply andb_true_iff in Vr as (Vr & Vd).
    destruct (N.eqb_spec d 49) as [->|D].
    + apply acc_left. rewrite <- app_assoc. apply acc_cat; [eexists; eexists; now apply vsigma_i|].
      destruct C as [->|[->| ->]]; [apply acc_left, acc_left|apply acc_left, acc_right|apply acc_right]; apply acc_cross.
    + apply acc_right. apply acc_cat.
      * apply last_not_snoc; [exact Vr|exact Vd|]. cbn. destruct (N.eqb_spec d 49); [contradiction|reflexivity].
      * destruct C as [->|[->| ->]]; [apply acc_left, acc_left|apply acc_left, acc_right|apply acc_right]; apply acc_cross.
Qed.
Lemma ordinal_valid : writes_valid Ordinal.graph = true.
Proof. vm_compute. reflexivity. Qed.
Lemma ate_suffixed key v e t rest :
  t = key ++ u ": """ ++ e ++ u """" ++ rest -> escape_value v = e -> reads Ordinal.graph v ->
  ate (verbalize_field key (Some Ordinal.graph) false @ Ordinal.add_suffix)%fst t rest.
Proof.
  intros -> <- (V & z & w & G). exists (key ++ u ": """ ++ escape_value v ++ u """").
  split; [now rewrite <- !app_assoc|]. assert (Vz : forallb vchar z = true).
  { refine (writes_valid_sound _ ordinal_valid _ _ _ G _). now apply vtext_spec. }
  destruct (suffix_total z Vz) as (z' & w' & S). exists z', (w + w')%Z. apply compose_i with z; [|exact S].
  apply verbalize_field_spec. exists v. split; [now apply vtext_spec|]. split; [reflexivity|exact G].
Qed.
Lemma ordinal_ok : Forall (shape_ok os (r_verbalizer Ordinal.rule)) ordinal_shapes.
Proof.
  unfold ordinal_shapes, named. cbn [map Ordinal.rule r_verbalizer]. shapes; literals.
  eapply ate_token; [rewrite <- ?app_assoc; same|]. eapply ate_suffixed; [same|eassumption|eassumption].
Qed.

(** ** Every tagging is verbalised *)
Ltac rule_in := unfold verbalizers, verbalizer_rules, rules; cbn [flat_map app s_verbalize s_rule In]; tauto.
Ltac by_rule E L := eapply shapes_union; [exact E| |exact L]; rule_in.
Lemma shapes_ok e : verbalizer_union verbalizer_rules = Some e -> Forall (shape_ok os e) en_itn_shapes.
Proof.
  intro E. unfold en_itn_shapes. rewrite !Forall_app.
  split; [by_rule E date_ok|]. split; [by_rule E time_ok|]. split; [by_rule E measure_ok|].
  split; [by_rule E money_ok|]. split; [by_rule E whitelist_ok|]. split; [by_rule E telephone_ok|].
  split; [by_rule E electronic_ok|]. split; [by_rule E ordinal_ok|]. split; [by_rule E decimal_ok|].
  split; [by_rule E cardinal_ok|]. split; [by_rule E word_ok|]. split; [by_rule E char_ok|]. by_rule E punct_ok.
Qed.
Lemma tok_insert v s t : tok_accepts v s -> tok_accepts (v + insert t)%fst s.
Proof.
  intros (A & B). pose proof (acc_cat _ _ _ _ A (acc_insert t)) as A'. pose proof (acc_cat _ _ _ _ B (acc_insert t)) as B'.
  rewrite app_nil_r in A', B'. split; assumption.
Qed.
(** A run of white space is rewritten to one space, whatever it is made of. *)
Lemma extra_space c : is_space c = true -> denote DELETE_EXTRA_SPACE [c] (u " ") 0%Z.
Proof.
  intro S. apply (cat_i _ _ [c] [] 0%Z [] (u " ") 0%Z); [|apply insert_i].
  split; [reflexivity|]. exists [c]. apply (cat_i _ _ [c] [c] 0%Z [] [] 0%Z); [exists c; auto|constructor].
Qed.
Lemma extra_inv p q w : denote DELETE_EXTRA_SPACE p q w -> forallb is_space p = true /\ p <> [].
Proof.
  intros (x1 & y1 & w1 & x2 & y2 & w2 & -> & -> & -> & (-> & z & H) & (-> & -> & ->)). rewrite app_nil_r.
  destruct H as (a & b & k & a' & b' & k' & -> & _ & _ & (c & -> & _ & S & _) & T). split; [|discriminate].
  cbn [app forallb]. rewrite S. cbn [andb]. clear -T. cbn [denote] in T. induction T as [|a b k a' b' k' (c & -> & _ & S & _) T IH]; [reflexivity|].
  cbn [app forallb]. now rewrite S.
Qed.
Lemma extra_total : total (build_rule DELETE_EXTRA_SPACE Anywhere Anywhere).
Proof.
  intros x V. unfold build_rule. cbn [denote]. generalize (@nil N) as out.
  cut (forall out, exists y w, rewritten (denote DELETE_EXTRA_SPACE) Anywhere Anywhere out x y w /\ forallb vchar y = true).
  { intros H out. apply H. }
  induction x as [|c x IH]; intro out; [exists [], 0%Z; split; [constructor|reflexivity]|].
  cbn [forallb] in V. apply andb_true_iff in V as (Vc & V). destruct (is_space c) eqn:S.
  - destruct (IH V (out ++ u " ")) as (y & w & R & Vy). exists (u " " ++ y), (0 + w)%Z. split.
    + apply (rw_match _ _ _ out [c] (u " ") 0%Z x y w); try exact Logic.I;
        [discriminate|now apply extra_space|cbn [forallb]; now rewrite Vc|reflexivity|exact R].
    + rewrite forallb_app, Vy. reflexivity.
  - destruct (IH V (out ++ [c])) as (y & w & R & Vy). exists (c :: y), w. split; [|cbn; now rewrite Vc].
    constructor; [|exact Vc|exact R]. intros p q v rest E Np T _. apply extra_inv in T as (T & _).
    destruct p as [|d p]; [contradiction|]. injection E as <- _. cbn in T. now rewrite S in T.
Qed.
Lemma rules_valid : forallb writes_valid (verbalizers verbalizer_rules) = true.
Proof. vm_compute. reflexivity. Qed.
Lemma shapes_valid : forallb valid_shape en_itn_shapes = true.
Proof. vm_compute. reflexivity. Qed.
Lemma join_valid (ss : list text) : Forall (fun s => forallb vchar s = true) ss -> forallb vchar (join [SP] ss) = true.
Proof.
  induction 1 as [|s ss S F IH]; [reflexivity|]. destruct ss as [|s' ss]; [exact S|].
  cbn [join] in *. rewrite !forallb_app, S. cbn [forallb andb]. exact IH.
Qed.
Theorem en_itn_verbalizes v x y : verbalizer = Some v -> writes en_itn_shapes x y ->
  exists out, reorder os y = Ok out /\ accepts v out.
Proof.
  unfold verbalizer. destruct (verbalizer_union verbalizer_rules) as [e|] eqn:E; [|discriminate]. intros [= <-] W.
  apply writes_parse in W as (toks & P & _ & Sh). rewrite (reorder_join os y toks P). eexists. split; [reflexivity|].
  set (ss := map (fun t => token_string t os) toks).
  assert (Acc : Forall (tok_accepts (e + insert (u " "))%fst) ss).
  { apply Forall_forall. intros s I. apply in_map_iff in I as (t & <- & I). rewrite Forall_forall in Sh.
    destruct (Sh t I) as (sh & Ish & En & M & Eo). apply tok_insert.
    pose proof (shapes_ok e E) as F. rewrite Forall_forall in F. exact (F sh Ish t En M Eo). }
  assert (V : forallb vchar (join [SP] ss) = true).
  { apply join_valid, Forall_forall. intros s I. apply in_map_iff in I as (t & <- & I). rewrite Forall_forall in Sh.
    exact (token_valid _ os t shapes_valid (Sh t I)). }
  destruct (join_accepted _ ss Acc) as (z & w & S).
  assert (Vz : forallb vchar z = true).
  { refine (writes_valid_sound _ _ _ _ _ S V). cbn [writes_valid]. rewrite (union_valid _ _ E rules_valid). reflexivity. }
  destruct (extra_total z Vz) as (z1 & w1 & R1 & V1).
  destruct (total_rewrite ds Anywhere Edge eq_refl eq_refl z1 V1) as (z2 & w2 & R2 & _).
  exists z2, (w + w1 + w2)%Z. apply compose_i with z1; [apply compose_i with z; [exact S|exact R1]|exact R2].
Qed.

(** ** Every text of plain characters is tagged *)
(** No quotation marks and no backslashes. *)
Definition wordly (c : N) : bool := vchar c && negb (c =? 34)%N && negb (c =? 92)%N.
Definition blank (c : N) : bool := (c =? 32)%N.
(** The text ends in a space or in something that is no white space, if it has an end. *)
Fixpoint good_end (x : text) : bool :=
  match x with [] => true | [c] => blank c || negb (is_space c) | _ :: r => good_end r end.
Lemma good_tail a b : good_end (a ++ b) = true -> good_end b = true.
Proof. induction a as [|c a IH]; [auto|]. intro H. apply IH. cbn [app good_end] in H. destruct (a ++ b) as [|d l]; [reflexivity|exact H]. Qed.
Section Tags.
Variable e : fst.
Hypothesis E : tagger_union rules = Some e.
Lemma classify k r x : In (Weight k r) (taggers rules) -> accepts r x -> accepts e x.
Proof.
  intros I (y & w & D). exists y, (w + k)%Z. refine (union_accepts _ _ _ E _ I _ _ _). exists w. auto.
Qed.
Lemma as_char c : vchar c = true -> accepts e [c].
Proof.
  intro V. apply (classify 1000000 (r_tagger Char.rule)).
  - unfold taggers, rules. cbn [flat_map app s_weight s_rule In]. tauto.
  - destruct (char_tagged c V) as (y & w & D & _). exists y, w. exact D.
Qed.
Lemma as_word x : x <> [] -> forallb (fun c => wordly c && negb (is_space c)) x = true -> accepts e x.
Proof.
  intros Nx V. apply (classify 500000 (r_tagger Word.rule)).
  - unfold taggers, rules. cbn [flat_map app s_weight s_rule In]. tauto.
  - cbn [Word.rule r_tagger]. unfold add_tokens.
    assert (P : forall x, forallb (fun c => wordly c && negb (is_space c)) x = true -> accepts (Star Word.valid_char) x).
    { clear. induction x as [|c x IH]; intro V; [exists [], 0%Z; constructor|].
      cbn [forallb] in V. apply andb_true_iff in V as (Vc & V). destruct (IH V) as (y & w & S).
      exists ([c] ++ y), (0 + w)%Z. apply (star_app _ [c] [c] 0%Z x y w); [|exact S]. exists c.
      split; [reflexivity|]. split; [reflexivity|]. split; [|reflexivity].
      unfold wordly in Vc. rewrite !andb_true_iff in *. tauto. }
    assert (Q : accepts (plus Word.valid_char) x).
    { destruct x as [|c x]; [contradiction|]. cbn [forallb] in V. apply andb_true_iff in V as (Vc & V).
      change (c :: x) with ([c] ++ x). apply acc_cat; [|now apply P]. exists [c], 0%Z. exists c.
      split; [reflexivity|]. split; [reflexivity|]. split; [|reflexivity].
      unfold wordly in Vc. rewrite !andb_true_iff in *. tauto. }
    change x with ([] ++ x). rewrite <- (app_nil_r ([] ++ x)). apply acc_cat; [apply acc_cat; [apply acc_insert|]|apply acc_insert].
    rewrite <- (app_nil_r x). apply acc_cat; [|apply acc_insert]. apply (acc_cat _ _ [] x); [apply acc_insert|exact Q].
Qed.
Lemma star_none a : accepts (Star a) [].
Proof. exists [], 0%Z. constructor. Qed.
Lemma star_more a s s' : accepts a s -> accepts (Star a) s' -> accepts (Star a) (s ++ s').
Proof. intros (y & w & A) (y' & w' & B). exists (y ++ y'), (w + w')%Z. now apply star_app. Qed.
Lemma as_token x : accepts e x -> accepts (token e) x.
Proof.
  intro A. unfold token. rewrite <- (app_nil_r x). apply acc_cat; [|apply star_none].
  change x with ([] ++ x). apply acc_cat; [apply star_none|exact A].
Qed.
(** What may follow a token. *)
Definition follows : fst := Star (DELETE_EXTRA_SPACE + token e) + Star ds.
Lemma extra_run g : g <> [] -> forallb is_space g = true -> accepts DELETE_EXTRA_SPACE g.
Proof.
  intros Ng S. unfold DELETE_EXTRA_SPACE. rewrite <- (app_nil_r g). apply acc_cat; [|apply acc_insert].
  assert (P : forall g, forallb is_space g = true -> denote (Star SPACE) g g 0%Z).
  { clear. induction g as [|c g IH]; intro S; [constructor|]. cbn [forallb] in S. apply andb_true_iff in S as (Sc & S).
    apply (star_app _ [c] [c] 0%Z g g 0%Z); [exists c; auto|exact (IH S)]. }
  exists [], 0%Z. split; [reflexivity|]. destruct g as [|c g]; [contradiction|]. cbn [forallb] in S. apply andb_true_iff in S as (Sc & S).
  exists (c :: g). apply (cat_i _ _ [c] [c] 0%Z g g 0%Z); [exists c; auto|exact (P g S)].
Qed.
Lemma follow_more g x r : g <> [] -> forallb is_space g = true -> accepts e x -> accepts follows r -> accepts follows (g ++ x ++ r).
Proof.
  intros Ng S A (y & w & x1 & y1 & w1 & x2 & y2 & w2 & -> & -> & -> & F & D).
  rewrite app_assoc, app_assoc. unfold follows. apply acc_cat; [|exists y2, w2; exact D].
  apply star_more; [|exists y1, w1; exact F]. apply acc_cat; [now apply extra_run|now apply as_token].
Qed.
Definition span (p : N -> bool) : text -> text * text :=
  fix go x := match x with [] => ([], []) | c :: r => if p c then let '(a, b) := go r in (c :: a, b) else ([], x) end.
Lemma span_spec p x : let '(a, b) := span p x in
  x = a ++ b /\ forallb p a = true /\ match b with c :: _ => p c = false | [] => True end.
Proof.
  induction x as [|c x IH]; cbn [span]; [auto|]. destruct (p c) eqn:P; [|auto].
  destruct (span p x) as (a & b). destruct IH as (-> & A & B). cbn [app forallb]. rewrite P. auto.
Qed.
Lemma follows_all n : forall x, List.length x <= n -> forallb wordly x = true -> good_end x = true ->
  match x with c :: _ => is_space c = true | [] => True end -> accepts follows x.
Proof.
  induction n as [|n IH]; intros x L V Ge H.
  - destruct x; [|cbn in L; lia]. apply (acc_cat _ _ [] []); apply star_none.
  - destruct x as [|c0 x0] eqn:Ex; [apply (acc_cat _ _ [] []); apply star_none|]. rewrite <- Ex in *.
    assert (Hs : exists g x', x = g ++ x' /\ g <> [] /\ forallb is_space g = true /\ match x' with c :: _ => is_space c = false | [] => True end).
    { pose proof (span_spec is_space x) as Sp. destruct (span is_space x) as (a & b). destruct Sp as (Exx & A & B). exists a, b.
      split; [exact Exx|]. split; [|auto]. intros ->. cbn in Exx. subst b. rewrite Ex in B. congruence. }
    destruct Hs as (g & x' & Eg & Ng & Sg & Hx'). destruct x' as [|c x'].
    + rewrite app_nil_r in Eg. clear H. destruct (snoc_cases g) as [->|(g' & c & ->)]; [now destruct Ng|].
      rewrite Eg in Ge. apply good_tail in Ge. cbn in Ge. rewrite forallb_app in Sg. cbn in Sg. rewrite andb_true_r in Sg.
      apply andb_true_iff in Sg as (Sg & Sc). rewrite Sc, orb_false_r in Ge. apply N.eqb_eq in Ge. subst c.
      rewrite Eg. destruct g' as [|d g'].
      * apply (acc_cat _ _ [] (u " ")); [apply star_none|]. rewrite <- (app_nil_r (u " ")). apply star_more; [apply acc_delete|apply star_none].
      * change [32%N] with ([32%N] ++ []). apply follow_more; [discriminate|exact Sg|apply as_char; reflexivity|].
        apply (acc_cat _ _ [] []); apply star_none.
    + pose proof (span_spec (fun c => negb (is_space c)) (c :: x')) as Sp. destruct (span _ (c :: x')) as (a & b) eqn:Es.
      destruct Sp as (Eab & A & B). assert (Na : a <> []).
      { intros ->. cbn in Eab. subst b. rewrite Hx' in B. discriminate. }
      rewrite Eg, Eab in *. rewrite !forallb_app, !andb_true_iff in V. destruct V as (Vg & Va & Vb).
      apply follow_more; auto.
      * apply as_word; [exact Na|]. rewrite forallb_forall in *. intros d I. now rewrite (Va d I), (A d I).
      * apply IH; [|exact Vb|now apply good_tail, good_tail in Ge|].
        -- rewrite !app_length in L. destruct g; [contradiction|]. destruct a; [contradiction|]. cbn in L. lia.
        -- destruct b; [exact I|]. now apply negb_false_iff in B.
Qed.
Lemma sentence_i s x r : accepts (Star ds) s -> accepts e x -> accepts follows r -> accepts (sentence e) (s ++ x ++ r).
Proof.
  intros S A (y & w & x1 & y1 & w1 & x2 & y2 & w2 & -> & -> & -> & F & D). unfold sentence.
  rewrite !app_assoc. apply acc_cat; [|exists y2, w2; exact D]. rewrite <- !app_assoc. apply acc_cat; [exact S|].
  apply acc_cat; [now apply as_token|exists y1, w1; exact F].
Qed.
Lemma word_first s x : accepts (Star ds) s -> x <> [] -> forallb wordly x = true -> good_end x = true ->
  match x with c :: _ => is_space c = false | [] => True end -> accepts (sentence e) (s ++ x).
Proof.
  intros S Nx V Ge H. pose proof (span_spec (fun c => negb (is_space c)) x) as Sp.
  destruct (span _ x) as (a & b). destruct Sp as (-> & A & B). assert (Na : a <> []).
  { intros ->. cbn in H, Nx. destruct b as [|c b]; [contradiction|]. rewrite H in B. discriminate. }
  rewrite forallb_app in V. apply andb_true_iff in V as (Va & Vb). apply sentence_i; [exact S| |].
  - apply as_word; [exact Na|]. rewrite forallb_forall in *. intros d I. now rewrite (Va d I), (A d I).
  - apply (follows_all (List.length b)); [apply le_n|exact Vb|now apply good_tail in Ge|].
    destruct b; [exact I|]. now apply negb_false_iff in B.
Qed.
Lemma tags_all x : x <> [] -> forallb wordly x = true -> good_end x = true ->
  match x with c :: _ => blank c || negb (is_space c) = true | [] => True end -> accepts (sentence e) x.
Proof.
  intros Nx V Ge H. destruct x as [|c x]; [contradiction|]. destruct (is_space c) eqn:Sc.
  2: { apply (word_first [] (c :: x)); [apply star_none|exact Nx|exact V|exact Ge|exact Sc]. }
  cbn [negb] in H. rewrite orb_false_r in H. apply N.eqb_eq in H. subst c.
  cbn [forallb] in V. apply andb_true_iff in V as (_ & V).
  assert (Ge' : good_end x = true) by exact (good_tail [32%N] x Ge).
  destruct x as [|c x].
  - apply (sentence_i [] (u " ") []); [apply star_none|apply as_char; reflexivity|]. apply (acc_cat _ _ [] []); apply star_none.
  - destruct (is_space c) eqn:Sc'.
    + apply (sentence_i [] (u " ") (c :: x)); [apply star_none|apply as_char; reflexivity|].
      apply (follows_all (List.length (c :: x))); auto.
    + apply (word_first (u " ") (c :: x)); auto; [|discriminate].
      rewrite <- (app_nil_r (u " ")). apply star_more; [apply acc_delete|apply star_none].
Qed.
End Tags.
Theorem en_itn_tags t x : tagger = Some t -> x <> [] -> forallb wordly x = true -> good_end x = true ->
  match x with c :: _ => blank c || negb (is_space c) = true | [] => True end -> accepts t x.
Proof.
  unfold tagger. destruct (tagger_union rules) as [e|] eqn:E; [|discriminate]. intros [= <-]. exact (tags_all e E x).
Qed.
