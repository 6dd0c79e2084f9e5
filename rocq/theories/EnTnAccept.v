(** Texts the English normalisation grammar tags and verbalises: words, digits and
    punctuation marks. *)
From Coq Require Import List NArith ZArith Bool String Lia.
From Verif Require Import Text TextFacts TokenModel TokenSpec TokenProofs TokenProofs2 TokenProofs3.
From Verif Require Import Fst GrammarModel GrammarSpec FstFacts FstRun FstEval ShapeSpec GrammarShape SpacedShape GrammarAccept.
From Verif Require Import DataEnTn EnTnModel EnTnShape EnItnAccept.
From Verif Require EnglishSpec.
Import EnglishSpec(tame, hyphen_as_space, letter, digit, mark, core, loose, separator, phrase, english).
Import EnItnModel(strings, labels, inverted, DELETE_SPACE, DELETE_EXTRA_SPACE, NOT_SPACE).
Import ListNotations.
Local Open Scope list_scope.

(** What is parsed from a tagging. *)
Lemma lays_parse D alike A e x y w : SpacedShape.lays D alike A true e -> D x -> denote e x y w ->
  exists toks, parse y = Ok toks /\ toks <> [] /\ Forall (shape_token A) toks.
Proof.
  intros L Dx H. destruct (L _ _ _ Dx H 0) as (ts & S & F & _ & N). specialize (N eq_refl). exists (map to_token ts). split; [|split].
  - apply parse_exact. split.
    + intros ->. inversion S as [o n E|o n t name fs rest ts' T S' E E2]; subst; [now destruct N|].
      destruct T as (body & -> & (Nn & _) & _). apply app_eq_nil in E2 as (_ & E2). apply app_eq_nil in E2 as (E2 & _).
      apply app_eq_nil in E2 as (E2 & _). contradiction.
    + exists ts. split; [exact S|]. clear. induction ts; constructor; auto. repeat split.
  - now destruct ts.
  - clear -F. induction F as [|t ts (s & I & E & M) F IH]; constructor; [|exact IH].
    exists s. cbn. split; [exact I|]. split; [auto|]. split; [exact M|]. now rewrite (fields_keys _ _ M).
Qed.

(** ** The part of the grammar used *)
Definition digits_tagger : fst := add_tokens Cardinal.name (tag_field (u "integer") (plus DIGIT)).
Definition marks_value : fst := (Punctuation.spaces + Punctuation.marks + Punctuation.spaces)%fst.
Definition marks_tagger : fst := add_tokens Punctuation.name (insert (u "v: """) + marks_value + insert (u """"))%fst.
Definition small : fst := (r_tagger Word.rule ∪ digits_tagger)%fst.
Definition sentence_of (punct classify : fst) : fst :=
  let token := (Star punct + classify + Star punct)%fst in
  ((DELETE_SPACE + token + Star ((Erase SPACE ∪ punct) + token) + DELETE_SPACE) ∪ punct)%fst.
Definition small_tagger : fst := (sentence_of marks_tagger small @ build_rule ds Anywhere Edge)%fst.

(** Every tagging of the one is a tagging of the other. *)
Definition sub (D : text -> Prop) (a b : fst) : Prop := forall x y w, D x -> denote a x y w -> exists w', denote b x y w'.
Lemma sub_refl D a : sub D a a.
Proof. intros x y w _ H. eauto. Qed.
Lemma sub_union D a a' b b' : sub D a a' -> sub D b b' -> sub D (a ∪ b)%fst (a' ∪ b')%fst.
Proof.
  intros A B x y w Dx [H|H]; [destruct (A _ _ _ Dx H) as (w' & H')|destruct (B _ _ _ Dx H) as (w' & H')]; exists w'; [now left|now right].
Qed.
Lemma sub_cat a a' b b' : sub tame a a' -> sub tame b b' -> sub tame (a + b)%fst (a' + b')%fst.
Proof.
  intros A B x y w Dx (x1 & y1 & w1 & x2 & y2 & w2 & -> & -> & -> & H1 & H2). apply tame_app in Dx as (D1 & D2).
  destruct (A _ _ _ D1 H1) as (w1' & H1'). destruct (B _ _ _ D2 H2) as (w2' & H2'). exists (w1' + w2')%Z. now apply cat_i.
Qed.
Lemma sub_star a a' : sub tame a a' -> sub tame (Star a) (Star a').
Proof.
  intros A x y w Dx H. cbn [denote] in *. induction H as [|x y w x' y' w' H S IH]; [exists 0%Z; constructor|].
  apply tame_app in Dx as (D1 & D2). destruct (A _ _ _ D1 H) as (v & H'). destruct (IH D2) as (v' & S'). exists (v + v')%Z. now constructor.
Qed.
Lemma sub_compose D a a' b : sub D a a' -> sub D (a @ b)%fst (a' @ b)%fst.
Proof.
  intros A x y w Dx (m & w1 & w2 & -> & H1 & H2). destruct (A _ _ _ Dx H1) as (v & H'). exists (v + w2)%Z. now apply compose_i with m.
Qed.
Lemma sentence_sub p p' c c' : sub tame p p' -> sub tame c c' -> sub tame (sentence_of p c) (sentence_of p' c').
Proof.
  intros P C. unfold sentence_of. apply sub_union; [|exact P].
  repeat (apply sub_cat || apply sub_star || apply sub_union || assumption || apply sub_refl).
Qed.
Lemma emphasis_dec m : (exists y w, denote Punctuation.emphasis m y w) \/ forall y w, ~ denote Punctuation.emphasis m y w.
Proof.
  assert (L : loopfree Punctuation.emphasis = true) by (vm_compute; reflexivity).
  destruct (outputs_of Punctuation.emphasis m) as [|(y & w) l] eqn:E.
  - right. intros y w H. apply (outputs_of_spec _ _ _ _ L) in H. now rewrite E in H.
  - left. exists y, w. apply (outputs_of_spec _ _ _ _ L). rewrite E. now left.
Qed.
Lemma marks_sub : sub tame Punctuation.marks Punctuation.tagger_punct.
Proof.
  intros m y w T H. destruct (emphasis_dec m) as [(z & k & Em)|N].
  - exists k. left. left. apply marks_spec in H as (_ & E). pose proof Em as Em'. apply emphasis_spec in Em' as (_ & I & ->).
    apply escaped_fun in E as ->. destruct T as [T|(Q & B)]; [contradiction|]. now rewrite (escape_plain m Q B).
  - exists (0 + w)%Z. left. right. exists m, 0%Z, w. split; [reflexivity|]. split; [|exact H].
    split; [reflexivity|]. split; [reflexivity|]. split; [exact (proj1 (marks_spec _ _ _ H))|exact N].
Qed.
Lemma marks_tagger_sub : sub tame marks_tagger punct_tagger.
Proof.
  intros x y w Dx H. assert (S : sub tame marks_tagger (r_tagger Punctuation.rule)).
  { clear. intros x y w Dx (x1 & y1 & w1 & x2 & y2 & w2 & -> & -> & -> & (x3 & y3 & w3 & x4 & y4 & w4 & -> & -> & -> & H3 &
      (x5 & y5 & w5 & x6 & y6 & w6 & -> & -> & -> & (xb & yb & wb & x8 & y8 & w8 & -> & -> & -> & Hb &
        (x7 & y7 & w7 & x9 & y9 & w9 & -> & -> & -> & (xc & yc & wc & xa & ya & wa & -> & -> & -> & Hc & Ha) & H9)) & H6)) & H2).
    destruct (marks_sub xa ya wa) as (v & Ha'); [|exact Ha|].
    { apply tame_app in Dx as (Dx & _). apply tame_app in Dx as (_ & Dx). apply tame_app in Dx as (Dx & _).
      apply tame_app in Dx as (_ & Dx). apply tame_app in Dx as (Dx & _). now apply tame_app in Dx as (_ & Dx). }
    exists (w3 + (wb + wc + v + w9 + w6) + w2)%Z. cbn [Punctuation.rule r_tagger]. unfold add_tokens.
    replace ((x3 ++ (xb ++ ((xc ++ xa) ++ x9)) ++ x6) ++ x2) with ((x3 ++ (((xb ++ xc) ++ xa) ++ x9) ++ x6) ++ x2) by now rewrite <- !app_assoc.
    replace ((y3 ++ (yb ++ ((yc ++ ya) ++ y9)) ++ y6) ++ y2) with ((y3 ++ (((yb ++ yc) ++ ya) ++ y9) ++ y6) ++ y2) by now rewrite <- !app_assoc.
    repeat (apply cat_i; try assumption). }
  destruct (S x y w Dx H) as (v & H'). exists (v + 200000)%Z. exists v. auto.
Qed.
Lemma digit_i c : is_digit c = true -> accepts Cardinal.single_digit_oh [c].
Proof.
  intro D. assert (I : In c (map N.of_nat (seq 48 10))).
  { unfold is_digit, in_range in D. rewrite andb_true_iff, !N.leb_le in D. rewrite in_map_iff. exists (N.to_nat c). split; [lia|].
    apply in_seq. lia. }
  assert (F : forallb (fun c => negb (match outputs_of Cardinal.single_digit_oh [c] with [] => true | _ => false end)) (map N.of_nat (seq 48 10)) = true)
    by (vm_compute; reflexivity).
  rewrite forallb_forall in F. apply F in I. destruct (outputs_of Cardinal.single_digit_oh [c]) as [|(y & w) l] eqn:E; [discriminate|].
  exists y, w. apply outputs_of_spec; [vm_compute; reflexivity|]. rewrite E. now left.
Qed.
Lemma plus_digits x y w : denote (plus DIGIT) x y w -> x <> [] /\ forallb is_digit x = true.
Proof.
  intros (x1 & y1 & w1 & x2 & y2 & w2 & -> & _ & _ & (c & -> & _ & C & _) & H). split; [discriminate|]. cbn [app forallb].
  rewrite C. cbn [denote andb] in *. clear C. induction H as [|a b k a' b' k' (d & -> & _ & C & _) S IH]; [reflexivity|].
  cbn [app forallb]. now rewrite C.
Qed.
Lemma digits_read x : x <> [] -> forallb is_digit x = true -> accepts Cardinal.final_graph x.
Proof.
  intros Nx D. assert (S : accepts (Cardinal.single_digit_oh + Star (INSERT_SPACE + Cardinal.single_digit_oh))%fst x).
  { destruct x as [|c x]; [contradiction|]. cbn [forallb] in D. apply andb_true_iff in D as (C & D).
    change (c :: x) with ([c] ++ x). apply acc_cat; [now apply digit_i|]. clear -D. induction x as [|d x IH]; [apply star_none|].
    cbn [forallb] in D. apply andb_true_iff in D as (C & D). change (d :: x) with (([] ++ [d]) ++ x). apply star_more; [|exact (IH D)].
    apply acc_cat; [apply acc_insert|now apply digit_i]. }
  unfold Cardinal.final_graph, Cardinal.final1, Cardinal.final0, Cardinal.long_numbers.
  apply acc_left, acc_left, acc_left, acc_left, acc_right, acc_weight. unfold Cardinal.single_digits_graph. now apply acc_right.
Qed.
Lemma digits_tagger_sub : sub tame digits_tagger (r_tagger Cardinal.rule).
Proof.
  intros x y w Dx (x1 & y1 & w1 & x2 & y2 & w2 & -> & -> & -> & (x3 & y3 & w3 & x4 & y4 & w4 & -> & -> & -> & H3 & H4) & H2).
  apply tag_field_spec in H4 as (V & -> & z & G). apply plus_digits in G as (Nx & Dg).
  destruct (digits_read x4 Nx Dg) as (z' & v & G'). exists (w3 + (0 + v) + w2)%Z. cbn [Cardinal.rule r_tagger]. unfold add_tokens.
  apply cat_i; [|exact H2]. apply cat_i; [exact H3|]. apply (cat_i _ _ [] [] 0%Z); [apply ques_none|].
  apply tag_field_spec. eauto.
Qed.
Lemma small_sub ys e : tagger_union (rules ys) = Some e -> sub tame small e.
Proof.
  intros E x y w Dx [H|H].
  - exists (w + 10000000)%Z. apply (taggers_spec _ _ E). exists (RuleSpec Word.rule (Some 10000000%Z) true), 10000000%Z.
    split; [unfold rules; cbn [In]; tauto|]. split; [reflexivity|]. cbn [s_rule]. now rewrite Z.add_simpl_r.
  - destruct (digits_tagger_sub _ _ _ Dx H) as (v & H'). exists (v + 100000)%Z.
    apply (taggers_spec _ _ E). exists (RuleSpec Cardinal.rule (Some 100000%Z) true), 100000%Z.
    split; [unfold rules; cbn [In]; tauto|]. split; [reflexivity|]. cbn [s_rule]. now rewrite Z.add_simpl_r.
Qed.
Lemma small_tagger_sub ys t : tagger ys = Some t -> sub tame small_tagger t.
Proof.
  unfold tagger. destruct (tagger_union (rules ys)) as [e|] eqn:E; [|discriminate]. intros [= <-].
  exact (sub_compose _ _ _ _ (sentence_sub _ _ _ _ marks_tagger_sub (small_sub ys e E))).
Qed.

(** ** Its tokens *)
Definition small_shapes : list token_shape :=
  named Word.name [[(u "v", plus Word.char)]] ++ named Cardinal.name [[(u "integer", plus DIGIT)]] ++
  named Punctuation.name [[(u "v", marks_value)]].
Lemma marks_value_spec x y w : denote marks_value x y w -> forallb vchar x = true /\ y = escape_value x.
Proof.
  intros (x1 & y1 & w1 & x2 & y2 & w2 & -> & -> & -> & (x3 & y3 & w3 & x4 & y4 & w4 & -> & -> & -> & H1 & H2) & H3).
  apply spaces_copy in H1 as (-> & P1). apply spaces_copy in H3 as (-> & P3).
  apply plain_texts in P1 as (V1 & E1). apply plain_texts in P3 as (V3 & E3). apply marks_spec in H2 as (V4 & E4).
  rewrite !forallb_app, V1, V3, V4. split; [reflexivity|]. apply escaped_fun. now repeat apply escaped_app.
Qed.
Lemma small_tokens : tokens1 small small_shapes /\ tokens1 marks_tagger small_shapes.
Proof.
  split.
  - intros x y w Dx [H|H].
    + assert (T : tokens1 (r_tagger Word.rule) (named Word.name [[(u "v", plus Word.char)]])).
      { cbn [Word.rule r_tagger]. refine (tokens1_verbatim _ _ hyphen_refl Word.name (u "v") (plus Word.char) _ _ _ _ _); [name_tac|name_tac|EnItnShape.key_tac|].
        clear. intros x y w _ H. pose proof H as G. apply word_chars in H as (-> & F).
        assert (P : forallb plain x = true) by (rewrite forallb_forall in *; intros c I; apply word_char_plain; auto).
        apply plain_texts in P as (V & E). split; [exact V|]. split; [now apply escaped_fun|eauto]. }
      refine (tokens1_more _ _ _ _ _ _ T _ _ _ Dx H). apply incl_appl, incl_refl.
    + assert (T : tokens1 digits_tagger (named Cardinal.name [[(u "integer", plus DIGIT)]])).
      { apply tokens1_i; [exact hyphen_refl|name_tac|EnItnShape.not_verbatim|apply fields_tag; name_tac|nodup_tac]. }
      refine (tokens1_more _ _ _ _ _ _ T _ _ _ Dx H). apply incl_appr, incl_appl, incl_refl.
  - assert (T : tokens1 marks_tagger (named Punctuation.name [[(u "v", marks_value)]])).
    { refine (tokens1_verbatim _ _ hyphen_refl Punctuation.name (u "v") marks_value _ _ _ _ _); [name_tac|name_tac|EnItnShape.key_tac|].
      intros x y w _ H. destruct (marks_value_spec _ _ _ H) as (V & E). split; [exact V|]. split; [exact E|]. eauto. }
    refine (tokens1_more _ _ _ _ _ _ T). apply incl_appr, incl_appr, incl_refl.
Qed.
Lemma sentence_lays A p c : tokens1 p A -> tokens1 c A -> lays A true (sentence_of p c).
Proof.
  intros P C. apply lays_one in P. apply lays_one in C.
  assert (Ds : lays A false DELETE_SPACE) by exact (lays_gap _ _ _ _ delete_space_gap).
  assert (Sp : lays A false (Erase SPACE)) by exact (lays_gap _ _ _ _ erase_space_gap).
  assert (Ps : lays A false (Star p)) by exact (lays_star _ _ tame_app _ _ _ P).
  assert (To : lays A true (Star p + c + Star p)%fst)
    by exact (lays_cat _ _ tame_app _ _ _ true false (lays_cat _ _ tame_app _ _ _ false true Ps C) Ps).
  assert (Se : lays A false (Erase SPACE ∪ p)%fst) by (apply lays_union; [exact Sp|exact (lays_weak _ _ _ _ _ P)]).
  unfold sentence_of. apply lays_union; [|exact P].
  refine (lays_cat _ _ tame_app _ _ _ true false _ Ds). refine (lays_cat _ _ tame_app _ _ _ true false _ _).
  - exact (lays_cat _ _ tame_app _ _ _ false true Ds To).
  - exact (lays_star _ _ tame_app _ _ _ (lays_cat _ _ tame_app _ _ _ false true Se To)).
Qed.
Lemma small_lays : lays small_shapes true small_tagger.
Proof. apply lays_compose_trim. destruct small_tokens as (C & P). exact (sentence_lays _ _ _ P C). Qed.

(** ** They are verbalised *)
Definition small_verbalizer : fst :=
  let punct := r_verbalizer Punctuation.rule in
  (Star ((r_verbalizer Word.rule ∪ r_verbalizer Cardinal.rule) + (plus punct ∪ Weight 10 INSERT_SPACE)
         ∪ punct + (plus punct ∪ DELETE_SPACE)))%fst.
Lemma ate_accepts e s t rest : t = s ++ rest -> accepts e s -> ate e t rest.
Proof. intros -> A. now exists s. Qed.
Notation os := token_orders.
Lemma word_verbal : Forall (shape_ok os (r_verbalizer Word.rule)) (named Word.name [[(u "v", plus Word.char)]]).
Proof.
  unfold named. cbn [map Word.rule r_verbalizer]. repeat apply Forall_cons; [..|apply Forall_nil]. members.
  pose proof (unescaped_spec (plus Word.char) v eq_refl R) as E. lay os. rewrite E.
  eapply ate_token; [rewrite <- ?app_assoc; same|]. eapply ate_cat; [|eapply ate_delete; same].
  eapply ate_cat; [eapply ate_cat; eapply ate_delete; same|]. eapply ate_accepts; [|exact (proj2 R)]. same.
Qed.
Lemma cardinal_verbal : Forall (shape_ok os (r_verbalizer Cardinal.rule)) (named Cardinal.name [[(u "integer", plus DIGIT)]]).
Proof.
  unfold named. cbn [map Cardinal.rule r_verbalizer]. repeat apply Forall_cons; [..|apply Forall_nil]. members.
  pose proof (unescaped_spec (plus DIGIT) v eq_refl R) as E. lay os. rewrite E.
  destruct R as (_ & z & w & R). apply plus_digits in R as (Nv & D). pose proof (digits_read v Nv D) as A.
  eapply ate_token; [rewrite <- ?app_assoc; same|]. eapply ate_cat; [apply ate_none|]. eapply ate_cat; [eapply ate_delete; same|].
  eapply ate_cat; [|eapply ate_delete; same]. eapply ate_cat; [|eapply ate_accepts; [|exact A]; same].
  eapply ate_cat; [eapply ate_space; same|eapply ate_delete; same].
Qed.
Lemma marks_back x y w : denote Punctuation.marks x y w ->
  accepts (plus (Punctuation.punct ∪ Punctuation.emphasis ∪ Cross [92; 92]%N [92%N] ∪ Cross [92; 34]%N [34%N]))%fst y.
Proof.
  assert (One : forall x y w, denote (Punctuation.punct ∪ Cross [92%N] [92; 92]%N ∪ Cross [34%N] [92; 34]%N)%fst x y w ->
    accepts (Punctuation.punct ∪ Punctuation.emphasis ∪ Cross [92; 92]%N [92%N] ∪ Cross [92; 34]%N [34%N])%fst y).
  { clear. intros x y w [[(c & -> & -> & C & _)|(-> & -> & _)]|(-> & -> & _)].
    - apply acc_left, acc_left, acc_left. exists [c], 0%Z. exists c. auto.
    - apply acc_left, acc_right, acc_cross.
    - apply acc_right, acc_cross. }
  intros (x1 & y1 & w1 & x2 & y2 & w2 & -> & -> & -> & H & S). apply acc_cat; [exact (One _ _ _ H)|].
  cbn [denote] in S. clear -S One. induction S as [|x y w x' y' w' H S IH]; [apply star_none|]. apply star_more; [exact (One _ _ _ H)|exact IH].
Qed.
Lemma punct_verbal : Forall (shape_ok os (r_verbalizer Punctuation.rule)) (named Punctuation.name [[(u "v", marks_value)]]).
Proof.
  unfold named. cbn [map Punctuation.rule r_verbalizer]. repeat apply Forall_cons; [..|apply Forall_nil]. members.
  destruct R as (_ & y & w & R). destruct (marks_value_spec _ _ _ R) as (_ & E). lay os. rewrite <- E. clear E.
  destruct R as (x1 & y1 & w1 & x2 & y2 & w2 & _ & -> & _ & (x3 & y3 & w3 & x4 & y4 & w4 & _ & -> & _ & H1 & H2) & H3).
  pose proof H1 as S1. pose proof H3 as S3. apply spaces_copy in S1 as (-> & _). apply spaces_copy in S3 as (-> & _). apply marks_back in H2.
  eapply ate_token; [rewrite <- ?app_assoc; same|]. eapply ate_cat; [|eapply ate_delete; same].
  eapply ate_cat; [|eapply ate_accepts; [|exists x2, w2; exact H3]; same].
  eapply ate_cat; [|eapply ate_accepts; [|exact H2]; same].
  eapply ate_cat; [eapply ate_delete; same|]. eapply ate_accepts; [|exists x3, w3; exact H1]. same.
Qed.
Lemma small_verbal : Forall (shape_ok os
  ((r_verbalizer Word.rule ∪ r_verbalizer Cardinal.rule) + (plus (r_verbalizer Punctuation.rule) ∪ Weight 10 INSERT_SPACE)
   ∪ r_verbalizer Punctuation.rule + (plus (r_verbalizer Punctuation.rule) ∪ DELETE_SPACE))%fst) small_shapes.
Proof.
  assert (C : forall v s, tok_accepts v s -> tok_accepts (v + (plus (r_verbalizer Punctuation.rule) ∪ Weight 10 INSERT_SPACE))%fst s).
  { intros v s (A & B). assert (I : accepts (plus (r_verbalizer Punctuation.rule) ∪ Weight 10 INSERT_SPACE)%fst []) by apply acc_right, acc_weight, acc_insert.
    split; [pose proof (acc_cat _ _ _ _ A I) as G|pose proof (acc_cat _ _ _ _ B I) as G]; now rewrite app_nil_r in G. }
  assert (P : forall v s, tok_accepts v s -> tok_accepts (v + (plus (r_verbalizer Punctuation.rule) ∪ DELETE_SPACE))%fst s).
  { intros v s (A & B). assert (I : accepts (plus (r_verbalizer Punctuation.rule) ∪ DELETE_SPACE)%fst []) by apply acc_right, star_none.
    split; [pose proof (acc_cat _ _ _ _ A I) as G|pose proof (acc_cat _ _ _ _ B I) as G]; now rewrite app_nil_r in G. }
  unfold small_shapes. rewrite !Forall_app. split; [|split].
  - eapply Forall_impl; [|exact word_verbal]. intros s H t N M O. apply tok_left, C, tok_left. exact (H t N M O).
  - eapply Forall_impl; [|exact cardinal_verbal]. intros s H t N M O. apply tok_left, C, tok_right. exact (H t N M O).
  - eapply Forall_impl; [|exact punct_verbal]. intros s H t N M O. apply tok_right, P. exact (H t N M O).
Qed.
Lemma small_valid : writes_valid small_verbalizer = true.
Proof. vm_compute. reflexivity. Qed.
Lemma small_verbalizer_sub ys v x y w : verbalizer ys = Some v ->
  denote (small_verbalizer @ build_rule ds Anywhere Edge)%fst x y w -> denote v x y w.
Proof.
  unfold verbalizer. destruct (verbalizer_union (rules ys)) as [e|] eqn:E; [|discriminate]. intros [= <-].
  intros (m & w1 & w2 & -> & S & R). apply compose_i with m; [|exact R]. clear R. unfold small_verbalizer in S. cbn [denote] in S.
  induction S as [|a b k a' b' k' H S IH]; [constructor|]. apply (star_app _ a b k); [|exact IH]. clear S IH.
  destruct H as [H|H]; [left|now right].
  destruct H as (x1 & y1 & v1 & x2 & y2 & v2 & -> & -> & -> & H1 & H2). exists x1, y1, v1, x2, y2, v2. repeat (split; [reflexivity|]). split; [|exact H2].
  apply (verbalizers_spec _ _ E). destruct H1 as [H1|H1].
  - exists (RuleSpec Word.rule (Some 10000000%Z) true). split; [unfold rules; cbn [In]; tauto|]. split; [reflexivity|exact H1].
  - exists (RuleSpec Cardinal.rule (Some 100000%Z) true). split; [unfold rules; cbn [In]; tauto|]. split; [reflexivity|exact H1].
Qed.
Lemma small_shapes_valid : forallb valid_shape small_shapes = true.
Proof. vm_compute. reflexivity. Qed.
Lemma small_verbalizes ys v x y w : verbalizer ys = Some v -> tame x -> denote small_tagger x y w ->
  exists out, reorder os y = Ok out /\ accepts v out.
Proof.
  intros Ev Dx H. destruct (lays_parse _ _ _ _ _ _ _ small_lays Dx H) as (toks & P & _ & Sh). rewrite (reorder_join os y toks P).
  eexists. split; [reflexivity|]. set (ss := map (fun t => token_string t os) toks).
  destruct (join_accepted ((r_verbalizer Word.rule ∪ r_verbalizer Cardinal.rule) + (plus (r_verbalizer Punctuation.rule) ∪ Weight 10 INSERT_SPACE)
   ∪ r_verbalizer Punctuation.rule + (plus (r_verbalizer Punctuation.rule) ∪ DELETE_SPACE))%fst ss) as (z & k & S).
  { apply Forall_forall. intros s I. apply in_map_iff in I as (t & <- & I). rewrite Forall_forall in Sh.
    destruct (Sh t I) as (sh & Ish & En & M & Eo). pose proof small_verbal as F. rewrite Forall_forall in F. exact (F sh Ish t En M Eo). }
  assert (V : forallb vchar (join [SP] ss) = true).
  { apply join_valid, Forall_forall. intros s I. apply in_map_iff in I as (t & <- & I). rewrite Forall_forall in Sh.
    exact (token_valid _ os t small_shapes_valid (Sh t I)). }
  assert (Vz : forallb vchar z = true) by exact (writes_valid_sound _ small_valid _ _ _ S V).
  destruct (total_rewrite ds Anywhere Edge eq_refl eq_refl z Vz) as (z2 & w2 & R2 & _).
  exists z2, (k + w2)%Z. apply (small_verbalizer_sub ys v); [exact Ev|]. now apply compose_i with z.
Qed.

(** ** Texts of the domain are tagged *)
Lemma acc_tokens name body x : accepts body x -> accepts (add_tokens name body) x.
Proof.
  intro A. unfold add_tokens. rewrite <- (app_nil_r x). apply acc_cat; [|apply acc_insert]. apply (acc_cat _ _ [] x); [apply acc_insert|exact A].
Qed.
Lemma acc_wrapped a b g x : accepts g x -> accepts (insert a + g + insert b)%fst x.
Proof. intro A. rewrite <- (app_nil_r x). apply acc_cat; [|apply acc_insert]. apply (acc_cat _ _ [] x); [apply acc_insert|exact A]. Qed.
Lemma acc_plus e x : x <> [] -> (forall c, In c x -> accepts e [c]) -> accepts (plus e) x.
Proof.
  intros N A. destruct x as [|c x]; [contradiction|]. change (c :: x) with ([c] ++ x). apply acc_cat; [apply A; now left|].
  assert (A' : forall d, In d x -> accepts e [d]) by (intros d I; apply A; now right). clear -A'.
  induction x as [|d x IH]; [apply star_none|]. change (d :: x) with ([d] ++ x). apply star_more; [apply A'; now left|].
  apply IH. intros f I. apply A'. now right.
Qed.
Lemma core_tagged w : core w -> accepts small w.
Proof.
  intros (N & [F|F]); rewrite Forall_forall in F.
  - apply acc_left. cbn [Word.rule r_tagger]. apply acc_tokens, acc_wrapped, acc_plus; [exact N|].
    intros c I. exists [c], 0%Z, c. apply F in I. auto.
  - assert (D : forall c, In c w -> is_digit c = true).
    { intros c I. apply F in I. unfold is_digit, in_range. unfold digit in I. rewrite andb_true_iff, !N.leb_le. exact I. }
    apply acc_right. unfold digits_tagger. apply acc_tokens.
    assert (A : accepts (plus DIGIT) w) by (apply acc_plus; [exact N|]; intros c I; exists [c], 0%Z, c; auto).
    destruct A as (z & k & A). eexists. exists k. apply tag_field_spec. split; [|split; [reflexivity|eauto]].
    rewrite forallb_forall. intros c I. apply D in I. unfold is_digit, in_range in I. unfold vchar.
    rewrite orb_true_iff, !andb_true_iff in *. rewrite !N.leb_le, !N.ltb_lt in *. lia.
Qed.
Lemma spaces_accept n : accepts Punctuation.spaces (repeat 32%N n).
Proof.
  induction n as [|n IH]; [apply star_none|]. change (repeat 32%N (S n)) with (u " " ++ repeat 32%N n).
  apply star_more; [|exact IH]. apply acc_weight, acc_cross.
Qed.
Lemma marks_tagged n m k : EnglishSpec.marks m -> accepts marks_tagger (repeat 32%N n ++ m ++ repeat 32%N k).
Proof.
  intros (N & F). rewrite Forall_forall in F. apply acc_tokens, acc_wrapped. unfold marks_value. rewrite app_assoc.
  apply acc_cat; [apply acc_cat; [apply spaces_accept|]|apply spaces_accept]. apply acc_plus; [exact N|].
  intros c I. apply F in I as [P|[->| ->]].
  - apply acc_left, acc_left. exists [c], 0%Z, c. auto.
  - apply acc_right, acc_cross.
  - apply acc_left, acc_right, acc_cross.
Qed.
Lemma mark_dec c : {mark c} + {~ mark c}.
Proof.
  unfold mark. destruct (Punctuation.punct_mark c); [left; now left|]. destruct (N.eq_dec c 34); [left; tauto|].
  destruct (N.eq_dec c 92); [left; tauto|]. right. intros [H|[H|H]]; [discriminate|contradiction|contradiction].
Qed.
Lemma repeat_cons_end n : repeat 32%N (S n) = repeat 32%N n ++ [32%N].
Proof. induction n as [|n IH]; [reflexivity|]. cbn [repeat app] in *. now rewrite <- IH. Qed.
Lemma loose_split m : Exists mark m -> Forall (fun c => c = 32%N \/ mark c) m ->
  exists a b, m = a ++ b /\ accepts marks_tagger a /\ accepts (Star marks_tagger) b.
Proof.
  intros E F. enough (G : forall n, exists a b, repeat 32%N n ++ m = a ++ b /\ accepts marks_tagger a /\ accepts (Star marks_tagger) b) by exact (G 0).
  induction m as [|c m IH]; [inversion E|]. intro n. pose proof (Forall_inv F) as C. apply Forall_inv_tail in F.
  destruct C as [->|C].
  - assert (E' : Exists mark m).
    { inversion E as [? ? [C|[C|C]]|]; subst; [|discriminate..|assumption]. vm_compute in C. discriminate. }
    destruct (IH E' F (S n)) as (a & b & Eq & A & B). exists a, b. split; [|auto]. rewrite <- Eq.
    change (32%N :: m) with ([32%N] ++ m). rewrite app_assoc, <- repeat_cons_end. reflexivity.
  - destruct (Exists_dec mark m mark_dec) as [E'|E'].
    + destruct (IH E' F 0) as (a & b & Eq & A & B). exists (repeat 32%N n ++ [c] ++ repeat 32%N 0), m. split; [now rewrite <- app_assoc|]. split.
      * apply marks_tagged. split; [discriminate|auto].
      * cbn [repeat app] in Eq. rewrite Eq. now apply star_more.
    + exists (repeat 32%N n ++ [c] ++ m), []. split; [now rewrite app_nil_r|]. split; [|apply star_none].
      replace m with (repeat 32%N (List.length m)); [apply marks_tagged; split; [discriminate|auto]|].
      clear -F E'. induction m as [|d m IH]; [reflexivity|]. cbn [List.length repeat].
      destruct (Forall_inv F) as [->|C]; [|destruct E'; now left]. f_equal. apply IH; [exact (Forall_inv_tail F)|].
      intro X. apply E'. now right.
Qed.
Lemma loose_tagged m : loose m -> accepts (Star marks_tagger) m.
Proof.
  intros [->|(E & F)]; [apply star_none|]. destruct (loose_split m E F) as (a & b & -> & A & B). now apply star_more.
Qed.
Lemma white_erased c : white c -> accepts (Erase SPACE) [c].
Proof. intro W. exists [], 0%Z. split; [reflexivity|]. exists [c], c. apply white_space in W. auto. Qed.
Lemma whites_erased a : Forall white a -> accepts DELETE_SPACE a.
Proof.
  induction 1 as [|c a W F IH]; [apply star_none|]. change (c :: a) with ([c] ++ a). apply star_more; [now apply white_erased|exact IH].
Qed.
Notation token := (Star marks_tagger + small + Star marks_tagger)%fst.
Lemma phrase_tagged m p m' : loose m -> phrase p -> loose m' ->
  accepts (token + Star ((Erase SPACE ∪ marks_tagger) + token))%fst (m ++ p ++ m').
Proof.
  intros M P M'. apply loose_tagged in M. apply loose_tagged in M'. revert m M. induction P as [w C|w s r C S P IH]; intros m M.
  - rewrite <- (app_nil_r (m ++ w ++ m')). apply acc_cat; [|apply star_none]. rewrite app_assoc.
    apply acc_cat; [apply acc_cat; [exact M|now apply core_tagged]|exact M'].
  - assert (Sp : exists a b c, s = a ++ b ++ c /\ accepts (Star marks_tagger) a /\ accepts (Erase SPACE ∪ marks_tagger)%fst b /\ accepts (Star marks_tagger) c).
    { destruct S as [a c d La W Ld|a [->|(E & F)] Na].
      - exists a, [c], d. split; [reflexivity|]. split; [now apply loose_tagged|]. split; [now apply acc_left, white_erased|now apply loose_tagged].
      - contradiction.
      - destruct (loose_split a E F) as (b & d & -> & B & D). exists [], b, d. split; [reflexivity|]. split; [apply star_none|]. split; [now apply acc_right|exact D]. }
    destruct Sp as (a & b & d & -> & A & B & D).
    destruct (IH d D) as (y & k & x1 & y1 & w1 & x2 & y2 & w2 & E & _ & _ & H1 & H2).
    replace (m ++ (w ++ (a ++ b ++ d) ++ r) ++ m') with ((m ++ w ++ a) ++ b ++ (d ++ r ++ m')) by now rewrite <- !app_assoc.
    rewrite E. replace ((m ++ w ++ a) ++ b ++ x1 ++ x2) with (((m ++ w) ++ a) ++ (b ++ x1) ++ x2) by now rewrite <- !app_assoc.
    apply acc_cat.
    + apply acc_cat; [apply acc_cat; [exact M|now apply core_tagged]|exact A].
    + apply star_more; [|exists y2, w2; exact H2]. apply acc_cat; [exact B|exists y1, w1; exact H1].
Qed.
Lemma small_writes_valid : writes_valid (sentence_of marks_tagger small) = true.
Proof. vm_compute. reflexivity. Qed.
Lemma english_valid x : english x -> forallb vchar x = true.
Proof.
  assert (Mk : forall m, Forall mark m -> forallb vchar m = true).
  { intros m F. rewrite forallb_forall. rewrite Forall_forall in F. intros c I. apply F in I as [P|[->| ->]]; [|reflexivity..].
    apply punct_mark_plain in P. unfold plain in P. now rewrite !andb_true_iff in P. }
  assert (Wh : forall m, Forall white m -> forallb vchar m = true).
  { intros m F. rewrite forallb_forall. rewrite Forall_forall in F. intros c I. apply F in I. unfold white in I. unfold vchar.
    rewrite orb_true_iff, !andb_true_iff, !N.leb_le, !N.ltb_lt. lia. }
  assert (Sp : forall n, forallb vchar (repeat 32%N n) = true) by (induction n; [reflexivity|exact IHn]).
  assert (Co : forall w, core w -> forallb vchar w = true).
  { intros w (_ & [F|F]); rewrite forallb_forall; rewrite Forall_forall in F; intros c I; apply F in I.
    - apply word_char_plain in I. unfold plain in I. now rewrite !andb_true_iff in I.
    - unfold digit in I. unfold vchar. rewrite orb_true_iff, !andb_true_iff, !N.leb_le, !N.ltb_lt. lia. }
  assert (Lo : forall m, loose m -> forallb vchar m = true).
  { intros m [->|(_ & F)]; [reflexivity|]. rewrite forallb_forall. rewrite Forall_forall in F. intros c I.
    apply F in I as [->|C]; [reflexivity|]. pose proof (Mk [c] (Forall_cons _ C (Forall_nil _))) as H. cbn [forallb] in H. now rewrite andb_true_r in H. }
  assert (Se : forall s, separator s -> forallb vchar s = true).
  { intros s [m c m' L W L'|m L _]; [|exact (Lo m L)]. rewrite !forallb_app, (Lo m L), (Lo m' L'). rewrite (Wh [c]) by auto. reflexivity. }
  intros (_ & [(n & m & k & (_ & M) & ->)|(a & m & p & m' & b & A & M & P & M' & B & ->)]); rewrite !forallb_app.
  - now rewrite !Sp, (Mk m M).
  - rewrite (Wh a A), (Wh b B), (Lo m M), (Lo m' M'). rewrite !andb_true_r. cbn [andb].
    induction P as [w C|w s r C S P IH]; [exact (Co w C)|]. now rewrite !forallb_app, (Co w C), (Se s S).
Qed.
Theorem english_tagged x : english x -> exists y w, denote small_tagger x y w.
Proof.
  intro E. assert (A : accepts (sentence_of marks_tagger small) x).
  { destruct E as (_ & [(n & m & k & M & ->)|(a & m & p & m' & b & A & M & P & M' & B & ->)]); unfold sentence_of.
    - apply acc_right. now apply marks_tagged.
    - apply acc_left. replace (a ++ m ++ p ++ m' ++ b) with ((a ++ m ++ p ++ m') ++ b) by now rewrite <- !app_assoc.
      apply acc_cat; [|now apply whites_erased].
      destruct (phrase_tagged m p m' M P M') as (y & k & x1 & y1 & w1 & x2 & y2 & w2 & Ex & _ & _ & H1 & H2).
      rewrite Ex, app_assoc. apply acc_cat; [|exists y2, w2; exact H2]. apply acc_cat; [now apply whites_erased|exists y1, w1; exact H1]. }
  destruct A as (z & w & A). assert (V : forallb vchar z = true) by exact (writes_valid_sound _ small_writes_valid _ _ _ A (english_valid x E)).
  destruct (total_rewrite ds Anywhere Edge eq_refl eq_refl z V) as (y & k & R & _). exists y, (w + k)%Z. now apply compose_i with z.
Qed.
