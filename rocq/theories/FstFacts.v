(** Lemmas about Fst.v and GrammarModel.v. *)
From Coq Require Import List NArith ZArith Bool String Lia.
From Verif Require Import Text TokenModel TokenSpec TokenProofs2 TokenProofs3 Fst GrammarModel.
Import ListNotations.
Local Open Scope list_scope.
Local Open Scope fst_scope.

(** ** Closure *)
Lemma star_one (r : rel) x y w : r x y w -> star r x y w.
Proof.
  intro H. pose proof (star_app r x y w [] [] 0%Z H (star_nil r)) as S.
  now rewrite !app_nil_r, Z.add_0_r in S.
Qed.
Lemma star_cat (r : rel) x y w : star r x y w -> forall x' y' w', star r x' y' w' ->
  star r (x ++ x') (y ++ y') (w + w')%Z.
Proof.
  induction 1 as [|x y w x1 y1 w1 H S IH]; intros x' y' w' S'; [exact S'|].
  rewrite <- !app_assoc, <- Z.add_assoc. constructor; auto.
Qed.
(** A closure as a list of parts. *)
Lemma star_parts (r : rel) x y w : star r x y w ->
  exists l : list (text * text * Z), Forall (fun p => r (Datatypes.fst (Datatypes.fst p)) (snd (Datatypes.fst p)) (snd p)) l /\
    x = List.concat (map (fun p => Datatypes.fst (Datatypes.fst p)) l) /\
    y = List.concat (map (fun p => snd (Datatypes.fst p)) l).
Proof.
  induction 1 as [|x y w x' y' w' H S (l & F & -> & ->)].
  - exists []. auto.
  - exists ((x, y, w) :: l). split; [constructor; auto|auto].
Qed.

(** ** Inversion *)
Lemma cat_inv a b x y w : denote (a + b) x y w -> exists x1 y1 w1 x2 y2 w2,
  x = x1 ++ x2 /\ y = y1 ++ y2 /\ w = (w1 + w2)%Z /\ denote a x1 y1 w1 /\ denote b x2 y2 w2.
Proof. exact (fun H => H). Qed.
Lemma cat_i a b x1 y1 w1 x2 y2 w2 : denote a x1 y1 w1 -> denote b x2 y2 w2 ->
  denote (a + b) (x1 ++ x2) (y1 ++ y2) (w1 + w2)%Z.
Proof. intros A B. cbn. exists x1, y1, w1, x2, y2, w2. auto. Qed.
Lemma cross_i x y : denote (Cross x y) x y 0%Z.
Proof. cbn. auto. Qed.
Lemma insert_i t : denote (insert t) [] t 0%Z.
Proof. apply cross_i. Qed.
Lemma delete_i t : denote (delete t) t [] 0%Z.
Proof. apply cross_i. Qed.
Lemma accep_i t : denote (accep t) t t 0%Z.
Proof. apply cross_i. Qed.
Lemma ques_none a : denote (ques a) [] [] 0%Z.
Proof. right. apply cross_i. Qed.
Lemma ques_some a x y w : denote a x y w -> denote (ques a) x y w.
Proof. now left. Qed.
Lemma compose_i a b x y z w1 w2 : denote a x y w1 -> denote b y z w2 -> denote (a @ b) x z (w1 + w2)%Z.
Proof. intros A B. cbn. eauto 7. Qed.

(** ** The value encoding (C40) *)
Lemma plain_spec c : plain c = true <-> vchar c = true /\ c <> 34%N /\ c <> 92%N.
Proof.
  unfold plain. rewrite !andb_true_iff, !negb_true_iff, !N.eqb_neq. tauto.
Qed.
Lemma vchar_34 : vchar 34%N = true. Proof. reflexivity. Qed.
Lemma vchar_92 : vchar 92%N = true. Proof. reflexivity. Qed.

Lemma char_inv x y w : denote CHAR x y w ->
  exists c, x = [c] /\ vchar c = true /\ w = 0%Z /\
    y = (if (c =? 34)%N then [92; 34] else if (c =? 92)%N then [92; 92] else [c])%N.
Proof.
  intros [[(c & -> & -> & P & ->)|(-> & -> & ->)]|(-> & -> & ->)].
  - apply plain_spec in P as (V & A & B). exists c.
    rewrite (proj2 (N.eqb_neq _ _) A), (proj2 (N.eqb_neq _ _) B). auto.
  - exists 92%N. auto.
  - exists 34%N. auto.
Qed.
Lemma char_i c : vchar c = true ->
  denote CHAR [c] (if (c =? 34)%N then [92; 34] else if (c =? 92)%N then [92; 92] else [c])%N 0%Z.
Proof.
  intro V. destruct (N.eqb_spec c 34) as [->|A]; [right; cbn; auto|].
  destruct (N.eqb_spec c 92) as [->|B]; [left; right; cbn; auto|].
  left; left. exists c. repeat split; auto. now apply plain_spec.
Qed.
Lemma escape_step c v :
  escape_value (c :: v)
  = (if (c =? 34)%N then [92; 34] else if (c =? 92)%N then [92; 92] else [c])%N ++ escape_value v.
Proof.
  unfold escape_value, replace_char. cbn [flat_map].
  rewrite flat_map_app. f_equal.
  unfold QUOTE, BSL.
  destruct (N.eqb_spec c 34) as [->|A]; [reflexivity|].
  destruct (N.eqb_spec c 92) as [->|B]; [reflexivity|].
  cbn [flat_map]. rewrite (proj2 (N.eqb_neq _ _) A). now rewrite app_nil_r.
Qed.

Lemma chars_spec x y w : denote (Star CHAR) x y w <->
  forallb vchar x = true /\ y = escape_value x /\ w = 0%Z.
Proof.
  split.
  - cbn [denote]. induction 1 as [|x y w x' y' w' H S (V & -> & ->)]; [repeat split|].
    apply char_inv in H as (c & -> & Vc & -> & ->). cbn [app forallb].
    rewrite Vc, V, escape_step. repeat split.
  - intros (V & -> & ->). induction x as [|c x IH]; [apply star_nil|].
    cbn [forallb] in V. apply andb_true_iff in V as (Vc & V).
    rewrite escape_step. apply (star_app _ [c] _ 0%Z _ _ 0%Z); [now apply char_i|exact (IH V)].
Qed.

Definition SIGMA1 : fst := Class plain ∪ Cross [92; 92]%N [92%N] ∪ Cross [92; 34]%N [34%N].
Lemma sigma1_spec x y w : denote SIGMA1 x y w <-> denote CHAR y x w.
Proof.
  split.
  - intros [[(c & -> & -> & P & ->)|(-> & -> & ->)]|(-> & -> & ->)].
    + left; left. exists c. auto.
    + left; right. cbn. auto.
    + right. cbn. auto.
  - intros [[(c & -> & -> & P & ->)|(-> & -> & ->)]|(-> & -> & ->)].
    + left; left. exists c. auto.
    + left; right. cbn. auto.
    + right. cbn. auto.
Qed.
Lemma star_swap (r s : rel) : (forall x y w, r x y w -> s y x w) ->
  forall x y w, star r x y w -> star s y x w.
Proof. intros H x y w. induction 1; constructor; auto. Qed.
Lemma sigma_spec x y w : denote SIGMA x y w <->
  forallb vchar y = true /\ x = escape_value y /\ w = 0%Z.
Proof.
  rewrite <- chars_spec. split; apply star_swap; intros; now apply sigma1_spec.
Qed.

Lemma escape_injective a b : escape_value a = escape_value b -> a = b.
Proof.
  intro E. assert (H : escape_value a ++ 34%N :: [] = escape_value b ++ 34%N :: []) by now rewrite E.
  now destruct (escape_roundtrip a [] _ b [] (escape_decodes b) H).
Qed.

(** ** Fields (C41) *)
Lemma tag_field_spec name g x t w : denote (tag_field name g) x t w <->
  forallb vchar x = true /\ t = name ++ u ": """ ++ escape_value x ++ u """" /\ exists z, denote g x z w.
Proof.
  unfold tag_field, input_projection. split.
  - intros (x1 & y1 & w1 & x2 & y2 & w2 & -> & -> & -> &
      (x3 & y3 & w3 & x4 & y4 & w4 & -> & -> & -> & (-> & -> & ->) &
        (m & v1 & v2 & -> & (-> & z & G) & C)) & (-> & -> & ->)).
    apply chars_spec in C as (V & -> & ->). rewrite app_nil_r. cbn [app].
    split; [exact V|]. split; [now rewrite <- !app_assoc|].
    exists z. rewrite !Z.add_0_r. exact G.
  - intros (V & -> & z & G).
    replace (name ++ u ": """ ++ escape_value x ++ u """")
      with (((name ++ u ": """) ++ escape_value x) ++ u """") by now rewrite <- !app_assoc.
    replace x with (([] ++ x) ++ []) at 1 by now rewrite app_nil_r.
    replace w with ((0 + (w + 0)) + 0)%Z by lia.
    apply cat_i; [apply cat_i; [apply insert_i|]|apply insert_i].
    apply compose_i with x; [cbn; eauto|]. now apply chars_spec.
Qed.

Lemma verbalize_field_spec name g (sp : bool) t z w : denote (verbalize_field name (Some g) sp) t z w <->
  exists x, forallb vchar x = true /\
    t = (if sp then u " " else []) ++ name ++ u ": """ ++ escape_value x ++ u """" /\ denote g x z w.
Proof.
  unfold verbalize_field. split.
  - intros (x1 & y1 & w1 & x2 & y2 & w2 & -> & -> & -> &
      (x3 & y3 & w3 & x4 & y4 & w4 & -> & -> & -> & (-> & -> & ->) &
        (m & v1 & v2 & -> & C & G)) & (-> & -> & ->)).
    apply sigma_spec in C as (V & -> & ->). exists m. split; [exact V|].
    split; [now rewrite <- !app_assoc|]. rewrite app_nil_r, Z.add_0_r. exact G.
  - intros (x & V & -> & G).
    replace ((if sp then u " " else []) ++ name ++ u ": """ ++ escape_value x ++ u """")
      with ((((if sp then u " " else []) ++ name ++ u ": """) ++ escape_value x) ++ u """")
      by now rewrite <- !app_assoc.
    replace z with (([] ++ z) ++ []) by now rewrite app_nil_r.
    replace w with ((0 + (0 + w)) + 0)%Z by lia.
    apply cat_i; [apply cat_i; [apply delete_i|]|apply delete_i].
    apply compose_i with x; [now apply sigma_spec|exact G].
Qed.
Lemma verbalize_value_spec name (sp : bool) t z w : denote (verbalize_field name None sp) t z w <->
  forallb vchar z = true /\ w = 0%Z /\
    t = (if sp then u " " else []) ++ name ++ u ": """ ++ escape_value z ++ u """".
Proof.
  unfold verbalize_field. split.
  - intros (x1 & y1 & w1 & x2 & y2 & w2 & -> & -> & -> &
      (x3 & y3 & w3 & x4 & y4 & w4 & -> & -> & -> & (-> & -> & ->) & C) & (-> & -> & ->)).
    apply sigma_spec in C as (V & -> & ->). rewrite app_nil_r. cbn [app].
    split; [exact V|]. split; [reflexivity|]. now rewrite <- !app_assoc.
  - intros (V & -> & ->).
    replace ((if sp then u " " else []) ++ name ++ u ": """ ++ escape_value z ++ u """")
      with ((((if sp then u " " else []) ++ name ++ u ": """) ++ escape_value z) ++ u """")
      by now rewrite <- !app_assoc.
    replace z with (([] ++ z) ++ []) at 2 by now rewrite app_nil_r.
    change 0%Z with ((0 + 0) + 0)%Z.
    apply cat_i; [apply cat_i; [apply delete_i|]|apply delete_i]. now apply sigma_spec.
Qed.

(** ** Unions of rules (C46) *)
Lemma union_of_none l : union_of l = None <-> l = [].
Proof. destruct l as [|a r]; cbn; [tauto|]. destruct (union_of r); split; discriminate. Qed.
Lemma union_of_spec l : forall e, union_of l = Some e ->
  forall x y w, denote e x y w <-> exists a, In a l /\ denote a x y w.
Proof.
  induction l as [|a r IH]; intros e; cbn [union_of]; [discriminate|].
  destruct (union_of r) as [b|] eqn:E; intros [= <-] x y w.
  - cbn [denote]. rewrite (IH b eq_refl). split.
    + intros [H|(a' & I & H)]; [exists a|exists a']; cbn; auto.
    + intros (a' & [<-|I] & H); eauto.
  - apply union_of_none in E as ->. split.
    + intro H. exists a. cbn. auto.
    + intros (a' & [<-|[]] & H). exact H.
Qed.
Lemma taggers_spec rules e : tagger_union rules = Some e ->
  forall x y w, denote e x y w <->
    exists s k, In s rules /\ s_weight s = Some k /\ denote (r_tagger (s_rule s)) x y (w - k)%Z.
Proof.
  intros E x y w. rewrite (union_of_spec _ _ E). unfold taggers. split.
  - intros (a & I & H). apply in_flat_map in I as (s & I & A).
    destruct (s_weight s) as [k|] eqn:K; [|destruct A]. destruct A as [<-|[]].
    destruct H as (v & -> & H). exists s, k. replace (v + k - k)%Z with v by lia. auto.
  - intros (s & k & I & K & H). exists (Weight k (r_tagger (s_rule s))). split.
    + apply in_flat_map. exists s. rewrite K. cbn. auto.
    + exists (w - k)%Z. split; [lia|exact H].
Qed.
Lemma verbalizers_spec rules e : verbalizer_union rules = Some e ->
  forall x y w, denote e x y w <->
    exists s, In s rules /\ s_verbalize s = true /\ denote (r_verbalizer (s_rule s)) x y w.
Proof.
  intros E x y w. rewrite (union_of_spec _ _ E). unfold verbalizers. split.
  - intros (a & I & H). apply in_flat_map in I as (s & I & A).
    destruct (s_verbalize s) eqn:K; [|destruct A]. destruct A as [<-|[]]. exists s. auto.
  - intros (s & I & K & H). exists (r_verbalizer (s_rule s)). split; [|exact H].
    apply in_flat_map. exists s. rewrite K. cbn. auto.
Qed.
Lemma tagger_union_none rules : tagger_union rules = None <-> forall s, In s rules -> s_weight s = None.
Proof.
  unfold tagger_union. rewrite union_of_none. unfold taggers. split.
  - intros E s I. destruct (s_weight s) as [k|] eqn:K; [|reflexivity].
    assert (In (Weight k (r_tagger (s_rule s))) []) as []. rewrite <- E.
    apply in_flat_map. exists s. rewrite K. cbn. auto.
  - intro H. induction rules as [|s r IH]; [reflexivity|]. cbn [flat_map].
    rewrite (H s) by (cbn; auto). apply IH. intros; apply H; cbn; auto.
Qed.
Lemma verbalizer_union_none rules : verbalizer_union rules = None <-> forall s, In s rules -> s_verbalize s = false.
Proof.
  unfold verbalizer_union. rewrite union_of_none. unfold verbalizers. split.
  - intros E s I. destruct (s_verbalize s) eqn:K; [|reflexivity].
    assert (In (r_verbalizer (s_rule s)) []) as []. rewrite <- E.
    apply in_flat_map. exists s. rewrite K. cbn. auto.
  - intro H. induction rules as [|s r IH]; [reflexivity|]. cbn [flat_map].
    rewrite (H s) by (cbn; auto). apply IH. intros; apply H; cbn; auto.
Qed.

(** ** Valid text *)
From Verif Require Import GrammarSpec.
Lemma vchar_spec c : vchar c = true <-> valid_char c.
Proof.
  unfold vchar, valid_char.
  rewrite orb_true_iff, !andb_true_iff, !N.leb_le, !N.ltb_lt. lia.
Qed.
Lemma vtext_spec t : forallb vchar t = true <-> valid_text t.
Proof.
  unfold valid_text. rewrite forallb_forall, Forall_forall.
  split; intros H c I; apply vchar_spec; auto.
Qed.
Lemma escaped_value v b : escaped v b <-> b = escape_value v.
Proof.
  split; [|intros ->; apply escape_escaped].
  induction 1 as [|c v b A B H ->|v b H ->|v b H ->]; [reflexivity| | |];
    rewrite escape_step; [|reflexivity|reflexivity].
  now rewrite (proj2 (N.eqb_neq _ _) A), (proj2 (N.eqb_neq _ _) B).
Qed.
