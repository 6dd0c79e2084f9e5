(** Properties C40, C41 and C46: the parts every grammar is built from
    (tn/processor.py).

    Vocabulary: [denote] (Fst.v) is the meaning of a graph, [denote g x y w] saying that
    [g] turns [x] into [y] at cost [w]; [valid_text] and [least] are in GrammarSpec.v,
    [escaped] and [decodes] in TokenSpec.v. *)
From Coq Require Import List NArith ZArith Bool String Lia.
From Verif Require Import Text TokenModel TokenSpec TokenProofs2 TokenProofs3.
From Verif Require Import Fst GrammarModel GrammarSpec FstFacts.
Import ListNotations.
Local Open Scope list_scope.

(** C40: writing a value is the escaping, reading it back is the inverse. *)
Theorem C40_write : forall x y w,
  denote (Star CHAR) x y w <-> valid_text x /\ escaped x y /\ w = 0%Z.
Proof. intros. now rewrite chars_spec, vtext_spec, escaped_value. Qed.
Print Assumptions C40_write.
Theorem C40_read : forall x y w,
  denote SIGMA y x w <-> valid_text x /\ escaped x y /\ w = 0%Z.
Proof. intros. now rewrite sigma_spec, vtext_spec, escaped_value. Qed.
Print Assumptions C40_read.
Theorem C40_escape_value : forall x y,
  (exists w, denote (Star CHAR) x y w) <-> valid_text x /\ y = escape_value x.
Proof.
  intros. split.
  - intros (w & H). apply chars_spec in H as (V & E & _). now rewrite <- vtext_spec.
  - intros (V & E). exists 0%Z. apply chars_spec. now rewrite vtext_spec.
Qed.
Print Assumptions C40_escape_value.
(** One encoding per value, one value per encoding, and the parser's value is that one. *)
Theorem C40_one_to_one : forall x y x' y' w w',
  denote (Star CHAR) x y w -> denote (Star CHAR) x' y' w' -> (x = x' <-> y = y').
Proof.
  intros x y x' y' w w' H H'.
  apply chars_spec in H as (_ & -> & _). apply chars_spec in H' as (_ & -> & _).
  split; [now intros ->|apply escape_injective].
Qed.
Print Assumptions C40_one_to_one.
Theorem C40_parser_reads_it : forall x y w v,
  denote (Star CHAR) x y w -> (decodes y v <-> v = x).
Proof.
  intros x y w v H. apply chars_spec in H as (_ & -> & _).
  split; [|intros ->; apply escape_decodes].
  intro D. now destruct (escape_roundtrip x [] _ v [] D eq_refl).
Qed.
Print Assumptions C40_parser_reads_it.
Example C40_witness : denote (Star CHAR) (u "a""\}") (u "a\""\\}") 0%Z.
Proof. apply chars_spec. repeat split. Qed.

(** C41: the field is written and read back as the graph alone would have converted it. *)
Theorem C41_same_pairs : forall name g (space : bool) x z, valid_text x ->
  ((exists t w1 w2, denote (tag_field name g) x t w1 /\
      denote (verbalize_field name (Some g) space) ((if space then u " " else []) ++ t) z w2)
   <-> exists w, denote g x z w).
Proof.
  intros name g space x z V. apply vtext_spec in V. split.
  - intros (t & w1 & w2 & T & B). apply tag_field_spec in T as (_ & -> & _).
    apply verbalize_field_spec in B as (x' & _ & E & G).
    exists w2. apply app_inv_head in E. do 2 apply app_inv_head in E. apply app_inv_tail in E.
    now apply escape_injective in E as ->.
  - intros (w & G). exists (name ++ u ": """ ++ escape_value x ++ u """"), w, w. split.
    + apply tag_field_spec. eauto.
    + apply verbalize_field_spec. eauto.
Qed.
Print Assumptions C41_same_pairs.
(** The tagging of a text is unique. *)
Theorem C41_one_tagging : forall name g x t t' w w',
  denote (tag_field name g) x t w -> denote (tag_field name g) x t' w' -> t = t'.
Proof.
  intros name g x t t' w w' H H'.
  apply tag_field_spec in H as (_ & -> & _). now apply tag_field_spec in H' as (_ & -> & _).
Qed.
Print Assumptions C41_one_tagging.
(** Costs.  A candidate is ranked by tagger + verbalizer - best verbalizer; that is the
    cost of the graph itself. *)
Theorem C41_same_cost : forall name g x t z tagger verbalizer best,
  least (denote (tag_field name g) x t) tagger ->
  least (denote (verbalize_field name (Some g) false) t z) verbalizer ->
  least (fun w => exists z', denote (verbalize_field name (Some g) false) t z' w) best ->
  tagger = best /\ least (denote g x z) (tagger + verbalizer - best)%Z.
Proof.
  intros name g x t z a c b (A & A') (C & C') (B & B').
  apply tag_field_spec in A as (V & Et & za & Ga).
  assert (R : forall z w, denote (verbalize_field name (Some g) false) t z w <-> denote g x z w).
  { intros z0 w0. rewrite verbalize_field_spec. split.
    - intros (x' & _ & E & G). rewrite Et in E. cbn [app] in E.
      do 2 apply app_inv_head in E. apply app_inv_tail in E. now apply escape_injective in E as ->.
    - intro G. exists x. auto. }
  assert (a = b) as ->.
  { apply Z.le_antisymm.
    - destruct B as (zb & Gb). apply R in Gb. apply A'. apply tag_field_spec. eauto.
    - apply B'. exists za. now apply R. }
  split; [reflexivity|]. replace (b + c - b)%Z with c by lia.
  split; [now apply R|]. intros v G. apply C'. now apply R.
Qed.
Print Assumptions C41_same_cost.
(** A graph with two readings of different cost. *)
Example C41_witness :
  let g := Union (Cross (u "2""") (u "二")) (Weight 1000 (Cross (u "2""") (u "两"))) in
  least (denote (tag_field (u "value") g) (u "2""") (u "value: ""2\""""")) 0%Z /\
  least (denote (verbalize_field (u "value") (Some g) false) (u "value: ""2\""""") (u "两")) 1000%Z /\
  least (fun w => exists z', denote (verbalize_field (u "value") (Some g) false) (u "value: ""2\""""") z' w) 0%Z.
Proof.
  cbv zeta.
  set (g := Union (Cross (u "2""") (u "二")) (Weight 1000 (Cross (u "2""") (u "两")))).
  assert (G : forall x z w, denote g x z w <-> x = u "2""" /\ (z = u "二" /\ w = 0 \/ z = u "两" /\ w = 1000)%Z).
  { intros. cbn [g denote]. split.
    - intros [(-> & -> & ->)|(v & -> & -> & -> & ->)]; auto.
    - intros (-> & [(-> & ->)|(-> & ->)]); [left; auto|right; exists 0%Z; auto]. }
  assert (T : u "value: ""2\""""" = u "value" ++ u ": """ ++ escape_value (u "2""") ++ u """") by reflexivity.
  assert (B : forall z w, denote (verbalize_field (u "value") (Some g) false) (u "value: ""2\""""") z w <->
                          (z = u "二" /\ w = 0 \/ z = u "两" /\ w = 1000)%Z).
  { intros. rewrite verbalize_field_spec. split.
    - intros (x & _ & _ & H). apply G in H as (_ & H). exact H.
    - intro H. exists (u "2"""). split; [reflexivity|]. split; [exact T|]. apply G. auto. }
  assert (D : u "二" <> u "两") by (vm_compute; discriminate).
  split; [|split]; split.
  - apply tag_field_spec. split; [reflexivity|]. split; [exact T|]. exists (u "二"). apply G. auto.
  - intros v H. apply tag_field_spec in H as (_ & _ & z & H). apply G in H as (_ & [(_ & ->)|(_ & ->)]); lia.
  - apply B. auto.
  - intros v H. apply B in H as [(E & _)|(_ & ->)]; [now destruct D|lia].
  - exists (u "二"). apply B. auto.
  - intros v (z & H). apply B in H as [(_ & ->)|(_ & ->)]; lia.
Qed.

(** C46: a union relates what its rules relate, each at its own weight on top. *)
Theorem C46_tagger_union : forall rules graph, tagger_union rules = Some graph ->
  forall x y w, denote graph x y w <->
    exists spec k, In spec rules /\ s_weight spec = Some k /\
      denote (r_tagger (s_rule spec)) x y (w - k)%Z.
Proof. exact taggers_spec. Qed.
Print Assumptions C46_tagger_union.
Theorem C46_tagger_union_rejects : forall rules,
  tagger_union rules = None <-> forall spec, In spec rules -> s_weight spec = None.
Proof. exact tagger_union_none. Qed.
Print Assumptions C46_tagger_union_rejects.
Theorem C46_verbalizer_union : forall rules graph, verbalizer_union rules = Some graph ->
  forall x y w, denote graph x y w <->
    exists spec, In spec rules /\ s_verbalize spec = true /\ denote (r_verbalizer (s_rule spec)) x y w.
Proof. exact verbalizers_spec. Qed.
Print Assumptions C46_verbalizer_union.
Theorem C46_verbalizer_union_rejects : forall rules,
  verbalizer_union rules = None <-> forall spec, In spec rules -> s_verbalize spec = false.
Proof. exact verbalizer_union_none. Qed.
Print Assumptions C46_verbalizer_union_rejects.
(** Precedence: the cheapest tagging of the union is the cheapest over the rules of the
    rule's own cost plus its weight. *)
Theorem C46_precedence : forall rules graph x y w, tagger_union rules = Some graph ->
  least (denote graph x y) w ->
  (exists spec k, In spec rules /\ s_weight spec = Some k /\ least (denote (r_tagger (s_rule spec)) x y) (w - k)%Z) /\
  (forall spec k v, In spec rules -> s_weight spec = Some k ->
     denote (r_tagger (s_rule spec)) x y v -> (w <= v + k)%Z).
Proof.
  intros rules graph x y w E (H & L).
  assert (M : forall spec k v, In spec rules -> s_weight spec = Some k ->
     denote (r_tagger (s_rule spec)) x y v -> (w <= v + k)%Z).
  { intros s k v I K D. apply L. apply (taggers_spec _ _ E). exists s, k.
    replace (v + k - k)%Z with v by lia. auto. }
  split; [|exact M].
  apply (taggers_spec _ _ E) in H as (s & k & I & K & D).
  exists s, k. split; [exact I|]. split; [exact K|]. split; [exact D|].
  intros v Dv. specialize (M s k v I K Dv). lia.
Qed.
Print Assumptions C46_precedence.
Example C46_witness :
  let rules := [RuleSpec (Rule (Cross (u "a") (u "b")) VSIGMA) (Some 10200%Z) false;
                RuleSpec (Rule (Cross (u "a") (u "c")) VSIGMA) None true;
                RuleSpec (Rule (Cross (u "a") (u "b")) VSIGMA) (Some 1000000%Z) true] in
  exists graph, tagger_union rules = Some graph /\ least (denote graph (u "a") (u "b")) 10200%Z /\
    (forall w, ~ denote graph (u "a") (u "c") w).
Proof.
  cbv zeta. eexists. split; [reflexivity|]. split; [split|].
  - left. exists 0%Z. cbn. auto.
  - intros v [(k & -> & _ & _ & ->)|(k & -> & _ & _ & ->)]; lia.
  - intros w [(k & _ & _ & E & _)|(k & _ & _ & E & _)]; vm_compute in E; discriminate.
Qed.
