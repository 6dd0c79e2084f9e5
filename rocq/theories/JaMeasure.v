(** Spoken numbers with a unit in the Japanese inverse normaliser (C78). *)
From Coq Require Import List NArith ZArith Bool String Lia Arith.
From Verif Require Import Text TextFacts TokenModel Fst FstFacts GrammarModel GrammarSpec NumeralSpec EnglishNumeralSpec DataJaItn JaItnModel ZhTnEndSpec ZhDateSpec JaNumeralSpec.
From Verif Require Import BoundaryChar TokenVerbal ZhNumberProofs JaApart JaHead JaSpoken JaSpoken2 JaSpoken3 JaSpoken4 JaUnit.
Import ListNotations.
Local Open Scope list_scope.

Definition units : list (text * text) := map Fst.entry ja_itn_measure_unit_en.
Definition counters : list (text * text) := map Fst.entry ja_itn_measure_unit_ja.
(** A word read right after a number: it begins with no character that a number has, and has none of 千, 毎 and 每. *)
Definition tame (k : text) : Prop := k <> [] /\ head_in spelled k = false /\ forallb vchar k = true /\ ~ In 21315%N k /\ ~ In 27598%N k /\ ~ In 27599%N k.
Definition tameb (k : text) : bool := match k with [] => false | c :: _ => if spelled c then false else if forallb vchar k then negb (among k 21315%N) && (negb (among k 27598%N) && negb (among k 27599%N)) else false end.
Lemma tameb_sound k : tameb k = true -> tame k.
Proof.
  unfold tameb. destruct k as [|c k]; [discriminate|]. intro H. destruct (spelled c) eqn:E; [discriminate|]. destruct (forallb vchar (c :: k)) eqn:Vk; [|discriminate]. rewrite !andb_true_iff, !negb_true_iff in H. destruct H as (A & B & C).
  split; [discriminate|]. split; [exact E|]. split; [exact Vk|]. repeat split; intro I; apply among_in in I; congruence.
Qed.
Definition KM : text := Eval vm_compute in u "キロメートル".
Lemma unit_heads k v : In (k, v) units -> k = 21315%N :: KM \/ head_in going k = false.
Proof.
  assert (A : forallb (fun q => if text_eqb (Datatypes.fst q) (21315%N :: KM) then true else negb (head_in going (Datatypes.fst q))) units = true) by (vm_compute; reflexivity).
  rewrite forallb_forall in A. intro I. specialize (A _ I). cbn [Datatypes.fst] in A. destruct (text_eqb_spec k (21315%N :: KM)) as [->|_]; [now left|right]. now apply negb_true_iff in A.
Qed.
Lemma unit_some k v : In (k, v) units -> k <> [].
Proof.
  assert (A : forallb (fun q => match Datatypes.fst q with [] => false | _ => true end) units = true) by (vm_compute; reflexivity).
  rewrite forallb_forall in A. intros I ->. specialize (A _ I). discriminate A.
Qed.
Lemma counter_heads k v : In (k, v) counters -> v = k /\ head_in going k = false.
Proof.
  assert (A : forallb (fun q => if text_eqb (Datatypes.fst q) (snd q) then negb (head_in going (Datatypes.fst q)) else false) counters = true) by (vm_compute; reflexivity).
  rewrite forallb_forall in A. intro I. specialize (A _ I). cbn [Datatypes.fst snd] in A. destruct (text_eqb_spec k v) as [->|_]; [|discriminate]. split; [reflexivity|]. now apply negb_true_iff in A.
Qed.
Lemma measure_counts o p z w : denote (Measure.cardinal o ∪ Measure.decimal o) p z w -> denote (counts (enable_million o)) p z w.
Proof. unfold Measure.cardinal, Measure.decimal. intros [H|H]; [left|now right]. destruct (enable_0_to_9 o); [exact H|now apply exclude_number]. Qed.
Lemma suffix_mark r y w : denote (ques Measure.suffix) r y w -> r = [] /\ y = [] /\ w = 0%Z \/ In 27598%N r \/ In 27599%N r.
Proof.
  intros [H|H]; [right|left; exact H]. apply cat_inv in H as (x1 & y1 & w1 & x2 & y2 & w2 & -> & _ & _ & H & _). apply cat_inv in H as (x3 & y3 & w3 & x4 & y4 & w4 & -> & _ & _ & _ & H).
  rewrite !in_app_iff. destruct H as [(-> & _)|(-> & _)]; vm_compute; intuition.
Qed.
Section Measure.
Variables (o : options) (s sw m d f : text) (n : N).
Hypothesis Sg : ja_sign_words s = Some sw.
Hypothesis V : japanese_value m = Some n.
Hypothesis L : (n < 100000000)%N.
Hypothesis F : Forall digit_char f.
Hypothesis J : just (Cardinal.positive_integer (enable_million o)) m d.
Hypothesis D : decimal d n.
Let T := sw ++ m ++ ja_point_words f.
Variable k : text.
Hypothesis Tame : tame k.
Hypothesis Kilo : ~ (k = KM /\ exists p, T = p ++ u "千").
Lemma no_thousand_km p r : p ++ (21315%N :: KM) ++ r = T ++ k -> r = [] \/ In 27598%N r \/ In 27599%N r -> False.
Proof.
  intros E R. destruct Tame as (_ & Hd & _ & N1 & N2 & N3). pose proof (number_known s sw m f n Sg V L F) as K. apply app_eq_app in E as (l & [(Ea & Eb)|(Ea & Eb)]).
  - apply N1. rewrite Eb. apply in_app_iff. right. now left.
  - fold T in K. rewrite Ea, forallb_app, andb_true_iff in K. apply proj2 in K. destruct l as [|c l].
    + cbn [app] in Eb. rewrite <- Eb in Hd. vm_compute in Hd. discriminate Hd.
    + cbn [app] in Eb. injection Eb as <- Eb. destruct l as [|c' l].
      * cbn [app] in Eb. destruct R as [-> |[R|R]].
        -- apply Kilo. split; [rewrite <- Eb; reflexivity|]. exists p. exact Ea.
        -- apply N2. rewrite <- Eb. do 6 right. exact R.
        -- apply N3. rewrite <- Eb. do 6 right. exact R.
      * cbn [forallb] in K. rewrite !andb_true_iff in K. destruct K as (_ & K & _). unfold KM in Eb. cbn [app] in Eb. injection Eb as <- _. vm_compute in K. discriminate K.
Qed.
Lemma measure_parse z w : denote (Measure.measure o) (T ++ k) z w ->
  counted_ok o s n f /\ ((exists v, In (k, v) units /\ z = numeral s d f ++ v /\ w = 0%Z) \/ (In (k, k) counters /\ z = numeral s d f ++ k /\ w = 10%Z)).
Proof.
  intro H. destruct Tame as (_ & Hd & Vk & _ & N2 & N3). destruct H as [H|H].
  - apply cat_inv in H as (x1 & y1 & w1 & r & y3 & w3 & E & -> & -> & H & H3). apply cat_inv in H as (p & y4 & w4 & q & y5 & w5 & -> & -> & -> & H4 & (I & ->)). rewrite <- app_assoc in E. symmetry in E.
    assert (X : p = T /\ q ++ r = k).
    { destruct (unit_heads q y5 I) as [-> |Hq].
      - exfalso. apply (no_thousand_km p r E). destruct (suffix_mark r y3 w3 H3) as [(-> & _)|R]; auto.
      - apply (cut_number s sw m f n Sg V L F (enable_million o) p (q ++ r) k y4 w4 E Vk (measure_counts o p y4 w4 H4) Hd). rewrite head_in_app; [exact Hq|exact (unit_some q y5 I)]. }
    destruct X as (-> & Ek). apply (measure_reads o s sw m n d f _ _ Sg V L F J D) in H4 as (Ok & -> & ->). split; [exact Ok|]. left. destruct (suffix_mark r y3 w3 H3) as [(-> & -> & ->)|[R|R]].
    + rewrite app_nil_r in Ek. subst q. exists y5. rewrite app_nil_r. auto.
    + exfalso. apply N2. rewrite <- Ek. apply in_app_iff. now right.
    + exfalso. apply N3. rewrite <- Ek. apply in_app_iff. now right.
  - apply cat_inv in H as (p & y4 & w4 & q & y5 & w5 & E & -> & -> & H4 & (w6 & -> & (I & ->))). symmetry in E. destruct (counter_heads q y5 I) as (-> & Hq).
    destruct (cut_number s sw m f n Sg V L F (enable_million o) p q k y4 w4 E Vk (measure_counts o p y4 w4 H4) Hd Hq) as (-> & ->).
    apply (measure_reads o s sw m n d f _ _ Sg V L F J D) in H4 as (Ok & -> & ->). split; [exact Ok|]. right. auto.
Qed.
Lemma measure_unit v : counted_ok o s n f -> In (k, v) units -> denote (Measure.measure o) (T ++ k) (numeral s d f ++ v) 0%Z.
Proof.
  intros Ok I. left. rewrite <- (app_nil_r (T ++ k)), <- (app_nil_r (numeral s d f ++ v)). change 0%Z with (0 + 0 + 0)%Z. apply cat_i; [|now right]. apply cat_i; [|now split]. now apply (measure_reads o s sw m n d f _ _ Sg V L F J D).
Qed.
Lemma measure_counter : counted_ok o s n f -> In (k, k) counters -> denote (Measure.measure o) (T ++ k) (numeral s d f ++ k) 10%Z.
Proof.
  intros Ok I. right. change 10%Z with (0 + 10)%Z. apply cat_i; [|exists 0%Z; now repeat split]. now apply (measure_reads o s sw m n d f _ _ Sg V L F J D).
Qed.
End Measure.
