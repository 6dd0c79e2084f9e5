(** Spoken English ordinals (C60). *)
From Coq Require Import List NArith ZArith Bool String Lia Arith.
From Verif Require Import Text TextFacts TokenModel Fst FstFacts FstRun GrammarModel GrammarShape GrammarAccept NumeralSpec EnglishNumeralSpec EnglishSpokenSpec EnglishOrdinalSpec.
From Verif Require Import ZhNumberProofs EnNumberProofs EnNumberProofs2 EnNumberProofs4 EnNumberProofs5.
From Verif Require Import EnSpokenProofs EnSpokenProofs2 EnSpokenProofs3 EnSpokenProofs4 EnSpokenProofs5 EnItnVerbal.
From Verif Require Import DataEnItn EnItnModel.
Import ListNotations.
Local Open Scope list_scope.

(** ** The last word *)
Definition boundary (p : text) : Prop := p = [] \/ exists q, p = q ++ u " ".
Lemma last_word c : exists p, boundary p /\ c = p ++ last (words c) [] /\ ~ In 32%N (last (words c) []).
Proof.
  destruct (exists_last (words_nonempty c)) as (ws & w & E). pose proof (words_spaceless c) as F. pose proof (join_words c) as J. rewrite E in *.
  rewrite last_last. apply Forall_app in F as (_ & F). apply Forall_inv in F. destruct ws as [|h t].
  - exists []. split; [now left|]. cbn [app join spaced flat_map] in J. rewrite app_nil_r in J. split; [now symmetry|exact F].
  - exists (join (h :: t) ++ u " "). split; [right; eauto|]. split; [|exact F]. rewrite <- J, join_app by discriminate. cbn [spaced flat_map].
    rewrite app_nil_r, <- app_assoc. reflexivity.
Qed.
Lemma boundary_unique p w p' w' : boundary p -> boundary p' -> ~ In 32%N w -> ~ In 32%N w' -> p ++ w = p' ++ w' -> p = p' /\ w = w'.
Proof.
  assert (A : forall p w, boundary p -> ~ In 32%N w -> last (words (p ++ w)) [] = w).
  { intros p0 w0 [->|(q & ->)] S; [cbn [app]; now rewrite (words_one w0 S)|]. rewrite <- app_assoc. change (u " " ++ w0) with (32%N :: w0). rewrite words_space, (words_one w0 S). apply last_last. }
  intros B B' S S' E. assert (w = w') as -> by (rewrite <- (A p w B S), E; now apply A). split; [now apply app_inv_tail in E|reflexivity].
Qed.
Lemma spoken_last c n : spoken c n -> In (last (words c) []) number_words_list.
Proof.
  intro S. pose proof (spoken_listed c n S) as F. destruct S as (_ & L & _). rewrite Forall_forall in F. apply F. apply filter_In. split.
  - pose proof (words_nonempty c) as Ne. clear -Ne. induction (words c) as [|h t IH]; [now destruct Ne|]. destruct t as [|h' t]; [now left|]. right. apply IH. discriminate.
  - apply negb_true_iff, is_and_not. exact L.
Qed.

(** ** The endings *)
Definition endings : list (text * text) :=
  map entry en_itn_ordinals_digit ++ map entry en_itn_ordinals_teen ++ [(u "tieth", u "ty"); (u "th", [])].
Lemma suffix_spec a b : gives Ordinal.suffix a b <-> In (a, b) endings.
Proof.
  unfold Ordinal.suffix, string_file, endings. rewrite !gives_union, !gives_table, !gives_cross, !in_app_iff. cbn [In].
  split; [intros [[[H|H]|(-> & ->)]|(-> & ->)]; auto|intros [H|[H|[[= <- <-]|[[= <- <-]|[]]]]]; auto].
Qed.
Lemma ending_spec y c : gives (Star VCHAR + Ordinal.suffix)%fst y c <-> exists p a b, y = p ++ a /\ c = p ++ b /\ forallb vchar p = true /\ In (a, b) endings.
Proof.
  rewrite gives_cat. split.
  - intros (p & p' & a & b & -> & -> & H & G). apply gives_vsigma in H as (-> & V). apply suffix_spec in G. eauto 8.
  - intros (p & a & b & -> & -> & V & I). exists p, p, a, b. repeat split; [now apply gives_vsigma|now apply suffix_spec].
Qed.
Definition stem (w b : text) : text := firstn (List.length w - List.length b) w.
Definition fits (w b : text) : bool := text_eqb (stem w b ++ b) w.
Lemma fits_stem p b : stem (p ++ b) b = p /\ fits (p ++ b) b = true.
Proof.
  unfold fits, stem. rewrite app_length. replace (List.length p + List.length b - List.length b) with (List.length p + 0) by lia.
  rewrite firstn_app_2. cbn [firstn]. rewrite app_nil_r. split; [reflexivity|apply text_eqb_refl].
Qed.
Definition spaceless_b (w : text) : bool := negb (existsb (N.eqb 32) w).
Lemma spaceless_spec w : spaceless_b w = true -> ~ In 32%N w.
Proof.
  unfold spaceless_b. rewrite negb_true_iff. intros E I. assert (existsb (N.eqb 32) w = true); [|congruence]. apply existsb_exists. exists 32%N. split; [exact I|reflexivity].
Qed.
Lemma words_end : forallb (fun w => forallb (fun e : text * text => let (a, b) := e in
   implb (fits w b) (text_eqb (stem w b ++ a) (ordinal_word w) || text_eqb (stem w b ++ a) (w ++ u "th"))) endings) number_words_list = true.
Proof. vm_compute. reflexivity. Qed.
Lemma words_begin : forallb (fun w => existsb (fun e : text * text => let (a, b) := e in
   fits w b && text_eqb (stem w b ++ a) (ordinal_word w) && forallb vchar (stem w b)) endings && spaceless_b w && spaceless_b (ordinal_word w)
     && spaceless_b (w ++ u "th") && forallb vchar (ordinal_word w)) number_words_list = true.
Proof. vm_compute. reflexivity. Qed.
Lemma words_differ : forallb (fun w => forallb (fun w' => text_eqb w w' || negb (text_eqb (ordinal_word w) (ordinal_word w') || text_eqb (ordinal_word w) (w' ++ u "th")))
   number_words_list) number_words_list = true.
Proof. vm_compute. reflexivity. Qed.
Lemma endings_spaceless : forallb (fun e : text * text => spaceless_b (snd e)) endings = true.
Proof. vm_compute. reflexivity. Qed.

Lemma word_facts w : In w number_words_list -> ~ In 32%N w /\ ~ In 32%N (ordinal_word w) /\ ~ In 32%N (w ++ u "th") /\ forallb vchar (ordinal_word w) = true /\
  exists a b q, In (a, b) endings /\ w = q ++ b /\ ordinal_word w = q ++ a /\ forallb vchar q = true.
Proof.
  intro I. pose proof words_begin as H. rewrite forallb_forall in H. specialize (H w I). rewrite !andb_true_iff in H. destruct H as ((((X & A) & B) & C) & V).
  repeat (split; [now apply spaceless_spec|]). split; [exact V|]. apply existsb_exists in X as ((a & b) & J & X). rewrite !andb_true_iff in X. destruct X as ((F & G) & V').
  exists a, b, (stem w b). split; [exact J|]. unfold fits in F. destruct (text_eqb_spec (stem w b ++ b) w) as [E|]; [|discriminate].
  destruct (text_eqb_spec (stem w b ++ a) (ordinal_word w)) as [E'|]; [|discriminate]. auto.
Qed.
(** A text with an ending taken off is the number spoken, or the number with "th" after it. *)
Lemma ending_sound y c n : gives (Star VCHAR + Ordinal.suffix)%fst y c -> spoken c n -> ordinal_of c y \/ y = c ++ u "th".
Proof.
  intros H S. apply ending_spec in H as (p & a & b & -> & Ec & V & I).
  destruct (last_word c) as (q & B & E & Sl). pose proof (spoken_last c n S) as L. set (w := last (words c) []) in *.
  assert (Lb : exists p', p = q ++ p' /\ w = p' ++ b).
  { destruct (last_word p) as (q' & B' & E' & S'). exists (last (words p) []). rewrite Ec in E. rewrite E' in E at 1. rewrite <- app_assoc in E.
    apply boundary_unique in E as (-> & ->); [auto|exact B'|exact B| |exact Sl].
    rewrite in_app_iff. intros [K|K]; [contradiction|]. pose proof endings_spaceless as Q. rewrite forallb_forall in Q. specialize (Q _ I). now apply spaceless_spec in Q. }
  destruct Lb as (p' & -> & Ew). clear E V. pose proof words_end as T. rewrite forallb_forall in T. specialize (T w L). rewrite forallb_forall in T. specialize (T _ I). cbn beta iota in T.
  rewrite Ew in T at 1 2 4. destruct (fits_stem p' b) as (St & Fi). rewrite Fi, St in T. cbn [implb] in T. apply orb_true_iff in T as [T|T].
  - left. exists q, w. split; [rewrite Ec, Ew; now rewrite app_assoc|]. split; [exact B|]. split; [exact Sl|].
    destruct (text_eqb_spec (p' ++ a) (ordinal_word w)) as [<-|]; [|discriminate]. now rewrite app_assoc.
  - right. destruct (text_eqb_spec (p' ++ a) (w ++ u "th")) as [E|]; [|discriminate]. rewrite Ec, Ew in *. rewrite <- !app_assoc in *. now rewrite E.
Qed.
Lemma ending_complete c y n : ordinal_of c y -> spoken c n -> gives (Star VCHAR + Ordinal.suffix)%fst y c.
Proof.
  intros (p & w & -> & B & Sw & ->) S. pose proof (spoken_valid _ n S) as V. pose proof (spoken_last _ n S) as L.
  destruct (last_word (p ++ w)) as (q & B' & E & Sl). apply boundary_unique in E as (_ & Ew); [|exact B|exact B'|exact Sw|exact Sl]. rewrite <- Ew in L.
  destruct (word_facts w L) as (_ & _ & _ & _ & a & b & r & I & -> & -> & Vr). apply ending_spec. exists (p ++ r), a, b. rewrite <- !app_assoc. repeat split; [|exact I].
  rewrite forallb_app, Vr. rewrite forallb_app, andb_true_iff in V. now rewrite (proj1 V).
Qed.
Lemma ordinal_unique c y c' n n' : ordinal_of c y -> spoken c n -> spoken c' n' -> ordinal_of c' y \/ y = c' ++ u "th" -> c = c'.
Proof.
  intros (p & w & -> & B & Sw & ->) S S' H. pose proof (spoken_last _ n S) as L. pose proof (spoken_last _ n' S') as L'.
  destruct (last_word (p ++ w)) as (q & Bq & E & Sl). apply boundary_unique in E as (_ & Ew); [|exact B|exact Bq|exact Sw|exact Sl]. rewrite <- Ew in L. clear q Bq Ew Sl.
  destruct (last_word c') as (q & Bq & E & Sl). set (w' := last (words c') []) in *.
  pose proof words_differ as D. rewrite forallb_forall in D. specialize (D w L). rewrite forallb_forall in D. specialize (D w' L').
  destruct (text_eqb_spec w w') as [<-|_]; cbn [orb] in D.
  - rewrite E. f_equal. destruct H as [(p' & w2 & E2 & B2 & S2 & E3)|H].
    + rewrite E2 in E. apply boundary_unique in E as (-> & ->); [|exact B2|exact Bq|exact S2|exact Sl].
      apply boundary_unique in E3 as (E3 & _); [exact E3|exact B|exact Bq|now apply word_facts|now apply word_facts].
    + rewrite E, <- app_assoc in H. apply boundary_unique in H as (H & _); [exact H|exact B|exact Bq|now apply word_facts|now apply word_facts].
  - exfalso. rewrite negb_true_iff, orb_false_iff in D. destruct D as (D1 & D2). destruct H as [(p' & w2 & E2 & B2 & S2 & E3)|H].
    + rewrite E2 in E. apply boundary_unique in E as (-> & ->); [|exact B2|exact Bq|exact S2|exact Sl].
      apply boundary_unique in E3 as (_ & E3); [|exact B|exact Bq|now apply word_facts|now apply word_facts]. rewrite E3, text_eqb_refl in D1. discriminate.
    + rewrite E, <- app_assoc in H. apply boundary_unique in H as (_ & H); [|exact B|exact Bq|now apply word_facts|now apply word_facts]. rewrite H, text_eqb_refl in D2. discriminate.
Qed.
Lemma ordinal_graph y d : gives Ordinal.graph y d -> exists c n, spoken c n /\ decimal d n /\ (ordinal_of c y \/ y = c ++ u "th").
Proof.
  unfold Ordinal.graph. rewrite gives_compose. intros (c & H & G). apply graph_spec in G as (n & S & D). exists c, n. split; [exact S|]. split; [exact D|]. now apply (ending_sound y c n).
Qed.
Lemma loose_ordinal c n d : spoken c n -> decimal d n -> gives Ordinal.graph (c ++ u "th") d.
Proof.
  intros S D. unfold Ordinal.graph. apply gives_compose. exists c. split; [|apply graph_spec; eauto].
  apply ending_spec. exists c, (u "th"), []. rewrite app_nil_r. repeat split; [exact (spoken_valid c n S)|]. unfold endings. rewrite !in_app_iff. cbn [In]. auto.
Qed.
Theorem ordinal_spec c y n : ordinal_of c y -> spoken c n -> forall d, gives Ordinal.graph y d <-> decimal d n.
Proof.
  intros O S d. split.
  - intro G. apply ordinal_graph in G as (c' & n' & S' & D & O'). pose proof (ordinal_unique c y c' n n' O S S' O') as <-.
    destruct S as (_ & _ & S), S' as (_ & _ & S'). assert (n' = n) as <- by congruence. exact D.
  - intro D. unfold Ordinal.graph. apply gives_compose. exists c. split; [now apply (ending_complete c y n)|]. apply graph_spec. eauto.
Qed.

(** ** The suffix *)
Lemma last_not_spec l x d : gives (Ordinal.last_not l) x d <-> d = x /\ forallb vchar x = true /\ (x = [] \/ ~ In (last x 0%N) l).
Proof.
  assert (X : forall c, existsb (N.eqb c) l = true <-> In c l).
  { intro c. rewrite existsb_exists. split; [intros (y & I & E); apply N.eqb_eq in E as ->; exact I|intro I; exists c; split; [exact I|apply N.eqb_refl]]. }
  unfold Ordinal.last_not. rewrite gives_union, gives_cross, gives_cat. split.
  - intros [(-> & ->)|(x1 & d1 & x2 & d2 & -> & -> & H & G)]; [auto|]. apply gives_vsigma in H as (-> & V). apply gives_class in G as (c & -> & -> & P).
    apply andb_true_iff in P as (Vc & P). split; [reflexivity|]. split; [rewrite forallb_app, V; cbn [forallb]; now rewrite Vc|]. right. rewrite last_last, <- X.
    apply negb_true_iff in P. congruence.
  - intros (-> & V & [->|H]); [now left|]. destruct x as [|a x' _] using rev_ind; [left; auto|]. right. rewrite last_last in H. rewrite forallb_app in V. cbn [forallb] in V.
    rewrite !andb_true_iff in V. destruct V as (V & Va & _). exists x', x', [a], [a]. repeat split; [now apply gives_vsigma|]. apply gives_class. exists a. repeat split.
    rewrite Va. cbn [andb]. apply negb_true_iff. rewrite <- X in H. now destruct (existsb (N.eqb a) l).
Qed.
Lemma digit_valid d : Forall digit_char d -> forallb vchar d = true.
Proof.
  intro F. apply forallb_forall. intros c I. rewrite Forall_forall in F. specialize (F c I). unfold digit_char in F. unfold vchar. apply orb_true_iff. left.
  apply andb_true_iff. split; [apply N.leb_le|apply N.ltb_lt]; lia.
Qed.
Lemma value_last d c : decimal_value (d ++ [c]) = (10 * decimal_value d + (c - 48))%N.
Proof. unfold decimal_value. now rewrite fold_left_app. Qed.
Lemma mod_last d c : digit_char c -> (decimal_value (d ++ [c]) mod 10 = c - 48)%N.
Proof. intro C. unfold digit_char in C. rewrite value_last. symmetry. apply N.mod_unique with (decimal_value d); lia. Qed.
Lemma mod_two d b c : digit_char b -> digit_char c -> (decimal_value ((d ++ [b]) ++ [c]) mod 100 = 10 * (b - 48) + (c - 48))%N.
Proof. intros B C. unfold digit_char in *. rewrite !value_last. symmetry. apply N.mod_unique with (decimal_value d); lia. Qed.
Lemma mod_one c : digit_char c -> (decimal_value ([] ++ [c]) mod 100 = c - 48)%N.
Proof. intros C. unfold digit_char in *. rewrite !value_last. symmetry. apply N.mod_unique with 0%N; [lia|]. cbn. lia. Qed.
Definition ends (n : N) : text := if (n =? 1)%N then u "st" else if (n =? 2)%N then u "nd" else u "rd".
Lemma snoc_inj (a b : text) c e : a ++ [c] = b ++ [e] -> a = b /\ c = e.
Proof. intro E. now apply app_inj_tail in E. Qed.
Lemma add_suffix_cases d c z : Forall digit_char (d ++ [c]) -> gives Ordinal.add_suffix (d ++ [c]) z <->
  ((49 <= c <= 51)%N /\ (exists q, d = q ++ [49%N]) /\ z = (d ++ [c]) ++ u "th") \/
  ((49 <= c <= 51)%N /\ (d = [] \/ last d 0%N <> 49%N) /\ z = (d ++ [c]) ++ ends (c - 48)) \/
  (~ (49 <= c <= 51)%N /\ z = (d ++ [c]) ++ u "th").
Proof.
  intro F. pose proof (digit_valid _ F) as V. unfold Ordinal.add_suffix. rewrite !gives_union. split.
  - intros [[H|H]|H].
    + left. apply gives_cat in H as (x1 & d1 & x2 & d2 & E & -> & H & G). apply gives_vsigma in H as (-> & _).
      assert (K : exists k, (49 <= k <= 51)%N /\ x2 = [49%N; k] /\ d2 = [49%N; k] ++ u "th").
      { rewrite !gives_union, !gives_cross in G. destruct G as [[(-> & ->)|(-> & ->)]|(-> & ->)]; [exists 49%N|exists 50%N|exists 51%N]; (split; [lia|split; reflexivity]). }
      destruct K as (k & Lk & -> & ->). change [49%N; k] with ([49%N] ++ [k]) in E. rewrite app_assoc in E. apply snoc_inj in E as (-> & ->).
      split; [exact Lk|]. split; [eauto|]. now rewrite <- !app_assoc.
    + right. left. apply gives_cat in H as (x1 & d1 & x2 & d2 & E & -> & H & G). apply last_not_spec in H as (-> & _ & N).
      assert (K : exists k, (49 <= k <= 51)%N /\ x2 = [k] /\ d2 = [k] ++ ends (k - 48)).
      { rewrite !gives_union, !gives_cross in G. destruct G as [[(-> & ->)|(-> & ->)]|(-> & ->)]; [exists 49%N|exists 50%N|exists 51%N]; (split; [lia|split; reflexivity]). }
      destruct K as (k & Lk & -> & ->). apply snoc_inj in E as (-> & ->). split; [exact Lk|]. split; [|now rewrite <- !app_assoc].
      destruct N as [->|N]; [now left|]. right. intro K. apply N. left. now symmetry.
    + right. right. apply gives_cat in H as (x1 & d1 & x2 & d2 & E & -> & H & G). apply gives_weight, gives_ins in G as (-> & ->). rewrite app_nil_r in E. subst x1.
      apply last_not_spec in H as (-> & _ & [N|N]); [now destruct d|]. rewrite last_last in N. split; [|reflexivity]. cbn [In] in N. lia.
  - assert (Vd : forallb vchar d = true) by (rewrite forallb_app, andb_true_iff in V; tauto). intros [(L & (q & ->) & ->)|[(L & N & ->)|(N & ->)]].
    + left. left. apply gives_cat. exists q, q, [49%N; c], ([49%N; c] ++ u "th"). split; [now rewrite <- app_assoc|]. split; [now rewrite <- !app_assoc|].
      split; [apply gives_vsigma; split; [reflexivity|]; rewrite forallb_app, andb_true_iff in Vd; tauto|]. rewrite !gives_union, !gives_cross.
      assert (C : (c = 49 \/ c = 50 \/ c = 51)%N) by lia. destruct C as [->|[->| ->]]; auto.
    + left. right. apply gives_cat. exists d, d, [c], ([c] ++ ends (c - 48)). split; [reflexivity|]. split; [now rewrite <- !app_assoc|]. split.
      * apply last_not_spec. split; [reflexivity|]. split; [exact Vd|]. destruct N as [->|N]; [now left|]. right. intros [K|[]]. congruence.
      * rewrite !gives_union, !gives_cross. assert (C : (c = 49 \/ c = 50 \/ c = 51)%N) by lia. destruct C as [->|[->| ->]]; auto.
    + right. apply gives_cat. exists (d ++ [c]), (d ++ [c]), [], (u "th"). rewrite app_nil_r. split; [reflexivity|]. split; [reflexivity|]. split; [|now apply gives_weight, gives_ins].
      apply last_not_spec. split; [reflexivity|]. split; [exact V|]. right. rewrite last_last. cbn [In]. lia.
Qed.
Theorem suffix_value d n z : decimal d n -> gives Ordinal.add_suffix d z <-> z = d ++ ordinal_suffix n.
Proof.
  intros (Ne & F & _ & <-). destruct (exists_last Ne) as (d' & c & ->). rewrite (add_suffix_cases d' c z F).
  assert (C : digit_char c) by (apply Forall_app in F as (_ & F); exact (Forall_inv F)).
  unfold ordinal_suffix. rewrite (mod_last d' c C). unfold digit_char in C.
  destruct d' as [|b q _] using rev_ind.
  - rewrite (mod_one c C). replace ((11 <=? c - 48) && (c - 48 <=? 13))%N with false by (symmetry; apply andb_false_iff; left; apply N.leb_gt; lia).
    unfold ends. destruct (N.eqb_spec (c - 48) 1) as [E1|N1]; [|destruct (N.eqb_spec (c - 48) 2) as [E2|N2]; [|destruct (N.eqb_spec (c - 48) 3) as [E3|N3]]].
    1-3: split; [intros [(_ & (q & K) & _)|[(_ & _ & ->)|(K & _)]]; [now destruct q|reflexivity|lia]|intros ->; right; left; split; [lia|]; split; [now left|reflexivity]].
    split; [intros [(_ & (q & K) & _)|[(K & _ & _)|(_ & ->)]]; [now destruct q|lia|reflexivity]|intros ->; right; right; split; [lia|reflexivity]].
  - assert (B : digit_char b) by (rewrite !Forall_app in F; destruct F as ((_ & F) & _); exact (Forall_inv F)).
    rewrite (mod_two q b c B C). unfold digit_char in B. rewrite last_last.
    destruct (N.eq_dec b 49) as [->|Nb].
    + destruct (N.leb_spec 11 (10 * (49 - 48) + (c - 48))) as [L1|L1]; [destruct (N.leb_spec (10 * (49 - 48) + (c - 48)) 13) as [L2|L2]|]; cbn [andb].
      * split; [intros [(_ & _ & ->)|[(_ & [K|K] & _)|(K & _)]]; [reflexivity|now destruct q|congruence|lia]|intros ->; left; split; [lia|]; split; [eauto|reflexivity]].
      * replace (c - 48 =? 1)%N with false by (symmetry; apply N.eqb_neq; lia). replace (c - 48 =? 2)%N with false by (symmetry; apply N.eqb_neq; lia).
        replace (c - 48 =? 3)%N with false by (symmetry; apply N.eqb_neq; lia).
        split; [intros [(K & _)|[(K & _)|(_ & ->)]]; [lia|lia|reflexivity]|intros ->; right; right; split; [lia|reflexivity]].
      * replace (c - 48 =? 1)%N with false by (symmetry; apply N.eqb_neq; lia). replace (c - 48 =? 2)%N with false by (symmetry; apply N.eqb_neq; lia).
        replace (c - 48 =? 3)%N with false by (symmetry; apply N.eqb_neq; lia).
        split; [intros [(K & _)|[(K & _)|(_ & ->)]]; [lia|lia|reflexivity]|intros ->; right; right; split; [lia|reflexivity]].
    + replace ((11 <=? 10 * (b - 48) + (c - 48)) && (10 * (b - 48) + (c - 48) <=? 13))%N with false by (symmetry; apply andb_false_iff; rewrite !N.leb_gt; lia).
      unfold ends. destruct (N.eqb_spec (c - 48) 1) as [E1|N1]; [|destruct (N.eqb_spec (c - 48) 2) as [E2|N2]; [|destruct (N.eqb_spec (c - 48) 3) as [E3|N3]]].
      1-3: split; [intros [(_ & (q' & K) & _)|[(_ & _ & ->)|(K & _)]]; [apply snoc_inj in K as (_ & K); contradiction|reflexivity|lia]|intros ->; right; left; split; [lia|]; split; [now right|reflexivity]].
      split; [intros [(_ & (q' & K) & _)|[(K & _ & _)|(_ & ->)]]; [apply snoc_inj in K as (_ & K); contradiction|lia|reflexivity]|intros ->; right; right; split; [lia|reflexivity]].
Qed.

(** ** Tokens *)
Lemma loose_plain y d : gives Ordinal.graph y d -> forallb vchar y = true /\ ~ In 34%N y /\ escape_value y = y.
Proof.
  intro G. apply ordinal_graph in G as (c & n & S & _ & O).
  assert (T : forallb vchar y = true /\ Forall (fun c => c = 32%N \/ (97 <= c <= 122)%N) y).
  { pose proof (spoken_valid c n S) as V. pose proof (spoken_chars c n S) as F. destruct O as [O| ->].
    - pose proof (spoken_last c n S) as L. destruct O as (p & w & E & B & Sw & ->). destruct (last_word c) as (q & B' & E' & Sl). rewrite E' in E.
      apply boundary_unique in E as (-> & Ew); [|exact B'|exact B|exact Sl|exact Sw]. rewrite Ew in *. clear Ew. rewrite E' in V, F. rewrite forallb_app, andb_true_iff in V. apply Forall_app in F as (F & _).
      split; [rewrite forallb_app, (proj1 V); now apply word_facts|]. apply Forall_app. split; [exact F|].
      assert (Low : forallb (fun w => forallb (fun c => (97 <=? c) && (c <=? 122))%N (ordinal_word w)) number_words_list = true) by (vm_compute; reflexivity).
      rewrite forallb_forall in Low. specialize (Low w L). rewrite forallb_forall in Low. apply Forall_forall. intros x I. right. specialize (Low x I).
      rewrite andb_true_iff, !N.leb_le in Low. exact Low.
    - split; [rewrite forallb_app, V; reflexivity|]. apply Forall_app. split; [exact F|]. change (u "th") with [116%N; 104%N]. constructor; [right; lia|]. constructor; [right; lia|constructor]. }
  destruct T as (V & F). split; [exact V|]. rewrite Forall_forall in F. assert (A : ~ In 34%N y) by (intro I; apply F in I; lia). split; [exact A|].
  apply escape_plain; [exact A|]. intro I. apply F in I. lia.
Qed.
Lemma ordinal_tagger x t : gives (r_tagger Ordinal.rule) x t <-> t = ordinal_token x ++ u " " /\ exists d, gives Ordinal.graph x d.
Proof.
  unfold Ordinal.rule. cbn [r_tagger]. rewrite gives_add_tokens. split.
  - intros (f & -> & H). apply gives_tag_field in H as (_ & -> & d & G). split; [|eauto]. rewrite (proj2 (proj2 (loose_plain x d G))).
    unfold ordinal_token. rewrite <- !app_assoc. reflexivity.
  - intros (-> & d & G). exists (u "integer: """ ++ x ++ u """"). split; [unfold ordinal_token; rewrite <- !app_assoc; reflexivity|].
    apply gives_tag_field. destruct (loose_plain x d G) as (V & _ & ->). split; [exact V|]. split; [reflexivity|eauto].
Qed.
Lemma ordinal_verbal x z : gives (r_verbalizer Ordinal.rule) x z <->
  exists y d c, x = u "ordinal" ++ u " { " ++ (u "integer: """ ++ y ++ u """") ++ u " }" ++ c /\ (c = [] \/ c = u " ") /\ gives Ordinal.graph y d /\ gives Ordinal.add_suffix d z.
Proof.
  unfold Ordinal.rule. cbn [r_verbalizer]. rewrite gives_delete_tokens. split.
  - intros (f & c & -> & C & H). apply gives_compose in H as (d & H & A). apply gives_field in H as (y' & -> & H). apply gives_compose in H as (y & (w & Sg) & G).
    apply sigma_spec in Sg as (_ & -> & _). rewrite (proj2 (proj2 (loose_plain y d G))). exists y, d, c. split; [|auto]. rewrite <- !app_assoc. reflexivity.
  - intros (y & d & c & -> & C & G & A). exists (u "integer: """ ++ y ++ u """"), c. split; [reflexivity|]. split; [exact C|]. apply gives_compose. exists d. split; [|exact A].
    apply gives_field. exists y. split; [reflexivity|]. apply gives_compose. exists y. split; [|exact G]. exists 0%Z. apply sigma_spec.
    destruct (loose_plain y d G) as (V & _ & E). rewrite E. auto.
Qed.
Lemma no_extra out : forallb (fun c => negb (is_space c)) out = true -> forall o y w, rewritten (denote DELETE_EXTRA_SPACE) Anywhere Anywhere o (out ++ [32%N]) y w -> y = out ++ [32%N].
Proof. intros F o y w R. exact (extra_one _ _ _ _ R out eq_refl F). Qed.
Theorem ordinal_verbalized c y n v : ordinal_of c y -> spoken c n -> verbalizer = Some v ->
  exists d, decimal d n /\ forall z, gives v (ordinal_token y) z <-> z = d ++ ordinal_suffix n.
Proof.
  intros O S Ev. destruct (decimal_exists n) as (d & D). exists d. split; [exact D|].
  assert (G : gives Ordinal.graph y d) by now apply (ordinal_spec c y n O S).
  destruct (loose_plain y d G) as (_ & Q & _).
  change (ordinal_token y) with (u "ordinal" ++ u " { " ++ (u "integer: """ ++ y ++ u """ }")).
  assert (Sx : forall b, forallb b (u "stndrdth") = true -> forallb b (ordinal_suffix n) = true).
  { intros b H. vm_compute (u "stndrdth") in H. cbn [forallb] in H. rewrite !andb_true_iff in H.
    unfold ordinal_suffix. destruct ((11 <=? n mod 100) && (n mod 100 <=? 13))%N; [|destruct (n mod 10 =? 1)%N; [|destruct (n mod 10 =? 2)%N; [|destruct (n mod 10 =? 3)%N]]];
      match goal with |- forallb b ?t = true => let t' := eval vm_compute in t in change t with t' end; cbn [forallb]; rewrite !andb_true_iff; tauto. }
  apply (token_verbalized (u "ordinal") Ordinal.rule); [..|exact Ev].
  - do 7 right. now left.
  - intros r' I. unfold rule_table in I. cbn [In] in I. repeat destruct I as [I|I]; [..|destruct I]; pose proof (f_equal Datatypes.fst I) as E; cbn [Datatypes.fst] in E;
      try (vm_compute in E; discriminate); exact (eq_sym (f_equal snd I)).
  - intros x z s H E. apply ordinal_verbal in H as (y' & d' & k & -> & _ & G' & A). rewrite <- !app_assoc in E. do 3 apply app_inv_head in E.
    change (u """ }") with ([34%N] ++ u " }") in E. change (u """") with [34%N] in E. cbn [app] in E.
    apply quoted_unique in E as (-> & E); [|now apply (loose_plain y' d')|exact Q]. change (32%N :: 125%N :: k ++ s) with (u " }" ++ (k ++ s)) in E.
    rewrite <- (app_nil_r (u " }")) in E at 2. apply app_inv_head, app_eq_nil in E as (_ & ->). split; [reflexivity|].
    apply (ordinal_spec c y n O S) in G'. rewrite (decimal_unique n d' d G' D) in A. now apply (suffix_value d n).
  - apply ordinal_verbal. exists y, d, []. split; [rewrite <- !app_assoc; reflexivity|]. split; [now left|]. split; [exact G|]. apply (suffix_value d n _ D). reflexivity.
  - rewrite forallb_app, (digit_valid d) by apply D. now apply Sx.
  - apply no_extra. rewrite forallb_app, andb_true_iff. split; [|now apply Sx]. apply forallb_forall. intros x I. apply (decimal_chars d n x D) in I.
    apply negb_true_iff. unfold is_space, in_range. rewrite !orb_false_iff, andb_false_iff, !N.leb_gt, !N.eqb_neq. lia.
Qed.
