(** Property C58: the reading of English cardinals (tn/english/rules/cardinal.py).

    Vocabulary: [written], [english_value] and [cheapest] are in EnglishNumeralSpec.v;
    [Cardinal.graph], [Cardinal.final_graph], [Cardinal.rule] and [verbalizer] (EnTnModel.v)
    are the number names, the rule's readings, the rule and the verbalizer of the English
    normaliser. *)
From Coq Require Import List NArith ZArith Bool String Lia.
From Verif Require Import Text TextFacts TokenModel Fst FstFacts FstRun GrammarModel GrammarShape GrammarAccept NumeralSpec EnglishNumeralSpec.
From Verif Require Import ZhNumberProofs EnNumberProofs EnNumberProofs2 EnNumberProofs3 EnNumberProofs4 EnNumberProofs5 PropsNumber.
From Verif Require Import EnTnModel.
Import EnItnModel(DELETE_SPACE).
Import ListNotations.
Local Open Scope list_scope.

(** Every number below 10^15, with or without commas, has exactly one name, and the value of
    the name is the number. *)
Theorem C58_reading : forall t n, written t n -> (n < 10 ^ 15)%N ->
  exists y, english_value y = Some n /\ forall z, (exists w, denote Cardinal.graph t z w) <-> z = y.
Proof.
  intros t n W L. destruct (graph_reading t n W L) as (y & Y & J). exists y. split; [exact (number_words_value n y Y)|].
  intro z. split; [intros (w & H); now apply J in H|intros ->; exists 0%Z; now apply J].
Qed.
Print Assumptions C58_reading.
(** From 10^15 on there is none. *)
Theorem C58_domain : forall t n, written t n -> (10 ^ 15 <= n)%N -> forall z w, ~ denote Cardinal.graph t z w.
Proof. exact graph_none. Qed.
Print Assumptions C58_domain.
(** Different numbers have different names. *)
Theorem C58_apart : forall t t' n n' z w w', written t n -> written t' n' ->
  denote Cardinal.graph t z w -> denote Cardinal.graph t' z w' -> n = n'.
Proof.
  intros t t' n n' z w w' D D' H H'.
  destruct (N.lt_ge_cases n (10 ^ 15)) as [L|L]; [|now apply (C58_domain t n D L) in H].
  destruct (N.lt_ge_cases n' (10 ^ 15)) as [L'|L']; [|now apply (C58_domain t' n' D' L') in H'].
  destruct (graph_reading t n D L) as (y & Y & J). destruct (graph_reading t' n' D' L') as (y' & Y' & J').
  apply number_words_value in Y, Y'. apply J in H as (-> & _). apply J' in H' as (<- & _). rewrite Y in Y'. now injection Y'.
Qed.
Print Assumptions C58_apart.

(** The rule tags a number, with or without a minus sign, in exactly one way. *)
Lemma opt_minus x y w : denote Cardinal.optional_minus x y w ->
  x = [] /\ y = [] \/ x = u "-" /\ y = u "negative: ""-"" ".
Proof.
  intros [H|(-> & -> & _)]; [|now left]. right. apply cat_inv in H as (x1 & y1 & w1 & x2 & y2 & w2 & -> & -> & _ & H & (-> & -> & _)).
  apply tag_field_spec in H as (_ & -> & z & -> & _). split; reflexivity.
Qed.
Theorem C58_tagged : forall t n negative, written t n -> (n < 10 ^ 15)%N ->
  forall y, (exists w, denote (r_tagger Cardinal.rule) ((if negative : bool then u "-" else []) ++ t) y w) <->
            y = cardinal_token negative t ++ u " ".
Proof.
  intros t n neg W L y.
  assert (Nm : forall c, c = 45%N \/ c = 34%N \/ c = 92%N -> ~ In c t).
  { intros c C I. apply written_chars in W. rewrite Forall_forall in W. apply W in I. lia. }
  assert (Es : escape_value t = t) by (apply escape_plain; apply Nm; auto).
  change (r_tagger Cardinal.rule) with (add_tokens Cardinal.name (Cardinal.optional_minus + tag_field (u "integer") Cardinal.final_graph)%fst).
  split.
  - intros (w & H). unfold add_tokens in H.
    apply cat_inv in H as (x1 & y1 & w1 & x2 & y2 & w2 & Ex & -> & -> & H & (-> & -> & ->)). rewrite app_nil_r in Ex.
    apply cat_inv in H as (x3 & y3 & w3 & x4 & y4 & w4 & -> & -> & -> & (-> & -> & ->) & H). cbn [app] in Ex.
    apply cat_inv in H as (a & ya & wa & b & yb & wb & -> & -> & -> & A & B).
    apply tag_field_spec in B as (_ & -> & z & G).
    apply opt_minus in A as [(-> & ->)|(-> & ->)]; destruct neg; cbn [app] in Ex.
    + exfalso. apply (final_minus _ _ _ G). rewrite <- Ex. now left.
    + subst b. rewrite Es. unfold cardinal_token. rewrite <- !app_assoc. reflexivity.
    + injection Ex as <-. rewrite Es. unfold cardinal_token. rewrite <- !app_assoc. reflexivity.
    + exfalso. apply (Nm 45%N); [now left|]. rewrite Ex. now left.
  - intros ->. destruct (graph_reading t n W L) as (y0 & Y & J).
    assert (G : denote Cardinal.final_graph t y0 1%Z).
    { left. left. left. left. left. left. left. exists 0%Z. split; [reflexivity|now apply J]. }
    exists 1%Z. unfold add_tokens, cardinal_token.
    assert (B : denote (tag_field (u "integer") Cardinal.final_graph) t (u "integer: """ ++ t ++ u """") 1%Z).
    { apply tag_field_spec. split; [now apply (written_valid t n)|]. split; [|now exists y0]. rewrite Es. reflexivity. }
    assert (M : denote Cardinal.optional_minus (if neg then u "-" else []) (if neg then u "negative: ""-"" " else []) 0%Z).
    { destruct neg; [|right; now cbn]. left. change (u "negative: ""-"" ") with (u "negative: ""-""" ++ [32%N]).
      apply (cat_i _ _ (u "-") _ 0%Z [] _ 0%Z); [|now cbn]. apply tag_field_spec. split; [reflexivity|]. split; [reflexivity|]. now exists (u "true"). }
    pose proof (cat_i _ _ _ _ _ _ _ _ M B) as C.
    pose proof (cat_i (insert (Cardinal.name ++ u " { ")) _ [] (Cardinal.name ++ u " { ") 0%Z _ _ _ ltac:(now cbn) C) as D.
    pose proof (cat_i _ (insert (u " } ")) _ _ _ [] (u " } ") 0%Z D ltac:(now cbn)) as F.
    rewrite app_nil_r in F. cbn [app] in F. rewrite !app_assoc in F |- *.
    match type of F with denote _ _ ?o _ => match goal with |- denote _ _ ?o' _ => assert (Q : o' = o); [|rewrite Q; exact F] end end.
    rewrite <- !app_assoc. reflexivity.
Qed.
Print Assumptions C58_tagged.

(** Below 10^11, of all the ways to read a number the rule's cheapest one is unique and is a
    name of the number. *)
Theorem C58_cheapest : forall t n, written t n -> (n < 10 ^ 11)%N ->
  exists y, english_value y = Some n /\ cheapest (denote Cardinal.final_graph) t y.
Proof. exact cheapest_written. Qed.
Print Assumptions C58_cheapest.
(** And so it is for the verbalizer of the whole normaliser on the token of the number. *)
Theorem C58_verbalized : forall ys t n negative, written t n -> (n < 10 ^ 11)%N -> exists v, verbalizer ys = Some v /\
  exists y, english_value y = Some n /\
    cheapest (denote v) (cardinal_token negative t) (if negative then u "negative " ++ y else y).
Proof.
  intros ys t n neg W L. destruct (verbalizer ys) as [v|] eqn:E; [|discriminate]. exists v. split; [reflexivity|].
  now apply (verbalized ys neg t n W L).
Qed.
Print Assumptions C58_verbalized.

(** The bound is sharp: "one hundred and billion" is how 100000000000 is read, and no name of
    a number (add_optional_and looks for "thousand" and "million" only). *)
Definition hundred_billion : text := u "one hundred billion".
Lemma digits_decimal t : t <> [] -> forallb is_digit t = true -> hd 0%N t <> 48%N -> decimal t (decimal_value t).
Proof.
  intros Ne F H. split; [exact Ne|]. split; [|split; [contradiction|reflexivity]]. apply Forall_forall. intros c I.
  rewrite forallb_forall in F. apply F in I. unfold is_digit, in_range in I. apply andb_true_iff in I as (A & B).
  apply N.leb_le in A, B. now split.
Qed.
Lemma hundred_billion_written : decimal (u "100000000000") 100000000000.
Proof. change 100000000000%N with (decimal_value (u "100000000000")). apply digits_decimal; [discriminate|reflexivity|discriminate]. Qed.
Lemma existsb_item (i : text * text * Z) l :
  existsb (fun j : text * text * Z => text_eqb (Datatypes.fst (Datatypes.fst i)) (Datatypes.fst (Datatypes.fst j)) && text_eqb (snd (Datatypes.fst i)) (snd (Datatypes.fst j)) && (snd i =? snd j)%Z) l = true -> In i l.
Proof.
  intro H. apply existsb_exists in H as (((a, b), w) & I & H). destruct i as ((a', b'), w'). cbn [Datatypes.fst snd] in H.
  apply andb_true_iff in H as (H & C). apply andb_true_iff in H as (A & B). apply Z.eqb_eq in C as ->.
  destruct (text_eqb_spec a' a) as [->|]; [|discriminate]. destruct (text_eqb_spec b' b) as [->|]; [exact I|discriminate].
Qed.
Lemma low_i y : forallb (fun c => (c =? 32)%N || (97 <=? c)%N && (c <=? 122)%N) y = true -> Forall low_char y.
Proof.
  intro H. apply Forall_forall. intros c I. rewrite forallb_forall in H. apply H in I. unfold low_char.
  rewrite orb_true_iff, andb_true_iff, N.eqb_eq, !N.leb_le in I. lia.
Qed.
Lemma hundred_billion_written_name : number_words 100000000000 hundred_billion /\ just Cardinal.graph (u "100000000000") hundred_billion.
Proof.
  pose proof hundred_billion_written as D. destruct (written_groups _ _ (or_introl D)) as (_ & J).
  destruct (names_reading _ _ D ltac:(reflexivity)) as (y & Y & K).
  assert (E : denote Names.graph (u "100000000000") hundred_billion 0%Z).
  { apply outs_all; [vm_compute; reflexivity|]. apply existsb_item. vm_compute. reflexivity. }
  apply K in E as (<- & _). split; [exact Y|]. rewrite nocomma_digits in J by apply D. exact (just_compose _ _ _ _ _ J K).
Qed.
Definition splits (word : text) (y : text) : list (text * text) :=
  flat_map (fun k => match strip (word ++ [32%N]) (skipn k y) with Some s => [(firstn k y, s)] | None => [] end) (seq 0 (S (List.length y))).
Lemma splits_spec word y p s : y = p ++ word ++ 32%N :: s -> In (p, s) (splits word y).
Proof.
  intros ->. apply in_flat_map. exists (List.length p). split.
  - apply in_seq. rewrite app_length. lia.
  - rewrite skipn_app, skipn_all, Nat.sub_diag, firstn_app, firstn_all, Nat.sub_diag. cbn [skipn firstn app].
    change (32%N :: s) with ([32%N] ++ s). rewrite app_assoc.
    destruct (strip (word ++ [32%N]) ((word ++ [32%N]) ++ s)) as [r|] eqn:E.
    + apply strip_spec, app_inv_head in E as ->. rewrite app_nil_r. now left.
    + assert (C : strip (word ++ [32%N]) ((word ++ [32%N]) ++ s) = Some s) by now apply strip_spec. congruence.
Qed.
Theorem C58_refuted : forall ys, exists v, verbalizer ys = Some v /\
  written (u "100000000000") 100000000000 /\
  cheapest (denote v) (cardinal_token false (u "100000000000")) (u "one hundred and billion") /\
  english_value (u "one hundred and billion") = None.
Proof.
  intro ys. destruct (verbalizer ys) as [v|] eqn:Ev; [|discriminate]. exists v. split; [reflexivity|].
  split; [left; exact hundred_billion_written|]. split; [|reflexivity].
  unfold verbalizer in Ev. destruct (verbalizer_union (rules ys)) as [e|] eqn:E; [|discriminate]. injection Ev as <-.
  unfold verbalizer_of. apply (whole_cheapest e false (u "100000000000")).
  - intro I. vm_compute in I. intuition discriminate.
  - intros x z w s H X. exact (only_cardinal ys e x z w s false _ E H X).
  - intros x z w H. apply (verbalizers_spec _ _ E). exists (RuleSpec Cardinal.rule (Some 100000%Z) true).
    split; [unfold rules; cbn [In]; tauto|]. split; [reflexivity|exact H].
  - reflexivity.
  - destruct hundred_billion_written_name as (Y & J).
    assert (R : reads_as 100000000000 hundred_billion (u "100000000000")) by (split; [left; exact hundred_billion_written|exact J]).
    assert (Lo : Forall low_char hundred_billion) by (apply low_i; reflexivity).
    assert (A : forall z w, denote Cardinal.integer_and hundred_billion z w <-> z = u "one hundred and billion" /\ w = (-10)%Z).
    { intros z w. rewrite integer_and_spec by exact Lo. split.
      - intros (-> & [(p & s & Es & -> & _)|(p & s & Es & _)]); apply splits_spec in Es; vm_compute in Es; [|contradiction].
        destruct Es as [[= <- <-]|[]]. auto.
      - intros (-> & ->). split; [reflexivity|]. left. exists (u "one "), (u "billion"). split; [reflexivity|]. split; [reflexivity|].
        split; intros (a & b & C).
        + assert (I : In 117%N (u "billion")) by (rewrite C, !in_app_iff; right; left; vm_compute; auto 12). vm_compute in I. intuition discriminate.
        + assert (I : In 109%N (u "billion")) by (rewrite C, !in_app_iff; right; left; vm_compute; auto 12). vm_compute in I. intuition discriminate. }
    exists (-10)%Z. split.
    + do 6 left. right. exists hundred_billion, 0%Z, (-10)%Z. split; [reflexivity|]. split; [now apply J|now apply A].
    + intros z w H. apply (final_cases _ _ Y (u "100000000000") z w R) in H.
      * assert (Nt : forall r, hundred_billion <> u "one thousand" ++ r) by (intros r C; vm_compute in C; discriminate).
        destruct H as [H|[(x' & v' & H & ->)|(r' & v' & H & -> & ->)]].
        -- destruct H as [(_ & ->)|[H|[(-> & _)|(H & _)]]]; [|apply A in H as (-> & ->); auto with zarith| |]; split; lia.
        -- destruct H as [(_ & ->)|[H|[(-> & _)|(H & _)]]]; [|apply A in H as (_ & ->)| |]; split; lia.
        -- destruct H as [(H & _)|[H|[(_ & H & _)|(_ & H)]]].
           ++ symmetry in H. now apply Nt in H.
           ++ apply A in H as (H & _). vm_compute in H. discriminate.
           ++ exfalso. apply H. now apply (no_thousand r').
           ++ exfalso. apply H. now apply (no_thousand r').
      * intros t' D'. rewrite (decimal_unique _ t' _ D' hundred_billion_written). exact R.
Qed.
Print Assumptions C58_refuted.

(** Every number is written, and with commas. *)
Example C58_witness : written (u "1,234,005") 1234005 /\
  english_value (u "one million two hundred thirty four thousand five") = Some 1234005%N /\
  written (u "40000000012") 40000000012.
Proof.
  split; [|split; [reflexivity|]].
  - right. exists (u "1"), [u "234"; u "005"]. split; [reflexivity|]. split; [cbn; lia|]. split; [repeat constructor|].
    change 1234005%N with (decimal_value (u "1234005")). apply digits_decimal; [discriminate|reflexivity|discriminate].
  - left. change 40000000012%N with (decimal_value (u "40000000012")). apply digits_decimal; [discriminate|reflexivity|discriminate].
Qed.
