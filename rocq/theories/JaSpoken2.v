(** Spoken Japanese numbers: every way the inverse normaliser's graph writes a numeral is its value. *)
From Coq Require Import List NArith ZArith Bool String Lia Arith.
From Verif Require Import Text TextFacts Fst FstFacts FstRun GrammarModel DataJaItn JaItnModel NumeralSpec JaNumeralSpec ZhNumberProofs ZhNumberProofs2 JaNumber JaNumber2 JaSpoken.
Import ListNotations.
Local Open Scope list_scope.
Local Open Scope fst_scope.

(** ** A first digit other than zero *)
Definition leads (P : fst) (k : nat) (top : option N) : Prop := forall x d w, denote P x d w -> w = 0%Z /\ forall D S U B s, ja_words (Jr D S None U B) x = Some s ->
  List.length d = k /\ Forall digit_char d /\ gained D S B U s (decimal_value d) top /\ hd 0%N d <> 48%N.
Lemma leads_of P k t : worth P k (Some t) -> leads P k (Some t).
Proof. intros H x d w K. apply H in K as (W & K). split; [exact W|]. intros D S U B s J. destruct (K _ _ _ _ _ J) as (L & F & G & Z). repeat split; auto. apply Z. discriminate. Qed.
Lemma leads_digits : leads Cardinal.digits 1 None.
Proof.
  intros x d w K. pose proof K as K0. apply digits_worth in K as (W & K). apply itn_digits in K0 as (_ & _ & K0). split; [exact W|]. intros D S U B s J. destruct (K _ _ _ _ _ J) as (L & F & G & _). destruct (K0 _ _ _ _ _ J) as (c & C & _ & -> & _).
  repeat split; auto. cbn [hd]. unfold nz in C. lia.
Qed.
Definition starts (P : fst) : Prop := forall x d w, denote P x d w -> w = 0%Z /\ forall D S U B s, ja_words (Jr D S None U B) x = Some s ->
  d <> [] /\ Forall digit_char d /\ hd 0%N d <> 48%N /\ gained D S B U s (decimal_value d) None.
Lemma starts_of P k top : leads P (S k) top -> starts P.
Proof.
  intros H x d w K. apply H in K as (W & K). split; [exact W|]. intros D S' U B s J. destruct (K _ _ _ _ _ J) as (L & F & (S1 & g & U' & E & V & O & _) & Z). split; [intros ->; discriminate L|]. split; [exact F|]. split; [exact Z|]. exists S1, g, U'. auto.
Qed.
Lemma starts_union P Q : starts P -> starts Q -> starts (P ∪ Q).
Proof. intros HP HQ x d w [H|H]; [exact (HP _ _ _ H)|exact (HQ _ _ _ H)]. Qed.
Lemma starts_digits : starts Cardinal.digits. Proof. exact (starts_of _ 0 _ leads_digits). Qed.
Lemma starts_teen : starts Cardinal.teen. Proof. exact (starts_of _ 1 _ (leads_of _ _ _ teen_worth)). Qed.
Lemma starts_tens : starts Cardinal.tens. Proof. exact (starts_of _ 1 _ (leads_of _ _ _ tens_worth)). Qed.
Lemma starts_hundred : starts Cardinal.hundred. Proof. exact (starts_of _ 2 _ (leads_of _ _ _ hundred_worth)). Qed.
Lemma starts_thousand : starts Cardinal.thousand. Proof. exact (starts_of _ 3 _ (leads_of _ _ _ thousand_worth)). Qed.
(** Under ten thousand. *)
Lemma starts_minus : starts Cardinal.ten_thousand_minus.
Proof.
  apply starts_union; [apply starts_union; [apply starts_union; [apply starts_union|]|]|].
  exact starts_digits. exact starts_teen. exact starts_tens. exact starts_hundred. exact starts_thousand.
Qed.

(** ** The whole numeral *)
Definition amounts (s : ja_reading) : N := (jr_done s + jr_section s + jr_ones s)%N.
Lemma man_step D S g U B r : (10000 < B)%N -> ja_words (Jr D S g U B) (WAN :: r) = if (0 <? S + ones g)%N then ja_words (Jr (D + (S + ones g) * 10000) 0 None 10000 10000) r else None.
Proof.
  intro L. cbn [ja_words ja_word]. assert (E1 : lookup ja_digit_words WAN = None) by (vm_compute; reflexivity). assert (E2 : lookup ja_unit_words WAN = None) by (vm_compute; reflexivity). assert (E3 : lookup ja_big_words WAN = Some 10000%N) by (vm_compute; reflexivity).
  unfold ja_word. rewrite E1, E2, E3. apply N.ltb_lt in L. rewrite L. unfold jr_ones. cbn [jr_digit]. fold (ones g). destruct (0 <? S + ones g)%N; reflexivity.
Qed.
Lemma man_value P x1 y1 w1 x2 y2 w2 s : starts P -> denote P x1 y1 w1 -> denote Cardinal.below_man x2 y2 w2 -> ja_words jr_start (x1 ++ [WAN] ++ x2) = Some s ->
  (w1 = 0%Z /\ w2 = 0%Z) /\ y1 ++ y2 <> [] /\ Forall digit_char (y1 ++ y2) /\ hd 0%N (y1 ++ y2) <> 48%N /\ decimal_value (y1 ++ y2) = amounts s.
Proof.
  intros HP H1 H2 J. apply HP in H1 as (-> & H1). apply below_man_worth in H2 as (-> & H2). split; [auto|]. unfold jr_start in J. rewrite ja_words_app in J. destruct (ja_words _ x1) as [s1|] eqn:E1; [|discriminate J].
  destruct (H1 _ _ _ _ _ E1) as (N1 & F1 & Z1 & (S1 & g1 & U1 & -> & V1 & _)). cbn [app] in J. rewrite man_step in J by reflexivity. destruct (0 <? S1 + ones g1)%N; [|discriminate J].
  destruct (H2 _ _ _ _ _ J) as (L2 & F2 & (S2 & g2 & U2 & -> & V2 & _) & _). split; [destruct y1; [congruence|discriminate]|]. split; [now apply Forall_app|]. split; [destruct y1; [congruence|exact Z1]|].
  rewrite value_app, L2. unfold amounts, jr_ones. cbn [jr_done jr_section jr_digit]. fold (ones g2). change (10 ^ N.of_nat 4)%N with 10000%N. lia.
Qed.
Lemma long_head P x1 y1 w1 r s : leads P 3 (Some 100%N) \/ leads P 4 (Some 1000%N) -> denote P x1 y1 w1 -> ja_words jr_start (x1 ++ [WAN] ++ r) = Some s -> (1000000 <= amounts s)%N.
Proof.
  intros HP H J. unfold jr_start in J. rewrite ja_words_app in J. destruct (ja_words _ x1) as [s1|] eqn:E1; [|discriminate J].
  assert (X : exists S1 g1 U1, s1 = Jr 0 S1 g1 U1 1000000000000 /\ (100 <= S1 + ones g1)%N).
  { destruct HP as [HP|HP]; apply HP in H as (_ & H); destruct (H _ _ _ _ _ E1) as (L & F & (S1 & g & U1 & -> & V & _) & Z); exists S1, g, U1; (split; [reflexivity|]); rewrite V; destruct y1 as [|c y1]; try discriminate L; injection L as L;
    pose proof (value_long c y1 (Forall_inv F) Z) as Lo; rewrite L in Lo; [change (10 ^ N.of_nat 2)%N with 100%N in Lo|change (10 ^ N.of_nat 3)%N with 1000%N in Lo]; lia. }
  destruct X as (S1 & g1 & U1 & -> & V). cbn [app] in J. rewrite man_step in J by reflexivity. destruct (0 <? S1 + ones g1)%N; [|discriminate J].
  assert (Mono : forall t s0 s', ja_words s0 t = Some s' -> (jr_done s0 <= jr_done s')%N).
  { clear. induction t as [|c t IH]; intros s0 s' J; cbn [ja_words] in J; [injection J as <-; lia|]. destruct (ja_word s0 c) as [s2|] eqn:E; [|discriminate J]. apply IH in J. enough (jr_done s0 <= jr_done s2)%N by lia. clear J.
    destruct s0 as [D S g U B]. unfold ja_word in E. destruct (lookup ja_digit_words c); [destruct g; [discriminate E|injection E as <-; cbn; lia]|]. destruct (lookup ja_unit_words c); [destruct (_ <? U)%N; [injection E as <-; cbn; lia|discriminate E]|].
    destruct (lookup ja_big_words c); [|discriminate E]. destruct (_ && _); [injection E as <-; cbn; lia|discriminate E]. }
  apply Mono in J. cbn [jr_done] in J. unfold amounts. lia.
Qed.
Lemma starts_million : starts (Cardinal.thousand ∪ Cardinal.hundred ∪ Cardinal.teen ∪ Cardinal.tens ∪ Cardinal.digits).
Proof.
  apply starts_union; [apply starts_union; [apply starts_union; [apply starts_union|]|]|].
  exact starts_thousand. exact starts_hundred. exact starts_teen. exact starts_tens. exact starts_digits.
Qed.
Lemma starts_small : starts (Cardinal.teen ∪ Cardinal.tens ∪ Cardinal.digits).
Proof. apply starts_union; [apply starts_union|]. exact starts_teen. exact starts_tens. exact starts_digits. Qed.
(** Whatever the graph of whole numbers writes for a numeral is its value. *)
Lemma integer_sound m x d w s : denote (Cardinal.positive_integer m) x d w -> ja_words jr_start x = Some s -> (m = true \/ amounts s < 1000000)%N -> w = 0%Z /\ decimal d (amounts s).
Proof.
  intros H J M.
  assert (Fin : d <> [] -> Forall digit_char d -> hd 0%N d <> 48%N -> decimal_value d = amounts s -> decimal d (amounts s)) by (intros A B C E; split; [exact A|]; split; [exact B|]; split; [intro Z; contradiction|exact E]).
  destruct H as [H|H].
  - apply starts_minus in H as (-> & H). split; [reflexivity|]. destruct (H _ _ _ _ _ J) as (N & F & Z & (S1 & g & U & -> & V & _)). apply Fin; try assumption. unfold amounts, jr_ones. cbn [jr_done jr_section jr_digit]. fold (ones g). lia.
  - assert (G : forall P, starts P -> denote (P + delete [WAN] + Cardinal.below_man) x d w -> w = 0%Z /\ decimal d (amounts s)).
    { intros P HP K. apply cat_inv in K as (x1 & y1 & w1 & x2 & y2 & w2 & -> & -> & -> & K & K2). apply cat_inv in K as (x3 & y3 & w3 & x4 & y4 & w4 & -> & -> & -> & K & (-> & -> & ->)). rewrite <- app_assoc in J. rewrite app_nil_r in *.
      destruct (man_value P _ _ _ _ _ _ s HP K K2 J) as ((-> & ->) & N & F & Z & V). split; [reflexivity|]. now apply Fin. }
    unfold Cardinal.ten_thousand in H. destruct m.
    + exact (G _ starts_million H).
    + destruct H as [H|H]; [exact (G _ starts_small H)|]. exfalso. destruct M as [M|M]; [discriminate M|].
      apply cat_inv in H as (x1 & y1 & w1 & x2 & y2 & w2 & -> & -> & -> & H & _). apply cat_inv in H as (x3 & y3 & w3 & x4 & y4 & w4 & -> & -> & -> & H & (-> & _)). rewrite <- app_assoc in J.
      enough (1000000 <= amounts s)%N by lia. destruct H as [H|H].
      * exact (long_head _ _ _ _ _ _ (or_intror (leads_of _ _ _ thousand_worth)) H J).
      * exact (long_head _ _ _ _ _ _ (or_introl (leads_of _ _ _ hundred_worth)) H J).
Qed.
