(** Spoken Chinese numbers with 万, 亿 and 兆 (C61). *)
From Coq Require Import List NArith ZArith Bool String Lia Arith.
From Verif Require Import Text TextFacts Fst FstFacts FstRun GrammarModel NumeralSpec EnglishNumeralSpec ZhSpokenSpec.
From Verif Require Import ZhNumberProofs EnNumberProofs EnNumberProofs4 EnSpokenProofs.
From Verif Require Import DataZhItn ZhItnModel ZhSpokenProofs.
From Verif Require EnSpokenProofs5.
Import ListNotations.
Local Open Scope list_scope.

(** ** Only digits, zeros and units below ten thousand *)
Definition numerals (f : text -> option N) : Prop := forall x n, f x = Some n -> Forall (fun c => numeral c = true) x.
Lemma numeral_digit c n : digit_of c = Some n -> numeral c = true.
Proof. intro H. unfold numeral. now rewrite H. Qed.
Lemma numeral_zero c : zero_of c = true -> numeral c = true.
Proof. intro H. unfold numeral. destruct (digit_of c); [reflexivity|]. now rewrite H. Qed.
Lemma numeral_unit s c : In s ["十"; "百"; "千"]%string -> is s c = true -> numeral c = true.
Proof.
  intros I E. apply is_spec in E. repeat (destruct I as [<-|I]); try contradiction; vm_compute in E; injection E as <-; reflexivity.
Qed.
Lemma numerals_lone : numerals lone.
Proof. intros x n H. apply lone_some in H as (c & -> & H). constructor; [exact (numeral_digit _ _ H)|constructor]. Qed.
Lemma numerals_times k f : numerals f -> numerals (fun x => times k (f x)).
Proof. intros F x n H. apply times_some in H as (i & H & _). exact (F _ _ H). Qed.
Lemma numerals_nothing : numerals nothing.
Proof. intros x n H. apply nothing_some in H as (-> & _). constructor. Qed.
Lemma numerals_or f g : numerals f -> numerals g -> numerals (fun x => orelse (f x) (g x)).
Proof. intros F G x n H. apply orelse_some in H as [H|H]; eauto. Qed.
Lemma numerals_zero f : numerals f -> numerals (after_zero f).
Proof. intros F x n H. apply after_zero_some in H as (z & r & -> & Z & H). constructor; [exact (numeral_zero _ Z)|exact (F _ _ H)]. Qed.
Lemma numerals_unit s k f : In s ["十"; "百"; "千"]%string -> numerals f -> numerals (with_unit s k f).
Proof.
  intros I F x n H. apply with_unit_some in H as (a & b & r & i & j & -> & E & D & H & _).
  constructor; [exact (numeral_digit _ _ D)|]. constructor; [exact (numeral_unit s b I E)|exact (F _ _ H)].
Qed.
Lemma numerals_teen : numerals teen_of.
Proof.
  intros [|a r] n H; [discriminate|]. unfold teen_of in H. destruct (is "十" a) eqn:E; [|discriminate].
  apply plus_some in H as (i & j & _ & H & _). constructor; [exact (numeral_unit "十" a ltac:(cbn; auto) E)|].
  exact (numerals_or _ _ numerals_lone numerals_nothing r j H).
Qed.
Lemma numerals_tens : numerals tens_of.
Proof.
  intros x n H. apply tens_either in H as [H|H]; [|exact (numerals_teen _ _ H)].
  exact (numerals_unit "十" _ _ ltac:(cbn; auto) (numerals_or _ _ numerals_lone numerals_nothing) x n H).
Qed.
Lemma numerals_hundreds : numerals hundreds_of.
Proof.
  apply (numerals_unit "百"); [cbn; auto|]. unfold after_hundred. repeat apply numerals_or; try apply numerals_zero; try apply numerals_times;
    auto using numerals_lone, numerals_nothing, numerals_tens.
Qed.
Lemma numerals_thousands : numerals thousands_of.
Proof.
  apply (numerals_unit "千"); [cbn; auto|]. unfold after_thousand. repeat apply numerals_or; try apply numerals_zero; try apply numerals_times;
    auto using numerals_lone, numerals_nothing, numerals_tens, numerals_hundreds.
Qed.
Lemma numerals_after_wan : numerals after_wan.
Proof.
  unfold after_wan. repeat apply numerals_or; try apply numerals_zero; try apply numerals_times;
    auto using numerals_lone, numerals_nothing, numerals_tens, numerals_hundreds, numerals_thousands.
Qed.
Lemma numerals_section : numerals section.
Proof. unfold section. repeat apply numerals_or; auto using numerals_lone, numerals_tens, numerals_hundreds, numerals_thousands. Qed.

(** ** Cutting at 万 *)
Lemma cut_found s c a b : u s = [c] -> Forall (fun c => is s c = false) a -> cut_at s (a ++ c :: b) = Some (a, b).
Proof.
  intros U F. induction F as [|x a H F IH]; cbn [app cut_at].
  - now rewrite (proj2 (is_spec s c) U).
  - now rewrite H, IH.
Qed.
Lemma cut_some s x a b : cut_at s x = Some (a, b) -> x = a ++ u s ++ b.
Proof.
  revert a. induction x as [|c x IH]; intros a H; [discriminate|]. cbn [cut_at] in H. destruct (is s c) eqn:E.
  - assert (a = []) as -> by congruence. assert (x = b) as -> by congruence. apply is_spec in E. now rewrite E.
  - destruct (cut_at s x) as [(a', b')|]; [|discriminate]. assert (a = c :: a') as -> by congruence. assert (b' = b) as -> by congruence.
    cbn [app]. now rewrite <- (IH a' eq_refl).
Qed.
Lemma cut_none s x : Forall (fun c => is s c = false) x -> cut_at s x = None.
Proof. intro F. induction F as [|c x H F IH]; [reflexivity|]. cbn [cut_at]. now rewrite H, IH. Qed.
Lemma plain_big s x : In s ["万"; "亿"; "兆"]%string -> Forall (fun c => numeral c = true) x -> Forall (fun c => is s c = false) x.
Proof. intros I F. eapply Forall_impl; [|exact F]. cbn beta. intros c H. exact (numeral_not_big c s H I). Qed.
Lemma cut_section s a b k : In s ["万"; "亿"; "兆"]%string -> section a = Some k -> cut_at s (a ++ u s ++ b) = Some (a, b).
Proof.
  intros I H. assert (exists c, u s = [c]) as (c & U).
  { repeat (destruct I as [<-|I]); try contradiction; eexists; reflexivity. }
  rewrite U. apply cut_found; [exact U|]. exact (plain_big s a I (numerals_section _ _ H)).
Qed.

(** A digit, zero or a number below ten thousand. *)
Notation small_number := own_number.
Lemma small_either x n : small_number x = Some n <-> (exists z, x = [z] /\ zero_of z = true /\ n = 0%N) \/ section x = Some n.
Proof.
  assert (Z : forall z, zero_of z = true -> section [z] = None).
  { intros z H. destruct (zero_facts z H) as (D & T & _). unfold section. cbn [thousands_of hundreds_of with_unit orelse].
    unfold thousands_of, hundreds_of, with_unit, tens_of, lone. now rewrite D, T. }
  destruct x as [|z [|b r]]; cbn [small_number].
  - split; [auto|]. intros [(z & [=] & _)|H]; exact H.
  - destruct (zero_of z) eqn:E.
    + split; [intros [= <-]; left; eauto|]. intros [(z' & _ & _ & ->)|H]; [reflexivity|]. rewrite (Z z E) in H. discriminate.
    + split; [auto|]. intros [(z' & [= <-] & E' & _)|H]; [congruence|exact H].
  - split; [auto|]. intros [(z' & [=] & _)|H]; exact H.
Qed.
Lemma spoken_cases x n : spoken_number x = Some n <-> small_number x = Some n \/
  exists a b k j, x = a ++ u "万" ++ b /\ section a = Some k /\ after_wan b = Some j /\ n = (k * 10 ^ N.of_nat 4 + j)%N.
Proof.
  unfold spoken_number. split.
  - destruct (cut_at "万" x) as [(a, b)|] eqn:E; [|auto]. intro H. right. apply plus_some in H as (m & j & H & A & ->).
    apply times_some in H as (k & H & ->). exists a, b, k, j. split; [exact (cut_some _ _ _ _ E)|]. split; [auto|]. split; [auto|].
    now rewrite (N.mul_comm k).
  - intros [H|(a & b & k & j & -> & S & A & ->)].
    + rewrite cut_none; [exact H|]. apply small_either in H as [(z & -> & Z & _)|H].
      * constructor; [|constructor]. exact (numeral_not_big z "万" (numeral_zero z Z) ltac:(cbn; auto)).
      * apply (plain_big "万"); [cbn; auto|exact (numerals_section _ _ H)].
    + rewrite (cut_section "万" a b k ltac:(cbn; auto) S), S, A. cbn [times plus]. now rewrite (N.mul_comm k).
Qed.
Lemma zero_decs x d : gives Cardinal.zero x d <-> exists z, x = [z] /\ zero_of z = true /\ decimal d 0.
Proof.
  rewrite zero_graph. assert (Z : decimal [48%N] 0) by (split; [discriminate|]; split; [repeat constructor; unfold digit_char; lia|]; split; auto).
  split; intros (z & -> & H & D).
  - subst d. eauto.
  - exists z. split; [auto|]. split; [auto|]. exact (decimal_unique 0 _ _ D Z).
Qed.
Lemma small_graph x d : gives (Cardinal.digits ∪ Cardinal.teen ∪ Cardinal.tens ∪ Cardinal.hundred ∪ Cardinal.thousand)%fst x d <->
  exists n, small_number x = Some n /\ decimal d n.
Proof.
  pose proof (section_graph x d) as S. rewrite !gives_union in S. unfold Cardinal.digits. rewrite !gives_union, zero_decs.
  setoid_rewrite small_either. split.
  - intros [[[[[(z & -> & Z & D)|H]|H]|H]|H]|H]; [exists 0%N; split; [left|]; eauto|..];
      (destruct (proj1 S) as (n & A & B); [tauto|exists n; auto]).
  - intros (n & [(z & -> & Z & ->)|H] & D); [do 5 left; eauto|]. destruct (proj2 S (ex_intro _ n (conj H D))) as [[[[?|?]|?]|?]|?]; tauto.
Qed.
(** A section, 万 and what is left, all in digits. *)
Lemma wan_graph (e : fst) P x d : (forall x d, gives e x d <-> exists n, P x n /\ section x = Some n /\ decimal d n) ->
  gives (e + delete (u "万") + Cardinal.below_wan)%fst x d <->
  exists a b k j, x = a ++ u "万" ++ b /\ P a k /\ section a = Some k /\ after_wan b = Some j /\ decimal d (k * 10 ^ N.of_nat 4 + j).
Proof.
  intro E. rewrite gives_assoc, gives_cat. split.
  - intros (x1 & d1 & x2 & d2 & -> & -> & H & G). apply E in H as (k & Pk & S & D). apply gives_cat in G as (x3 & d3 & x4 & d4 & -> & -> & G1 & G2).
    apply gives_delete_text in G1 as (-> & ->). apply below_wan_pads in G2 as (j & A & B).
    exists x1, x4, k, j. split; [auto|]. split; [auto|]. split; [auto|]. split; [auto|]. cbn [app].
    apply decimal_app; auto. apply section_bound in S. lia.
  - intros (a & b & k & j & -> & Pk & S & A & D). pose proof (section_bound _ _ S) as B.
    destruct (pad_exists 4 j (proj1 below_wan_pads _ _ A)) as (e2 & P2).
    destruct (EnSpokenProofs5.decimal_exists k) as (d1 & D1).
    rewrite (decimal_unique _ _ _ D (decimal_app d1 k 4 j e2 D1 ltac:(lia) P2)).
    exists a, d1, (u "万" ++ b), e2. split; [auto|]. split; [auto|]. split; [apply E; eauto|].
    apply gives_cat. exists (u "万"), [], b, e2. split; [auto|]. split; [auto|]. split; [apply gives_delete_text; auto|]. apply below_wan_pads. eauto.
Qed.
Theorem million_graph x d : gives (Cardinal.number0 true) x d <-> exists n, spoken_number x = Some n /\ decimal d n.
Proof.
  unfold Cardinal.number0. rewrite gives_union, small_graph. cbn [Cardinal.ten_thousand].
  rewrite (wan_graph _ (fun _ _ => True)); [|intros x' d'; rewrite (section_graph x' d'); firstorder].
  setoid_rewrite spoken_cases. split.
  - intros [(n & H & D)|(a & b & k & j & -> & _ & S & A & D)]; [eauto|]. exists (k * 10 ^ N.of_nat 4 + j)%N. split; [right|exact D]. eauto 10.
  - intros (n & [H|(a & b & k & j & -> & S & A & ->)] & D); [eauto|]. right. exists a, b, k, j. auto.
Qed.

(** Without the option: hundreds and thousands of 万 keep it. *)
Lemma wan_unit : forall a b k, section a = Some k -> (k < 100)%N -> forall j, after_wan b = Some j -> (k * 10 ^ N.of_nat 4 + j < 1000000)%N.
Proof. intros a b k _ K j A. apply below_wan_pads in A. change (10 ^ N.of_nat 4)%N with 10000%N in *. lia. Qed.
Lemma small_tens_graph x d : gives (Cardinal.teen ∪ Cardinal.tens ∪ Cardinal.digit)%fst x d <->
  exists n, (n < 100)%N /\ section x = Some n /\ decimal d n.
Proof.
  rewrite !gives_union, (teen_decs x d), (ties_decs x d), (digit_decs x d). split.
  - assert (G : forall n, tens_of x = Some n \/ lone x = Some n -> decimal d n -> exists n, (n < 100)%N /\ section x = Some n /\ decimal d n).
    { intros n H D. assert (S : section x = Some n) by (apply section_either; tauto). exists n. split; [now apply (section_small x n S)|auto]. }
    intros [[(n & H & D)|(n & H & D)]|(n & H & D)]; apply (G n); auto; left; apply tens_either; auto.
  - intros (n & L & S & D). apply (section_small x n S) in L as [H|H]; [|eauto]. apply tens_either in H as [H|H]; eauto.
Qed.
Lemma hundreds_graph x d : gives (Cardinal.thousand ∪ Cardinal.hundred)%fst x d <-> exists n, (100 <= n)%N /\ section x = Some n /\ decimal d n.
Proof.
  rewrite !gives_union, (thousand_decs x d), (hundred_decs x d). split.
  - intros [(n & H & D)|(n & H & D)]; exists n; (split; [apply unit_least in H; lia|]); (split; [apply section_either; auto|exact D]).
  - intros (n & L & S & D). pose proof S as S'. apply section_either in S as [H|[H|H]]; [eauto|eauto|]. apply (section_small x n S') in H. lia.
Qed.
Lemma own_graph x d : gives (Cardinal.thousand ∪ Cardinal.hundred ∪ Cardinal.tens ∪ Cardinal.teen ∪ Cardinal.digits)%fst x d <->
  exists n, own_number x = Some n /\ decimal d n.
Proof. rewrite <- small_graph. rewrite !gives_union. tauto. Qed.
Lemma gives_ques a x d : gives (ques a) x d <-> gives a x d \/ x = [] /\ d = [].
Proof. unfold ques. rewrite gives_union, (gives_cross [] [] x d). reflexivity. Qed.
Lemma maybe_zero x d : gives (ques (delete (u "零"))) x d <-> (x = [] \/ x = u "零") /\ d = [].
Proof. rewrite gives_ques, gives_delete_text. tauto. Qed.
Lemma after_graph x d : gives (ques (delete (u "零")) + ques (Cardinal.thousand ∪ Cardinal.hundred ∪ Cardinal.tens ∪ Cardinal.teen ∪ Cardinal.digits))%fst x d <->
  exists j, said_after_wan x d j.
Proof.
  rewrite gives_cat. unfold said_after_wan. split.
  - intros (x1 & d1 & x2 & d2 & -> & -> & H & G). apply maybe_zero in H as (Z & ->). apply gives_ques in G as [G|(-> & ->)].
    + apply own_graph in G as (j & O & D). exists j, x2. split; [destruct Z as [->| ->]; auto|]. right. auto.
    + exists 0%N, []. split; [destruct Z as [->| ->]; auto|]. left. auto.
  - intros (j & b' & Z & H). destruct Z as [->| ->]; [exists [], [], b', d|exists (u "零"), [], b', d];
      (split; [auto|]; split; [auto|]; split; [apply maybe_zero; auto|]; apply gives_ques; destruct H as [(-> & -> & _)|(O & D)]; [auto|left; apply own_graph; eauto]).
Qed.
Lemma wan_kept x d : gives ((Cardinal.thousand ∪ Cardinal.hundred) + accep (u "万") + ques (delete (u "零"))
    + ques (Cardinal.thousand ∪ Cardinal.hundred ∪ Cardinal.tens ∪ Cardinal.teen ∪ Cardinal.digits))%fst x d <-> exists n, said_wan x d n.
Proof.
  rewrite gives_assoc, gives_assoc, gives_cat. split.
  - intros (x1 & d1 & x2 & d2 & -> & -> & H & G). apply hundreds_graph in H as (k & L & S & D).
    apply gives_cat in G as (x3 & d3 & x4 & d4 & -> & -> & G & A). apply gives_accep in G as (-> & ->). apply after_graph in A as (j & A).
    exists (10000 * k + j)%N, x1, x4, k, d1, d4, j. auto 10.
  - intros (n & a & b & k & e1 & e2 & j & -> & S & L & D & A & -> & _). exists a, e1, (u "万" ++ b), (u "万" ++ e2). split; [auto|]. split; [auto|].
    split; [apply hundreds_graph; eauto|]. apply gives_cat. exists (u "万"), (u "万"), b, e2. split; [auto|]. split; [auto|].
    split; [apply gives_accep; auto|]. apply after_graph. eauto.
Qed.
Theorem number0_graph m x d : gives (Cardinal.number0 m) x d <-> exists n, said_below m x d n.
Proof.
  destruct m; unfold said_below.
  - rewrite million_graph. split; [intros (n & H & D); exists n; auto|]. intros (n & [(H & _ & D)|(? & _)]); [eauto|discriminate].
  - unfold Cardinal.number0. rewrite gives_union, small_graph. cbn [Cardinal.ten_thousand]. rewrite gives_union, wan_kept.
    rewrite (wan_graph _ (fun _ k => (k < 100)%N)); [|exact small_tens_graph]. split.
    + intros [(n & H & D)|[(a & b & k & j & -> & L & S & A & D)|(n & H)]].
      * exists n. left. split; [apply spoken_cases; auto|]. split; [right|exact D].
        apply small_either in H as [(_ & _ & _ & ->)|H]; [lia|apply section_bound in H; lia].
      * exists (k * 10 ^ N.of_nat 4 + j)%N. left. split; [apply spoken_cases; right; eauto 10|]. split; [right; exact (wan_unit a b k S L j A)|exact D].
      * exists n. auto.
    + intros (n & [(H & [?|L] & D)|(_ & H)]); [discriminate| |eauto]. apply spoken_cases in H as [H|(a & b & k & j & -> & S & A & ->)]; [eauto|].
      right. left. exists a, b, k, j. split; [auto|]. split; [change (10 ^ N.of_nat 4)%N with 10000%N in L; lia|]. auto.
Qed.
Lemma group_graph e s P x d : (forall x d, gives e x d <-> exists n, P x d n) ->
  gives (Cardinal.group e (u s)) x d <-> exists n, in_units s P x d n.
Proof.
  intro E. unfold Cardinal.group, in_units. rewrite gives_ques, gives_assoc, gives_cat. split.
  - intros [(x1 & d1 & x2 & d2 & -> & -> & H & G)|(-> & ->)]; [|exists 0%N; auto]. apply E in H as (n & H).
    apply gives_cat in G as (x3 & d3 & x4 & d4 & -> & -> & G & Z). apply gives_accep in G as (-> & ->). apply maybe_zero in Z as (Z & ->).
    exists n. right. exists x1, d1, x4. rewrite app_nil_r. auto.
  - intros (n & [(-> & -> & _)|(x' & d' & z & -> & Z & -> & H)]); [auto|]. left. exists x', d', (u s ++ z), (u s). split; [auto|]. split; [auto|].
    split; [apply E; eauto|]. apply gives_cat. exists (u s), (u s), z, []. rewrite app_nil_r. split; [auto|]. split; [auto|].
    split; [apply gives_accep; auto|apply maybe_zero; auto].
Qed.
Theorem number1_graph m x d : gives (Cardinal.number1 m) x d <-> exists n, said_large (said_below m) x d n.
Proof.
  unfold Cardinal.number1, said_large. rewrite gives_assoc, gives_cat. split.
  - intros (x1 & d1 & x' & d' & -> & -> & H1 & G). apply gives_cat in G as (x2 & d2 & x3 & d3 & -> & -> & H2 & H3).
    apply (group_graph _ "兆" (said_below m)) in H1 as (n1 & H1); [|apply number0_graph].
    apply (group_graph _ "亿" (said_below m)) in H2 as (n2 & H2); [|apply number0_graph]. apply number0_graph in H3 as (n3 & H3).
    eexists. exists x1, x2, x3, d1, d2, d3, n1, n2, n3. auto 10.
  - intros (n & x1 & x2 & x3 & d1 & d2 & d3 & n1 & n2 & n3 & -> & -> & _ & H1 & H2 & H3). exists x1, d1, (x2 ++ x3), (d2 ++ d3).
    split; [auto|]. split; [auto|]. split; [apply (group_graph _ "兆" (said_below m)); [apply number0_graph|eauto]|].
    apply gives_cat. exists x2, d2, x3, d3. split; [auto|]. split; [auto|].
    split; [apply (group_graph _ "亿" (said_below m)); [apply number0_graph|eauto]|]. apply number0_graph. eauto.
Qed.
