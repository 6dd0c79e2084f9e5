(** Which rules of the Japanese normaliser read a written number (C71). *)
From Coq Require Import List NArith ZArith Bool String Lia Arith.
From Verif Require Import Text TextFacts TokenModel Fst FstFacts FstRun GrammarModel GrammarSpec GrammarAccept NumeralSpec EnglishNumeralSpec DataJaTn JaTnModel ZhTnEndSpec ZhDateSpec JaNumeralSpec WholeSpec PlainSpec.
From Verif Require Import BoundaryChar Letters Apart OneToken TokenVerbal Fields ZhNumberProofs ZhNumberProofs2 ZhTnRead ZhDate ZhDate2 JaNumber JaNumber2 JaApart JaPost JaDate JaDate2 JaDate3 JaTnRead.
From Verif Require EndToEnd FstEval EnNumberProofs2 Whole PlainRules.
Import ListNotations.
Local Open Scope list_scope.

(** ** The other numbers of the cardinal rule *)
Definition cardinal0 : fst :=
  Cardinal.number0 ∪ Cardinal.percent ∪ Cardinal.ip ∪ Cardinal.phone ∪ Cardinal.ordinal ∪ Cardinal.room ∪ Cardinal.others.
Definition percentless (c : N) : bool := negb (c =? 37)%N.
Definition pointless (c : N) : bool := negb (c =? 46)%N.
Lemma dotted_seps x y w : forallb jchar x = true -> denote (Cardinal.dot + plus Cardinal.digits0)%fst x y w -> (1 <= seps x)%nat.
Proof.
  intros K H. apply cat_inv in H as (x1 & y1 & w1 & x2 & y2 & w2 & -> & -> & -> & H1 & H2). apply japp in K as (K1 & K2). apply (jdot_known _ _ _ K1) in H1 as (-> & _). rewrite seps_app. change (seps (u ".")) with 1. lia.
Qed.
Lemma ip_seps x y w : forallb jchar x = true -> denote Cardinal.ip x y w -> (3 <= seps x)%nat.
Proof.
  intros K H. unfold Cardinal.ip in H. apply cat_inv in H as (x1 & y1 & w1 & x2 & y2 & w2 & -> & -> & -> & _ & H). apply japp in K as (_ & K). rewrite seps_app. enough (3 <= seps x2)%nat by lia. clear -K H.
  cbn [power] in H. apply cat_inv in H as (a & y3 & w3 & r & y4 & w4 & -> & -> & -> & H1 & H). apply japp in K as (K1 & K). apply cat_inv in H as (b & y5 & w5 & r' & y6 & w6 & -> & -> & -> & H2 & H). apply japp in K as (K2 & K).
  apply (dotted_seps _ _ _ K1) in H1. apply (dotted_seps _ _ _ K2) in H2.
  assert (1 <= seps r')%nat by (first [exact (dotted_seps _ _ _ K H) | apply cat_inv in H as (c & y7 & w7 & r3 & y8 & w8 & -> & -> & -> & H3 & H); apply japp in K as (K3 & _); apply (dotted_seps _ _ _ K3) in H3; rewrite seps_app; lia]).
  rewrite !seps_app. lia.
Qed.
Lemma phone_facts x y w : denote Cardinal.phone x y w -> (10 <= size x)%nat /\ forallb (fun c => pointless c && percentless c) x = true.
Proof.
  intro H. split; [refine (Nat.le_trans _ _ _ _ (proj1 (size_bounds Cardinal.phone _ _ _ _ H))); [vm_compute; repeat constructor|vm_compute; reflexivity]|].
  refine (reads_sound _ Cardinal.phone _ _ _ _ H). vm_compute. reflexivity.
Qed.
Lemma others_facts x y w : forallb jchar x = true -> denote Cardinal.others x y w -> (9 <= size x)%nat /\ forallb dig x = true.
Proof.
  intros K H. split.
  - unfold Cardinal.others, plus in H. apply cat_inv in H as (x1 & y1 & w1 & x2 & y2 & w2 & -> & -> & -> & H1 & H). apply cat_inv in H as (x3 & y3 & w3 & x4 & y4 & w4 & -> & -> & -> & H3 & _).
    pose proof (proj1 (size_bounds (Cardinal.digits0 ** 8) ltac:(vm_compute; reflexivity) _ _ _ H1)) as L1. pose proof (proj1 (size_bounds Cardinal.digits0 ltac:(vm_compute; reflexivity) _ _ _ H3)) as L3.
    assert (E1 : least (Cardinal.digits0 ** 8) = 8) by (vm_compute; reflexivity). assert (E3 : least Cardinal.digits0 = 1) by (vm_compute; reflexivity). rewrite E1 in L1. rewrite E3 in L3. rewrite !size_app. lia.
  - apply wide_jchar; [|exact K]. refine (reads_sound wide Cardinal.others _ _ _ _ H). vm_compute. reflexivity.
Qed.
(** ** A numeral of at most eight digits *)
Section Numeral.
Variables (s t x f d m : text) (n : N).
Hypothesis Sign : ja_sign_words s = Some d.
Hypothesis Decimal : decimal t n.
Hypothesis Small : (n < 100000000)%N.
Hypothesis Grouped : grouped t x.
Hypothesis Fraction : Forall digit_char f.
Hypothesis Reading : just Cardinal.integer x m.
Let Digits : Forall digit_char t := proj1 (proj2 Decimal).
Lemma digits_size g : Forall digit_char g -> size g = List.length g.
Proof.
  clear. unfold size. intro F. induction F as [|c g D F IH]; [reflexivity|]. cbn [filter]. assert (E : (c =? CM)%N = false) by (apply N.eqb_neq; unfold digit_char, CM in *; lia). rewrite E. cbn [negb List.length]. now rewrite IH.
Qed.
Lemma uncomma : filter (fun c => negb (c =? CM)%N) x = t.
Proof.
  assert (A : forall g, Forall digit_char g -> filter (fun c => negb (c =? CM)%N) g = g).
  { clear. intros g F. induction F as [|c g D F IH]; [reflexivity|]. cbn [filter]. assert (E : (c =? CM)%N = false) by (apply N.eqb_neq; unfold digit_char, CM in *; lia). rewrite E. cbn [negb]. now rewrite IH. }
  pose proof Digits as F. destruct Grouped as [-> |[(p & q & _ & _ & E & ->)|(p & q & r & _ & _ & _ & E & ->)]]; [now apply A| |]; rewrite E in F |- *.
  - apply Forall_app in F as (F1 & F2). rewrite !filter_app, (A p F1), (A q F2). reflexivity.
  - apply Forall_app in F as (F1 & F). apply Forall_app in F as (F2 & F3). rewrite !filter_app, (A p F1), (A q F2), (A r F3). reflexivity.
Qed.
Lemma few : (1 <= size x <= 8)%nat.
Proof.
  unfold size. rewrite uncomma. split; [pose proof (proj1 Decimal) as N; clear -N; destruct t; [contradiction|cbn; lia]|]. apply (EnNumberProofs2.decimal_length t n 8 Decimal); [|lia]. exact Small.
Qed.
Lemma x_chars : forallb ichar x = true.
Proof. exact (grouped_ichar t x Digits Grouped). Qed.
Lemma x_some : x <> [].
Proof. exact (grouped_nonempty t x (proj1 Decimal) Grouped). Qed.
Lemma numeral_jchars : forallb jchar (numeral s x f) = true.
Proof. exact (jnumeral_jchar s x f d Sign x_chars Fraction). Qed.
Lemma ichar_nosep : forallb nosep x = true.
Proof.
  generalize x_chars. apply all_imp. intros c. unfold ichar, nosep, dig. destruct (N.eqb_spec c 47), (N.eqb_spec c 45), (N.eqb_spec c 46); cbn [orb negb]; try reflexivity; intro H; apply orb_true_iff in H; rewrite andb_true_iff, !N.leb_le, N.eqb_eq in H; lia.
Qed.
Lemma points_seps : (seps (points f) <= 1)%nat.
Proof. destruct f as [|c g]; [cbn; lia|]. unfold points. rewrite seps_app, (seps_none (c :: g)) by (now apply digit_nosep). cbn. lia. Qed.
Lemma sign_seps : (seps s <= 1)%nat.
Proof. destruct (jsign_cases s d Sign) as (_ & [(-> & _)|(c & -> & [-> |[-> | ->]])]); cbn; lia. Qed.
Lemma numeral_seps r : seps r = 0 -> (seps (numeral s x f ++ r) <= 2)%nat.
Proof.
  intro R. unfold numeral. change (match f with [] => [] | _ => u "." ++ f end) with (points f). rewrite !seps_app, R, (seps_none x ichar_nosep). pose proof points_seps. pose proof sign_seps. lia.
Qed.
Lemma sign_size : (size s <= 1)%nat.
Proof. destruct (jsign_cases s d Sign) as (_ & [(-> & _)|(c & -> & [-> |[-> | ->]])]); cbn; lia. Qed.
Lemma not_phone r y w : (r = [] \/ r = u "%") -> ~ denote Cardinal.phone (numeral s x f ++ r) y w.
Proof.
  intros R H. apply phone_facts in H as (L & C). destruct R as [-> | ->].
  - rewrite app_nil_r in *. unfold numeral in *. destruct f as [|c g].
    + rewrite app_nil_r, size_app in L. pose proof sign_size. pose proof few. lia.
    + rewrite !forallb_app in C. cbn in C. rewrite !andb_false_r in C. discriminate C.
  - rewrite forallb_app in C. cbn in C. rewrite andb_false_r in C. discriminate C.
Qed.
Lemma not_others r y w : (r = [] \/ r = u "%") -> ~ denote Cardinal.others (numeral s x f ++ r) y w.
Proof.
  intros R H. assert (K : forallb jchar (numeral s x f ++ r) = true) by (rewrite forallb_app, numeral_jchars; destruct R as [-> | ->]; reflexivity). apply (others_facts _ _ _ K) in H as (L & C). destruct R as [-> | ->].
  - rewrite app_nil_r in *. unfold numeral in *. destruct f as [|c g].
    + rewrite app_nil_r, size_app in L. rewrite app_nil_r, forallb_app in C. destruct (jsign_cases s d Sign) as (_ & [(-> & _)|(c & -> & [-> |[-> | ->]])]); [pose proof few; cbn in L; lia|discriminate C..].
    + rewrite !forallb_app in C. cbn in C. rewrite !andb_false_r in C. discriminate C.
  - rewrite forallb_app in C. cbn in C. rewrite andb_false_r in C. discriminate C.
Qed.
Lemma not_named e y w r : (r = [] \/ r = u "%") -> apart2 jchar e = true -> ~ denote e (numeral s x f ++ r) y w.
Proof.
  intros R A. apply (apart2_sound jchar jchar_valid e A). rewrite forallb_app, numeral_jchars. destruct R as [-> | ->]; reflexivity.
Qed.
Lemma no_percent y w : ~ denote Cardinal.percent (numeral s x f) y w.
Proof.
  intro H. unfold Cardinal.percent in H. apply cat_inv in H as (x1 & y1 & w1 & x2 & y2 & w2 & E & -> & -> & H & (-> & -> & ->)). rewrite app_nil_r in E. apply cat_inv in H as (x3 & y3 & w3 & x4 & y4 & w4 & -> & -> & -> & H & (-> & -> & ->)).
  assert (P : forallb percentless (numeral s x f) = true).
  { unfold numeral. assert (Q : forall g, forallb ichar g = true -> forallb percentless g = true).
    { intro g. apply all_imp. intros c. unfold ichar, percentless, dig. destruct (N.eqb_spec c 37); [|reflexivity]. subst c. discriminate. }
    rewrite !forallb_app, (Q x x_chars). assert (S : forallb percentless s = true) by (destruct (jsign_cases s d Sign) as (_ & [(-> & _)|(c & -> & [-> |[-> | ->]])]); reflexivity). rewrite S.
    destruct f as [|c g]; [reflexivity|]. rewrite forallb_app, (Q (c :: g)) by (now apply digits_ichar). reflexivity. }
  rewrite E, forallb_app in P. cbn in P. rewrite andb_false_r in P. discriminate P.
Qed.
Lemma no_number y w : ~ denote Cardinal.number0 (numeral s x f ++ u "%") y w.
Proof.
  intro H. assert (K : forallb jchar (numeral s x f ++ u "%") = true) by (rewrite forallb_app, numeral_jchars; reflexivity).
  apply (number_shape _ _ _ K) in H as (s' & t' & f' & d' & m' & E & S' & N' & T' & F' & _).
  destruct (jnumeral_inj s x f s' t' f' d d' (u "%") [] Sign S' x_some N' x_chars T' Fraction F') as (_ & _ & _ & R); [apply percent_tail; auto|now left|discriminate|discriminate|now rewrite app_nil_r|discriminate R].
Qed.
Lemma cardinal_reads : just cardinal0 (numeral s x f) (d ++ m ++ ja_point_words f).
Proof.
  intros z w. unfold cardinal0. rewrite <- (number_reads s x f d m Sign x_chars x_some Fraction Reading z w). split; [|intro H; do 6 left; exact H].
  pose proof numeral_jchars as K. pose proof (numeral_seps [] eq_refl) as L. rewrite app_nil_r in L. assert (E : numeral s x f = numeral s x f ++ []) by now rewrite app_nil_r.
  intros [[[[[[H|H]|H]|H]|H]|H]|H]; [exact H|exfalso..].
  - exact (no_percent _ _ H).
  - apply (ip_seps _ _ _ K) in H. lia.
  - rewrite E in H. exact (not_phone [] _ _ (or_introl eq_refl) H).
  - rewrite E in H. revert H. apply not_named; [now left|vm_compute; reflexivity].
  - rewrite E in H. revert H. apply not_named; [now left|vm_compute; reflexivity].
  - rewrite E in H. exact (not_others [] _ _ (or_introl eq_refl) H).
Qed.
Lemma cardinal_percent : just cardinal0 (numeral s x f ++ u "%") (d ++ m ++ ja_point_words f ++ u "パーセント").
Proof.
  intros z w. unfold cardinal0. rewrite <- (percent_reads s x f d m Sign x_chars x_some Fraction Reading z w). split; [|intro H; do 5 left; right; exact H].
  assert (K : forallb jchar (numeral s x f ++ u "%") = true) by (rewrite forallb_app, numeral_jchars; reflexivity). pose proof (numeral_seps (u "%") eq_refl) as L.
  intros [[[[[[H|H]|H]|H]|H]|H]|H]; [exfalso|exact H|exfalso..].
  - exact (no_number _ _ H).
  - apply (ip_seps _ _ _ K) in H. lia.
  - exact (not_phone (u "%") _ _ (or_intror eq_refl) H).
  - revert H. apply not_named; [now right|vm_compute; reflexivity].
  - revert H. apply not_named; [now right|vm_compute; reflexivity].
  - exact (not_others (u "%") _ _ (or_intror eq_refl) H).
Qed.
(** ** Dates *)
Lemma dated_no_percent y fs : jdated y fs -> forallb percentless y = true.
Proof.
  assert (Dg : forall g, Forall digit_char g -> forallb percentless g = true).
  { intros g F. apply digs_spec in F. revert F. apply all_imp. intros c. unfold dig, percentless. destruct (N.eqb_spec c 37); [|reflexivity]. subst c. discriminate. }
  assert (Sp : forall c, date_sep c -> percentless c = true) by (intros c [-> |[-> | ->]]; reflexivity).
  assert (Yr : forall a, is_year a -> forallb percentless a = true).
  { intros a (t' & H). apply year_shape in H as (c & g & d' & e & f' & _ & -> & G & Nc & Dd & De & Df). change (c :: g ++ [d'; e; f']) with ([c] ++ g ++ [d'; e; f']). rewrite !forallb_app.
    rewrite (Dg [c]), (Dg [d'; e; f']); [destruct G as [-> | ->]; reflexivity|repeat (constructor; [assumption|]); constructor|constructor; [exact (nz_digit c Nc)|constructor]]. }
  assert (Mo : forall a, month_text a -> forallb percentless a = true) by (intros a (_ & F & _); auto). assert (Da : forall a, day_like a -> forallb percentless a = true) by (intros a (_ & F & _); auto).
  assert (Ze : forall a, zero_month a -> forallb percentless a = true) by (intros a H; apply Mo, zero_month_text, H).
  intro H. destruct H; repeat (rewrite ?forallb_app; cbn [forallb]); rewrite ?Sp by assumption; rewrite ?andb_true_iff; repeat split; auto.
Qed.
Lemma percent_not_dated fs : ~ jdated (numeral s x f ++ u "%") fs.
Proof. intro H. apply dated_no_percent in H. rewrite forallb_app in H. cbn in H. rewrite andb_false_r in H. discriminate H. Qed.
Lemma sign_split y a c r : numeral s x f = a ++ c :: r -> y = a -> a <> [] -> forallb ichar a = true -> date_sep c -> s = [] /\ x = a /\ c = 46%N /\ r = f /\ f <> [].
Proof.
  intros E _ N A S. assert (C : ichar c = false) by (destruct S as [-> |[-> | ->]]; reflexivity).
  assert (Es : s = []). { apply (jsign_split s x [] a d [] (points f) (c :: r)); try assumption; [reflexivity|exact x_some|exact x_chars]. }
  split; [exact Es|]. unfold numeral in E. rewrite Es in E. change (x ++ points f = a ++ c :: r) in E.
  apply (span ichar) in E as (-> & E); [|exact x_chars|exact A|rewrite <- (app_nil_r (points f)); apply tail_points; now left|right; eauto]. split; [reflexivity|].
  destruct f as [|e g]; [discriminate E|]. unfold points in E. injection E as <- <-. repeat split; discriminate.
Qed.
Lemma zero_not_decimal : ~ zero_month x.
Proof.
  intros (c & C & E). pose proof uncomma as U. rewrite E in U. cbn [filter] in U. assert (Ec : (c =? CM)%N = false) by (apply N.eqb_neq; unfold CM; lia). rewrite Ec in U. cbn in U. pose proof (proj1 (proj2 (proj2 Decimal))) as Z. rewrite <- U in Z. specialize (Z eq_refl). discriminate Z.
Qed.
Lemma numeral_not_dated fs : ~ (s = [] /\ List.length t = 4 /\ zero_month f) -> ~ jdated (numeral s x f) fs.
Proof.
  intros Not H. remember (numeral s x f) as y eqn:Ey. pose proof (digits_ichar) as Dg.
  assert (Yr : forall a, is_year a -> forallb ichar a = true /\ a <> []).
  { intros a (t' & H'). destruct H' as (L & F & _ & G). split; [exact (grouped_ichar t' a F G)|]. apply (grouped_nonempty t' a); [|exact G]. intros ->. discriminate L. }
  assert (Da : forall a, day_like a -> forallb ichar a = true /\ a <> []) by (intros a (L & F & _); split; [auto|intros ->; destruct L; discriminate]).
  assert (Ze : forall a, zero_month a -> forallb ichar a = true /\ a <> []) by (intros a Z; apply zero_month_text in Z as (L & F & _); split; [auto|intros ->; destruct L; discriminate]).
  assert (Nf : forall b c r, date_sep c -> b ++ c :: r = f -> False).
  { intros b c r S E. pose proof (digit_nosep f Fraction) as P. exact (sep_once b c r f S E P). }
  destruct H as [a c b c' e Y M D S S'|a c b c' e Y M D S S'|a c b Y M S|a c b M Y S|a c b M D S]; symmetry in Ey.
  - destruct (Yr a Y) as (A & N). destruct (sign_split a a c _ Ey eq_refl N A S) as (_ & _ & _ & E & _). exact (Nf _ _ _ S' E).
  - destruct (Da a Y) as (A & N). destruct (sign_split a a c _ Ey eq_refl N A S) as (_ & _ & _ & E & _). exact (Nf _ _ _ S' E).
  - destruct (Yr a Y) as (A & N). destruct (sign_split a a c _ Ey eq_refl N A S) as (Es & Ex & _ & E & _). apply Not. split; [exact Es|]. split; [|now rewrite <- E].
    destruct Y as (t' & Y). pose proof uncomma as U. rewrite Ex in U. apply year_shape in Y as (c1 & g & d1 & e1 & f1 & _ & -> & G & Nc & Dd & De & Df).
    rewrite <- U. change (size (c1 :: g ++ [d1; e1; f1]) = 4). apply size_four; auto using nz_digit.
  - destruct (Ze a M) as (A & N). destruct (sign_split a a c _ Ey eq_refl N A S) as (_ & Ex & _). apply zero_not_decimal. now rewrite Ex.
  - destruct (Ze a M) as (A & N). destruct (sign_split a a c _ Ey eq_refl N A S) as (_ & Ex & _). apply zero_not_decimal. now rewrite Ex.
Qed.
End Numeral.
