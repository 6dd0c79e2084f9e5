(** Properties C73, C74 and C75: written fractions, amounts of money and times of day through the
    whole Japanese normaliser.

    Vocabulary (ZhTnEndSpec.v, JaNumeralSpec.v, JaAmountSpec.v): [numeral s x f] is the number with sign
    [s], digits [x] and, after a point, the digits [f]; [grouped t x] says that [x] is [t] with or without
    commas; [ja_sign_words] and [ja_point_words] are what is said for the sign and after the point;
    [japanese_value] is the number a Japanese numeral stands for; [gap g] says [g] is at most one
    space; [ja_written_date x] that [x] is a date (C72); [ja_currency_name c m] that the code or symbol
    [c] is listed with the name [m]; [ja_hour_text] and [minute_text] describe the written time,
    [ja_hour_words], [ja_minute_words], [ja_second_words] and [ja_noon_words] what is said for its parts.
    [marked o w] (JaPost.v) is [w] with <oov> and </oov> around each character outside the character
    set when the option asks for it.  [ja_said o x d] (JaPost.v): with the options [o], normalize
    answers [d] for [x], alone or among characters that no rule but the one of single characters reads,
    whatever the engine. *)
From Coq Require Import List NArith ZArith Bool String Lia.
From Verif Require Import Text TextFacts Fst GrammarModel NumeralSpec EnglishNumeralSpec DataJaTn JaTnModel ZhTnEndSpec ZhDateSpec ZhAmountSpec JaNumeralSpec JaAmountSpec.
From Verif Require Import BoundarySpec BoundaryLaw PlainSpec PropsBoundary ZhDate2 ZhAmount JaPost JaNumber JaNumber2 JaDate JaTnRead PropsJaDate PropsJaNumber JaFraction JaMoney JaTime JaTime3.
From Verif Require FstFacts BoundaryLawProofs PropsZhSpoken PropsZhAmount PlainRules.
Import ListNotations.
Local Open Scope list_scope.

(** A fraction: the denominator is said first. *)
Theorem C73_fraction o s s' d d' t t' n n' x x' : ja_sign_words s = Some d -> ja_sign_words s' = Some d' -> decimal t n -> decimal t' n' ->
  (n < 100000000)%N -> (n' < 100000000)%N -> grouped t x -> grouped t' x' ->
  exists y y', japanese_value y = Some n /\ japanese_value y' = Some n' /\
  forall f f' g g', Forall digit_char f -> Forall digit_char f' -> gap g -> gap g' ->
    let q := numeral s x f ++ g ++ u "/" ++ g' ++ numeral s' x' f' in
    ~ ja_written_date q -> ja_said o q (marked o ((d' ++ y' ++ ja_point_words f') ++ u "分の" ++ d ++ y ++ ja_point_words f)).
Proof.
  intros S S' D D' L L' X X'. destruct (ja_integer t n x D L X) as (y & J & V). destruct (ja_integer t' n' x' D' L' X') as (y' & J' & V').
  exists y, y'. split; [exact V|]. split; [exact V'|]. intros f f' g g' F F' G G' q W.
  exact (jfraction_said o _ _ _ _ g g' (number_jspoken s d t n x f y S D L X F J V) (number_jspoken s' d' t' n' x' f' y' S' D' L' X' F' J' V') G G' W).
Qed.
Print Assumptions C73_fraction.
(** A date has a month with a leading zero or two separators: no fraction of two whole numbers
    without a sign in which neither begins with zero is a date, and nothing with a space or a sign is. *)
Definition date_char (c : N) : Prop := digit_char c \/ date_sep c \/ c = 44%N.
Lemma grouped_chars t x : Forall digit_char t -> grouped t x -> Forall (fun c => digit_char c \/ c = 44%N) x.
Proof.
  intros D G. assert (A : forall p, Forall digit_char p -> Forall (fun c => digit_char c \/ c = 44%N) p) by (intro p; apply Forall_impl; auto).
  assert (K : Forall (fun c => digit_char c \/ c = 44%N) (u ",")) by (repeat constructor; now right).
  destruct G as [-> |[(a & b & _ & _ & -> & ->)|(a & b & c & _ & _ & _ & -> & ->)]]; rewrite ?Forall_app in *; intuition.
Qed.
Lemma date_chars q : ja_written_date q -> Forall date_char q.
Proof.
  assert (A : forall p, Forall digit_char p -> Forall date_char p) by (intros p; apply Forall_impl; unfold date_char; auto).
  assert (B : forall c, date_sep c -> Forall date_char [c]) by (intros c S; constructor; unfold date_char; auto).
  assert (Y : forall t y, year_of t y -> Forall date_char y) by (intros t y (_ & D & _ & G); apply (grouped_chars _ _ D) in G; revert G; apply Forall_impl; unfold date_char; intuition).
  assert (Z : forall m, zero_month m -> Forall date_char m) by (intros m (c & C & ->); constructor; [left; unfold digit_char; lia|constructor; [left; unfold digit_char; lia|constructor]]).
  intros [(t & y & s & m & s' & d & Hy & (_ & Fm & _) & (_ & Fd & _) & S & S' & [-> | ->])|(m & s & p & M & S & [((t & Hy) & ->)|([(t & Hy)|(_ & Fp & _)] & ->)])];
    repeat (apply Forall_app; split); eauto.
Qed.
Theorem C73_no_date q : Exists (fun c => ~ digit_char c /\ ~ date_sep c /\ c <> 44%N) q -> ~ ja_written_date q.
Proof.
  intros E W. apply date_chars in W. rewrite Exists_exists in E. rewrite Forall_forall in W. destruct E as (c & I & A & B & C). destruct (W c I) as [X|[X|X]]; contradiction.
Qed.
Print Assumptions C73_no_date.
Lemma sep_not_digit c : date_sep c -> ~ digit_char c /\ c <> 44%N.
Proof. unfold date_sep, digit_char. intros [->|[->| ->]]; lia. Qed.
Lemma cut_at a b x y (c d : N) : Forall (fun e => digit_char e \/ e = 44%N) a -> Forall (fun e => digit_char e \/ e = 44%N) x -> date_sep c -> date_sep d ->
  a ++ [c] ++ b = x ++ [d] ++ y -> a = x /\ b = y.
Proof.
  revert x. induction a as [|e a IH]; intros [|e' x] A X C D E; cbn [app] in E; injection E as E1 E2.
  - auto.
  - exfalso. subst. destruct (sep_not_digit _ C) as (P & Q). inversion X; tauto.
  - exfalso. subst. destruct (sep_not_digit _ D) as (P & Q). inversion A; tauto.
  - subst. inversion A; inversion X; subst. destruct (IH x) as (-> & ->); auto.
Qed.
Lemma no_sep p r : Forall (fun e => digit_char e \/ e = 44%N) p -> forall c q, date_sep c -> p = r ++ [c] ++ q -> False.
Proof. intros F c q S ->. rewrite !Forall_app in F. destruct F as (_ & F & _). destruct (sep_not_digit _ S) as (A & B). inversion F; tauto. Qed.
Theorem C73_whole_no_date t t' n n' : decimal t n -> decimal t' n' -> ~ ja_written_date (t ++ u "/" ++ t').
Proof.
  intros D D' W. assert (A : forall p, Forall digit_char p -> Forall (fun c => digit_char c \/ c = 44%N) p) by (intro p; apply Forall_impl; auto).
  assert (Y : forall t y, year_of t y -> Forall (fun c => digit_char c \/ c = 44%N) y) by (intros z y (_ & F & _ & G); exact (grouped_chars _ _ F G)).
  assert (Z : forall m, zero_month m -> Forall (fun c => digit_char c \/ c = 44%N) m) by (intros m (c & C & ->); constructor; [left; unfold digit_char; lia|constructor; [left; unfold digit_char; lia|constructor]]).
  assert (N : forall t n m, decimal t n -> t = m -> zero_month m -> False) by (intros z k m (_ & _ & H & _) -> (c & C & ->); cbn [hd] in H; specialize (H eq_refl); discriminate H).
  destruct D as (Ne & F & R), D' as (Ne' & F' & R'). change (u "/") with [47%N] in W. assert (S47 : date_sep 47) by (now left).
  destruct W as [(z & y & s & m & s' & d & Hy & (_ & Fm & _) & (_ & Fd & _) & S & S' & [E|E])|(m & s & p & M & S & [((z & Hy) & E)|(Hp & E)])].
  - apply cut_at in E as (_ & E); eauto. exact (no_sep t' m (A _ F') s' d S' E).
  - apply cut_at in E as (_ & E); eauto. exact (no_sep t' m (A _ F') s' y S' E).
  - apply cut_at in E as (_ & E); eauto. exact (N t' n' m (conj Ne' (conj F' R')) E M).
  - apply cut_at in E as (E & _); eauto. exact (N t n m (conj Ne (conj F R)) E M).
Qed.
Print Assumptions C73_whole_no_date.
(** But with a decimal point there can be two separators: 2024/1.5 is a date (C72). *)
Theorem C73_date_refuted o : decimal (u "2024") 2024 /\ decimal (u "1") 1 /\ numeral [] (u "2024") [] ++ u "/" ++ numeral [] (u "1") (u "5") = u "2024/1.5" /\
  exists w, japanese_value w = Some 2024%N /\ ja_said o (u "2024/1.5") (w ++ u "年一月五日").
Proof.
  assert (D : decimal (u "2024") 2024) by (apply PropsZhAmount.some_decimal; [discriminate|reflexivity|discriminate|reflexivity]).
  split; [exact D|]. split; [apply PropsZhAmount.some_decimal; [discriminate|reflexivity|discriminate|reflexivity]|]. split; [vm_compute; reflexivity|].
  destruct (C72_year_month_day o (u "2024") (u "2024") 47 (u "1") 46 (u "5")) as (w & V & H).
  - split; [reflexivity|]. split; [exact (proj1 (proj2 D))|]. split; [discriminate|]. now left.
  - split; [left; reflexivity|]. split; [apply PropsZhSpoken.digits_of; reflexivity|]. vm_compute. split; discriminate.
  - split; [left; reflexivity|]. split; [apply PropsZhSpoken.digits_of; reflexivity|]. vm_compute. split; discriminate.
  - now left.
  - right. right. reflexivity.
  - exists w. split; [exact V|]. assert (E : u "年" ++ month_words (u "1") ++ day_words (u "5") = u "年一月五日") by (vm_compute; reflexivity). rewrite E in H. exact H.
Qed.
Print Assumptions C73_date_refuted.
(** An amount of money: the currency is said last.  One of the listed symbols is not covered: it is
    written with a full-width dollar sign, which an option turns into an ordinary one beforehand. *)
Lemma narrow c m : ja_currency_name c m -> c <> u "HK＄" -> ~ In 65284%N c.
Proof.
  intros C N. assert (A : forallb (fun p : text * text => if text_eqb (Datatypes.fst p) (u "HK＄") then true else negb (existsb (N.eqb 65284) (Datatypes.fst p))) (map entry ja_tn_money_code ++ map entry ja_tn_money_symbol) = true) by (vm_compute; reflexivity).
  rewrite forallb_forall in A. specialize (A _ C). cbn [Datatypes.fst] in A. destruct (text_eqb_spec c (u "HK＄")) as [E|_]; [contradiction|]. apply negb_true_iff in A.
  intro I. assert (X : existsb (N.eqb 65284) c = true) by (apply existsb_exists; exists 65284%N; split; [exact I|reflexivity]). rewrite X in A. discriminate A.
Qed.
Theorem C74_money o c w s d t n x : ja_currency_name c w -> c <> u "HK＄" -> ja_sign_words s = Some d -> decimal t n -> (n < 100000000)%N -> grouped t x ->
  exists y, japanese_value y = Some n /\
  forall f g, Forall digit_char f -> gap g -> ja_said o (c ++ g ++ numeral s x f) (marked o ((d ++ y ++ ja_point_words f) ++ w)).
Proof.
  intros C Nw S D L X. destruct (ja_integer t n x D L X) as (y & J & V). exists y. split; [exact V|]. intros f g F G.
  exact (jmoney_said o c w _ _ g C (narrow c w C Nw) (number_jspoken s d t n x f y S D L X F J V) G).
Qed.
Print Assumptions C74_money.
(** A time: hour and minute, maybe the second, maybe am or pm after at most one space. *)
Theorem C75_time o h m : ja_hour_text h -> minute_text m ->
  ja_said o (h ++ u ":" ++ m) (marked o (ja_hour_words h ++ ja_minute_words m)) /\
  forall g n w, gap g -> ja_noon_words n = Some w -> ja_said o (h ++ u ":" ++ m ++ g ++ n) (marked o (w ++ ja_hour_words h ++ ja_minute_words m)).
Proof.
  intros H M. split.
  - pose proof (jtime_said o h m None None [] H M I eq_refl) as T. cbn [jsec jnoon jsecond_said app] in T. rewrite !app_nil_r in T. exact T.
  - intros g n w G W. pose proof (jtime_said o h m None (Some (g, n)) w H M I (conj G W)) as T. cbn [jsec jnoon jsecond_said app] in T. rewrite app_nil_r in T. exact T.
Qed.
Print Assumptions C75_time.
Theorem C75_time_seconds o h m s : ja_hour_text h -> minute_text m -> minute_text s ->
  ja_said o (h ++ u ":" ++ m ++ u ":" ++ s) (marked o (ja_hour_words h ++ ja_minute_words m ++ ja_second_words s)) /\
  forall g n w, gap g -> ja_noon_words n = Some w -> ja_said o (h ++ u ":" ++ m ++ u ":" ++ s ++ g ++ n) (marked o (w ++ ja_hour_words h ++ ja_minute_words m ++ ja_second_words s)).
Proof.
  intros H M S. split.
  - pose proof (jtime_said o h m (Some s) None [] H M S eq_refl) as T. cbn [jsec jnoon jsecond_said app] in T. rewrite ?app_nil_r in T. exact T.
  - intros g n w G W. pose proof (jtime_said o h m (Some s) (Some (g, n)) w H M S (conj G W)) as T. exact T.
Qed.
Print Assumptions C75_time_seconds.
(** And an hour with am or pm, no space between them. *)
Theorem C75_hour_noon o h n w : ja_hour_text h -> ja_noon_words n = Some w -> ja_said o (h ++ n) (marked o (w ++ ja_hour_words h)).
Proof. exact (noon_said_all o h n w). Qed.
Print Assumptions C75_hour_noon.
(** Concrete texts: 気 is plain and kept. *)
Definition plainly : options := Options true true true true true.
Lemma among x d : ja_said plainly x d -> exists en, engine_for (ja_tn plainly) en /\ normalizes_to en (u "気" ++ x ++ u "気") (u "気" ++ d ++ u "気").
Proof.
  intro H. destruct (engine_ja_tn plainly) as (en & En). exists en. split; [exact En|].
  assert (P : plain (ja_tn plainly) (u "気")) by (apply (all_plain _ _ _ (PlainRules.ja_tn_only plainly)); vm_compute; reflexivity).
  assert (E : flat_map (ja_tn_clean plainly) (u "気") = u "気") by (vm_compute; reflexivity).
  unfold ja_said in H. specialize (H en (u "気") (u "気") En). rewrite E in H. apply H; try exact P; apply FstFacts.vtext_spec; reflexivity.
Qed.
Example C73_witness : exists en y y', engine_for (ja_tn plainly) en /\ japanese_value y = Some 3%N /\ japanese_value y' = Some 2500%N /\
  normalizes_to en (u "気-3.5/ 2,500気") (u "気" ++ marked plainly (y' ++ u "分のマイナス" ++ y ++ u "点五") ++ u "気").
Proof.
  destruct (C73_fraction plainly (u "-") [] (u "マイナス") [] (u "3") (u "2500") 3 2500 (u "3") (u "2,500") eq_refl eq_refl) as (y & y' & V & V' & H); try (apply PropsZhAmount.some_decimal; [discriminate|reflexivity|discriminate|reflexivity]); try reflexivity.
  - now left.
  - right. left. exists (u "2"), (u "500"). repeat split; cbn; lia.
  - specialize (H (u "5") [] [] (u " ")). destruct (among _ _ (H ltac:(apply PropsZhSpoken.digits_of; reflexivity) ltac:(constructor) (or_introl eq_refl) (or_intror eq_refl)
    ltac:(apply C73_no_date; apply Exists_exists; exists 32%N; split; [vm_compute; tauto|unfold digit_char, date_sep; lia]))) as (en & En & N).
    exists en, y, y'. split; [exact En|]. split; [exact V|]. split; [exact V'|].
    assert (E1 : ja_point_words [] = []) by reflexivity. assert (E2 : ja_point_words (u "5") = u "点五") by (vm_compute; reflexivity). rewrite E1, E2, app_nil_r in N. exact N.
Qed.
Example C74_witness : exists en y, engine_for (ja_tn plainly) en /\ japanese_value y = Some 1200%N /\
  normalizes_to en (u "気$ 1,200.5気") (u "気" ++ marked plainly (y ++ u "点五" ++ u "ドル") ++ u "気").
Proof.
  assert (C : ja_currency_name (u "$") (u "ドル")) by (unfold ja_currency_name; vm_compute; tauto).
  destruct (C74_money plainly _ _ [] [] (u "1200") 1200 (u "1,200") C ltac:(discriminate) eq_refl) as (y & V & H); try (apply PropsZhAmount.some_decimal; [discriminate|reflexivity|discriminate|reflexivity]); try reflexivity.
  - right. left. exists (u "1"), (u "200"). repeat split; cbn; lia.
  - destruct (among _ _ (H (u "5") (u " ") ltac:(apply PropsZhSpoken.digits_of; reflexivity) (or_intror eq_refl))) as (en & En & N).
    exists en, y. split; [exact En|]. split; [exact V|].
    assert (E2 : ja_point_words (u "5") = u "点五") by (vm_compute; reflexivity). rewrite E2 in N. cbn [app] in N. rewrite <- (app_assoc y) in N. exact N.
Qed.
Example C75_witness : (exists en, engine_for (ja_tn plainly) en /\ normalizes_to en (u "気2:05:30 pm気") (u "気午後二時五分三十秒気")) /\
  (exists en, engine_for (ja_tn plainly) en /\ normalizes_to en (u "気11a.m.気") (u "気午前十一時気")).
Proof.
  assert (M : forall p, List.length p = 2 -> forallb (fun c => (48 <=? c) && (c <=? 57))%N%bool p = true -> (decimal_value p <= 59)%N -> minute_text p) by (intros p A B C; split; [exact A|split; [exact (PropsZhSpoken.digits_of p B)|exact C]]).
  split.
  - assert (H : ja_hour_text (u "2")) by (split; [left; reflexivity|split; [apply PropsZhSpoken.digits_of; reflexivity|vm_compute; discriminate]]).
    destruct (C75_time_seconds plainly (u "2") (u "05") (u "30") H (M (u "05") eq_refl eq_refl ltac:(vm_compute; discriminate)) (M (u "30") eq_refl eq_refl ltac:(vm_compute; discriminate))) as (_ & T).
    assert (Np : ja_noon_words (u "pm") = Some (u "午後")) by (vm_compute; reflexivity).
    destruct (among _ _ (T (u " ") (u "pm") (u "午後") (or_intror eq_refl) Np)) as (en & En & N). exists en. split; [exact En|].
    assert (E : u "気" ++ marked plainly (u "午後" ++ ja_hour_words (u "2") ++ ja_minute_words (u "05") ++ ja_second_words (u "30")) ++ u "気" = u "気午後二時五分三十秒気") by (vm_compute; reflexivity). rewrite E in N. exact N.
  - assert (H : ja_hour_text (u "11")) by (split; [right; reflexivity|split; [apply PropsZhSpoken.digits_of; reflexivity|vm_compute; discriminate]]).
    assert (Np : ja_noon_words (u "a.m.") = Some (u "午前")) by (vm_compute; reflexivity).
    destruct (among _ _ (C75_hour_noon plainly (u "11") (u "a.m.") (u "午前") H Np)) as (en & En & N). exists en. split; [exact En|].
    assert (E : u "気" ++ marked plainly (u "午前" ++ ja_hour_words (u "11")) ++ u "気" = u "気午前十一時気") by (vm_compute; reflexivity). rewrite E in N. exact N.
Qed.
