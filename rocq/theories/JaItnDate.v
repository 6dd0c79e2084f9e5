(** Spoken dates in the Japanese inverse normaliser: how they are cut and read (C80). *)
From Coq Require Import List NArith ZArith Bool String Lia.
From Verif Require Import Text TextFacts TokenModel Fst FstFacts FstRun GrammarModel GrammarSpec GrammarAccept NumeralSpec EnglishNumeralSpec DataJaItn JaItnModel JaNumeralSpec BoundarySpec BoundaryLaw.
From Verif Require Import BoundaryChar Letters Apart OneToken TokenVerbal Fields Fields2 ZhNumberProofs JaNumber JaNumber2 JaApart JaHead JaSpoken JaSpoken2 JaSpoken3 JaSpoken4.
From Verif Require PlainRules EnNumberProofs4.
Import ListNotations.
Local Open Scope list_scope.

Definition numc (c : N) : bool := among num_chars c.
Definition dchars : text := Eval vm_compute in num_chars ++ u "年月日".
Definition dchar (c : N) : bool := among dchars c.
Definition YEAR : N := Eval vm_compute in hd 0%N (u "年").
Definition MONTH : N := Eval vm_compute in hd 0%N (u "月").
Definition DAY : N := Eval vm_compute in hd 0%N (u "日").
Lemma dchar_valid c : dchar c = true -> vchar c = true.
Proof. intro H. apply among_in in H. assert (A : forallb vchar dchars = true) by (vm_compute; reflexivity). rewrite forallb_forall in A. exact (A c H). Qed.
Lemma dchar_bare c : dchar c = true -> bare c = true.
Proof. intro H. apply among_in in H. assert (A : forallb bare dchars = true) by (vm_compute; reflexivity). rewrite forallb_forall in A. exact (A c H). Qed.
Lemma numc_dchar c : numc c = true -> dchar c = true.
Proof. intro H. apply among_in in H. assert (A : forallb dchar num_chars = true) by (vm_compute; reflexivity). rewrite forallb_forall in A. exact (A c H). Qed.
Lemma still_d o : still dchar (preprocessor o) = true.
Proof. destruct o as [[] [] [] []]; vm_compute; reflexivity. Qed.

(** ** Numerals and what stands behind them *)
Lemma cut_num p : forall p' c q c' q', forallb numc p = true -> forallb numc p' = true -> numc c = false -> numc c' = false -> p ++ c :: q = p' ++ c' :: q' -> p = p' /\ c = c' /\ q = q'.
Proof.
  induction p as [|a p IH]; intros [|b p'] c q c' q' P P' C C' E; cbn [app] in E.
  - injection E as -> ->. auto.
  - injection E as <- _. cbn [forallb] in P'. rewrite C in P'. discriminate P'.
  - injection E as -> _. cbn [forallb] in P. rewrite C' in P. discriminate P.
  - injection E as -> E. cbn [forallb] in P, P'. apply andb_true_iff in P as (_ & P). apply andb_true_iff in P' as (_ & P'). destruct (IH p' c q c' q' P P' C C' E) as (-> & -> & ->). auto.
Qed.
Definition stamp (x : option text) (c : N) : text := match x with Some t => t ++ [c] | None => [] end.
Definition ymd (y : option text) (m : text) (d : option text) : text := stamp y YEAR ++ (m ++ [MONTH]) ++ stamp d DAY.
Definition onums (x : option text) : Prop := match x with Some t => forallb numc t = true | None => True end.
Lemma ymd_inj y m d y' m' d' : onums y -> forallb numc m = true -> onums d -> onums y' -> forallb numc m' = true -> onums d' -> ymd y m d = ymd y' m' d' -> y = y' /\ m = m' /\ d = d'.
Proof.
  intros Y M D Y' M' D' E. unfold ymd in E.
  assert (T : forall m m' d d', forallb numc m = true -> forallb numc m' = true -> onums d -> onums d' -> (m ++ [MONTH]) ++ stamp d DAY = (m' ++ [MONTH]) ++ stamp d' DAY -> m = m' /\ d = d').
  { clear. intros m m' d d' M M' D D' E. rewrite <- !app_assoc in E. cbn [app] in E. apply cut_num in E as (-> & _ & E); [|exact M|exact M'|reflexivity|reflexivity]. split; [reflexivity|].
    destruct d as [d|], d' as [d'|]; cbn [stamp] in E; [|destruct d; discriminate E|destruct d'; discriminate E|reflexivity]. apply app_inj_tail in E as (-> & _). reflexivity. }
  destruct y as [y|], y' as [y'|]; cbn [stamp app] in E.
  - rewrite <- !(app_assoc _ [YEAR]) in E. cbn [app] in E. apply cut_num in E as (-> & _ & E); [|exact Y|exact Y'|reflexivity|reflexivity]. destruct (T _ _ _ _ M M' D D' E) as (-> & ->). auto.
  - exfalso. rewrite <- !app_assoc in E. cbn [app] in E. apply cut_num in E as (_ & X & _); [discriminate X|exact Y|exact M'|reflexivity|reflexivity].
  - exfalso. rewrite <- !app_assoc in E. cbn [app] in E. apply cut_num in E as (_ & X & _); [discriminate X|exact M|exact Y'|reflexivity|reflexivity].
  - destruct (T _ _ _ _ M M' D D' E) as (-> & ->). auto.
Qed.
Lemma stamp_denote G c x z w : forallb dchar x = true -> denote (G + ques (Date.to + G) + delete [c])%fst x z w <-> exists p, x = p ++ [c] /\ denote G p z w.
Proof.
  intro K. split.
  - intro H. apply cat_inv in H as (x1 & y1 & w1 & x2 & y2 & w2 & -> & -> & -> & H & (-> & -> & ->)). apply cat_inv in H as (x3 & y3 & w3 & x4 & y4 & w4 & -> & -> & -> & H3 & [H4|H4]).
    + exfalso. apply cat_inv in H4 as (x5 & y5 & w5 & x6 & y6 & w6 & -> & _ & _ & (-> & _) & _). rewrite !forallb_app in K. rewrite !andb_true_iff in K. destruct K as ((_ & K & _) & _). vm_compute in K. discriminate K.
    + destruct H4 as (-> & -> & ->). rewrite !app_nil_r, !Z.add_0_r. eauto.
  - intros (p & -> & H). rewrite <- (app_nil_r z). replace w with (w + 0)%Z by lia. apply cat_i; [|now cbn]. rewrite <- (app_nil_r p), <- (app_nil_r z). replace w with (w + 0)%Z by lia. apply cat_i; [exact H|]. right. now cbn.
Qed.
(** ** The words *)
Lemma year_reads y n : japanese_value y = Some n -> (0 < n < 10000)%N -> ~ one_ten y -> exists d, decimal d n /\ just Cardinal.ten_thousand_minus y d /\ reads 10000 y.
Proof.
  intros V (P & L) O. destruct (int_reads true y n V ltac:(lia) (or_introl eq_refl) O) as (d & D & J). exists d. split; [exact D|].
  unfold japanese_value in V. destruct (text_eqb_spec y (u "〇")) as [->|_]; [injection V as <-; lia|]. destruct (ja_words jr_start y) as [s|] eqn:W; [|discriminate V]. cbv zeta in V. destruct (0 <? _)%N eqn:Z; [|discriminate V]. injection V as V. fold (amounts s) in V.
  assert (R : reads 10000 y).
  { unfold jr_start in W. destruct (big_split y) as [Sm|(p & c & b & q & -> & Sm & Lb)]; [split; [exact Sm|]; do 4 eexists; exact W|exfalso].
    rewrite ja_words_app in W. destruct (ja_words _ p) as [[D0 S g U B]|] eqn:E; [|discriminate W]. destruct (smaller_keeps _ _ _ _ _ _ _ Sm E) as (ED & EB). cbn [jr_done jr_big] in ED, EB. subst D0 B. destruct (big_step _ _ _ _ _ _ _ _ _ Lb W) as (Pos & Lt & W').
    apply done_grows in W'. cbn [jr_done] in W'. unfold amounts in V. apply big_words in Lb as [(_ & ->)|Big]; nia. }
  split; [|exact R]. destruct (read10000 y R O) as [->|K]; [vm_compute in W; injection W as <-; vm_compute in V; lia|]. apply acc_minus in K as (d' & K). pose proof (proj1 (J d' 0%Z) (or_introl K)) as (-> & _).
  intros z w. split; [intro H; exact (proj1 (J z w) (or_introl H))|intros (-> & ->); exact K].
Qed.
Definition digit_words : text := Eval vm_compute in u "一二三四五六七八九".
Definition upto99 : list text := Eval vm_compute in
  (let ends := [] :: map (fun c => [c]) digit_words in map (fun c => [c]) digit_words ++ map (fun e => u "十" ++ e) ends ++ flat_map (fun c => map (fun e => [c] ++ u "十" ++ e) ends) digit_words)%list.
Lemma nz_word a : nz a -> In (dw a) digit_words.
Proof. intro A. assert (C : (a = 49 \/ a = 50 \/ a = 51 \/ a = 52 \/ a = 53 \/ a = 54 \/ a = 55 \/ a = 56 \/ a = 57)%N) by (unfold nz in A; lia). destruct C as [->|[->|[->|[->|[->|[->|[->|[->| ->]]]]]]]]; vm_compute; tauto. Qed.
Lemma shape100 x : reads 100 x -> x = [] \/ In x upto99.
Proof.
  assert (Ends : forall y, y = [] \/ (exists a, nz a /\ y = [dw a]) -> In y ([] :: map (fun c => [c]) digit_words)) by (intros y [->|(a & A & ->)]; [left; reflexivity|right; apply in_map_iff; exists (dw a); split; [reflexivity|now apply nz_word]]).
  intro R. apply (under_unit TEN 10 x unit_ten) in R as [R|(h & y & -> & H & R)].
  - apply under_ten in R as [->|(a & A & ->)]; [auto|right]. change upto99 with (map (fun c => [c]) digit_words ++ map (fun e => u "十" ++ e) ([] :: map (fun c => [c]) digit_words) ++ flat_map (fun c => map (fun e => [c] ++ u "十" ++ e) ([] :: map (fun c => [c]) digit_words)) digit_words).
    apply in_app_iff. left. apply in_map_iff. exists (dw a). split; [reflexivity|now apply nz_word].
  - right. apply under_ten in R. apply Ends in R. change upto99 with (map (fun c => [c]) digit_words ++ map (fun e => u "十" ++ e) ([] :: map (fun c => [c]) digit_words) ++ flat_map (fun c => map (fun e => [c] ++ u "十" ++ e) ([] :: map (fun c => [c]) digit_words)) digit_words).
    apply in_app_iff. right. apply in_app_iff. destruct H as [->|(a & A & ->)].
    + left. exact (in_map (fun e => u "十" ++ e) _ y R).
    + right. apply in_flat_map. exists (dw a). split; [now apply nz_word|]. exact (in_map (fun e => [dw a] ++ u "十" ++ e) _ y R).
Qed.
Lemma long3 d n : Forall digit_char d -> hd 0%N d <> 48%N -> (3 <= List.length d)%nat -> decimal_value d = n -> (100 <= n)%N.
Proof.
  intros F H L E. destruct d as [|a [|b [|c d]]]; try (cbn in L; lia). cbn [hd] in H. inversion F as [|? ? Fa F1]; subst. inversion F1 as [|? ? Fb F2]; subst. unfold decimal_value. cbn [fold_left].
  assert (G : forall d k, (k <= fold_left (fun n c => 10 * n + (c - 48)) d k)%N) by (clear; induction d as [|c d IH]; intro k; cbn [fold_left]; [lia|]; specialize (IH (10 * k + (c - 48))%N); lia).
  specialize (G d (10 * (10 * (10 * 0 + (a - 48)) + (b - 48)) + (c - 48))%N). unfold digit_char in *. lia.
Qed.
Lemma under100_in x n : japanese_value x = Some n -> (0 < n < 100)%N -> ~ one_ten x -> In x upto99.
Proof.
  intros V L O. destruct (year_reads x n V ltac:(lia) O) as (d & D & J & R). assert (N0 : x <> []) by (intros ->; vm_compute in V; discriminate V).
  assert (W : forall P k t, worth P k (Some t) -> (3 <= k)%nat -> acc P x -> (forall z w, denote P x z w -> denote Cardinal.ten_thousand_minus x z w) -> False).
  { intros P k t Wp Lk (z & H) Sub. pose proof (proj1 (J z 0%Z) (Sub _ _ H)) as (-> & _). destruct (Wp _ _ _ H) as (_ & Q). destruct R as (_ & _). unfold japanese_value in V. destruct (text_eqb_spec x (u "〇")) as [->|_]; [injection V as <-; lia|]. destruct (ja_words jr_start x) as [s|] eqn:E; [|discriminate V].
    destruct (Q _ _ _ _ _ E) as (Ld & F & _ & Hd). destruct D as (_ & _ & _ & Ev). pose proof (long3 d n F (Hd ltac:(discriminate)) ltac:(lia) Ev). lia. }
  pose proof R as R0. apply (under_unit QIAN 1000 x unit_qian) in R0 as [R0|(h & y & E & H & R0)].
  - apply (under_unit BAI 100 x unit_bai) in R0 as [R0|(h & y & E & H & R0)]; [destruct (shape100 x R0) as [X|X]; [contradiction|exact X]|exfalso].
    apply (W _ _ _ hundred_worth); [lia| |intros z w K; left; right; exact K]. subst x. apply one_ten_app in O. pose proof (acc_under100 _ (read100 y R0 O)) as K. destruct H as [->|(a & A & ->)].
    + (apply acc_l; apply acc_r). apply acc_cat; [apply acc_cross|exact K].
    + (apply acc_l; apply acc_l). apply acc_cat; [|exact K]. apply (acc_cat _ _ [dw a] [BAI]); [now apply acc_digit|apply acc_delete].
  - exfalso. apply (W _ _ _ thousand_worth); [lia| |intros z w K; right; exact K]. subst x. apply one_ten_app in O. pose proof (acc_below_thousand _ (read1000 y R0 O)) as K. destruct H as [->|(a & A & ->)].
    + (apply acc_r). apply acc_cat; [apply acc_cross|exact K].
    + (apply acc_l). apply acc_cat; [|exact K]. apply (acc_cat _ _ [dw a] [QIAN]); [(apply acc_r; apply acc_digits; assumption)|apply acc_delete].
Qed.
Definition decimalb (t : text) (n : N) : bool :=
  negb (text_eqb t []) && forallb (fun c => (48 <=? c) && (c <=? 57))%N t && negb (hd 0%N t =? 48)%N && (decimal_value t =? n)%N.
Lemma decimalb_sound t n : decimalb t n = true -> decimal t n.
Proof.
  unfold decimalb. rewrite !andb_true_iff, !negb_true_iff, N.eqb_neq, N.eqb_eq. intros (((A & B) & C) & D). split; [intros ->; discriminate A|]. split.
  - rewrite Forall_forall. intros c I. rewrite forallb_forall in B. specialize (B c I). cbv beta in B. rewrite andb_true_iff, !N.leb_le in B. exact B.
  - split; [intro E; contradiction|exact D].
Qed.
(** The tables of months and days list the numerals from one on up to twelve and up to thirty-one. *)
Definition table_ok (tbl : list (text * text)) (top skip : N) : bool :=
  forallb (fun x => match japanese_value x with
    | Some n => if (n =? skip)%N then true else if (n <=? top)%N then if existsb (fun b => if text_eqb b (u "一十") then true else false) [firstn 2 x] then true else
        existsb (fun e => text_eqb (Datatypes.fst e) x) tbl else true
    | None => true end) upto99
  && forallb (fun e => match japanese_value (Datatypes.fst e) with Some n => decimalb (snd e) n | None => true end) tbl.
Lemma table_reads tbl top skip x n : table_ok tbl top skip = true -> japanese_value x = Some n -> (0 < n <= top)%N -> n <> skip -> (top < 100)%N -> ~ one_ten x ->
  exists d, decimal d n /\ forall z, In (x, z) tbl <-> z = d.
Proof.
  unfold table_ok. rewrite andb_true_iff. intros (A & B) V (P & L) Sk T O. pose proof (under100_in x n V ltac:(lia) O) as I. rewrite forallb_forall in A, B. specialize (A x I). cbv beta in A. rewrite V in A. apply N.eqb_neq in Sk. rewrite Sk in A. apply N.leb_le in L. rewrite L in A.
  cbn [existsb] in A. destruct (text_eqb_spec (firstn 2 x) (u "一十")) as [E|_].
  { exfalso. apply O. exists [], (skipn 2 x). cbn [app]. change [dw 49; TEN] with (u "一十"). rewrite <- (firstn_skipn 2 x) at 1. rewrite E. reflexivity. }
  assert (Known : forall z, In (x, z) tbl -> decimal z n).
  { intros z Iz. specialize (B _ Iz). cbn [Datatypes.fst snd] in B. rewrite V in B. now apply decimalb_sound. }
  apply existsb_exists in A as ((x' & d) & Id & E). cbn [Datatypes.fst] in E. destruct (text_eqb_spec x' x) as [->|_]; [|discriminate E]. exists d. split; [exact (Known d Id)|].
  intro z. split; [intro Iz; exact (EnNumberProofs4.decimal_unique _ _ _ (Known z Iz) (Known d Id))|intros ->; exact Id].
Qed.
Definition months : list (text * text) := map Fst.entry ja_itn_date_month.
Definition days : list (text * text) := map Fst.entry ja_itn_date_day.
Lemma months_ok : table_ok months 12 0 = true. Proof. vm_compute. reflexivity. Qed.
Lemma days_ok : table_ok days 31 0 = true. Proof. vm_compute. reflexivity. Qed.
