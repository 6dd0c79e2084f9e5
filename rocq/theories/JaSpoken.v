(** What the Japanese inverse normaliser writes for a spoken numeral has its value (C76). *)
From Coq Require Import List NArith ZArith Bool String Lia Arith.
From Verif Require Import Text TextFacts Fst FstFacts FstRun GrammarModel DataJaItn JaItnModel NumeralSpec JaNumeralSpec ZhNumberProofs ZhNumberProofs2 JaNumber.
Import ListNotations.
Local Open Scope list_scope.
Local Open Scope fst_scope.

(** ** One character *)
Definition ones (g : option N) : N := match g with Some d => d | None => 0%N end.
Definition times (g : option N) : N := match g with Some d => d | None => 1%N end.
Lemma unit_step c w D S g U B r : unit_of c w -> ja_words (Jr D S g U B) (c :: r) = if (w <? U)%N then ja_words (Jr D (S + times g * w) None w B) r else None.
Proof. intro V. destruct V as [(-> & ->)|[(-> & ->)|(-> & ->)]]; cbn [ja_words ja_word]; cbn; destruct (_ <? U)%N; reflexivity. Qed.
Lemma digit_step D S U B c r : nz c -> ja_words (Jr D S None U B) (dw c :: r) = ja_words (Jr D S (Some (c - 48)%N) U B) r.
Proof. apply ja_digit. Qed.
Lemma digit_twice D S v U B c r : nz c -> ja_words (Jr D S (Some v) U B) (dw c :: r) = None.
Proof. intro H. cbn [ja_words ja_word]. now rewrite (lookup_jw c H). Qed.
Lemma itn_digit x d w : denote Cardinal.digit x d w <-> exists c, nz c /\ x = [dw c] /\ d = [c] /\ w = 0%Z.
Proof.
  split.
  - intros (I & ->). vm_compute in I. repeat destruct I as [I|I]; try contradiction; injection I as <- <-; [exists 49%N|exists 50%N|exists 51%N|exists 52%N|exists 53%N|exists 54%N|exists 55%N|exists 56%N|exists 57%N]; (split; [unfold nz; lia|auto]).
  - intros (c & C & -> & -> & ->). split; [|reflexivity]. revert C. apply (nz_cases c (fun c => In ([dw c], [c]) (map entry ja_itn_number_digit))); vm_compute; tauto.
Qed.
Lemma itn_zero x d w : denote Cardinal.zero x d w -> d = [48%N] /\ w = 0%Z /\ forall D S U B, ja_words (Jr D S None U B) x = None.
Proof. intros (I & ->). vm_compute in I. repeat destruct I as [I|I]; try contradiction; injection I as <- <-; (split; [reflexivity|split; [reflexivity|intros; reflexivity]]). Qed.
Lemma itn_digits x d w : denote Cardinal.digits x d w -> w = 0%Z /\ List.length d = 1%nat /\ forall D S U B s, ja_words (Jr D S None U B) x = Some s -> exists c, nz c /\ x = [dw c] /\ d = [c] /\ s = Jr D S (Some (c - 48)%N) U B.
Proof.
  intros [H|H].
  - apply itn_zero in H as (-> & -> & H). split; [reflexivity|]. split; [reflexivity|]. intros D S U B s J. rewrite H in J. discriminate J.
  - apply itn_digit in H as (c & C & -> & -> & ->). split; [reflexivity|]. split; [reflexivity|]. intros D S U B s J. rewrite (digit_step _ _ _ _ _ _ C) in J. cbn [ja_words] in J. injection J as <-. exists c. auto.
Qed.
(** ** Parts of a section *)
Definition gained (D S B U0 : N) (s : ja_reading) (n : N) (top : option N) : Prop :=
  exists S' g U, s = Jr D S' g U B /\ (S' + ones g = S + n)%N /\ (U <= U0)%N /\ match top with Some t => (U <= t)%N | None => True end.
Definition worth (P : fst) (k : nat) (top : option N) : Prop := forall x d w, denote P x d w -> w = 0%Z /\ forall D S U B s, ja_words (Jr D S None U B) x = Some s ->
  List.length d = k /\ Forall digit_char d /\ gained D S B U s (decimal_value d) top /\ (top <> None -> hd 0%N d <> 48%N).
Lemma nz_digit c : nz c -> digit_char c. Proof. unfold nz, digit_char. lia. Qed.
Lemma zero_digit : digit_char 48. Proof. unfold digit_char. lia. Qed.
Lemma worth_union P Q k top : worth P k top -> worth Q k top -> worth (P ∪ Q) k top.
Proof. intros HP HQ x d w [H|H]; [exact (HP _ _ _ H)|exact (HQ _ _ _ H)]. Qed.
Lemma worth_weaken P k top : worth P k top -> worth P k None.
Proof.
  intros H x d w K. apply H in K as (W & K). split; [exact W|]. intros D S U B s J. destruct (K _ _ _ _ _ J) as (L & F & (S' & g & U' & E & V & O & _) & _).
  split; [exact L|]. split; [exact F|]. split; [|congruence]. exists S', g, U'. auto.
Qed.
Lemma addzeros_denote n x d w : denote (Cardinal.addzero ** n) x d w <-> x = [] /\ d = repeat 48%N n /\ w = 0%Z.
Proof.
  revert x d w. induction n as [|n IH]; intros x d w.
  - cbn. tauto.
  - cbn [power]. split.
    + intro H. destruct n; [cbn [power] in H; cbn; exact H|]. apply cat_inv in H as (x1 & y1 & w1 & x2 & y2 & w2 & -> & -> & -> & (-> & -> & ->) & H). apply IH in H as (-> & -> & ->). auto.
    + intros (-> & -> & ->). destruct n; [cbn; auto|]. change (repeat 48%N (S (S n))) with ([48%N] ++ repeat 48%N (S n)). change (@nil N) with (@nil N ++ @nil N). change 0%Z with (0 + 0)%Z. apply cat_i; [cbn; auto|]. now apply IH.
Qed.
Lemma teen_inv x d w : denote Cardinal.teen x d w -> w = 0%Z /\ (x = [TEN] /\ d = [49; 48]%N \/ exists c, nz c /\ x = [TEN; dw c] /\ d = [49%N; c]).
Proof.
  intros [(I & ->)|H].
  - split; [reflexivity|]. vm_compute in I. destruct I as [I|I]; [left; injection I as <- <-; auto|right]. repeat destruct I as [I|I]; try contradiction; injection I as <- <-;
      [exists 49%N|exists 50%N|exists 51%N|exists 52%N|exists 53%N|exists 54%N|exists 55%N|exists 56%N|exists 57%N]; (split; [unfold nz; lia|auto]).
  - apply cat_inv in H as (x1 & y1 & w1 & x2 & y2 & w2 & -> & -> & -> & (-> & -> & ->) & [H|(-> & -> & ->)]); [|auto].
    apply itn_digit in H as (c & C & -> & -> & ->). split; [reflexivity|]. right. exists c. auto.
Qed.
Lemma ties_inv x d w : denote Cardinal.ties x d w -> w = 0%Z /\ exists a, nz a /\ a <> 49%N /\ x = [dw a; TEN] /\ d = [a].
Proof.
  intros (I & ->). split; [reflexivity|]. vm_compute in I. repeat destruct I as [I|I]; try contradiction; injection I as <- <-;
    [exists 50%N|exists 51%N|exists 52%N|exists 53%N|exists 54%N|exists 55%N|exists 56%N|exists 57%N]; (split; [unfold nz; lia|split; [lia|auto]]).
Qed.
Lemma tens_inv x d w : denote Cardinal.tens x d w -> w = 0%Z /\ exists a, nz a /\ (x = [dw a; TEN] /\ d = [a; 48%N] \/ exists c, nz c /\ x = [dw a; TEN; dw c] /\ d = [a; c]).
Proof.
  intros [H|H]; apply cat_inv in H as (x1 & y1 & w1 & x2 & y2 & w2 & -> & -> & -> & T & H); apply ties_inv in T as (-> & a & A & _ & -> & ->).
  - destruct H as (-> & -> & ->). split; [reflexivity|]. exists a. auto.
  - destruct H as [H|(-> & -> & ->)]; [|split; [reflexivity|]; exists a; auto]. apply itn_digit in H as (c & C & -> & -> & ->). split; [reflexivity|]. exists a. split; [exact A|]. right. exists c. auto.
Qed.
Ltac ustep V := rewrite (unit_step _ _ _ _ _ _ _ _ V) in *.
Lemma teen_worth : worth Cardinal.teen 2 (Some 100%N).
Proof.
  intros x d w H. apply teen_inv in H as (-> & H). split; [reflexivity|]. intros D S U B s J. destruct H as [(-> & ->)|(c & C & -> & ->)]; rewrite (unit_step _ _ _ _ _ _ _ _ unit_ten) in J; destruct (10 <? U)%N eqn:EU; try discriminate J; apply N.ltb_lt in EU.
  - cbn [ja_words] in J. injection J as <-. split; [reflexivity|]. split; [repeat constructor; unfold digit_char; lia|]. split; [|intros _; discriminate]. exists (S + times None * 10)%N, None, 10%N. split; [reflexivity|]. cbn [ones times]. unfold decimal_value. cbn [fold_left]. lia.
  - rewrite (digit_step _ _ _ _ _ _ C) in J. cbn [ja_words] in J. injection J as <-. split; [reflexivity|]. split; [constructor; [unfold digit_char; lia|constructor; [now apply nz_digit|constructor]]|]. split; [|intros _; discriminate].
    exists (S + times None * 10)%N, (Some (c - 48)%N), 10%N. split; [reflexivity|]. cbn [ones times]. unfold decimal_value. cbn [fold_left]. unfold nz in C. lia.
Qed.
Lemma tens_worth : worth Cardinal.tens 2 (Some 100%N).
Proof.
  intros x d w H. apply tens_inv in H as (-> & a & A & H). split; [reflexivity|]. intros D S U B s J. destruct H as [(-> & ->)|(c & C & -> & ->)]; rewrite (digit_step _ _ _ _ _ _ A), (unit_step _ _ _ _ _ _ _ _ unit_ten) in J; destruct (10 <? U)%N eqn:EU; try discriminate J; apply N.ltb_lt in EU.
  - cbn [ja_words] in J. injection J as <-. split; [reflexivity|]. split; [constructor; [now apply nz_digit|constructor; [exact zero_digit|constructor]]|]. split; [|intros _; cbn [hd]; unfold nz in A; lia].
    exists (S + times (Some (a - 48)) * 10)%N, None, 10%N. split; [reflexivity|]. cbn [ones times]. unfold decimal_value. cbn [fold_left]. unfold nz in A. lia.
  - rewrite (digit_step _ _ _ _ _ _ C) in J. cbn [ja_words] in J. injection J as <-. split; [reflexivity|]. split; [constructor; [now apply nz_digit|constructor; [now apply nz_digit|constructor]]|]. split; [|intros _; cbn [hd]; unfold nz in A; lia].
    exists (S + times (Some (a - 48)) * 10)%N, (Some (c - 48)%N), 10%N. split; [reflexivity|]. cbn [ones times]. unfold decimal_value. cbn [fold_left]. unfold nz in *. lia.
Qed.
(** Zeros in front change nothing. *)
Lemma zeros_value n d : decimal_value (repeat 48%N n ++ d) = decimal_value d.
Proof. rewrite value_app. assert (E : decimal_value (repeat 48%N n) = 0%N) by (unfold decimal_value; induction n as [|n IH]; [reflexivity|exact IH]). rewrite E. lia. Qed.
Lemma worth_padded n P k top : worth P k top -> worth (Cardinal.addzero ** n + P) (n + k) None.
Proof.
  intros HP x d w H. apply cat_inv in H as (x1 & y1 & w1 & x2 & y2 & w2 & -> & -> & -> & Z & H). apply addzeros_denote in Z as (-> & -> & ->). apply HP in H as (-> & H). split; [reflexivity|].
  intros D S U B s J. cbn [app] in J. destruct (H _ _ _ _ _ J) as (L & F & (S' & g & U' & E & V & O & _) & _). split; [now rewrite app_length, repeat_length, L|]. split.
  - apply Forall_app. split; [|exact F]. apply Forall_forall. intros c I. apply repeat_spec in I as ->. exact zero_digit.
  - split; [|congruence]. exists S', g, U'. rewrite zeros_value. auto.
Qed.
Lemma zeros_worth n : worth (Cardinal.addzero ** n) n None.
Proof.
  intros x d w H. apply addzeros_denote in H as (-> & -> & ->). split; [reflexivity|]. intros D S U B s J. cbn [ja_words] in J. injection J as <-. split; [apply repeat_length|]. split.
  - apply Forall_forall. intros c I. apply repeat_spec in I as ->. exact zero_digit.
  - split; [|congruence]. exists S, None, U. split; [reflexivity|]. split; [|split; [lia|exact I]]. pose proof (zeros_value n []) as E. rewrite app_nil_r in E. rewrite E. cbn. lia.
Qed.
Lemma digits_worth : worth Cardinal.digits 1 None.
Proof.
  intros x d w H. apply itn_digits in H as (-> & _ & H). split; [reflexivity|]. intros D S U B s J. destruct (H _ _ _ _ _ J) as (c & C & -> & -> & ->). split; [reflexivity|]. split; [constructor; [now apply nz_digit|constructor]|].
  split; [|congruence]. exists S, (Some (c - 48)%N), U. split; [reflexivity|]. split; [|split; [lia|exact I]]. cbn [ones]. unfold decimal_value. cbn [fold_left]. unfold nz in C. lia.
Qed.
(** A digit or nothing before a unit, and the rest after it. *)
Lemma worth_unit (c v : N) (head : fst) P k (W : unit_of c v) : (v = 10 ^ N.of_nat k)%N ->
  (forall x d w, denote head x d w -> w = 0%Z /\ (x = [c] /\ d = [49%N] \/ exists a, nz a /\ x = [dw a; c] /\ d = [a])) -> worth P k None -> worth (head + P) (1 + k) (Some v).
Proof.
  intros E Hd HP x d w H. apply cat_inv in H as (x1 & y1 & w1 & x2 & y2 & w2 & -> & -> & -> & H1 & H2). apply Hd in H1 as (-> & H1). apply HP in H2 as (-> & H2). split; [reflexivity|]. intros D S U B s J.
  assert (X : exists a, nz a /\ y1 = [a] /\ ja_words (Jr D (S + (a - 48) * v) None v B) x2 = Some s /\ (v < U)%N).
  { destruct H1 as [(-> & ->)|(a & A & -> & ->)]; cbn [app] in J.
    - rewrite (unit_step _ _ _ _ _ _ _ _ W) in J. destruct (v <? U)%N eqn:EU; [|discriminate J]. exists 49%N. split; [unfold nz; lia|]. split; [reflexivity|]. split; [exact J|now apply N.ltb_lt].
    - rewrite (digit_step _ _ _ _ _ _ A), (unit_step _ _ _ _ _ _ _ _ W) in J. destruct (v <? U)%N eqn:EU; [|discriminate J]. exists a. apply N.ltb_lt in EU. auto. }
  destruct X as (a & A & -> & X & EU). destruct (H2 _ _ _ _ _ X) as (Ld & F & (S' & g & U' & Es & V & O & _) & _). split; [cbn [app List.length]; now rewrite Ld|]. split; [constructor; [now apply nz_digit|exact F]|].
  split; [|intros _; cbn [app hd]; unfold nz in A; lia]. exists S', g, U'. split; [exact Es|]. split; [|split; lia].
  rewrite V, value_app, Ld, <- E. assert (Ea : decimal_value [a] = (a - 48)%N) by reflexivity. rewrite Ea. lia.
Qed.
Lemma cross_head c x d w : denote (Cross [c] [49%N]) x d w -> w = 0%Z /\ (x = [c] /\ d = [49%N] \/ exists a, nz a /\ x = [dw a; c] /\ d = [a]).
Proof. intros (-> & -> & ->). auto. Qed.
Lemma digit_head c x d w : denote (Cardinal.digit + delete [c]) x d w -> w = 0%Z /\ (x = [c] /\ d = [49%N] \/ exists a, nz a /\ x = [dw a; c] /\ d = [a]).
Proof.
  intro H. apply cat_inv in H as (x1 & y1 & w1 & x2 & y2 & w2 & -> & -> & -> & H & (-> & -> & ->)). apply itn_digit in H as (a & A & -> & -> & ->). split; [reflexivity|]. right. exists a. auto.
Qed.
Lemma worth_top P k a b : (a <= b)%N -> worth P k (Some a) -> worth P k (Some b).
Proof.
  intros L H x d w K. apply H in K as (W & K). split; [exact W|]. intros D S U B s J. destruct (K _ _ _ _ _ J) as (Ln & F & (S' & g & U' & E & V & O & T) & Z).
  split; [exact Ln|]. split; [exact F|]. split; [|intros _; apply Z; discriminate]. exists S', g, U'. repeat split; auto. lia.
Qed.
Lemma worth_eq P Q k top : (forall x y w, denote P x y w -> denote Q x y w) -> worth Q k top -> worth P k top.
Proof. intros E H x d w K. apply H. now apply E. Qed.
Lemma padded1 P k top : worth P k top -> worth (Cardinal.addzero + P) (1 + k) None.
Proof. exact (worth_padded 1 P k top). Qed.
Definition under100 : fst := Cardinal.tens ∪ Cardinal.teen ∪ (Cardinal.addzero + Cardinal.digits) ∪ Cardinal.addzero ** 2.
Lemma under100_worth : worth under100 2 None.
Proof.
  apply worth_union; [apply worth_union; [apply worth_union|]|].
  - exact (worth_weaken _ _ _ tens_worth).
  - exact (worth_weaken _ _ _ teen_worth).
  - exact (padded1 _ _ _ digits_worth).
  - exact (zeros_worth 2).
Qed.
Lemma hundred_digit_worth : worth Cardinal.hundred_digit 3 (Some 100%N).
Proof.
  apply worth_eq with (Q := Cross [BAI] [49%N] + under100).
  - intros x y w (I & ->). vm_compute in I. change 0%Z with (0 + 0)%Z. repeat destruct I as [I|I]; try contradiction; injection I as <- <-;
    match goal with |- denote _ (?a :: ?x) (?b :: ?y) _ => change (a :: x) with ([a] ++ x); change (b :: y) with ([b] ++ y) end;
    (apply cat_i; [cbn; auto|left; right]); apply (cat_i _ _ [] [48%N] 0 _ _ 0%Z); (try (cbn; auto; fail)); right; vm_compute; (split; [|reflexivity]); tauto.
  - apply (worth_unit BAI 100 _ _ 2 unit_bai eq_refl (cross_head _) under100_worth).
Qed.
Lemma hundred_worth : worth Cardinal.hundred 3 (Some 100%N).
Proof.
  apply worth_union; [apply worth_union|].
  - exact (worth_unit BAI 100 _ _ 2 unit_bai eq_refl (digit_head _) under100_worth).
  - exact (worth_unit BAI 100 _ _ 2 unit_bai eq_refl (cross_head _) under100_worth).
  - exact hundred_digit_worth.
Qed.
Lemma below_thousand_worth : worth Cardinal.below_thousand 3 None.
Proof.
  apply worth_union; [apply worth_union; [apply worth_union; [apply worth_union|]|]|].
  - exact (worth_weaken _ _ _ hundred_worth).
  - exact (padded1 _ _ _ tens_worth).
  - exact (padded1 _ _ _ teen_worth).
  - exact (worth_padded 2 _ _ _ digits_worth).
  - exact (zeros_worth 3).
Qed.
(** Nothing but a digit is read before the thousands. *)
Lemma dead_thousand P k Q k' K top : worth P k (Some 100%N) -> worth Q k' None -> worth (P + delete [QIAN] + Q) K top.
Proof.
  intros HP HQ x d w H. apply cat_inv in H as (x1 & y1 & w1 & x2 & y2 & w2 & -> & -> & -> & H & H2). apply cat_inv in H as (x3 & y3 & w3 & x4 & y4 & w4 & -> & -> & -> & H & (-> & -> & ->)). apply HP in H as (-> & H). apply HQ in H2 as (-> & _). split; [reflexivity|].
  intros D S U B s J. exfalso. rewrite <- app_assoc, ja_words_app in J. destruct (ja_words (Jr D S None U B) x3) as [s'|] eqn:E; [|discriminate J]. destruct (H _ _ _ _ _ E) as (_ & _ & (S' & g & U' & -> & _ & _ & T) & _).
  cbn [app] in J. rewrite (unit_step _ _ _ _ _ _ _ _ unit_qian) in J. destruct (1000 <? U')%N eqn:EU; [|discriminate J]. apply N.ltb_lt in EU. lia.
Qed.
Lemma digits_thousand : worth (Cardinal.digits + delete [QIAN] + Cardinal.below_thousand) 4 (Some 1000%N).
Proof.
  intros x d w H. apply cat_inv in H as (x1 & y1 & w1 & x2 & y2 & w2 & -> & -> & -> & H & H2). apply cat_inv in H as (x3 & y3 & w3 & x4 & y4 & w4 & -> & -> & -> & H & (-> & -> & ->)). pose proof H2 as H2'. apply below_thousand_worth in H2' as (-> & _). pose proof (itn_digits _ _ _ H) as (-> & _ & H'). split; [reflexivity|].
  intros D S U B s J. pose proof J as J0. rewrite <- app_assoc, ja_words_app in J. destruct (ja_words (Jr D S None U B) x3) as [s'|] eqn:E; [|discriminate J]. destruct (H' _ _ _ _ _ E) as (a & A & -> & -> & ->).
  assert (W : worth (Cardinal.digit + delete [QIAN] + Cardinal.below_thousand) 4 (Some 1000%N)) by exact (worth_unit QIAN 1000 _ _ 3 unit_qian eq_refl (digit_head _) below_thousand_worth).
  assert (Kd : denote Cardinal.digit [dw a] [a] 0%Z) by (apply itn_digit; exists a; auto).
  assert (K : denote (Cardinal.digit + delete [QIAN] + Cardinal.below_thousand) (([dw a] ++ [QIAN]) ++ x2) (([a] ++ []) ++ y2) (0 + 0 + 0)%Z).
  { apply cat_i; [|exact H2]. apply cat_i; [exact Kd|]. split; [reflexivity|]. split; reflexivity. }
  destruct (W _ _ _ K) as (_ & R). exact (R D S U B s J0).
Qed.
Lemma union_cat P Q R x y w : denote ((P ∪ Q) + R) x y w <-> denote ((P + R) ∪ (Q + R)) x y w.
Proof.
  split.
  - intro H. apply cat_inv in H as (x1 & y1 & w1 & x2 & y2 & w2 & -> & -> & -> & [H|H] & K); [left|right]; now apply cat_i.
  - intros [H|H]; apply cat_inv in H as (x1 & y1 & w1 & x2 & y2 & w2 & -> & -> & -> & H & K); (apply cat_i; [|exact K]); [left|right]; exact H.
Qed.
Lemma union_cat2 P Q R T x y w : denote ((P ∪ Q) + R + T) x y w -> denote ((P + R + T) ∪ (Q + R + T)) x y w.
Proof. intro H. apply cat_inv in H as (x1 & y1 & w1 & x2 & y2 & w2 & -> & -> & -> & H & K). apply union_cat in H as [H|H]; [left|right]; now apply cat_i. Qed.
Lemma thousand_worth : worth Cardinal.thousand 4 (Some 1000%N).
Proof.
  apply worth_union; [|exact (worth_unit QIAN 1000 _ _ 3 unit_qian eq_refl (cross_head _) below_thousand_worth)].
  eapply worth_eq; [apply union_cat2|]. apply worth_union; [|exact digits_thousand]. eapply worth_eq; [apply union_cat2|]. apply worth_union; [eapply worth_eq; [apply union_cat2|]; apply worth_union|].
  - exact (dead_thousand _ _ _ _ _ _ hundred_worth below_thousand_worth).
  - exact (dead_thousand _ _ _ _ _ _ teen_worth below_thousand_worth).
  - exact (dead_thousand _ _ _ _ _ _ tens_worth below_thousand_worth).
Qed.
Lemma below_man_worth : worth Cardinal.below_man 4 None.
Proof.
  apply worth_union; [apply worth_union; [apply worth_union; [apply worth_union; [apply worth_union|]|]|]|].
  - exact (worth_weaken _ _ _ thousand_worth).
  - exact (padded1 _ _ _ hundred_worth).
  - exact (worth_padded 2 _ _ _ tens_worth).
  - exact (worth_padded 2 _ _ _ teen_worth).
  - exact (worth_padded 3 _ _ _ digits_worth).
  - exact (zeros_worth 4).
Qed.
