(** The readings of Chinese numbers (C45), said back to the inverse normaliser. *)
From Coq Require Import List NArith ZArith Bool String Lia Arith.
From Verif Require Import Text TextFacts Fst FstFacts FstRun GrammarModel DataZhTn ZhTnModel NumeralSpec ZhSpokenSpec.
From Verif Require Import ZhNumberProofs ZhNumberProofs2 ZhNumberProofs3 ZhNumberProofs4.
From Verif Require ZhSpokenProofs2.
Import ListNotations.
Local Open Scope list_scope.

(** ** What the specification sees of the words *)
Lemma dw_facts c : nz c -> digit_of (dw c) = Some (c - 48)%N /\ zero_of (dw c) = false /\ is "十" (dw c) = false /\ is "百" (dw c) = false
  /\ is "千" (dw c) = false.
Proof. intro H. pattern c. apply nz_cases; [..|exact H]; vm_compute; auto 6. Qed.
Lemma dw_digit c : nz c -> digit_of (dw c) = Some (c - 48)%N. Proof. intro H. now apply dw_facts. Qed.
Lemma dw_zero c : nz c -> zero_of (dw c) = false. Proof. intro H. now apply dw_facts. Qed.
Lemma dw_ten c : nz c -> is "十" (dw c) = false. Proof. intro H. now apply dw_facts. Qed.
Lemma dw_bai c : nz c -> is "百" (dw c) = false. Proof. intro H. now apply dw_facts. Qed.
Lemma dw_qian c : nz c -> is "千" (dw c) = false. Proof. intro H. now apply dw_facts. Qed.
Lemma zero_z : zero_of ZERO = true /\ digit_of ZERO = None /\ is "十" ZERO = false /\ is "百" ZERO = false /\ is "千" ZERO = false.
Proof. vm_compute. auto 6. Qed.
Lemma zero_t : zero_of TEN = false /\ digit_of TEN = None /\ is "十" TEN = true /\ is "百" TEN = false /\ is "千" TEN = false.
Proof. vm_compute. auto 6. Qed.
Lemma zero_b : zero_of BAI = false /\ digit_of BAI = None /\ is "十" BAI = false /\ is "百" BAI = true /\ is "千" BAI = false.
Proof. vm_compute. auto 6. Qed.
Lemma zero_q : zero_of QIAN = false /\ digit_of QIAN = None /\ is "十" QIAN = false /\ is "百" QIAN = false /\ is "千" QIAN = true.
Proof. vm_compute. auto 6. Qed.
Ltac words :=
  pose proof zero_z as (? & ? & ? & ? & ?); pose proof zero_t as (? & ? & ? & ? & ?); pose proof zero_b as (? & ? & ? & ? & ?);
  pose proof zero_q as (? & ? & ? & ? & ?);
  repeat match goal with H : nz ?c |- _ => pose proof (dw_facts c H) as (? & ? & ? & ? & ?); change (49 <= c <= 57)%N in H end;
  unfold section, after_wan, thousands_of, with_unit, after_thousand, hundreds_of, with_unit, after_hundred, after_zero, tens_of, nothing, lone;
  repeat match goal with E : is _ ?a = _ |- context [is _ ?a] => rewrite E | E : digit_of ?a = _ |- context [digit_of ?a] => rewrite E
    | E : zero_of ?a = _ |- context [zero_of ?a] => rewrite E end;
  cbn [orelse plus times]; repeat match goal with E : _ = _ |- _ => clear E end; unfold decimal_value; cbn [fold_left];
  match goal with |- Some ?a = Some ?b => let E := fresh in assert (E : a = b); [|rewrite E; reflexivity] end.
Ltac blocks := eexists; split; [apply just_outs; [reflexivity|]; open_graphs; leaf; reflexivity|]; lits; words; lia.
Lemma four_after a b c d : digit_char a -> digit_char b -> digit_char c -> digit_char d ->
  exists y, just Cardinal.four_any [a; b; c; d] y /\ after_wan y = Some (decimal_value [a; b; c; d]).
Proof.
  intros Ha Hb Hc Hd. apply digit_cases in Ha as [->|Ha], Hb as [->|Hb], Hc as [->|Hc], Hd as [->|Hd]; [|blocks..].
  exists []. split; [|reflexivity]. apply just_outs; [reflexivity|]. open_graphs. leaf. reflexivity.
Qed.
Ltac full T := eexists; split; [eapply just_full; [reflexivity|open_graphs; leaf; reflexivity|rewrite ?T; reflexivity]|]; lits; words; lia.
Lemma head_section p : Forall digit_char p -> hd 48%N p <> 48%N -> (List.length p <= 4)%nat ->
  exists y, just head p y /\ section y = Some (decimal_value p).
Proof.
  intros F H L.
  destruct p as [|a p]; [now destruct H|]. cbn [hd] in H.
  apply Forall_cons_iff in F as (Ha & F). apply digit_cases in Ha as [->|Ha]; [now destruct H|]. clear H.
  destruct p as [|b p]; [full tw_one|].
  apply Forall_cons_iff in F as (Hb & F).
  destruct p as [|c p].
  { destruct (N.eq_dec a 49) as [->|Na].
    - apply digit_cases in Hb as [->|Hb]; full tw_one.
    - assert (T : tw a = [dw a]) by (unfold tw; now rewrite (proj2 (N.eqb_neq _ _) Na)).
      apply digit_cases in Hb as [->|Hb]; full T. }
  apply Forall_cons_iff in F as (Hc & F).
  destruct p as [|d p].
  { apply digit_cases in Hb as [->|Hb], Hc as [->|Hc]; full tw_one. }
  apply Forall_cons_iff in F as (Hd & F).
  destruct p as [|e p]; [|cbn in L; lia].
  apply digit_cases in Hb as [->|Hb], Hc as [->|Hc], Hd as [->|Hd]; full tw_one.
Qed.
(** 两 for 二 does not change what is said. *)
Lemma liang_section t : section (LIANG :: t) = section (ER :: t).
Proof. destruct t as [|b t]; reflexivity. Qed.
Lemma liang_spoken t : spoken_number (liang_fn t) = spoken_number t.
Proof.
  destruct t as [|c [|d r]]; try reflexivity. cbn [liang_fn].
  destruct (N.eqb_spec c ER) as [->|]; [|reflexivity]. destruct (liang_unit d); [|reflexivity]. cbn [andb].
  unfold spoken_number. change (cut_at "万" (LIANG :: d :: r)) with (match cut_at "万" (d :: r) with Some (a, b) => Some (LIANG :: a, b) | None => None end).
  change (cut_at "万" (ER :: d :: r)) with (match cut_at "万" (d :: r) with Some (a, b) => Some (ER :: a, b) | None => None end).
  destruct (cut_at "万" (d :: r)) as [(a & b)|]; [now rewrite liang_section|]. apply liang_section.
Qed.
Lemma section_spoken y n : section y = Some n -> spoken_number y = Some n.
Proof. intro S. apply ZhSpokenProofs2.spoken_cases. left. apply ZhSpokenProofs2.small_either. auto. Qed.
Theorem integer_spoken t n : decimal t n -> (n < 100000000)%N ->
  exists y, just Cardinal.integer t y /\ spoken_number y = Some n.
Proof.
  intros (Nt & F & H0 & Vn) Ln.
  destruct (N.eq_dec (hd 48%N t) 48) as [Hz|Hz].
  { assert (t = [48%N]) as ->. { apply H0. destruct t; [now destruct Nt|exact Hz]. }
    exists (u "零"). split; [|rewrite <- Vn; reflexivity].
    eapply (just_full Cardinal.integer [48%N]); [reflexivity|reflexivity|vm_compute; reflexivity]. }
  clear H0.
  assert (L : (List.length t <= 8)%nat).
  { destruct t as [|c t]; [cbn; lia|]. apply Forall_cons_iff in F as (Hc & _). cbn [hd] in Hz.
    pose proof (value_long c t Hc Hz) as B. cbn [List.length].
    destruct (le_lt_dec (List.length t) 7) as [|G]; [lia|]. exfalso.
    assert (10 ^ 8 <= 10 ^ N.of_nat (List.length t))%N by (apply N.pow_le_mono_r; lia).
    change (10 ^ 8)%N with 100000000%N in *. lia. }
  destruct (le_lt_dec (List.length t) 4) as [L4|L4].
  { destruct (head_section t F Hz L4) as (y & J & S). exists y. split; [|rewrite <- Vn; now apply section_spoken].
    intros z w. rewrite (integer_short t z w F Hz L4). apply J. }
  destruct (split_last4 t) as (p & a' & b' & c' & d' & ->); [lia|].
  rewrite app_length in *. cbn [List.length] in *.
  apply Forall_app in F as (Fp & Ff).
  apply Forall_cons_iff in Ff as (Ha' & Ff). apply Forall_cons_iff in Ff as (Hb' & Ff).
  apply Forall_cons_iff in Ff as (Hc' & Ff). apply Forall_cons_iff in Ff as (Hd' & _).
  assert (Np : p <> []) by (intros ->; cbn in L4; lia).
  rewrite hd_app in Hz by exact Np. assert (Lp : (List.length p <= 4)%nat) by lia.
  destruct (head_section p Fp Hz Lp) as (y & J & S). destruct (four_after a' b' c' d' Ha' Hb' Hc' Hd') as (y' & J' & A).
  exists ((y ++ u "万") ++ y'). split.
  - intros z w. rewrite integer_wan by auto. split.
    + intros (z1 & w1 & z2 & w2 & -> & -> & X & B). apply J in X as (-> & ->). apply J' in B as (-> & ->). auto.
    + intros (-> & ->). exists y, 0%Z, y', 0%Z. split; [reflexivity|]. split; [reflexivity|]. split; [now apply J|now apply J'].
  - apply ZhSpokenProofs2.spoken_cases. right. exists y, y', (decimal_value p), (decimal_value [a'; b'; c'; d']).
    rewrite <- app_assoc. split; [reflexivity|]. split; [exact S|]. split; [exact A|]. rewrite <- Vn, value_app. reflexivity.
Qed.
(** What the normaliser says for a number below 10^8 is that number to the inverse normaliser. *)
Theorem number_spoken t n : decimal t n -> (n < 100000000)%N ->
  exists y, spoken_number y = Some n /\ forall z w, denote Cardinal.number t z w <-> z = y /\ w = 0%Z.
Proof.
  intros D L. destruct (integer_spoken t n D L) as (m & J & V). destruct D as (_ & F & _).
  assert (Vm : forallb vchar m = true).
  { apply (writes_valid_sound Cardinal.integer) with t 0%Z; [vm_compute; reflexivity|now apply J|].
    apply forallb_forall. intros c I. rewrite Forall_forall in F. apply F in I. apply vchar_spec.
    unfold GrammarSpec.valid_char, digit_char in *. lia. }
  exists (liang_fn m). split; [now rewrite liang_spoken|].
  intros z w. rewrite number_digits, plain_digits by exact F. split.
  - intros (m' & w1 & w2 & -> & Ig & Li). apply J in Ig as (-> & ->).
    apply liang_spec in Li as (-> & ->); [auto|exact Vm].
  - intros (-> & ->). exists m, 0%Z, 0%Z. split; [reflexivity|]. split; [now apply J|]. now apply liang_spec.
Qed.
