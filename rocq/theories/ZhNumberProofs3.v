(** The reading of Chinese numbers (C45), end. *)
From Coq Require Import List NArith ZArith Bool String Lia Arith.
From Verif Require Import Text TextFacts Fst FstFacts FstRun GrammarModel DataZhTn ZhTnModel NumeralSpec.
From Verif Require Import ZhNumberProofs ZhNumberProofs2.
Import ListNotations.
Local Open Scope list_scope.
Local Open Scope fst_scope.

(** ** Splitting a text by lengths *)
Lemma cat_right a b n x1 x2 z w : lengths b = Some [n] -> List.length x2 = n ->
  denote (a + b) (x1 ++ x2) z w <->
  exists z1 w1 z2 w2, z = z1 ++ z2 /\ w = (w1 + w2)%Z /\ denote a x1 z1 w1 /\ denote b x2 z2 w2.
Proof.
  intros Lb L2. split.
  - intros (p & z1 & w1 & q & z2 & w2 & E & -> & -> & A & B).
    pose proof (lengths_sound b _ Lb _ _ _ B) as [Lq|[]].
    assert (List.length x1 = List.length p).
    { apply (f_equal (@List.length N)) in E. rewrite !app_length in E. lia. }
    apply app_eq_app in E as (l & [(E1 & E2)|(E1 & E2)]).
    + assert (l = []) as -> by (subst; rewrite app_length in *; destruct l; [reflexivity|cbn in *; lia]).
      rewrite app_nil_r in E1. cbn in E2. subst. exists z1, w1, z2, w2. auto.
    + assert (l = []) as -> by (subst; rewrite app_length in *; destruct l; [reflexivity|cbn in *; lia]).
      rewrite app_nil_r in E1. cbn in E2. subst. exists z1, w1, z2, w2. auto.
  - intros (z1 & w1 & z2 & w2 & -> & -> & A & B). now apply cat_i.
Qed.
Lemma cat_insert a t x z w : denote (a + insert t) x z w <-> exists z1, z = z1 ++ t /\ denote a x z1 w.
Proof.
  split.
  - intros (p & z1 & w1 & q & z2 & w2 & -> & -> & -> & A & (-> & -> & ->)).
    exists z1. rewrite app_nil_r, Z.add_0_r. auto.
  - intros (z1 & -> & A). rewrite <- (app_nil_r x), <- (Z.add_0_r w). apply cat_i; [exact A|apply insert_i].
Qed.
(** Powers of [rmzero] read zeros only. *)
Lemma rmzero_power n x z w : (1 <= n)%nat -> Forall digit_char x -> denote (Cardinal.rmzero ** n) x z w <->
  x = repeat 48%N n /\ z = [] /\ w = 0%Z.
Proof.
  assert (R : forall x z w, Forall digit_char x -> denote Cardinal.rmzero x z w <-> x = [48%N] /\ z = [] /\ w = 0%Z).
  { intros x0 z0 w0 F. split.
    - intros [(-> & -> & ->)|(-> & _)]; [auto|].
      change (u "０") with [65296%N] in F. apply Forall_cons_iff in F as (F & _). unfold digit_char in F. lia.
    - intros (-> & -> & ->). left. cbn. auto. }
  intros Hn. revert x z w. induction n as [|n IH]; [lia|]. intros x z w F.
  destruct n as [|n]; [apply R, F|].
  change (Cardinal.rmzero ** S (S n)) with (Cardinal.rmzero + Cardinal.rmzero ** S n). split.
  - intros (p & z1 & w1 & q & z2 & w2 & -> & -> & -> & A & B). apply Forall_app in F as (F1 & F2).
    apply R in A as (-> & -> & ->); [|exact F1]. apply IH in B as (-> & -> & ->); [|lia|exact F2]. auto.
  - intros (-> & -> & ->). change (repeat 48%N (S (S n))) with ([48%N] ++ repeat 48%N (S n)) in *.
    apply (cat_i _ _ [48%N] [] 0%Z _ [] 0%Z).
    + apply R; [repeat constructor; unfold digit_char; lia|auto].
    + apply IH; [lia| |auto]. now apply Forall_app in F.
Qed.

Definition integer_parts : Cardinal.integer =
  Cardinal.digits ∪ Cardinal.ten ∪ Cardinal.hundred ∪ Cardinal.thousand
  ∪ (head + insert (u "万") + Cardinal.four_any)
  ∪ (head + insert (u "亿") +
     (Cardinal.four_nonzero + insert (u "万") + Cardinal.four_any ∪ Cardinal.rmzero ** 4 + low ∪ Cardinal.rmzero ** 8))
  := eq_refl.
Ltac lens H :=
  match type of H with denote ?e _ _ _ =>
    let l := eval vm_compute in (lengths e) in
    match l with Some ?l' => let E := fresh in assert (E : lengths e = Some l') by (vm_compute; reflexivity);
      pose proof (lengths_sound e _ E _ _ _ H) end end.

Lemma just_counted_big D B s n b : counted D B s n -> rd_open s = rd_open s -> (0 < n < 10000)%N ->
  (b = wan \/ b = yi) -> match B with None => True | Some b' => (b < b')%N end ->
  read_word s (if (b =? wan)%N then WAN else YI) = Some (Rd (D + n * b) 0 None (Some b) false false (Some b)).
Proof.
  destruct s as [D' S d U z o B']. intros (E1 & E2 & r & R & E3) _ L Hb Lb. cbn in E1, E2, E3. subst D' B'.
  rewrite (read_big _ b).
  - rewrite R, E3. rewrite (proj2 (N.ltb_lt 0 n)), (proj2 (N.ltb_lt n 10000)) by lia. cbn [andb].
    destruct B as [b'|]; [rewrite (proj2 (N.ltb_lt b b')) by lia|]; reflexivity.
  - destruct Hb as [->| ->]; [left|right]; auto.
Qed.

Lemma integer_short p z w : Forall digit_char p -> hd 48%N p <> 48%N -> (List.length p <= 4)%nat ->
  denote Cardinal.integer p z w <-> denote head p z w.
Proof.
  intros F H L. rewrite integer_parts. split.
  - intros [[[[[[Z|D]|T]|Hu]|Th]|W]|Y].
    + exfalso. apply (outs_all Cardinal.zero eq_refl) in Z.
      destruct p as [|c p]; [destruct Z|]. apply Forall_cons_iff in F as (Hc & _).
      apply digit_cases in Hc as [->|Hc]; [now destruct H|]. now rewrite (zero_nz c p Hc) in Z.
    + right. exact D.
    + left; right. exact T.
    + left; left; right. exact Hu.
    + left; left; left. exact Th.
    + exfalso. lens W. cbn [In] in *. lia.
    + exfalso. lens Y. cbn [In] in *. lia.
  - intros [[[Th|Hu]|T]|D].
    + left; left; right. exact Th.
    + left; left; left; right. exact Hu.
    + left; left; left; left; right. exact T.
    + left; left; left; left; left; right. exact D.
Qed.
Lemma integer_wan p f z w : (List.length p <= 4)%nat -> List.length f = 4%nat -> p <> [] ->
  denote Cardinal.integer (p ++ f) z w <->
  exists z1 w1 z2 w2, z = (z1 ++ u "万") ++ z2 /\ w = (w1 + w2)%Z /\ denote head p z1 w1 /\ denote Cardinal.four_any f z2 w2.
Proof.
  intros Lp Lf Np. assert (0 < List.length p)%nat by (destruct p; [now destruct Np|cbn; lia]).
  assert (C : denote (head + insert (u "万") + Cardinal.four_any) (p ++ f) z w <->
    exists z1 w1 z2 w2, z = (z1 ++ u "万") ++ z2 /\ w = (w1 + w2)%Z /\ denote head p z1 w1 /\ denote Cardinal.four_any f z2 w2).
  { rewrite (cat_right _ _ 4) by (auto; vm_compute; reflexivity). split.
    - intros (z1 & w1 & z2 & w2 & -> & -> & A & B). apply cat_insert in A as (z0 & -> & A). exists z0, w1, z2, w2. auto.
    - intros (z1 & w1 & z2 & w2 & -> & -> & A & B). exists (z1 ++ u "万"), w1, z2, w2.
      split; [reflexivity|]. split; [reflexivity|]. split; [|exact B]. apply cat_insert. eauto. }
  rewrite <- C, integer_parts. split; [|intro W; left; right; exact W].
  intros [[[[[X|X]|X]|X]|W]|X]; [| | | |exact W|];
    exfalso; lens X; rewrite app_length in *; cbn [In] in *; lia.
Qed.
Lemma integer_yi p m f z w : (List.length p <= 4)%nat -> List.length m = 4%nat -> List.length f = 4%nat -> p <> [] ->
  denote Cardinal.integer (p ++ m ++ f) z w <->
  exists z1 w1 z2 w2, z = (z1 ++ u "亿") ++ z2 /\ w = (w1 + w2)%Z /\ denote head p z1 w1 /\
    denote (Cardinal.four_nonzero + insert (u "万") + Cardinal.four_any ∪ Cardinal.rmzero ** 4 + low ∪ Cardinal.rmzero ** 8)
      (m ++ f) z2 w2.
Proof.
  intros Lp Lm Lf Np. assert (0 < List.length p)%nat by (destruct p; [now destruct Np|cbn; lia]).
  rewrite integer_parts. split.
  - intros [[[[[X|X]|X]|X]|X]|Y];
      [exfalso; lens X; rewrite !app_length in *; cbn [In] in *; lia ..|].
    apply (cat_right _ _ 8) in Y; [|vm_compute; reflexivity|rewrite app_length; lia].
    destruct Y as (z1 & w1 & z2 & w2 & -> & -> & A & B).
    apply cat_insert in A as (z0 & -> & A). exists z0, w1, z2, w2. auto.
  - intros (z1 & w1 & z2 & w2 & -> & -> & A & B). right. apply cat_i; [|exact B]. apply cat_insert. eauto.
Qed.
