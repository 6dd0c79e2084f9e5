(** Where a spoken number ends, in front of a unit or a word (C77 to C80). *)
From Coq Require Import List NArith ZArith Bool String Lia Arith.
From Verif Require Import Text TextFacts TokenModel Fst FstFacts GrammarModel GrammarSpec NumeralSpec EnglishNumeralSpec DataJaItn JaItnModel ZhTnEndSpec ZhDateSpec JaNumeralSpec.
From Verif Require Import BoundaryChar TokenVerbal ZhNumberProofs JaApart JaHead JaSpoken JaSpoken2 JaSpoken3 JaSpoken4.
Import ListNotations.
Local Open Scope list_scope.

(** The characters of the number graphs after the sign, and those that can go on after a digit. *)
Definition spelled_chars : text := Eval vm_compute in num_chars ++ u "点零ゼロれい".
Definition spelled (c : N) : bool := among spelled_chars c.
Definition sign_words_chars : text := Eval vm_compute in sign_chars ++ u "负の".
Definition signing (c : N) : bool := among sign_words_chars c.
Definition going (c : N) : bool := if nums c then true else (c =? 28857)%N.
Definition counts (M : bool) : fst := Cardinal.number M ∪ Cardinal.decimal M.
Lemma counts_parts M p z w : forallb vchar p = true -> denote (counts M) p z w -> exists a b, p = a ++ b /\ forallb signing a = true /\ forallb spelled b = true.
Proof.
  intros K H. assert (A : exists a y1 w1 b y2 w2, p = a ++ b /\ denote (ques Cardinal.sign) a y1 w1 /\ denote (Cardinal.positive_integer M + ques (Cardinal.dot + plus Cardinal.digits)) b y2 w2).
  { destruct H as [H|H].
    - apply cat_inv in H as (x1 & y1 & w1 & x2 & y2 & w2 & -> & _ & _ & H1 & H2). exists x1, y1, w1, x2, (y2 ++ []), (w2 + 0)%Z. split; [reflexivity|]. split; [exact H1|]. rewrite <- (app_nil_r x2). apply cat_i; [exact H2|]. now right.
    - apply cat_inv in H as (x1 & y1 & w1 & x4 & y4 & w4 & -> & _ & _ & H & H4). apply cat_inv in H as (x2 & y2 & w2 & x3 & y3 & w3 & -> & _ & _ & H & H3). apply cat_inv in H as (xa & ya & wa & xb & yb & wb & -> & _ & _ & Ha & Hb).
      exists xa, ya, wa, (xb ++ x3 ++ x4), (yb ++ y3 ++ y4), (wb + (w3 + w4))%Z. split; [now rewrite <- !app_assoc|]. split; [exact Ha|]. apply cat_i; [exact Hb|]. left. now apply cat_i. }
  destruct A as (a & y1 & w1 & b & y2 & w2 & -> & H1 & H2). exists a, b. rewrite forallb_app, andb_true_iff in K. split; [reflexivity|]. split.
  - apply (confined_sound vchar signing (fun c H => H) (ques Cardinal.sign) ltac:(vm_compute; reflexivity) a y1 w1 (proj1 K) H1).
  - apply (confined_sound vchar spelled (fun c H => H) (Cardinal.positive_integer M + ques (Cardinal.dot + plus Cardinal.digits)) ltac:(destruct M; vm_compute; reflexivity) b y2 w2 (proj2 K) H2).
Qed.
Lemma nums_signing c : nums c = true -> signing c = false.
Proof. intro H. apply among_in in H. assert (A : forallb (fun c => negb (signing c)) num_chars = true) by (vm_compute; reflexivity). rewrite forallb_forall in A. specialize (A c H). now destruct (signing c). Qed.
Definition head_in (p : N -> bool) (x : text) : bool := match x with [] => false | c :: _ => p c end.
Lemma head_in_app p l r : l <> [] -> head_in p (l ++ r) = head_in p l.
Proof. destruct l; [congruence|reflexivity]. Qed.
Lemma exclude_number M x z w : denote (Cardinal.number_exclude_0_to_9 M) x z w -> denote (Cardinal.number M) x z w.
Proof.
  intro H. apply (cat_i _ _ [] [] 0%Z x z w); [now apply (sign_just [] [] eq_refl)|].
  destruct H as [[[[H|H]|H]|H]|H]; [left; do 3 left; now right|left; do 2 left; now right|left; left; now right|left; now right|now right].
Qed.
Lemma counts_num M p z w : forallb known p = true -> denote (counts M) p z w -> exists c, In c p /\ nums c = true.
Proof.
  assert (P : forall b z w, forallb known b = true -> denote (Cardinal.positive_integer M) b z w -> exists c, In c b /\ nums c = true).
  { intros b z' w' K H. pose proof (int_only _ _ _ _ K H) as A. pose proof (int_some _ _ _ _ H) as N. destruct b as [|c b]; [congruence|]. exists c. split; [now left|]. cbn [forallb] in A. now apply andb_true_iff in A. }
  intros K [H|H].
  - apply cat_inv in H as (x1 & y1 & w1 & x2 & y2 & w2 & -> & _ & _ & _ & H2). rewrite forallb_app, andb_true_iff in K. destruct (P x2 y2 w2 (proj2 K) H2) as (c & I & Hc). exists c. split; [apply in_or_app; now right|exact Hc].
  - apply cat_inv in H as (x1 & y1 & w1 & x4 & y4 & w4 & -> & _ & _ & H & _). apply cat_inv in H as (x2 & y2 & w2 & x3 & y3 & w3 & -> & _ & _ & H & _). apply cat_inv in H as (xa & ya & wa & xb & yb & wb & -> & _ & _ & _ & Hb).
    rewrite !forallb_app, !andb_true_iff in K. destruct (P xb yb wb (proj2 (proj1 (proj1 K))) Hb) as (c & I & Hc). exists c. split; [|exact Hc]. rewrite !in_app_iff. auto.
Qed.
Section Cut.
Variables (s sw m f : text) (n : N).
Hypothesis Sg : ja_sign_words s = Some sw.
Hypothesis V : japanese_value m = Some n.
Hypothesis L : (n < 100000000)%N.
Hypothesis F : Forall digit_char f.
Let T := sw ++ m ++ ja_point_words f.
Lemma number_known : forallb known T = true.
Proof.
  unfold T. rewrite !forallb_app, !andb_true_iff. split; [|split].
  - apply (all_sub signs); [|exact (sign_signs s sw Sg)]. intros c H. apply among_in in H. apply among_in. unfold sp_chars. cbn [In sign_chars] in *. intuition.
  - apply (all_sub nums); [|exact (proj1 (value_nums m n V L))]. intros c H. exact (proj1 (nums_known c H)).
  - destruct F as [|c g D G]; [reflexivity|]. unfold ja_point_words. rewrite forallb_app, andb_true_iff. split; [vm_compute; reflexivity|]. apply (all_sub nums); [intros c' H; exact (proj1 (nums_known c' H))|]. apply words_nums. now constructor.
Qed.
Lemma number_some : T <> [].
Proof. intro E. unfold T in E. apply app_eq_nil in E as (_ & E). apply app_eq_nil in E as (E & _). exact (proj2 (value_nums m n V L) E). Qed.
Lemma going_rest : forallb going (m ++ ja_point_words f) = true.
Proof.
  assert (A : forall c, nums c = true -> going c = true) by (intros c H; unfold going; now rewrite H). rewrite forallb_app, (all_sub nums going m A (proj1 (value_nums m n V L))).
  destruct F as [|c g D G]; [reflexivity|]. unfold ja_point_words. rewrite forallb_app. rewrite (all_sub nums going _ A (words_nums (c :: g) (Forall_cons _ D G))). vm_compute. reflexivity.
Qed.
Lemma number_tail p e : T = p ++ e -> e <> [] -> (exists c, In c p /\ nums c = true) -> head_in going e = true.
Proof.
  intros E N (c & I & Hc). unfold T in E. apply app_eq_app in E as (l & [(Ea & Eb)|(Ea & Eb)]).
  - exfalso. pose proof (sign_signs s sw Sg) as S. rewrite Ea, forallb_app, andb_true_iff, !forallb_forall in S. apply proj1 in S. specialize (S c I). destruct (nums_known c Hc) as (_ & X & _). congruence.
  - pose proof going_rest as G. rewrite Eb, forallb_app, andb_true_iff in G. apply proj2 in G. destruct e as [|c' e]; [congruence|]. cbn [forallb] in G. now apply andb_true_iff in G.
Qed.
Lemma cut_number M p q r z w : p ++ q = T ++ r -> forallb vchar r = true -> denote (counts M) p z w -> head_in spelled r = false -> head_in going q = false -> p = T /\ q = r.
Proof.
  intros E Vr H R Q. assert (KT : forallb vchar T = true) by exact (all_sub known vchar T known_valid number_known).
  apply app_eq_app in E as (l & [(Ea & Eb)|(Ea & Eb)]).
  - destruct l as [|c l]; [rewrite app_nil_r in Ea; now split|]. exfalso. rewrite Eb in R. cbn [app head_in] in R.
    assert (Kp : forallb vchar p = true). { rewrite Ea, forallb_app, KT. rewrite Eb, forallb_app in Vr. now apply andb_true_iff in Vr. }
    destruct (counts_parts M p z w Kp H) as (a & b & E & A & B). rewrite Ea in E. apply app_eq_app in E as (l' & [(E1 & E2)|(E1 & E2)]).
    + rewrite E2, forallb_app, andb_true_iff in B. apply proj2 in B. cbn [forallb] in B. rewrite R in B. discriminate B.
    + destruct (value_nums m n V L) as (Vn & Vs). destruct m as [|c0 m0] eqn:Em; [congruence|]. cbn [forallb] in Vn. apply andb_true_iff in Vn as (Vn & _). apply nums_signing in Vn.
      rewrite forallb_forall in A. assert (I : In c0 a) by (rewrite E1; unfold T; rewrite !in_app_iff; left; right; left; now left). specialize (A c0 I). congruence.
  - destruct l as [|c l]; [rewrite app_nil_r in Ea; now split|]. exfalso.
    assert (Kp : forallb known p = true) by (pose proof number_known as K; rewrite Ea, forallb_app in K; now apply andb_true_iff in K).
    pose proof (number_tail p (c :: l) Ea ltac:(discriminate) (counts_num M p z w Kp H)) as G. rewrite Eb in Q. rewrite head_in_app in Q by discriminate. congruence.
Qed.
End Cut.
(** ** What the rules of units read *)
Fixpoint least (e : fst) : nat :=
  match e with
  | Cross _ y => List.length y
  | Table l => fold_right (fun q k => Nat.min (List.length (snd q)) k) 9%nat l
  | Union a b => Nat.min (least a) (least b)
  | Cat a b => (least a + least b)%nat
  | Weight _ a => least a
  | _ => 0%nat
  end.
Lemma least_sound e : forall x y w, denote e x y w -> (least e <= List.length y)%nat.
Proof.
  induction e as [x y|q|l|a IHa b IHb|a IHa b IHb|a IHa|k a IHa|a IHa b IHb|a IHa|a IHa|a IHa|t IHt l r]; cbn [least]; intros x0 y0 w0 H; try lia.
  - destruct H as (_ & -> & _). lia.
  - destruct H as (I & _). induction l as [|q l IH]; [destruct I|]. cbn [fold_right]. destruct I as [->|I]; [cbn [snd]; lia|specialize (IH I); lia].
  - destruct H as [H|H]; [apply IHa in H|apply IHb in H]; lia.
  - apply cat_inv in H as (x1 & y1 & w1 & x2 & y2 & w2 & -> & -> & -> & H1 & H2). apply IHa in H1. apply IHb in H2. rewrite app_length. lia.
  - destruct H as (v & _ & H). exact (IHa _ _ _ H).
Qed.
Lemma exclude_least M : (2 <= least (Cardinal.number_exclude_0_to_9 M))%nat.
Proof. destruct M; vm_compute; repeat constructor. Qed.
(** With a unit, a number is to be written with digits when it is a decimal, or numbers below ten are, or it is from ten on and has no sign. *)
Definition counted_ok (o : options) (s : text) (n : N) (f : text) : Prop := f <> [] \/ enable_0_to_9 o = true \/ s = [] /\ (10 <= n)%N.
Lemma measure_reads o s sw m n d f z w : ja_sign_words s = Some sw -> japanese_value m = Some n -> (n < 100000000)%N -> Forall digit_char f -> just (Cardinal.positive_integer (enable_million o)) m d -> decimal d n ->
  denote (Measure.cardinal o ∪ Measure.decimal o) (sw ++ m ++ ja_point_words f) z w <-> counted_ok o s n f /\ z = numeral s d f /\ w = 0%Z.
Proof.
  intros Sg V L F J D. unfold Measure.decimal, Measure.cardinal. split.
  - intros [H|H].
    + assert (C : denote (Cardinal.number (enable_million o)) (sw ++ m ++ ja_point_words f) z w) by (destruct (enable_0_to_9 o); [exact H|now apply exclude_number]).
      apply (number_reads _ s sw m d f n Sg V L F J) in C as (Ef & -> & ->). split; [|split; reflexivity]. destruct (enable_0_to_9 o) eqn:E9; [right; now left|]. right. right. rewrite Ef in H. cbn [ja_point_words] in H. rewrite app_nil_r in H.
      pose proof (number_known s sw m [] n Sg V L (Forall_nil _)) as K. cbn [ja_point_words] in K. rewrite app_nil_r in K.
      assert (X : forallb nums (sw ++ m) = true) by (apply (confined_sound known nums known_valid (Cardinal.number_exclude_0_to_9 (enable_million o)) ltac:(destruct (enable_million o); vm_compute; reflexivity) _ _ _ K H)).
      rewrite forallb_app, andb_true_iff in X. apply proj1 in X. split.
      * destruct (sign_cases s sw Sg) as [(-> & _)|[(-> & ->)|[(-> & ->)|(-> & ->)]]]; [reflexivity|vm_compute in X; discriminate X|vm_compute in X; discriminate X|vm_compute in X; discriminate X].
      * assert (Es : sw = []). { destruct sw as [|c t]; [reflexivity|]. exfalso. pose proof (sign_signs s _ Sg) as S. cbn [forallb] in S, X. apply andb_true_iff in S as (S & _). apply andb_true_iff in X as (X & _). destruct (nums_known c X) as (_ & Y & _). congruence. }
        assert (s = []) as -> by (destruct (sign_cases s sw Sg) as [(-> & _)|[(_ & E)|[(_ & E)|(_ & E)]]]; [reflexivity| | | ]; rewrite Es in E; discriminate E).
        apply least_sound in H. pose proof (exclude_least (enable_million o)) as X2. unfold numeral in H. cbn [app] in H. rewrite app_nil_r in H.
        destruct (N.lt_ge_cases n 10) as [Hn|Hn]; [|exact Hn]. exfalso. pose proof (EnNumberProofs2.decimal_length d n 1 D Hn (le_n 1)). lia.
    + apply (decimal_reads _ s sw m d f n Sg V L F J) in H as (N & -> & ->). split; [now left|split; reflexivity].
  - intros (Ok & -> & ->). unfold counted_ok in Ok. destruct f as [|c g] eqn:Ef.
    + left. assert (C : denote (Cardinal.number (enable_million o)) (sw ++ m ++ ja_point_words []) (numeral s d []) 0%Z) by now apply (number_reads _ s sw m d [] n Sg V L F J).
      destruct (enable_0_to_9 o); [exact C|]. destruct Ok as [Ok|[Ok|(-> & Ln)]]; [congruence|discriminate Ok|].
      assert (sw = []) as -> by (destruct (sign_cases [] sw Sg) as [(_ & E)|[(E & _)|[(E & _)|(E & _)]]]; [exact E|discriminate E|discriminate E|discriminate E]).
      unfold numeral. cbn [ja_point_words app]. rewrite !app_nil_r. assert (H : denote (Cardinal.positive_integer (enable_million o)) m d 0%Z) by now apply J.
      destruct H as [H|H]; [|now right]. left. exact (minus_cases _ m d n V L J D d 0%Z H Ln).
    + right. now apply (decimal_reads _ s sw m d (c :: g) n Sg V L F J).
Qed.
