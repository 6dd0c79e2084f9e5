(** The date rule of the Japanese normaliser on written dates (C71, C72). *)
From Coq Require Import List NArith ZArith Bool String Lia Arith.
From Verif Require Import Text TextFacts TokenModel Fst FstFacts FstRun GrammarModel GrammarSpec GrammarAccept NumeralSpec EnglishNumeralSpec DataJaTn JaTnModel ZhTnEndSpec ZhDateSpec JaNumeralSpec WholeSpec.
From Verif Require Import BoundaryChar Letters Apart OneToken TokenVerbal Fields ZhNumberProofs ZhNumberProofs2 ZhTnRead ZhDate ZhDate2 JaNumber JaNumber2 JaApart JaPost.
From Verif Require EndToEnd EnNumberProofs5 PlainRules FstEval ZhTnModel.
Import ListNotations.
Local Open Scope list_scope.

(** ** Digits, signs, points, commas, slashes and spaces behind the preprocessor *)
Definition jchar (c : N) : bool := (known c || (c =? 44) || (c =? 47) || (c =? 32))%N.
Lemma jchar_cases c : jchar c = true -> (48 <= c <= 57 \/ c = 46 \/ c = 37 \/ c = 43 \/ c = 45 \/ c = 177 \/ c = 44 \/ c = 47 \/ c = 32)%N.
Proof. unfold jchar, known, body, dig. rewrite !orb_true_iff, andb_true_iff, !N.leb_le, !N.eqb_eq. lia. Qed.
Lemma jchar_valid c : jchar c = true -> vchar c = true.
Proof. intro J. apply jchar_cases in J. apply vchar_spec. unfold valid_char. lia. Qed.
Lemma dig_jchar c : dig c = true -> jchar c = true.
Proof. intro D. unfold jchar. now rewrite (body_known c (dig_body c D)). Qed.
Lemma jvalid x : forallb jchar x = true -> forallb vchar x = true.
Proof. apply all_imp. exact jchar_valid. Qed.
Lemma jbare x : forallb jchar x = true -> forallb bare x = true.
Proof. apply all_imp. intros c J. apply jchar_cases in J. unfold bare. rewrite andb_true_iff, !negb_true_iff, !N.eqb_neq. lia. Qed.
Lemma pre_still o : still jchar (preprocessor o) = true.
Proof. destruct o as [t i p [] v]; vm_compute; reflexivity. Qed.
Lemma pre_reads o g x y w : forallb jchar x = true -> (denote (JaTnModel.pre o g) x y w <-> denote g x y w).
Proof. apply (still_pre jchar jchar_valid (preprocessor o) g (pre_still o)). Qed.
Lemma japp a b : forallb jchar (a ++ b) = true <-> forallb jchar a = true /\ forallb jchar b = true.
Proof. rewrite forallb_app. apply andb_true_iff. Qed.

(** ** Years *)
(** Four digits, with or without a comma after the first. *)
Lemma year_shape t a : year_of t a -> exists c g d e f, t = [c; d; e; f] /\ a = c :: g ++ [d; e; f] /\ comma g /\ nz c /\ digit_char d /\ digit_char e /\ digit_char f.
Proof.
  intros (L & F & H & G). destruct t as [|c [|d [|e [|f [|]]]]]; try discriminate L. pose proof (Forall_inv F) as Dc. assert (Nc : nz c) by (cbn in H; unfold digit_char in Dc; unfold nz; lia).
  inversion F as [|? ? _ F1]; subst. inversion F1 as [|? ? Dd F2]; subst. inversion F2 as [|? ? De F3]; subst. inversion F3 as [|? ? Df _]; subst.
  assert (K : a = c :: [] ++ [d; e; f] \/ a = c :: [CM] ++ [d; e; f]).
  { destruct G as [->|[(p & q & P & Q & E & ->)|(p & q & r & P & Q & R & E & ->)]]; [now left| |].
    - right. destruct p as [|p1 [|p2 p]]; cbn [List.length] in P; try lia.
      + injection E as <- <-. reflexivity.
      + exfalso. apply (f_equal (@List.length N)) in E. rewrite app_length in E. cbn [List.length] in E. lia.
    - exfalso. apply (f_equal (@List.length N)) in E. rewrite !app_length in E. cbn [List.length] in E. lia. }
  destruct K as [->| ->]; [exists c, [], d, e, f|exists c, [CM], d, e, f]; (split; [reflexivity|]); (split; [reflexivity|]); (split; [|auto]); [now left|now right].
Qed.
Lemma shape_year c g d e f : comma g -> nz c -> digit_char d -> digit_char e -> digit_char f -> year_of [c; d; e; f] (c :: g ++ [d; e; f]).
Proof.
  intros G C D E F. split; [reflexivity|]. split; [|split].
  - constructor; [unfold nz in C; unfold digit_char; lia|]. do 3 (constructor; [assumption|]). constructor.
  - cbn. unfold nz in C. lia.
  - destruct G as [->| ->]; [now left|]. right. left. exists [c], [d; e; f]. repeat split; cbn; lia.
Qed.
Lemma size_four g a b c d : comma g -> digit_char a -> digit_char b -> digit_char c -> digit_char d -> size (a :: g ++ [b; c; d]) = 4.
Proof.
  assert (K : forall a, digit_char a -> (a =? CM)%N = false) by (intros x D; apply N.eqb_neq; unfold digit_char in D; unfold CM; lia).
  intros G A B C D. unfold size. destruct G as [->| ->]; cbn [app filter]; rewrite (K a A), (K b B), (K c C), (K d D); reflexivity.
Qed.
Lemma nz_digit c : nz c -> digit_char c.
Proof. unfold nz, digit_char. lia. Qed.
Lemma thousand_reads g a b c d : comma g -> nz a -> digit_char b -> digit_char c -> digit_char d -> just Cardinal.thousand0 (a :: g ++ [b; c; d]) (w4 a b c d).
Proof.
  intros G A B C D z w. pose proof (four_reads g a b c d G A B C D z w) as R. rewrite <- R. unfold rest4. split; [intro H; right; exact H|].
  pose proof (size_four g a b c d G (nz_digit a A) B C D) as S. intros [H|H]; [exfalso|exact H]. apply size_bounds in H; [|vm_compute; reflexivity]. rewrite S in H.
  change (most (Cardinal.digits0 ∪ Cardinal.ten ∪ Cardinal.hundred)%fst) with 3 in H. lia.
Qed.
Lemma wide_jchar x : forallb wide x = true -> forallb jchar x = true -> forallb dig x = true.
Proof.
  rewrite !forallb_forall. intros W K c I. specialize (W c I). specialize (K c I). apply jchar_cases in K. unfold wide, dig in *. rewrite orb_true_iff, !andb_true_iff, !N.leb_le in W.
  apply andb_true_iff. rewrite !N.leb_le. lia.
Qed.
Lemma three_shape x y w : forallb jchar x = true -> denote three x y w -> exists b c d, x = [b; c; d] /\ digit_char b /\ digit_char c /\ digit_char d.
Proof.
  intros K H. assert (D : Forall digit_char x). { apply digs_spec, wide_jchar; [|exact K]. refine (reads_sound wide three _ _ _ _ H). vm_compute. reflexivity. }
  pose proof (size_bounds three ltac:(vm_compute; reflexivity) _ _ _ H) as S. change (3 <= size x <= 3)%nat in S.
  assert (L : size x = List.length x).
  { clear -D. induction D as [|c x D F IH]; [reflexivity|]. unfold size in *. cbn [filter]. assert (E : (c =? CM)%N = false) by (apply N.eqb_neq; unfold digit_char in D; unfold CM; lia). rewrite E. cbn [negb List.length]. now rewrite IH. }
  destruct x as [|b [|c [|d [|]]]]; cbn [List.length] in L; try lia. exists b, c, d. inversion D as [|? ? Db F1]; subst. inversion F1 as [|? ? Dc F2]; subst. inversion F2 as [|? ? Dd _]; subst. auto.
Qed.
Lemma teen_known x y w : forallb jchar x = true -> denote Cardinal.teen x y w -> exists c, x = [c] /\ nz c.
Proof.
  intros K H. apply (table_known jchar) in H as (I & _); [|exact K].
  assert (A : forallb (fun p : text * text => match Datatypes.fst p with [c] => (49 <=? c)%N && (c <=? 57)%N | _ => false end) (filter (fun p => forallb jchar (Datatypes.fst p)) (map entry ja_tn_number_teen)) = true) by (vm_compute; reflexivity).
  rewrite forallb_forall in A. specialize (A _ I). cbn [Datatypes.fst] in A. destruct x as [|c [|]]; try discriminate. exists c. split; [reflexivity|]. apply andb_true_iff in A. rewrite !N.leb_le in A. unfold nz. lia.
Qed.
Lemma thousand_known x y w : forallb jchar x = true -> denote Cardinal.thousand0 x y w -> exists t, year_of t x.
Proof.
  intros K H. rewrite thousand_eq in H. apply cat_inv in H as (x1 & y1 & w1 & x2 & y2 & w2 & -> & -> & -> & H & H2). apply japp in K as (K & K2).
  apply cat_inv in H as (x3 & y3 & w3 & x4 & y4 & w4 & -> & -> & -> & H & H4). apply japp in K as (K & K4). apply cat_inv in H as (x5 & y5 & w5 & x6 & y6 & w6 & -> & -> & -> & H5 & (-> & -> & ->)).
  rewrite app_nil_r in *. apply (teen_known _ _ _ K) in H5 as (c & -> & C). apply (three_shape _ _ _ K2) in H2 as (d & e & f & -> & D & E & F).
  assert (G : comma x4) by (destruct H4 as [(-> & _)|(-> & _)]; [now right|now left]). exists [c; d; e; f]. cbn [app]. now apply shape_year.
Qed.
Lemma year_said t a : year_of t a -> exists m, just Cardinal.thousand0 a m /\ japanese_value m = Some (decimal_value t) /\ forallb vchar a = true.
Proof.
  intro Y. destruct (year_shape t a Y) as (c & g & d & e & f & -> & -> & G & C & D & E & F). exists (w4 c d e f). split; [now apply thousand_reads|]. split.
  - pose proof (w4_read 0 BIG c d e f 0 10000 (nz_digit c C) D E F eq_refl) as R. apply counted_value.
    + change (ja_words jr_start (w4 c d e f)) with (ja_words (Jr 0 0 None 10000 BIG) (w4 c d e f)). replace (decimal_value [c; d; e; f]) with (0 + (c - 48) * 1000 + (d - 48) * 100 + (e - 48) * 10 + (f - 48))%N; [exact R|].
      unfold decimal_value. cbn [fold_left]. unfold nz, digit_char in *. lia.
    + unfold decimal_value. cbn [fold_left]. unfold nz in C. lia.
  - assert (V : forall c, digit_char c -> vchar c = true) by (intros x X; apply jchar_valid, dig_jchar, dig_spec, X). destruct G as [->| ->]; cbn [app forallb]; rewrite (V c (nz_digit c C)), (V d D), (V e E), (V f F); reflexivity.
Qed.

(** ** Months and days *)
Definition jmonths : list (text * text) := Eval vm_compute in map entry ja_tn_date_m ++ map entry ja_tn_date_mm.
Definition jdays : list (text * text) := Eval vm_compute in map entry ja_tn_date_d ++ map entry ja_tn_date_dd.
Definition jmonths2 : list (text * text) := Eval vm_compute in map entry ja_tn_date_mm.
Lemma jmonths_eq : map entry ja_tn_date_m ++ map entry ja_tn_date_mm = jmonths.
Proof. vm_compute. reflexivity. Qed.
Lemma jdays_eq : map entry ja_tn_date_d ++ map entry ja_tn_date_dd = jdays.
Proof. vm_compute. reflexivity. Qed.
Lemma jmonths2_eq : map entry ja_tn_date_mm = jmonths2.
Proof. vm_compute. reflexivity. Qed.
Definition checked (lo hi : N) (x : text) : bool := (((List.length x =? 1)%nat || (List.length x =? 2)%nat) && forallb dig x && within lo hi x)%bool.
Lemma checked_spec lo hi x : checked lo hi x = true -> (List.length x = 1 \/ List.length x = 2) /\ Forall digit_char x /\ (lo <= decimal_value x <= hi)%N.
Proof. unfold checked, within. rewrite !andb_true_iff, orb_true_iff, !Nat.eqb_eq, !N.leb_le, digs_spec. tauto. Qed.
Lemma jmonth_known x y w : denote (Date.m ∪ Date.mm)%fst x y w -> month_text x.
Proof.
  intro H. apply (two_tables _ _ jmonths _ _ _ jmonths_eq) in H as (I & _). assert (A : forallb (fun p : text * text => checked 1 12 (Datatypes.fst p)) jmonths = true) by (vm_compute; reflexivity).
  rewrite forallb_forall in A. exact (checked_spec _ _ _ (A _ I)).
Qed.
Lemma jday_known x y w : denote (Date.d ∪ Date.dd)%fst x y w -> day_like x.
Proof.
  intro H. apply (two_tables _ _ jdays _ _ _ jdays_eq) in H as (I & _). assert (A : forallb (fun p : text * text => checked 1 31 (Datatypes.fst p)) jdays = true) by (vm_compute; reflexivity).
  rewrite forallb_forall in A. exact (checked_spec _ _ _ (A _ I)).
Qed.
(** A month written with a zero. *)
Lemma jmm_known x y w : denote Date.mm x y w -> zero_month x.
Proof.
  intros (I & _). rewrite jmonths2_eq in I. assert (A : forallb (fun p : text * text => match Datatypes.fst p with [z; c] => (z =? 48)%N && (49 <=? c)%N && (c <=? 57)%N | _ => false end) jmonths2 = true) by (vm_compute; reflexivity).
  rewrite forallb_forall in A. specialize (A _ I). cbn [Datatypes.fst] in A. destruct x as [|z [|c [|]]]; try discriminate. rewrite !andb_true_iff, !N.leb_le, N.eqb_eq in A. destruct A as ((-> & A) & B). exists c. split; [unfold nz; lia|reflexivity].
Qed.
Lemma jmonth_reads p : month_text p -> forall z w, denote (Date.m ∪ Date.mm)%fst p z w <-> z = month_words p /\ w = 0%Z.
Proof.
  intros (L & F & B) z w. unfold Date.m, Date.mm. rewrite (two_tables _ _ jmonths _ _ _ jmonths_eq).
  assert (A : implb (within 1 12 p) (lists jmonths p (month_words p)) = true) by (revert p L F B; intros p L F _; apply (short_all (fun p => implb (within 1 12 p) (lists jmonths p (month_words p)))); [vm_compute; reflexivity|exact L|exact F]).
  assert (W : within 1 12 p = true) by (unfold within; now rewrite andb_true_iff, !N.leb_le). rewrite W in A. cbn [implb] in A. now rewrite (lists_sound _ _ _ A).
Qed.
Lemma jday_reads p : day_like p -> forall z w, denote (Date.d ∪ Date.dd)%fst p z w <-> z = day_words p /\ w = 0%Z.
Proof.
  intros (L & F & B) z w. unfold Date.d, Date.dd. rewrite (two_tables _ _ jdays _ _ _ jdays_eq).
  assert (A : implb (within 1 31 p) (lists jdays p (day_words p)) = true) by (revert p L F B; intros p L F _; apply (short_all (fun p => implb (within 1 31 p) (lists jdays p (day_words p)))); [vm_compute; reflexivity|exact L|exact F]).
  assert (W : within 1 31 p = true) by (unfold within; now rewrite andb_true_iff, !N.leb_le). rewrite W in A. cbn [implb] in A. now rewrite (lists_sound _ _ _ A).
Qed.
Lemma zero_month_text p : zero_month p -> month_text p.
Proof. intros (c & C & ->). split; [auto|]. split; [constructor; [unfold digit_char; lia|constructor; [exact (nz_digit c C)|constructor]]|]. unfold decimal_value. cbn [fold_left]. unfold nz in C. lia. Qed.
Lemma jmm_reads p : zero_month p -> exists z, denote Date.mm p z 0%Z.
Proof.
  intro Z. destruct (zero_month_text p Z) as (L & F & B). destruct Z as (c & C & E). exists (month_words p). assert (A : implb (within 1 12 p) (implb (hd 0 p =? 48)%N (implb (List.length p =? 2)%nat (lists jmonths2 p (month_words p)))) = true).
  { apply (short_all (fun p => implb (within 1 12 p) (implb (hd 0 p =? 48)%N (implb (List.length p =? 2)%nat (lists jmonths2 p (month_words p)))))); [vm_compute; reflexivity|auto|exact F]. }
  assert (W : within 1 12 p = true) by (unfold within; now rewrite andb_true_iff, !N.leb_le). rewrite W in A. subst p. cbn [implb hd N.eqb Pos.eqb Nat.eqb List.length] in A.
  unfold Date.mm, string_file. cbn [denote]. split; [|reflexivity]. rewrite jmonths2_eq. now apply (lists_sound _ _ _ A).
Qed.
