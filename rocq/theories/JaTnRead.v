(** How the Japanese number graph reads signs, decimals and percentages (C71). *)
From Coq Require Import List NArith ZArith Bool String Lia Arith.
From Verif Require Import Text TextFacts TokenModel Fst FstFacts FstRun GrammarModel GrammarSpec GrammarAccept NumeralSpec EnglishNumeralSpec DataJaTn JaTnModel ZhTnEndSpec ZhDateSpec JaNumeralSpec.
From Verif Require Import BoundaryChar Letters Apart ZhNumberProofs ZhNumberProofs2 ZhTnRead ZhDate ZhDate2 JaNumber JaNumber2 JaApart JaDate JaDate2 JaDate3.
From Verif Require FstEval.
Import ListNotations.
Local Open Scope list_scope.

(** ** Digits *)
Definition jentries : list (text * text) := Eval vm_compute in map entry ja_tn_number_zero ++ map entry ja_tn_number_digit.
Lemma jentries_eq : map entry ja_tn_number_zero ++ map entry ja_tn_number_digit = jentries.
Proof. vm_compute. reflexivity. Qed.
Lemma jentries_known : forallb (fun p : text * text => negb (forallb jchar (Datatypes.fst p)) || match Datatypes.fst p with [c] => dig c && text_eqb (snd p) (ja_digit_word c) | _ => false end) jentries = true.
Proof. vm_compute. reflexivity. Qed.
Lemma jentries_all : forallb (fun c => existsb (fun p : text * text => text_eqb (Datatypes.fst p) [c] && text_eqb (snd p) (ja_digit_word c)) jentries) ZhDate.ten = true.
Proof. vm_compute. reflexivity. Qed.
Lemma jdigits_in x y w : denote Cardinal.digits0 x y w <-> In (x, y) jentries /\ w = 0%Z.
Proof.
  rewrite <- jentries_eq, in_app_iff. split.
  - intros [(I & ->)|(I & ->)]; auto.
  - intros ([I|I] & ->); [left|right]; split; auto.
Qed.
Lemma jdigits_table x y w : forallb jchar x = true -> denote Cardinal.digits0 x y w <-> exists c, x = [c] /\ digit_char c /\ y = ja_digit_word c /\ w = 0%Z.
Proof.
  intro K. rewrite jdigits_in. split.
  - intros (I & ->). pose proof jentries_known as E. rewrite forallb_forall in E. specialize (E _ I). cbn [Datatypes.fst snd] in E. rewrite K in E. cbn [negb orb] in E.
    destruct x as [|c [|]]; try discriminate. apply andb_true_iff in E as (D & E). destruct (text_eqb_spec y (ja_digit_word c)) as [->|]; [|discriminate].
    exists c. split; [reflexivity|]. split; [now apply dig_spec|auto].
  - intros (c & -> & D & -> & ->). split; [|reflexivity]. pose proof jentries_all as E. rewrite forallb_forall in E. specialize (E c (ten_digits c D)).
    apply existsb_exists in E as ((a & b) & I & E). cbn [Datatypes.fst snd] in E. apply andb_true_iff in E as (A & B).
    destruct (text_eqb_spec a [c]) as [->|]; [|discriminate]. destruct (text_eqb_spec b (ja_digit_word c)) as [->|]; [exact I|discriminate].
Qed.
Lemma jstar_digits x y w : forallb jchar x = true -> denote (Star Cardinal.digits0) x y w <-> Forall digit_char x /\ y = flat_map ja_digit_word x /\ w = 0%Z.
Proof.
  intro K. cbn [denote]. split.
  - intro H. revert K. induction H as [|a b v a' b' v' H _ IH]; intro K; [auto|]. apply japp in K as (K1 & K2).
    apply (jdigits_table _ _ _ K1) in H as (c & -> & D & -> & ->). destruct (IH K2) as (F & -> & ->). cbn [app flat_map]. auto.
  - intros (F & -> & ->). clear K. induction F as [|c x D F IH]; [constructor|]. cbn [flat_map]. change (c :: x) with ([c] ++ x).
    replace 0%Z with (0 + 0)%Z by lia. constructor; [|exact IH]. apply jdigits_table; [|eauto]. cbn [forallb]. apply dig_spec in D. now rewrite (dig_jchar c D).
Qed.
Lemma jplus_digits x y w : forallb jchar x = true -> denote (plus Cardinal.digits0) x y w <-> x <> [] /\ Forall digit_char x /\ y = flat_map ja_digit_word x /\ w = 0%Z.
Proof.
  intro K. unfold plus. split.
  - intro H. apply cat_inv in H as (x1 & y1 & w1 & x2 & y2 & w2 & -> & -> & -> & H1 & H2). apply japp in K as (K1 & K2).
    apply (jdigits_table _ _ _ K1) in H1 as (c & -> & D & -> & ->). apply (jstar_digits _ _ _ K2) in H2 as (F & -> & ->). cbn [app flat_map]. split; [discriminate|auto].
  - intros (N & F & -> & ->). destruct F as [|c x D F]; [contradiction|]. cbn [flat_map]. change (c :: x) with ([c] ++ x).
    change (c :: x) with ([c] ++ x) in K. apply japp in K as (K1 & K2).
    replace 0%Z with (0 + 0)%Z by lia. apply cat_i; [|now apply jstar_digits]. apply jdigits_table; [exact K1|eauto].
Qed.
(** Digits and commas. *)
Definition ichar (c : N) : bool := (dig c || (c =? 44))%N.
Definition iwide (c : N) : bool := (wide c || (c =? 44))%N.
Lemma iwide_known c : iwide c = true -> jchar c = true -> ichar c = true.
Proof.
  intros W K. unfold iwide, wide in W. unfold ichar. destruct (dig c); [reflexivity|]. cbn [orb] in *. apply jchar_cases in K. rewrite orb_true_iff, andb_true_iff, !N.leb_le, N.eqb_eq in W. apply N.eqb_eq. lia.
Qed.
Lemma jinteger_chars x y w : forallb jchar x = true -> denote Cardinal.integer x y w -> forallb ichar x = true /\ x <> [].
Proof.
  intros K H. split.
  - assert (W : forallb iwide x = true) by (apply (reads_sound iwide Cardinal.integer) with y w; [vm_compute; reflexivity|exact H]).
    rewrite forallb_forall in *. intros c I. apply iwide_known; auto.
  - intros ->. revert H. apply FstEval.eats_sound. vm_compute. reflexivity.
Qed.
Lemma digits_ichar t : Forall digit_char t -> forallb ichar t = true.
Proof. intro F. apply digs_spec in F. revert F. apply all_imp. intros c D. unfold ichar. now rewrite D. Qed.
Lemma grouped_ichar t x : Forall digit_char t -> grouped t x -> forallb ichar x = true.
Proof.
  intros F [-> |[(p & q & _ & _ & -> & ->)|(p & q & r & _ & _ & _ & -> & ->)]]; [now apply digits_ichar| |];
    repeat (let F1 := fresh in apply Forall_app in F as (F1 & F); apply digits_ichar in F1); apply digits_ichar in F; rewrite !forallb_app; repeat match goal with H : forallb ichar _ = true |- _ => rewrite H; clear H end; reflexivity.
Qed.
Lemma ichar_jchar c : ichar c = true -> jchar c = true.
Proof. unfold ichar. destruct (dig c) eqn:D; [intros _; now apply dig_jchar|]. cbn [orb]. intro E. apply N.eqb_eq in E. subst c. reflexivity. Qed.
Lemma grouped_nonempty t x : t <> [] -> grouped t x -> x <> [].
Proof. intros N [-> |[(p & q & _ & _ & _ & ->)|(p & q & r & _ & _ & _ & _ & ->)]]; [exact N|destruct p; discriminate..]. Qed.

(** ** Signs *)
Lemma jsign_known x y w : forallb jchar x = true -> denote (ques Cardinal.sign) x y w <-> ja_sign_words x = Some y /\ w = 0%Z.
Proof.
  intro K. split.
  - intros [H|(-> & -> & ->)]; [|auto]. apply (table_known jchar) in H as (I & ->); [|exact K]. vm_compute in I. split; [|reflexivity].
    repeat (destruct I as [[= <- <-]|I]; [vm_compute; reflexivity|]). destruct I.
  - intros (E & ->). unfold ja_sign_words in E. destruct (text_eqb_spec x []) as [->|]; [injection E as <-; right; cbn; auto|].
    destruct (text_eqb_spec x (u "+")) as [->|]; [injection E as <-; left; split; [vm_compute; tauto|reflexivity]|].
    destruct (text_eqb_spec x (u "-")) as [->|]; [injection E as <-; left; split; [vm_compute; tauto|reflexivity]|].
    destruct (text_eqb_spec x (u "±")) as [->|]; [injection E as <-; left; split; [vm_compute; tauto|reflexivity]|discriminate].
Qed.
Lemma jsign_cases s d : ja_sign_words s = Some d -> forallb jword d = true /\ (s = [] /\ d = [] \/ exists c, s = [c] /\ (c = 43 \/ c = 45 \/ c = 177)%N).
Proof.
  unfold ja_sign_words. intro E. destruct (text_eqb_spec s []) as [->|]; [injection E as <-; auto|].
  destruct (text_eqb_spec s (u "+")) as [->|]; [injection E as <-; split; [vm_compute; reflexivity|right; exists 43%N; auto]|].
  destruct (text_eqb_spec s (u "-")) as [->|]; [injection E as <-; split; [vm_compute; reflexivity|right; exists 45%N; auto]|].
  destruct (text_eqb_spec s (u "±")) as [->|]; [injection E as <-; split; [vm_compute; reflexivity|right; exists 177%N; auto]|discriminate].
Qed.
Lemma jsign_jchar s d : ja_sign_words s = Some d -> forallb jchar s = true.
Proof. intro E. apply jsign_cases in E as (_ & [(-> & _)|(c & -> & [-> |[-> | ->]])]); reflexivity. Qed.

(** ** A sign, an integer, a fraction *)
Lemma jdot_known x y w : forallb jchar x = true -> denote Cardinal.dot x y w <-> x = u "." /\ y = u "点" /\ w = 0%Z.
Proof.
  intro K. split.
  - intro H. apply (table_known jchar) in H as (I & ->); [|exact K]. vm_compute in I. destruct I as [[= <- <-]|[]]. auto.
  - intros (-> & -> & ->). split; [vm_compute; auto|reflexivity].
Qed.
Lemma points_jchar f : Forall digit_char f -> forallb jchar (points f) = true.
Proof. intro F. destruct f as [|c f]; [reflexivity|]. unfold points. rewrite forallb_app, (digits_jchar _ F). reflexivity. Qed.
Lemma jpoints_read x y w : forallb jchar x = true -> denote (ques (Cardinal.dot + plus Cardinal.digits0)%fst) x y w <->
  exists f, x = points f /\ Forall digit_char f /\ y = ja_point_words f /\ w = 0%Z.
Proof.
  intro K. split.
  - intros [H|(-> & -> & ->)].
    + apply cat_inv in H as (x1 & y1 & w1 & x2 & y2 & w2 & -> & -> & -> & H1 & H2). apply japp in K as (K1 & K2).
      apply (jdot_known _ _ _ K1) in H1 as (-> & -> & ->). apply (jplus_digits _ _ _ K2) in H2 as (N & F & -> & ->). exists x2.
      destruct x2; [contradiction|]. auto.
    + exists []. auto.
  - intros (f & -> & F & -> & ->). destruct f as [|c f]; [right; cbn; auto|]. left. unfold points, ja_point_words. replace 0%Z with (0 + 0)%Z by lia.
    apply cat_i; [now apply jdot_known|]. apply jplus_digits; [now apply digits_jchar|]. split; [discriminate|]. auto.
Qed.
Lemma jnumeral_jchar s x f d : ja_sign_words s = Some d -> forallb ichar x = true -> Forall digit_char f -> forallb jchar (numeral s x f) = true.
Proof.
  intros S T F. unfold numeral. change (match f with [] => [] | _ => u "." ++ f end) with (points f). rewrite !forallb_app, (jsign_jchar _ _ S), (points_jchar f F), (all_imp ichar jchar x ichar_jchar T). reflexivity.
Qed.
Lemma number_shape x y w : forallb jchar x = true -> denote Cardinal.number0 x y w ->
  exists s t f d m, x = numeral s t f /\ ja_sign_words s = Some d /\ t <> [] /\ forallb ichar t = true /\ Forall digit_char f /\ denote Cardinal.integer t m w /\ y = d ++ m ++ ja_point_words f.
Proof.
  intros K H. apply cat_inv in H as (x1 & y1 & w1 & x2 & y2 & w2 & -> & -> & -> & H & H2).
  apply cat_inv in H as (x3 & y3 & w3 & x4 & y4 & w4 & -> & -> & -> & H3 & H4). apply japp in K as (K & K2). apply japp in K as (K3 & K4).
  apply (jsign_known _ _ _ K3) in H3 as (S & ->). pose proof (jinteger_chars _ _ _ K4 H4) as (T & N). apply (jpoints_read _ _ _ K2) in H2 as (f & -> & F & -> & ->).
  exists x3, x4, f, y3, y4. unfold numeral, points. rewrite <- !app_assoc. rewrite Z.add_0_r, Z.add_0_l. auto 10.
Qed.
Lemma number_i s t f d m w : ja_sign_words s = Some d -> Forall digit_char f -> denote Cardinal.integer t m w -> denote Cardinal.number0 (numeral s t f) (d ++ m ++ ja_point_words f) w.
Proof.
  intros S F H. unfold numeral, Cardinal.number0. rewrite !app_assoc. replace w with (0 + w + 0)%Z by lia.
  apply cat_i; [apply cat_i; [|exact H]|].
  - apply jsign_known; [exact (jsign_jchar _ _ S)|auto].
  - apply jpoints_read; [exact (points_jchar f F)|]. exists f. auto.
Qed.
Lemma span p (t t' r r' : text) : forallb p t = true -> forallb p t' = true -> (r = [] \/ exists c b, r = c :: b /\ p c = false) -> (r' = [] \/ exists c b, r' = c :: b /\ p c = false) ->
  t ++ r = t' ++ r' -> t = t' /\ r = r'.
Proof.
  revert t'. induction t as [|c t IH]; intros [|c' t'] T T' R R' E; cbn [app forallb] in *; try (apply andb_true_iff in T as (D & T)); try (apply andb_true_iff in T' as (D' & T')).
  - auto.
  - exfalso. subst r. destruct R as [Rn|(a & b & Rn & N)]; [discriminate|]. injection Rn as <- _. congruence.
  - exfalso. subst r'. destruct R' as [Rn|(a & b & Rn & N)]; [discriminate|]. injection Rn as <- _. congruence.
  - injection E as <- E. destruct (IH t' T T' R R' E) as (-> & ->). auto.
Qed.
Definition tail_ok (r : text) : Prop := r = [] \/ exists c b, r = c :: b /\ ichar c = false.
Lemma tail_points f r : tail_ok r -> tail_ok (points f ++ r).
Proof. intro Q. destruct f as [|c f]; [exact Q|]. right. exists 46%N, ((c :: f) ++ r). split; reflexivity. Qed.
Lemma percent_tail r : r = [] \/ r = u "%" -> tail_ok r.
Proof. intros [-> | ->]; [now left|]. right. exists 37%N, []. split; reflexivity. Qed.
Lemma dig_tail r : tail_ok r -> r = [] \/ exists c b, r = c :: b /\ dig c = false.
Proof. intros [-> |(c & b & -> & H)]; [now left|]. right. exists c, b. split; [reflexivity|]. unfold ichar in H. now apply orb_false_iff in H. Qed.
Lemma jsign_split s t s' t' d d' r r' : ja_sign_words s = Some d -> ja_sign_words s' = Some d' -> t <> [] -> t' <> [] -> forallb ichar t = true -> forallb ichar t' = true -> s ++ t ++ r = s' ++ t' ++ r' -> s = s'.
Proof.
  intros S S' N N' T T' E. apply jsign_cases in S as (_ & S). apply jsign_cases in S' as (_ & S').
  destruct S as [(-> & _)|(c & -> & D)], S' as [(-> & _)|(c' & -> & D')]; [reflexivity| | |].
  - exfalso. destruct t as [|a t]; [contradiction|]. injection E as -> _. cbn [forallb] in T. apply andb_true_iff in T as (T & _). destruct D' as [-> |[-> | ->]]; discriminate T.
  - exfalso. destruct t' as [|a t']; [contradiction|]. injection E as -> _. cbn [forallb] in T'. apply andb_true_iff in T' as (T' & _). destruct D as [-> |[-> | ->]]; discriminate T'.
  - injection E as -> _. reflexivity.
Qed.
Lemma jnumeral_inj s t f s' t' f' d d' r r' : ja_sign_words s = Some d -> ja_sign_words s' = Some d' -> t <> [] -> t' <> [] -> forallb ichar t = true -> forallb ichar t' = true ->
  Forall digit_char f -> Forall digit_char f' -> tail_ok r -> tail_ok r' -> hd 0%N r <> 46%N -> hd 0%N r' <> 46%N -> numeral s t f ++ r = numeral s' t' f' ++ r' -> s = s' /\ t = t' /\ f = f' /\ r = r'.
Proof.
  intros S S' N N' T T' F F' R R' P P' E. unfold numeral in E. change ((s ++ t ++ points f) ++ r = (s' ++ t' ++ points f') ++ r') in E. rewrite <- !app_assoc in E.
  assert (s = s') as <- by exact (jsign_split _ _ _ _ _ _ _ _ S S' N N' T T' E).
  split; [reflexivity|]. apply app_inv_head in E. apply (span ichar) in E as (-> & E); [|exact T|exact T'|exact (tail_points f r R)|exact (tail_points f' r' R')]. split; [reflexivity|].
  destruct f as [|c f], f' as [|c' f'].
  - auto.
  - exfalso. cbn [points app] in E. subst r. now apply P.
  - exfalso. cbn [points app] in E. subst r'. now apply P'.
  - unfold points in E. rewrite <- !app_assoc in E. apply app_inv_head in E. apply (span dig) in E as (-> & ->); [auto|now apply digs_spec|now apply digs_spec|now apply dig_tail|now apply dig_tail].
Qed.
Section Read.
Variables (s t f d m : text).
Hypothesis Sign : ja_sign_words s = Some d.
Hypothesis Chars : forallb ichar t = true.
Hypothesis Some_digit : t <> [].
Hypothesis Fraction : Forall digit_char f.
Hypothesis Reading : just Cardinal.integer t m.
Lemma number_reads : just Cardinal.number0 (numeral s t f) (d ++ m ++ ja_point_words f).
Proof.
  pose proof (jnumeral_jchar s t f d Sign Chars Fraction) as K. intros z w. split.
  - intro H. apply (number_shape _ _ _ K) in H as (s' & t' & f' & d' & m' & E & S' & N' & T' & F' & H & ->).
    destruct (jnumeral_inj s t f s' t' f' d d' [] [] Sign S' Some_digit N' Chars T' Fraction F' (or_introl eq_refl) (or_introl eq_refl)) as (<- & <- & <- & _); [discriminate|discriminate|now rewrite !app_nil_r|].
    assert (d' = d) as -> by congruence. apply Reading in H as (-> & ->). auto.
  - intros (-> & ->). apply number_i; [exact Sign|exact Fraction|now apply Reading].
Qed.
Lemma percent_reads : just Cardinal.percent (numeral s t f ++ u "%") (d ++ m ++ ja_point_words f ++ u "パーセント").
Proof.
  intros z w. unfold Cardinal.percent. split.
  - intro H. apply cat_inv in H as (x1 & y1 & w1 & x2 & y2 & w2 & E & -> & -> & H & (-> & -> & ->)). rewrite app_nil_r in E. apply cat_inv in H as (x3 & y3 & w3 & x4 & y4 & w4 & -> & -> & -> & H & (-> & -> & ->)).
    apply app_inj_tail in E as (<- & _). apply number_reads in H as (-> & ->). rewrite app_nil_r, <- !app_assoc. auto.
  - intros (-> & ->). replace (numeral s t f ++ u "%") with ((numeral s t f ++ u "%") ++ []) by apply app_nil_r.
    replace (d ++ m ++ ja_point_words f ++ u "パーセント") with (((d ++ m ++ ja_point_words f) ++ []) ++ u "パーセント") by (rewrite app_nil_r, <- !app_assoc; reflexivity).
    change 0%Z with (0 + 0 + 0)%Z. apply cat_i; [apply cat_i; [|now cbn]|now cbn]. apply number_reads. auto.
Qed.
End Read.
