(** How the number graph reads signs, decimals and percentages (C65). *)
From Coq Require Import List NArith ZArith Bool String Lia Arith.
From Verif Require Import Text TextFacts Fst FstFacts FstRun GrammarModel DataZhTn ZhTnModel NumeralSpec ZhTnEndSpec.
From Verif Require Import ZhNumberProofs ZhNumberProofs2 ZhNumberProofs3 ZhNumberProofs4 Apart Letters.
From Verif Require FstEval.
Import ListNotations.
Local Open Scope list_scope.

Definition dig (c : N) : bool := ((48 <=? c) && (c <=? 57))%N.
Definition wide (c : N) : bool := (dig c || ((65296 <=? c) && (c <=? 65305)))%N.
(** Digits, the point and the percent sign; with the signs. *)
Definition body (c : N) : bool := (dig c || (c =? 46) || (c =? 37))%N.
Definition known (c : N) : bool := (body c || (c =? 43) || (c =? 45) || (c =? 177))%N.
Lemma dig_spec c : dig c = true <-> digit_char c.
Proof. unfold dig, digit_char. rewrite andb_true_iff, !N.leb_le. reflexivity. Qed.
Lemma digs_spec t : forallb dig t = true <-> Forall digit_char t.
Proof. rewrite forallb_forall, Forall_forall. split; intros H c I; apply dig_spec; auto. Qed.
Lemma body_known c : body c = true -> known c = true.
Proof. unfold known. now intros ->. Qed.
Lemma dig_body c : dig c = true -> body c = true.
Proof. unfold body. now intros ->. Qed.
Lemma all_imp (p q : N -> bool) x : (forall c, p c = true -> q c = true) -> forallb p x = true -> forallb q x = true.
Proof. intros I. rewrite !forallb_forall. auto. Qed.
Lemma wide_dig c : wide c = true -> known c = true -> dig c = true.
Proof.
  unfold wide, known, body. destruct (dig c); [reflexivity|]. cbn [orb]. rewrite andb_true_iff, !N.leb_le, !orb_true_iff, !N.eqb_eq. lia.
Qed.
Lemma wide_digs x : forallb wide x = true -> forallb known x = true -> forallb dig x = true.
Proof. rewrite !forallb_forall. intros W K c I. apply wide_dig; auto. Qed.
Lemma known_valid x : forallb known x = true -> forallb vchar x = true.
Proof.
  apply all_imp. intros c K. apply vchar_spec. unfold GrammarSpec.valid_char. unfold known, body, dig in K. rewrite !orb_true_iff, andb_true_iff, !N.leb_le, !N.eqb_eq in K. lia.
Qed.

(** ** Digits *)
Definition digit_entries : list (text * text) := map entry zh_tn_number_zero ++ map entry zh_tn_number_digit.
Lemma entries_known : forallb (fun p : text * text => negb (forallb known (Datatypes.fst p)) || match Datatypes.fst p with [c] => dig c && text_eqb (snd p) (digit_word c) | _ => false end) digit_entries = true.
Proof. vm_compute. reflexivity. Qed.
Lemma entries_all : forallb (fun c => existsb (fun p : text * text => text_eqb (Datatypes.fst p) [c] && text_eqb (snd p) (digit_word c)) digit_entries) [48; 49; 50; 51; 52; 53; 54; 55; 56; 57]%N = true.
Proof. vm_compute. reflexivity. Qed.
Lemma digits_in x y w : denote Cardinal.digits x y w <-> In (x, y) digit_entries /\ w = 0%Z.
Proof.
  unfold digit_entries. rewrite in_app_iff. split.
  - intros [(I & ->)|(I & ->)]; auto.
  - intros ([I|I] & ->); [left|right]; split; auto.
Qed.
Lemma ten_digits c : digit_char c -> In c [48; 49; 50; 51; 52; 53; 54; 55; 56; 57]%N.
Proof. unfold digit_char. intro D. cbn [In]. lia. Qed.
Lemma digits_table x y w : forallb known x = true -> denote Cardinal.digits x y w <-> exists c, x = [c] /\ digit_char c /\ y = digit_word c /\ w = 0%Z.
Proof.
  intro K. rewrite digits_in. split.
  - intros (I & ->). pose proof entries_known as E. rewrite forallb_forall in E. specialize (E _ I). cbn [Datatypes.fst snd] in E. rewrite K in E. cbn [negb orb] in E.
    destruct x as [|c [|]]; try discriminate. apply andb_true_iff in E as (D & E). destruct (text_eqb_spec y (digit_word c)) as [->|]; [|discriminate].
    exists c. split; [reflexivity|]. split; [now apply dig_spec|auto].
  - intros (c & -> & D & -> & ->). split; [|reflexivity]. pose proof entries_all as E. rewrite forallb_forall in E. specialize (E c (ten_digits c D)).
    apply existsb_exists in E as ((a & b) & I & E). cbn [Datatypes.fst snd] in E. apply andb_true_iff in E as (A & B).
    destruct (text_eqb_spec a [c]) as [->|]; [|discriminate]. destruct (text_eqb_spec b (digit_word c)) as [->|]; [exact I|discriminate].
Qed.
Lemma star_digits x y w : forallb known x = true -> denote (Star Cardinal.digits) x y w <-> Forall digit_char x /\ y = flat_map digit_word x /\ w = 0%Z.
Proof.
  intro K. cbn [denote]. split.
  - intro H. revert K. induction H as [|a b v a' b' v' H _ IH]; intro K; [auto|]. rewrite forallb_app in K. apply andb_true_iff in K as (K1 & K2).
    apply (digits_table _ _ _ K1) in H as (c & -> & D & -> & ->). destruct (IH K2) as (F & -> & ->). cbn [app flat_map]. auto.
  - intros (F & -> & ->). clear K. induction F as [|c x D F IH]; [constructor|]. cbn [flat_map]. change (c :: x) with ([c] ++ x).
    replace 0%Z with (0 + 0)%Z by lia. constructor; [|exact IH]. apply digits_table; [|eauto]. cbn [forallb]. apply dig_spec in D. now rewrite (body_known c (dig_body c D)).
Qed.
Lemma plus_digits x y w : forallb known x = true -> denote (plus Cardinal.digits) x y w <-> x <> [] /\ Forall digit_char x /\ y = flat_map digit_word x /\ w = 0%Z.
Proof.
  intro K. unfold plus. split.
  - intro H. apply cat_inv in H as (x1 & y1 & w1 & x2 & y2 & w2 & -> & -> & -> & H1 & H2). rewrite forallb_app in K. apply andb_true_iff in K as (K1 & K2).
    apply (digits_table _ _ _ K1) in H1 as (c & -> & D & -> & ->). apply (star_digits _ _ _ K2) in H2 as (F & -> & ->). cbn [app flat_map]. split; [discriminate|auto].
  - intros (N & F & -> & ->). destruct F as [|c x D F]; [contradiction|]. cbn [flat_map]. change (c :: x) with ([c] ++ x).
    cbn [forallb] in K. apply andb_true_iff in K as (K1 & K2).
    replace 0%Z with (0 + 0)%Z by lia. apply cat_i; [|now apply star_digits]. apply digits_table; [cbn [forallb]; now rewrite K1|eauto].
Qed.
Lemma integer_digits x y w : forallb known x = true -> denote Cardinal.integer x y w -> Forall digit_char x /\ x <> [].
Proof.
  intros K H. split.
  - apply digs_spec. apply wide_digs; [|exact K]. apply (reads_sound wide Cardinal.integer) with y w; [vm_compute; reflexivity|exact H].
  - intros ->. revert H. apply FstEval.eats_sound. vm_compute. reflexivity.
Qed.

(** ** Signs *)
Lemma sign_known x y w : forallb known x = true -> denote (ques Cardinal.sign) x y w <-> sign_words x = Some y /\ w = 0%Z.
Proof.
  intro K. split.
  - intros [H|(-> & -> & ->)]; [|auto]. apply (table_known known) in H as (I & ->); [|exact K]. vm_compute in I. split; [|reflexivity].
    repeat (destruct I as [[= <- <-]|I]; [vm_compute; reflexivity|]). destruct I.
  - intros (E & ->). unfold sign_words in E. destruct (text_eqb_spec x []) as [->|]; [injection E as <-; right; cbn; auto|].
    destruct (text_eqb_spec x (u "+")) as [->|]; [injection E as <-; left; split; [vm_compute; tauto|reflexivity]|].
    destruct (text_eqb_spec x (u "-")) as [->|]; [injection E as <-; left; split; [vm_compute; tauto|reflexivity]|].
    destruct (text_eqb_spec x (u "±")) as [->|]; [injection E as <-; left; split; [vm_compute; tauto|reflexivity]|discriminate].
Qed.
Lemma sign_cases s d : sign_words s = Some d -> s = [] /\ d = [] \/ exists c, s = [c] /\ (c = 43 \/ c = 45 \/ c = 177)%N /\ exists a r, d = a :: r /\ (a =? ER)%N = false /\ forallb known [c] = true.
Proof.
  unfold sign_words. intro E. destruct (text_eqb_spec s []) as [->|]; [injection E as <-; auto|]. right.
  destruct (text_eqb_spec s (u "+")) as [->|]; [injection E as <-; exists 43%N; repeat split; auto; vm_compute; eauto|].
  destruct (text_eqb_spec s (u "-")) as [->|]; [injection E as <-; exists 45%N; repeat split; auto; vm_compute; eauto|].
  destruct (text_eqb_spec s (u "±")) as [->|]; [injection E as <-; exists 177%N; repeat split; auto; vm_compute; eauto|discriminate].
Qed.

(** ** A sign, an integer, a fraction *)
Definition points (f : text) : text := match f with [] => [] | _ => u "." ++ f end.
Definition pre : fst := (ques Cardinal.sign + Cardinal.integer + ques (Cardinal.dot + plus Cardinal.digits))%fst.
Lemma dot_known x y w : forallb known x = true -> denote Cardinal.dot x y w <-> x = u "." /\ y = u "点" /\ w = 0%Z.
Proof.
  intro K. split.
  - intro H. apply (table_known known) in H as (I & ->); [|exact K]. vm_compute in I. destruct I as [[= <- <-]|[]]. auto.
  - intros (-> & -> & ->). split; [vm_compute; auto|reflexivity].
Qed.
Lemma known_app a b : forallb known (a ++ b) = true -> forallb known a = true /\ forallb known b = true.
Proof. rewrite forallb_app. apply andb_true_iff. Qed.
Lemma digs_known f : Forall digit_char f -> forallb known f = true.
Proof. intro F. apply digs_spec in F. revert F. apply all_imp. intros c D. apply body_known, dig_body, D. Qed.
Lemma points_read x y w : forallb known x = true -> denote (ques (Cardinal.dot + plus Cardinal.digits)%fst) x y w <->
  exists f, x = points f /\ Forall digit_char f /\ y = point_words f /\ w = 0%Z.
Proof.
  intro K. split.
  - intros [H|(-> & -> & ->)].
    + apply cat_inv in H as (x1 & y1 & w1 & x2 & y2 & w2 & -> & -> & -> & H1 & H2). apply known_app in K as (K1 & K2).
      apply (dot_known _ _ _ K1) in H1 as (-> & -> & ->). apply (plus_digits _ _ _ K2) in H2 as (N & F & -> & ->). exists x2.
      destruct x2; [contradiction|]. auto.
    + exists []. auto.
  - intros (f & -> & F & -> & ->). destruct f as [|c f]; [right; cbn; auto|]. left. unfold points, point_words. replace 0%Z with (0 + 0)%Z by lia.
    pose proof (digs_known _ F) as K'.
    apply cat_i; [now apply dot_known|]. apply plus_digits; [exact K'|]. split; [discriminate|]. auto.
Qed.
Lemma sign_read_known s d : sign_words s = Some d -> forallb known s = true.
Proof. intro E. apply sign_cases in E as [(-> & _)|(c & -> & _ & a & r & _ & _ & K)]; [reflexivity|exact K]. Qed.
Lemma numeral_known s t f d : sign_words s = Some d -> Forall digit_char t -> Forall digit_char f -> forallb known (numeral s t f) = true.
Proof.
  intros S T F. unfold numeral. rewrite !forallb_app, (sign_read_known _ _ S), (digs_known _ T). cbn [andb]. destruct f as [|c f]; [reflexivity|].
  rewrite forallb_app, (digs_known _ F). reflexivity.
Qed.
Lemma pre_inv x y w : forallb known x = true -> denote pre x y w ->
  exists s t f d m, x = numeral s t f /\ sign_words s = Some d /\ t <> [] /\ Forall digit_char t /\ Forall digit_char f /\ denote Cardinal.integer t m w /\ y = d ++ m ++ point_words f.
Proof.
  intros K H. apply cat_inv in H as (x1 & y1 & w1 & x2 & y2 & w2 & -> & -> & -> & H & H2).
  apply cat_inv in H as (x3 & y3 & w3 & x4 & y4 & w4 & -> & -> & -> & H3 & H4). apply known_app in K as (K & K2). apply known_app in K as (K3 & K4).
  apply (sign_known _ _ _ K3) in H3 as (S & ->). pose proof (integer_digits _ _ _ K4 H4) as (T & N). apply (points_read _ _ _ K2) in H2 as (f & -> & F & -> & ->).
  exists x3, x4, f, y3, y4. unfold numeral, points. rewrite <- !app_assoc. rewrite Z.add_0_r, Z.add_0_l. auto 10.
Qed.
Lemma pre_i s t f d m w : sign_words s = Some d -> Forall digit_char f -> denote Cardinal.integer t m w -> denote pre (numeral s t f) (d ++ m ++ point_words f) w.
Proof.
  intros S F H. unfold numeral, pre. rewrite !app_assoc. replace w with (0 + w + 0)%Z by lia.
  assert (K : forallb known (points f) = true) by (destruct f as [|c f]; [reflexivity|]; unfold points; rewrite forallb_app, (digs_known _ F); reflexivity).
  apply cat_i; [apply cat_i; [|exact H]|].
  - apply sign_known; [exact (sign_read_known _ _ S)|auto].
  - apply points_read; [exact K|]. exists f. auto.
Qed.
Lemma digits_span t t' r r' : Forall digit_char t -> Forall digit_char t' -> (r = [] \/ exists c b, r = c :: b /\ ~ digit_char c) -> (r' = [] \/ exists c b, r' = c :: b /\ ~ digit_char c) ->
  t ++ r = t' ++ r' -> t = t' /\ r = r'.
Proof.
  intros T. revert t'. induction T as [|c t D T IH]; intros t' T' R R' E.
  - destruct T' as [|c' t' D' T']; [auto|]. exfalso. cbn [app] in E. subst r. destruct R as [Rn|(a & b & Rn & N)]; [discriminate|]. injection Rn as <- _. contradiction.
  - destruct T' as [|c' t' D' T'].
    + exfalso. cbn [app] in E. subst r'. destruct R' as [Rn|(a & b & Rn & N)]; [discriminate|]. injection Rn as <- _. contradiction.
    + cbn [app] in E. injection E as <- E. destruct (IH t' T' R R' E) as (-> & ->). auto.
Qed.
Lemma points_head f : points f = [] \/ exists c b, points f = c :: b /\ ~ digit_char c.
Proof. destruct f as [|c f]; [auto|]. right. exists 46%N, (c :: f). split; [reflexivity|]. unfold digit_char. lia. Qed.
Lemma points_inj f f' : points f = points f' -> f = f'.
Proof. destruct f as [|c f], f' as [|c' f']; try discriminate; [reflexivity|]. intro E. now injection E as <- <-. Qed.
Lemma sign_nodigit s d : sign_words s = Some d -> s = [] \/ exists c, s = [c] /\ ~ digit_char c.
Proof. intro E. apply sign_cases in E as [(-> & _)|(c & -> & C & _)]; [auto|]. right. exists c. split; [reflexivity|]. unfold digit_char. lia. Qed.
Lemma numeral_inj s t f s' t' f' d d' r r' : sign_words s = Some d -> sign_words s' = Some d' -> t <> [] -> t' <> [] -> Forall digit_char t -> Forall digit_char t' ->
  Forall digit_char f -> Forall digit_char f' -> (r = [] \/ r = u "%") -> (r' = [] \/ r' = u "%") -> numeral s t f ++ r = numeral s' t' f' ++ r' -> s = s' /\ t = t' /\ f = f' /\ r = r'.
Proof.
  intros S S' N N' T T' F F' R R' E. unfold numeral in E. change (s ++ t ++ points f) with (s ++ t ++ points f) in E.
  assert (s = s') as <-.
  { destruct (sign_nodigit _ _ S) as [->|(c & -> & D)], (sign_nodigit _ _ S') as [->|(c' & -> & D')]; [reflexivity| | |].
    - exfalso. destruct T as [|a t A T]; [contradiction|]. injection E as -> _. contradiction.
    - exfalso. destruct T' as [|a t' A T']; [contradiction|]. injection E as -> _. contradiction.
    - injection E as -> _. reflexivity. }
  split; [reflexivity|]. rewrite <- !app_assoc in E. apply app_inv_head in E. change (t ++ points f ++ r = t' ++ points f' ++ r') in E.
  assert (P : forall f r, (r = [] \/ r = u "%") -> points f ++ r = [] \/ exists c b, points f ++ r = c :: b /\ ~ digit_char c).
  { intros g q Q. destruct (points_head g) as [G|(c & b & G & D)]; rewrite G; [|right; exists c, (b ++ q); auto]. destruct Q as [->| ->]; [auto|].
    right. exists 37%N, []. split; [reflexivity|]. unfold digit_char. lia. }
  apply digits_span in E as (-> & E); [|exact T|exact T'|exact (P f r R)|exact (P f' r' R')]. split; [reflexivity|].
  assert (Q : forall r, (r = [] \/ r = u "%") -> r = [] \/ exists c b, r = c :: b /\ ~ digit_char c).
  { intros q [->| ->]; [auto|]. right. exists 37%N, []. split; [reflexivity|]. unfold digit_char. lia. }
  destruct f as [|c f], f' as [|c' f'].
  - auto.
  - exfalso. cbn [points app] in E. destruct R as [->| ->]; vm_compute in E; discriminate.
  - exfalso. cbn [points app] in E. destruct R' as [->| ->]; vm_compute in E; discriminate.
  - unfold points in E. rewrite <- !app_assoc in E. apply app_inv_head in E. apply digits_span in E as (-> & ->); auto.
Qed.

(** ** The number graph *)
Lemma liang_other a r : (a =? ER)%N = false -> liang_fn (a :: r) = a :: r.
Proof. intro E. destruct r as [|d r]; [reflexivity|]. cbn [liang_fn]. now rewrite E. Qed.
Lemma liang_points m f : m <> [] -> liang_fn (m ++ point_words f) = liang_fn m ++ point_words f.
Proof.
  intro N. destruct f as [|c f]; [now rewrite !app_nil_r|]. destruct m as [|a [|b m]]; [contradiction| |].
  - unfold point_words. let v := eval vm_compute in (u "点") in change (u "点") with v. cbn [app liang_fn]. destruct (a =? ER)%N; reflexivity.
  - cbn [app liang_fn]. destruct ((a =? ER)%N && liang_unit b)%bool; reflexivity.
Qed.
(** The words of a number: 两 for 二 only at the beginning. *)
Definition said (s m : text) : text := match s with [] => liang_fn m | _ => m end.
Lemma said_value s m : chinese_value (said s m) = chinese_value m.
Proof. destruct s; [apply liang_value|reflexivity]. Qed.
Lemma digit_word_valid f : Forall digit_char f -> forallb vchar (flat_map digit_word f) = true.
Proof.
  assert (A : forallb (fun c => forallb vchar (digit_word c)) [48; 49; 50; 51; 52; 53; 54; 55; 56; 57]%N = true) by (vm_compute; reflexivity). rewrite forallb_forall in A.
  intro F. induction F as [|c f D F IH]; [reflexivity|]. cbn [flat_map]. rewrite forallb_app, IH, andb_true_r. exact (A c (ten_digits c D)).
Qed.
Lemma point_words_valid f : Forall digit_char f -> forallb vchar (point_words f) = true.
Proof. intro F. destruct f as [|c f]; [reflexivity|]. unfold point_words. rewrite forallb_app. rewrite (digit_word_valid _ F). reflexivity. Qed.
Section Read.
Variables (s t f d m : text).
Hypothesis Sign : sign_words s = Some d.
Hypothesis Digits : Forall digit_char t.
Hypothesis Some_digit : t <> [].
Hypothesis Fraction : Forall digit_char f.
Hypothesis Reading : just Cardinal.integer t m.
Variable n : N.
Hypothesis Value : chinese_value m = Some n.
Lemma reading_valid : forallb vchar m = true.
Proof.
  apply (writes_valid_sound Cardinal.integer) with t 0%Z; [vm_compute; reflexivity|now apply Reading|]. exact (known_valid t (digs_known t Digits)).
Qed.
Lemma reading_nonempty : m <> [].
Proof. intros ->. vm_compute in Value. discriminate. Qed.
Definition words_of : text := d ++ said s m ++ point_words f.
Lemma words_liang : liang_fn (d ++ m ++ point_words f) = words_of.
Proof.
  unfold words_of, said. destruct (sign_cases s d Sign) as [(-> & ->)|(c & -> & _ & a & r & -> & E & _)].
  - exact (liang_points m f reading_nonempty).
  - cbn [app]. exact (liang_other a _ E).
Qed.
Lemma sign_valid : forallb vchar d = true.
Proof.
  revert Sign. unfold sign_words. destruct (text_eqb s []); [now intros [= <-]|]. destruct (text_eqb s _); [now intros [= <-]|]. destruct (text_eqb s _); [now intros [= <-]|].
  destruct (text_eqb s _); [now intros [= <-]|discriminate].
Qed.
Lemma pre_reads z w : denote pre (numeral s t f) z w <-> z = d ++ m ++ point_words f /\ w = 0%Z.
Proof.
  pose proof (numeral_known s t f d Sign Digits Fraction) as K. split.
  - intro H. apply (pre_inv _ _ _ K) in H as (s' & t' & f' & d' & m' & E & S' & N' & T' & F' & H & ->).
    destruct (numeral_inj s t f s' t' f' d d' [] [] Sign S' Some_digit N' Digits T' Fraction F' (or_introl eq_refl) (or_introl eq_refl)) as (<- & <- & <- & _); [now rewrite !app_nil_r|].
    assert (d' = d) as -> by congruence. apply Reading in H as (-> & ->). auto.
  - intros (-> & ->). apply pre_i; [exact Sign|exact Fraction|now apply Reading].
Qed.
Lemma plain_reads : just Cardinal.plain_number (numeral s t f) words_of.
Proof.
  intros z w. change Cardinal.plain_number with (pre @ Cardinal.liang)%fst.
  assert (V : forallb vchar (d ++ m ++ point_words f) = true) by (rewrite !forallb_app, sign_valid, reading_valid; exact (point_words_valid f Fraction)).
  split.
  - intros (y & w1 & w2 & -> & H & L). apply pre_reads in H as (-> & ->). apply (liang_spec _ _ _ V) in L as (-> & ->). now rewrite words_liang.
  - intros (-> & ->). exists (d ++ m ++ point_words f), 0%Z, 0%Z. split; [reflexivity|]. split; [now apply pre_reads|]. apply (liang_spec _ _ _ V). now rewrite words_liang.
Qed.
End Read.
(** What any number of the graph looks like. *)
Lemma plain_shape x y w : forallb known x = true -> denote Cardinal.plain_number x y w ->
  exists s t f d, x = numeral s t f /\ sign_words s = Some d /\ t <> [] /\ Forall digit_char t /\ Forall digit_char f /\ w = 0%Z.
Proof.
  intros K H. pose proof H as H0. apply (free_sound Cardinal.plain_number) in H0; [|vm_compute; reflexivity]. destruct H as (y0 & w1 & w2 & -> & H & _). change (denote pre x y0 w1) in H.
  apply (pre_inv _ _ _ K) in H as (s & t & f & d & m & -> & S & N & T & F & _). exists s, t, f, d. auto 10.
Qed.
Lemma percent_shape x y w : denote Cardinal.percent x y w <-> exists x' y', x = x' ++ u "%" /\ y = u "百分之" ++ y' /\ denote Cardinal.plain_number x' y' w.
Proof.
  unfold Cardinal.percent. split.
  - intro H. apply cat_inv in H as (x1 & y1 & w1 & x2 & y2 & w2 & -> & -> & -> & H & (-> & -> & ->)).
    apply cat_inv in H as (x3 & y3 & w3 & x4 & y4 & w4 & -> & -> & -> & (-> & -> & ->) & H). exists x4, y4. cbn [app]. rewrite app_nil_r, Z.add_0_r, Z.add_0_l. auto.
  - intros (x' & y' & -> & -> & H). rewrite <- (app_nil_r (u "百分之" ++ y')). replace w with (0 + w + 0)%Z by lia. apply cat_i; [|now cbn].
    change x' with ([] ++ x'). apply cat_i; [now cbn|exact H].
Qed.
Lemma numeral_end s t f d : sign_words s = Some d -> t <> [] -> Forall digit_char t -> Forall digit_char f -> forall x, numeral s t f <> x ++ u "%".
Proof.
  intros S N T F x E. unfold numeral in E. apply (f_equal (fun t => hd 0%N (rev t))) in E. rewrite !rev_app_distr in E. change (rev (u "%")) with [37%N] in E. cbn [app hd] in E.
  assert (A : forall g h, g <> [] -> Forall digit_char g -> hd 0%N (rev g ++ h) = 37%N -> False).
  { intros g h Ng G. destruct (exists_last Ng) as (g' & c & ->). rewrite rev_app_distr. cbn [rev app hd]. intro Ec. apply Forall_app in G as (_ & G). apply Forall_inv in G. unfold digit_char in G. lia. }
  destruct f as [|c f].
  - cbn [rev app] in E. exact (A t (rev s) N T E).
  - rewrite rev_app_distr, <- !app_assoc in E. refine (A (c :: f) _ _ F E). discriminate.
Qed.
Lemma number_inv x y w : forallb known x = true -> denote Cardinal.number x y w <-> denote Cardinal.plain_number x y w \/ denote Cardinal.percent x y w.
Proof.
  intro K. unfold Cardinal.number. split.
  - intro H. apply cat_inv in H as (x1 & y1 & w1 & x2 & y2 & w2 & -> & -> & -> & H & H2).
    apply cat_inv in H as (x3 & y3 & w3 & x4 & y4 & w4 & -> & -> & -> & H3 & H4). apply known_app in K as (K & _). apply known_app in K as (K3 & K4).
    assert (x3 = [] /\ y3 = [] /\ w3 = 0%Z) as (-> & -> & ->) by (destruct H3 as [(-> & _)|H3]; [vm_compute in K3; discriminate|exact H3]).
    assert (x4 = [] /\ y4 = [] /\ w4 = 0%Z) as (-> & -> & ->) by (destruct H4 as [(-> & _)|H4]; [vm_compute in K4; discriminate|exact H4]).
    exact H2.
  - intro H. replace x with (([] ++ []) ++ x) by reflexivity. replace y with (([] ++ []) ++ y) by reflexivity. replace w with (0 + 0 + w)%Z by lia.
    apply cat_i; [apply cat_i; apply ques_none|exact H].
Qed.
