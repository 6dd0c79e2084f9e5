(** The reading of Chinese numbers (C45): numbers below 10^12, 两, and the other parts of the number graph. *)
From Coq Require Import List NArith ZArith Bool String Lia Arith.
From Verif Require Import Text TextFacts Fst FstFacts FstRun GrammarModel DataZhTn ZhTnModel NumeralSpec.
From Verif Require Import ZhNumberProofs ZhNumberProofs2 ZhNumberProofs3.
Import ListNotations.
Local Open Scope list_scope.
Local Open Scope fst_scope.

Lemma split_last4 (t : text) : (4 <= List.length t)%nat ->
  exists p a b c d, t = p ++ [a; b; c; d].
Proof.
  intro L. assert (E : t = firstn (List.length t - 4) t ++ skipn (List.length t - 4) t) by (symmetry; apply firstn_skipn).
  pose proof (skipn_length (List.length t - 4) t) as S.
  destruct (skipn (List.length t - 4) t) as [|a [|b [|c [|d [|e r]]]]]; cbn in S; try lia.
  exists (firstn (List.length t - 4) t), a, b, c, d. exact E.
Qed.
Lemma hd_app (p r : text) : p <> [] -> hd 48%N (p ++ r) = hd 48%N p.
Proof. now destruct p. Qed.
Lemma value_pos p : Forall digit_char p -> hd 48%N p <> 48%N -> (0 < decimal_value p)%N.
Proof.
  intros F H. destruct p as [|c p]; [now destruct H|]. apply Forall_cons_iff in F as (Hc & _).
  pose proof (value_long c p Hc H). assert (0 < 10 ^ N.of_nat (List.length p))%N by (apply N.neq_0_lt_0, N.pow_nonzero; lia). lia.
Qed.
Lemma value_bound p : Forall digit_char p -> (List.length p <= 4)%nat -> (decimal_value p < 10000)%N.
Proof.
  intros F L. pose proof (value_short p F). assert (10 ^ N.of_nat (List.length p) <= 10 ^ 4)%N by (apply N.pow_le_mono_r; lia).
  change (10 ^ 4)%N with 10000%N in *. lia.
Qed.
Lemma zeros4 (a b c d : N) : {[a; b; c; d] = [48; 48; 48; 48]%N} + {[a; b; c; d] <> [48; 48; 48; 48]%N}.
Proof. apply (list_eq_dec N.eq_dec). Qed.

(** The 8 digits after 亿. *)
Definition lower : fst :=
  Cardinal.four_nonzero + insert (u "万") + Cardinal.four_any ∪ Cardinal.rmzero ** 4 + low ∪ Cardinal.rmzero ** 8.
Lemma lower_spec a b c d a' b' c' d' D :
  digit_char a -> digit_char b -> digit_char c -> digit_char d ->
  digit_char a' -> digit_char b' -> digit_char c' -> digit_char d' ->
  exists y s, just lower ([a; b; c; d] ++ [a'; b'; c'; d']) y /\
    read_words (Rd D 0 None (Some yi) false false (Some yi)) y = Some s /\
    rd_value s = Some (D + decimal_value ([a; b; c; d] ++ [a'; b'; c'; d']))%N.
Proof.
  intros Ha Hb Hc Hd Ha' Hb' Hc' Hd'.
  assert (Fm : Forall digit_char [a; b; c; d]) by repeat (constructor; auto).
  assert (Ff : Forall digit_char [a'; b'; c'; d']) by repeat (constructor; auto).
  assert (Split : forall z w, denote lower ([a; b; c; d] ++ [a'; b'; c'; d']) z w <->
    (exists z1 w1 z2 w2, z = (z1 ++ u "万") ++ z2 /\ w = (w1 + w2)%Z /\
        denote Cardinal.four_nonzero [a; b; c; d] z1 w1 /\ denote Cardinal.four_any [a'; b'; c'; d'] z2 w2)
    \/ ([a; b; c; d] = [48; 48; 48; 48]%N /\ denote low [a'; b'; c'; d'] z w)
    \/ ([a; b; c; d] = [48; 48; 48; 48]%N /\ [a'; b'; c'; d'] = [48; 48; 48; 48]%N /\ z = [] /\ w = 0%Z)).
  { intros z w. split.
    - intros [[X|X]|X].
      + left. apply (cat_right _ _ 4) in X; [|vm_compute; reflexivity|reflexivity].
        destruct X as (z1 & w1 & z2 & w2 & -> & -> & A & B). apply cat_insert in A as (z0 & -> & A). exists z0, w1, z2, w2. auto.
      + right; left. apply (cat_right _ _ 4) in X; [|vm_compute; reflexivity|reflexivity].
        destruct X as (z1 & w1 & z2 & w2 & -> & -> & A & B).
        apply rmzero_power in A as (E & -> & ->); [|lia|exact Fm]. auto.
      + right; right. apply rmzero_power in X as (E & -> & ->); [|lia|now apply Forall_app].
        cbn in E. injection E as -> -> -> -> -> -> -> ->. auto.
    - intros [(z1 & w1 & z2 & w2 & -> & -> & A & B)|[(E & B)|(E & E' & -> & ->)]].
      + left; left. apply cat_i; [|exact B]. apply cat_insert. eauto.
      + left; right. rewrite E. apply (cat_i _ _ _ [] 0%Z); [|exact B].
        apply rmzero_power; [lia| |auto]. now rewrite <- E.
      + right. rewrite E, E'. apply rmzero_power; [lia| |auto]. rewrite <- E, <- E' at 1. now apply Forall_app. }
  rewrite value_app. change (10 ^ N.of_nat (List.length [a'; b'; c'; d']))%N with 10000%N.
  destruct (zeros4 a b c d) as [E|E].
  - assert (N1 : forall z w, ~ denote Cardinal.four_nonzero [a; b; c; d] z w) by (rewrite E; exact nonzero_none).
    destruct (zeros4 a' b' c' d') as [E'|E'].
    + eexists []; eexists. split; [|split; [reflexivity|]].
      * intros z w. rewrite Split. split.
        -- intros [(z1 & w1 & z2 & w2 & _ & _ & A & _)|[(_ & B)|(_ & _ & B)]].
           ++ now apply N1 in A.
           ++ rewrite E' in B. now apply low_none in B.
           ++ exact B.
        -- intros (-> & ->). right; right. auto.
      * rewrite E, E'. cbn. f_equal; lia.
    + destruct (low_spec a' b' c' d' D Ha' Hb' Hc' Hd' E') as (y & s & J & R & V).
      exists y, s. split; [|split; [exact R|]].
      * intros z w. rewrite Split, <- (J z w). split.
        -- intros [(z1 & w1 & z2 & w2 & _ & _ & A & _)|[(_ & B)|(_ & B & _)]].
           ++ now apply N1 in A.
           ++ exact B.
           ++ now destruct E'.
        -- intro B. right; left. auto.
      * rewrite V, E. f_equal; change (decimal_value [48; 48; 48; 48]%N) with 0%N; lia.
  - destruct (mid_spec a b c d D Ha Hb Hc Hd E) as (y & s & J & R & C).
    destruct (four_spec a' b' c' d' (D + decimal_value [a; b; c; d] * wan) Ha' Hb' Hc' Hd') as (y' & s' & J' & R' & V').
    assert (Pm : (0 < decimal_value [a; b; c; d])%N).
    { unfold decimal_value. cbn [fold_left]. unfold digit_char in *.
      destruct (N.eq_dec a 48) as [->|]; [|lia]. destruct (N.eq_dec b 48) as [->|]; [|lia].
      destruct (N.eq_dec c 48) as [->|]; [|lia]. destruct (N.eq_dec d 48) as [->|]; [now destruct E|lia]. }
    pose proof (value_bound _ Fm (le_n 4)) as Bm.
    exists ((y ++ u "万") ++ y'), s'. split; [|split].
    + intros z w. rewrite Split. split.
      * intros [(z1 & w1 & z2 & w2 & -> & -> & A & B)|[(E' & _)|(E' & _)]]; [|now destruct E|now destruct E].
        apply J in A as (-> & ->). apply J' in B as (-> & ->). auto.
      * intros (-> & ->). left. exists y, 0%Z, y', 0%Z. split; [reflexivity|]. split; [reflexivity|].
        split; [now apply J|now apply J'].
    + rewrite read_words_app, read_words_app, R. change (u "万") with [WAN]. cbn [read_words].
      pose proof (just_counted_big D (Some yi) s _ wan C eq_refl (conj Pm Bm) (or_introl eq_refl) eq_refl) as W.
      change (wan =? wan)%N with true in W. cbn iota in W. rewrite W. exact R'.
    + rewrite V'. f_equal; unfold wan; lia.
Qed.

Theorem integer_reading t n : decimal t n -> (n < 1000000000000)%N ->
  exists y, just Cardinal.integer t y /\ chinese_value y = Some n.
Proof.
  intros (Nt & F & H0 & Vn) Ln.
  destruct (N.eq_dec (hd 48%N t) 48) as [Hz|Hz].
  { assert (t = [48%N]) as ->. { apply H0. destruct t; [now destruct Nt|exact Hz]. }
    exists (u "零"). split; [|rewrite <- Vn; reflexivity].
    eapply (just_full Cardinal.integer [48%N]); [reflexivity|reflexivity|vm_compute; reflexivity]. }
  clear H0.
  assert (L : (List.length t <= 12)%nat).
  { destruct t as [|c t]; [cbn; lia|]. apply Forall_cons_iff in F as (Hc & _). cbn [hd] in Hz.
    pose proof (value_long c t Hc Hz) as B. cbn [List.length].
    destruct (le_lt_dec (List.length t) 11) as [|G]; [lia|]. exfalso.
    assert (10 ^ 12 <= 10 ^ N.of_nat (List.length t))%N by (apply N.pow_le_mono_r; lia).
    change (10 ^ 12)%N with 1000000000000%N in *. lia. }
  destruct (le_lt_dec (List.length t) 4) as [L4|L4].
  { destruct (head_spec t F Hz L4) as (y & s & J & R & (D & B & r & Rr & Sr) & O).
    exists y. split.
    - intros z w. rewrite (integer_short t z w F Hz L4). apply J.
    - unfold chinese_value. rewrite R. unfold rd_value. rewrite O, Rr, D, <- Vn, <- Sr. f_equal; lia. }
  destruct (split_last4 t) as (p & a' & b' & c' & d' & ->); [lia|].
  rewrite app_length in *. cbn [List.length] in *.
  apply Forall_app in F as (Fp & Ff). pose proof Ff as Ff'.
  apply Forall_cons_iff in Ff as (Ha' & Ff). apply Forall_cons_iff in Ff as (Hb' & Ff).
  apply Forall_cons_iff in Ff as (Hc' & Ff). apply Forall_cons_iff in Ff as (Hd' & _).
  assert (Np : p <> []) by (intros ->; cbn in L4; lia).
  rewrite hd_app in Hz by exact Np.
  destruct (le_lt_dec (List.length p) 4) as [Lp|Lp].
  { destruct (head_spec p Fp Hz Lp) as (y & s & J & R & C & _).
    destruct (four_spec a' b' c' d' (0 + decimal_value p * wan) Ha' Hb' Hc' Hd') as (y' & s' & J' & R' & V').
    exists ((y ++ u "万") ++ y'). split.
    - intros z w. rewrite integer_wan by auto. split.
      + intros (z1 & w1 & z2 & w2 & -> & -> & A & B). apply J in A as (-> & ->). apply J' in B as (-> & ->). auto.
      + intros (-> & ->). exists y, 0%Z, y', 0%Z. split; [reflexivity|]. split; [reflexivity|].
        split; [now apply J|now apply J'].
    - unfold chinese_value. rewrite read_words_app, read_words_app, R. change (u "万") with [WAN]. cbn [read_words].
      pose proof (just_counted_big 0 None s _ wan C eq_refl (conj (value_pos p Fp Hz) (value_bound p Fp Lp)) (or_introl eq_refl) I) as W.
      change (wan =? wan)%N with true in W. cbn iota in W. rewrite W, R', V', <- Vn, value_app.
      change (10 ^ N.of_nat (List.length [a'; b'; c'; d']))%N with 10000%N. f_equal; unfold wan; lia. }
  destruct (split_last4 p) as (q & a & b & c & d & ->); [lia|].
  rewrite app_length in *. cbn [List.length] in *.
  apply Forall_app in Fp as (Fq & Fm). pose proof Fm as Fm'.
  apply Forall_cons_iff in Fm as (Ha & Fm). apply Forall_cons_iff in Fm as (Hb & Fm).
  apply Forall_cons_iff in Fm as (Hc & Fm). apply Forall_cons_iff in Fm as (Hd & _).
  assert (Nq : q <> []) by (intros ->; cbn in Lp; lia).
  rewrite hd_app in Hz by exact Nq.
  assert (Lq : (List.length q <= 4)%nat) by lia.
  destruct (head_spec q Fq Hz Lq) as (y & s & J & R & C & _).
  destruct (lower_spec a b c d a' b' c' d' (0 + decimal_value q * yi) Ha Hb Hc Hd Ha' Hb' Hc' Hd') as (y' & s' & J' & R' & V').
  rewrite <- app_assoc in *. exists ((y ++ u "亿") ++ y'). split.
  - intros z w. rewrite integer_yi by auto. fold lower. split.
    + intros (z1 & w1 & z2 & w2 & -> & -> & A & B). apply J in A as (-> & ->). apply J' in B as (-> & ->). auto.
    + intros (-> & ->). exists y, 0%Z, y', 0%Z. split; [reflexivity|]. split; [reflexivity|].
      split; [now apply J|now apply J'].
  - unfold chinese_value. rewrite read_words_app, read_words_app, R. change (u "亿") with [YI]. cbn [read_words].
    pose proof (just_counted_big 0 None s _ yi C eq_refl (conj (value_pos q Fq Hz) (value_bound q Fq Lq)) (or_intror eq_refl) I) as W.
    change (yi =? wan)%N with false in W. cbn iota in W. rewrite W, R', V', <- Vn, (value_app q).
    change (10 ^ N.of_nat (List.length ([a; b; c; d] ++ [a'; b'; c'; d'])))%N with 100000000%N. f_equal; unfold yi; lia.
Qed.
Theorem integer_none t n : decimal t n -> (1000000000000 <= n)%N -> forall z w, ~ denote Cardinal.integer t z w.
Proof.
  intros (Nt & F & H0 & Vn) Ln z w X. pose proof (value_short t F) as B. lens X.
  assert (10 ^ N.of_nat (List.length t) <= 10 ^ 12)%N.
  { apply N.pow_le_mono_r; [lia|]. cbn [In] in *. lia. }
  change (10 ^ 12)%N with 1000000000000%N in *. lia.
Qed.

(** ** 两 *)
Definition ER : N := 20108%N. Definition LIANG : N := 20004%N.
Definition liang_unit (c : N) : bool := ((c =? BAI) || (c =? QIAN) || (c =? WAN) || (c =? YI))%N%bool.
Definition liang_fn (t : text) : text :=
  match t with
  | c :: d :: r => if ((c =? ER)%N && liang_unit d)%bool then LIANG :: d :: r else t
  | _ => t
  end.
Definition liang_tau : fst := Cross (u "二百") (u "两百") ∪ Cross (u "二千") (u "两千")
              ∪ Cross (u "二万") (u "两万") ∪ Cross (u "二亿") (u "两亿").
Lemma liang_tau_spec p q w : denote liang_tau p q w <->
  exists d, liang_unit d = true /\ p = [ER; d] /\ q = [LIANG; d] /\ w = 0%Z.
Proof.
  split.
  - intros [[[(-> & -> & ->)|(-> & -> & ->)]|(-> & -> & ->)]|(-> & -> & ->)];
      [exists BAI|exists QIAN|exists WAN|exists YI]; repeat split.
  - intros (d & U & -> & -> & ->). unfold liang_unit in U. rewrite !orb_true_iff, !N.eqb_eq in U.
    destruct U as [[[->| ->]| ->]| ->];
      [left; left; left|left; left; right|left; right|right]; cbn; auto.
Qed.
Lemma liang_spec t z w : forallb vchar t = true ->
  denote Cardinal.liang t z w <-> z = liang_fn t /\ w = 0%Z.
Proof.
  intro V. change (denote Cardinal.liang) with (rewritten (denote liang_tau) Edge Anywhere []).
  assert (NoCopy : forall d r, liang_unit d = true -> ~ (forall p q w rest', ER :: d :: r = p ++ rest' -> p <> [] ->
     denote liang_tau p q w -> ~ (left_ok Edge [] /\ right_ok Anywhere rest'))).
  { intros d r U M. apply (M [ER; d] [LIANG; d] 0%Z r eq_refl); [discriminate| |split; reflexivity].
    apply liang_tau_spec. eauto. }
  split.
  - intro R. inversion R as [out|out p q w0 rest y v Np T Lo Ro Vp Vq R' E1 E2|out c rest y v M Vc R' E1 E2]; subst.
    + auto.
    + apply liang_tau_spec in T as (d & U & -> & -> & ->).
      apply rewritten_later in R' as (-> & -> & _); [|discriminate].
      cbn [app liang_fn]. rewrite U. auto.
    + apply rewritten_later in R' as (-> & -> & _); [|discriminate]. split; [|reflexivity].
      destruct rest as [|d r]; [reflexivity|]. cbn [liang_fn].
      destruct (N.eqb_spec c ER) as [->|]; [|reflexivity]. cbn [andb].
      destruct (liang_unit d) eqn:U; [|reflexivity]. now apply NoCopy in M.
  - intros (-> & ->). destruct t as [|c t]; [constructor|].
    assert (Copy : (forall d r, t = d :: r -> c = ER -> liang_unit d = false) ->
      rewritten (denote liang_tau) Edge Anywhere [] (c :: t) (c :: t) 0%Z).
    { intro H. cbn [forallb] in V. apply andb_true_iff in V as (Vc & V). constructor; [|exact Vc|].
      - intros p q w rest' E Np T _. apply liang_tau_spec in T as (d & U & -> & _). cbn in E. injection E as -> ->.
        rewrite (H d rest' eq_refl eq_refl) in U. discriminate.
      - apply rewritten_later; [discriminate|]. auto. }
    destruct t as [|d r]; [apply Copy; discriminate|]. cbn [liang_fn].
    destruct (N.eqb_spec c ER) as [->|Nc]; cbn [andb].
    + destruct (liang_unit d) eqn:U.
      * apply (rw_match _ _ _ [] [ER; d] [LIANG; d] 0%Z r r 0%Z); [discriminate| |reflexivity|exact I| | |].
        -- apply liang_tau_spec. eauto.
        -- cbn [forallb] in *. now rewrite !andb_true_iff in *.
        -- cbn [forallb] in *. now rewrite !andb_true_iff in *.
        -- apply rewritten_later; [discriminate|]. split; [reflexivity|]. split; [reflexivity|].
           cbn [forallb] in V. now rewrite !andb_true_iff in V.
      * apply Copy. now intros d' r' [= <- <-] _.
    + apply Copy. intros d' r' _ ->. now destruct Nc.
Qed.
Lemma liang_value t : chinese_value (liang_fn t) = chinese_value t.
Proof.
  destruct t as [|c [|d r]]; try reflexivity. cbn [liang_fn].
  destruct (N.eqb_spec c ER) as [->|]; [|reflexivity]. destruct (liang_unit d); [|reflexivity].
  reflexivity.
Qed.

(** ** The other parts of the number graph do not read digits *)
Lemma nondigit (P : Prop) c (x r : text) : Forall digit_char (x ++ c :: r) -> ~ digit_char c -> P.
Proof. intros F N. apply Forall_app in F as (_ & F). apply Forall_cons_iff in F as (F & _). now destruct N. Qed.
Lemma sign_only x y w : Forall digit_char x -> denote (ques Cardinal.sign) x y w -> x = [] /\ y = [] /\ w = 0%Z.
Proof.
  intros F [S|S]; [|exact S]. exfalso. destruct S as (I & _).
  change (In (x, y) [([43%N], u "正"); ([177%N], u "正负"); ([45%N], u "负")]) in I.
  destruct I as [[= <- _]|[[= <- _]|[[= <- _]|[]]]]; apply Forall_cons_iff in F as (F & _); unfold digit_char in F; lia.
Qed.
Lemma plain_digits t z w : Forall digit_char t ->
  denote Cardinal.plain_number t z w <->
  exists m w1 w2, w = (w1 + w2)%Z /\ denote Cardinal.integer t m w1 /\ denote Cardinal.liang m z w2.
Proof.
  intro F. unfold Cardinal.plain_number. split.
  - intros (m & w1 & w2 & -> & (x1 & y1 & v1 & x2 & y2 & v2 & -> & -> & -> & (x3 & y3 & v3 & x4 & y4 & v4 & -> & -> & -> & S & Ig) & Dt) & L).
    rewrite !Forall_app in F. destruct F as ((F3 & F4) & F2).
    apply sign_only in S as (-> & -> & ->); [|exact F3].
    destruct Dt as [(p & q & v & x5 & y5 & v5 & -> & _ & _ & (Id & _) & _)|(-> & -> & ->)].
    + exfalso. change (In (p, q) [([46%N], u "点")]) in Id. destruct Id as [[= <- _]|[]].
      apply Forall_app in F2 as (F2 & _). apply Forall_cons_iff in F2 as (F2 & _). unfold digit_char in F2. lia.
    + exists y4, v4, w2. cbn [app] in *. rewrite !app_nil_r in *. split; [lia|]. auto.
  - intros (m & w1 & w2 & -> & Ig & L). exists m, w1, w2. split; [reflexivity|]. split; [|exact L].
    replace t with (([] ++ t) ++ []) by now rewrite app_nil_r. replace m with (([] ++ m) ++ []) by now rewrite app_nil_r.
    replace w1 with (0 + w1 + 0)%Z by lia.
    apply cat_i; [apply cat_i; [apply ques_none|exact Ig]|apply ques_none].
Qed.
Lemma accep_only a x y w : Forall digit_char x -> ~ Forall digit_char a ->
  denote (ques (accep a)) x y w -> x = [] /\ y = [] /\ w = 0%Z.
Proof. intros F N [(-> & _)|S]; [now destruct N|exact S]. Qed.
Lemma number_digits t z w : Forall digit_char t ->
  denote Cardinal.number t z w <-> denote Cardinal.plain_number t z w.
Proof.
  intro F. unfold Cardinal.number. split.
  - intros (x1 & y1 & v1 & x2 & y2 & v2 & -> & -> & -> & (x3 & y3 & v3 & x4 & y4 & v4 & -> & -> & -> & A & B) & C).
    rewrite !Forall_app in F. destruct F as ((F3 & F4) & F2).
    apply accep_only in A as (-> & -> & ->); [|exact F3|].
    2:{ intro G. apply Forall_cons_iff in G as (G & _). unfold digit_char in G. cbn in G. lia. }
    apply accep_only in B as (-> & -> & ->); [|exact F4|].
    2:{ intro G. apply Forall_cons_iff in G as (G & _). unfold digit_char in G. cbn in G. lia. }
    cbn [app]. rewrite Z.add_0_l. destruct C as [C|C]; [exact C|]. exfalso.
    destruct C as (x5 & y5 & v5 & x6 & y6 & v6 & -> & _ & _ & _ & (-> & _)).
    apply Forall_app in F2 as (_ & F2). apply Forall_cons_iff in F2 as (F2 & _). unfold digit_char in F2. cbn in F2. lia.
  - intro P. replace t with (([] ++ []) ++ t) by reflexivity. replace z with (([] ++ []) ++ z) by reflexivity.
    replace w with (0 + 0 + w)%Z by lia.
    apply cat_i; [apply cat_i; apply ques_none|left; exact P].
Qed.

Theorem number_reading t n : decimal t n -> (n < 1000000000000)%N ->
  exists y, chinese_value y = Some n /\ forall z w, denote Cardinal.number t z w <-> z = y /\ w = 0%Z.
Proof.
  intros D L. destruct (integer_reading t n D L) as (m & J & V). destruct D as (_ & F & _).
  assert (Vm : forallb vchar m = true).
  { apply (writes_valid_sound Cardinal.integer) with t 0%Z; [vm_compute; reflexivity|now apply J|].
    apply forallb_forall. intros c I. rewrite Forall_forall in F. apply F in I. apply vchar_spec.
    unfold GrammarSpec.valid_char, digit_char in *. lia. }
  exists (liang_fn m). split; [now rewrite liang_value|].
  intros z w. rewrite number_digits, plain_digits by exact F. split.
  - intros (m' & w1 & w2 & -> & Ig & Li). apply J in Ig as (-> & ->).
    apply liang_spec in Li as (-> & ->); [auto|exact Vm].
  - intros (-> & ->). exists m, 0%Z, 0%Z. split; [reflexivity|]. split; [now apply J|]. now apply liang_spec.
Qed.
Theorem number_none t n : decimal t n -> (1000000000000 <= n)%N -> forall z w, ~ denote Cardinal.number t z w.
Proof.
  intros D L z w H. pose proof D as (_ & F & _). rewrite number_digits, plain_digits in H by exact F.
  destruct H as (m & w1 & w2 & _ & Ig & _). exact (integer_none t n D L _ _ Ig).
Qed.
