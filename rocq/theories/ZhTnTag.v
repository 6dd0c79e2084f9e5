(** How the Chinese normaliser cuts a written number into tokens (C65). *)
From Coq Require Import List NArith ZArith Bool String Lia Arith.
From Verif Require Import Text TextFacts TokenModel Fst FstFacts FstRun GrammarModel GrammarAccept NumeralSpec EnglishNumeralSpec DataZhTn ZhTnModel ZhTnEndSpec.
From Verif Require Import ZhNumberProofs TokenVerbal Apart Letters ZhTnRead.
From Verif Require PlainRules PlainChar FstEval.
Import ListNotations.
Local Open Scope list_scope.

(** Known characters, a sign only in front, at most one point. *)
Definition dots (x : text) : nat := count_occ N.eq_dec x 46%N.
Definition tidy (x : text) : Prop := forallb known x = true /\ forallb body (tl x) = true /\ dots x <= 1.
Lemma dots_app a b : dots (a ++ b) = dots a + dots b.
Proof. apply count_occ_app. Qed.
Lemma tidy_app p q : tidy (p ++ q) -> tidy p /\ tidy q.
Proof.
  intros (K & B & D). apply known_app in K as (K1 & K2). rewrite dots_app in D. destruct p as [|c p].
  - split; [repeat split; auto; cbn; lia|]. split; [exact K2|]. split; [exact B|lia].
  - cbn [app tl] in B. rewrite forallb_app in B. apply andb_true_iff in B as (B1 & B2). split; (split; [assumption|]); (split; [|lia]); [exact B1|].
    destruct q as [|c' q]; [reflexivity|]. cbn [forallb tl] in *. now apply andb_true_iff in B2 as (_ & B2).
Qed.
Lemma tidy_after p q : p <> [] -> tidy (p ++ q) -> forallb body q = true.
Proof. intros N (_ & B & _). destruct p as [|c p]; [contradiction|]. cbn [app tl] in B. rewrite forallb_app in B. now apply andb_true_iff in B as (_ & B). Qed.
Lemma eats_not e x y w : FstEval.eats e = (true, true) \/ Datatypes.fst (FstEval.eats e) = true -> denote e x y w -> x <> [].
Proof. intros E H ->. revert H. apply FstEval.eats_sound. destruct E as [-> |E]; auto. Qed.

(** ** Dates *)
Lemma year_known x y w : forallb known x = true -> denote Date.g_year x y w -> year_like x.
Proof.
  intros K H. assert (W : forallb dig x = true).
  { apply wide_digs; [|exact K]. apply (reads_sound wide Date.g_year) with y w; [vm_compute; reflexivity|exact H]. }
  apply digs_spec in W. split; [|split; [exact W|]].
  - pose proof (lengths_sound Date.g_year [4] ltac:(vm_compute; reflexivity) _ _ _ H) as L. cbn in L. lia.
  - unfold Date.g_year in H. apply cat_inv in H as (x1 & y1 & w1 & x2 & y2 & w2 & -> & -> & -> & H & _).
    apply cat_inv in H as (x3 & y3 & w3 & x4 & y4 & w4 & -> & -> & -> & (I & _) & _).
    assert (A : forallb (fun p : text * text => negb (hd 48%N (Datatypes.fst p) =? 48)%N) (map entry zh_tn_number_digit) = true) by (vm_compute; reflexivity).
    rewrite forallb_forall in A. specialize (A _ I). cbn [Datatypes.fst] in A. destruct x3 as [|c x3]; [discriminate|]. cbn [app hd] in *. apply negb_true_iff, N.eqb_neq in A. exact A.
Qed.
Definition month_check (x : text) : bool := ((List.length x =? 2)%nat && forallb dig x && (1 <=? decimal_value x)%N && (decimal_value x <=? 12)%N)%bool.
Lemma month_known x y w : forallb known x = true -> denote Date.mm x y w -> month_like x.
Proof.
  intros K (I & _). assert (A : forallb (fun p : text * text => negb (forallb known (Datatypes.fst p)) || month_check (Datatypes.fst p)) (map entry zh_tn_date_mm) = true) by (vm_compute; reflexivity).
  rewrite forallb_forall in A. specialize (A _ I). cbn [Datatypes.fst] in A. rewrite K in A. cbn [negb orb] in A. unfold month_check in A. rewrite !andb_true_iff, Nat.eqb_eq, !N.leb_le in A.
  destruct A as (((L & D) & B) & C). split; [exact L|]. split; [now apply digs_spec|auto].
Qed.
Definition day_check (x : text) : bool := (((List.length x =? 1)%nat || (List.length x =? 2)%nat) && forallb dig x && (1 <=? decimal_value x)%N && (decimal_value x <=? 31)%N)%bool.
Lemma day_known x y w : forallb known x = true -> denote Date.g_day x y w -> day_like x.
Proof.
  intros K H. assert (A : forallb (fun p : text * text => negb (forallb known (Datatypes.fst p)) || day_check (Datatypes.fst p)) (map entry zh_tn_date_d ++ map entry zh_tn_date_dd) = true) by (vm_compute; reflexivity).
  rewrite forallb_forall in A. assert (In (x, y) (map entry zh_tn_date_d ++ map entry zh_tn_date_dd)) as I by (apply in_app_iff; destruct H as [(I & _)|(I & _)]; auto).
  specialize (A _ I). cbn [Datatypes.fst] in A. rewrite K in A. cbn [negb orb] in A. unfold day_check in A. rewrite !andb_true_iff, orb_true_iff, !Nat.eqb_eq, !N.leb_le in A.
  destruct A as (((L & D) & B) & C). split; [exact L|]. split; [now apply digs_spec|auto].
Qed.
Lemma rmsign_known x y w : forallb body x = true -> denote Date.rmsign x y w -> x = u ".".
Proof.
  intros K H. unfold Date.rmsign in H. apply cat_inv in H as (x1 & y1 & w1 & x2 & y2 & w2 & -> & -> & -> & H & (-> & _)). rewrite app_nil_r in *.
  destruct H as [[(-> & _)|(-> & _)]|(-> & _)]; [vm_compute in K; discriminate|vm_compute in K; discriminate|reflexivity].
Qed.
Lemma rmsign_nonempty x y w : denote Date.rmsign x y w -> x <> [].
Proof. apply eats_not. right. vm_compute. reflexivity. Qed.
Lemma field_known name g x y w : denote (tag_field name g) x y w -> exists z, denote g x z w.
Proof. intro H. apply tag_field_spec in H as (_ & _ & H). exact H. Qed.
Lemma two_parts a b x y w (P Q : text -> Prop) : tidy x -> (forall x y w, forallb known x = true -> denote a x y w -> P x /\ x <> []) -> (forall x y w, forallb known x = true -> denote b x y w -> Q x) ->
  denote (a + Date.rmsign + b)%fst x y w -> exists p q, x = p ++ u "." ++ q /\ P p /\ Q q.
Proof.
  intros T A B H. apply cat_inv in H as (x1 & y1 & w1 & x2 & y2 & w2 & -> & -> & -> & H & H2). apply cat_inv in H as (x3 & y3 & w3 & x4 & y4 & w4 & -> & -> & -> & H3 & H4).
  apply tidy_app in T as (T & (K2 & _)). pose proof (tidy_app _ _ T) as ((K3 & _) & _). destruct (A _ _ _ K3 H3) as (P3 & N3).
  pose proof (rmsign_known _ _ _ (tidy_after _ _ N3 T) H4) as ->. exists x3, x2. rewrite <- app_assoc. split; [reflexivity|]. split; [exact P3|exact (B _ _ _ K2 H2)].
Qed.
Lemma three_parts a b c x y w : tidy x -> (forall x y w, denote a x y w -> x <> []) ->  ~ denote (a + Date.rmsign + b + Date.rmsign + c)%fst x y w.
Proof.
  intros T A H. apply cat_inv in H as (x1 & y1 & w1 & x2 & y2 & w2 & -> & -> & -> & H & H2). apply cat_inv in H as (x3 & y3 & w3 & x4 & y4 & w4 & -> & -> & -> & H3 & H4).
  apply cat_inv in H3 as (x5 & y5 & w5 & x6 & y6 & w6 & -> & -> & -> & H5 & H6). apply cat_inv in H5 as (x7 & y7 & w7 & x8 & y8 & w8 & -> & -> & -> & H7 & H8).
  pose proof (A _ _ _ H7) as N7. pose proof T as (_ & _ & D). apply tidy_app in T as (T & _). pose proof T as T'. apply tidy_app in T' as (T' & _). apply tidy_app in T' as (T' & _).
  pose proof (rmsign_known _ _ _ (tidy_after _ _ N7 T') H8) as ->.
  assert (N : (x7 ++ u ".") ++ x6 <> []) by (destruct x7; discriminate). pose proof (rmsign_known _ _ _ (tidy_after _ _ N T) H4) as ->.
  rewrite !dots_app in D. change (dots (u ".")) with 1 in D. lia.
Qed.
Lemma date_known x y w : tidy x -> denote Date.date x y w -> date_like x.
Proof.
  assert (Fy : forall x y w, forallb known x = true -> denote Date.year x y w -> year_like x /\ x <> []).
  { intros x0 y0 w0 K H. apply field_known in H as (z & H). split; [exact (year_known _ _ _ K H)|]. revert H. apply eats_not. right. vm_compute. reflexivity. }
  assert (Fm : forall x y w, forallb known x = true -> denote Date.month_two_digit x y w -> month_like x /\ x <> []).
  { intros x0 y0 w0 K H. apply field_known in H as (z & H). split; [exact (month_known _ _ _ K H)|]. revert H. apply eats_not. right. vm_compute. reflexivity. }
  assert (Fd : forall x y w, forallb known x = true -> denote Date.day x y w -> day_like x).
  { intros x0 y0 w0 K H. apply field_known in H as (z & H). exact (day_known _ _ _ K H). }
  intros T [[[[H|H]|H]|H]|H].
  - exfalso. revert H. apply three_parts; [exact T|]. intros x0 y0 w0. apply eats_not. right. vm_compute. reflexivity.
  - exfalso. revert H. apply three_parts; [exact T|]. intros x0 y0 w0. apply eats_not. right. vm_compute. reflexivity.
  - apply (two_parts _ _ _ _ _ year_like month_like T) in H as (p & q & -> & P & Q); [exists p, q; auto|exact Fy|intros; now apply (Fm x0 y0 w0)].
  - apply (two_parts _ _ _ _ _ month_like year_like T) in H as (p & q & -> & P & Q); [exists p, q; auto|exact Fm|intros; now apply (Fy x0 y0 w0)].
  - apply (two_parts _ _ _ _ _ month_like day_like T) in H as (p & q & -> & P & Q); [exists p, q; auto 10|exact Fm|exact Fd].
Qed.
Lemma date_token x y w : tidy x -> denote (r_tagger (Date.rule (r_tagger Range.rule))) x y w -> date_like x /\ w = 0%Z.
Proof.
  intros T H. split; [|refine (free_sound (r_tagger (Date.rule (r_tagger Range.rule))) _ _ _ _ H); vm_compute; reflexivity].
  change (denote (add_tokens Date.name Date.date + ques (r_tagger Range.rule + add_tokens Date.name Date.date))%fst x y w) in H.
  apply cat_inv in H as (x1 & y1 & w1 & x2 & y2 & w2 & -> & -> & -> & H1 & [H2|(-> & _)]).
  - exfalso. apply cat_inv in H2 as (x3 & y3 & w3 & x4 & y4 & w4 & -> & -> & -> & H3 & _). apply eats_not in H1; [|right; vm_compute; reflexivity].
    pose proof (tidy_after _ _ H1 T) as B. rewrite forallb_app in B. apply andb_true_iff in B as (B & _). apply PlainRules.tokens_added in H3 as (z & _ & H3). apply field_known in H3 as (z' & H3).
    destruct H3 as [(-> & _)|(-> & _)]; vm_compute in B; discriminate.
  - rewrite app_nil_r in *. apply PlainRules.tokens_added in H1 as (z & _ & H1). exact (date_known _ _ _ T H1).
Qed.

(** ** Cardinals *)
Lemma phone_digit x y w : forallb known x = true -> denote Cardinal.phone_digits x y w <-> exists c, x = [c] /\ digit_char c /\ y = phone_word c /\ w = 0%Z.
Proof.
  intro K. assert (R : forall c, digit_char c -> forall z v, denote (build_rule (Cross (u "一") (u "幺")) Anywhere Anywhere) (digit_word c) z v <-> z = phone_word c /\ v = 0%Z).
  { intros c D z v. assert (A : forallb (fun c => match digit_word c with [a] => vchar a && Bool.eqb (text_eqb [a] (u "一")) (c =? 49)%N | _ => false end) [48; 49; 50; 51; 52; 53; 54; 55; 56; 57]%N = true) by (vm_compute; reflexivity).
    rewrite forallb_forall in A. specialize (A c (ten_digits c D)). unfold phone_word. destruct (digit_word c) as [|a [|]] eqn:E; try discriminate. apply andb_true_iff in A as (V & A).
    apply Bool.eqb_prop in A. rewrite <- A. unfold build_rule. cbn [denote]. rewrite (PlainChar.one_rewrite _ _ _ _ _ V). destruct (text_eqb_spec [a] (u "一")) as [->|Na].
    - split; [intros [((_ & -> & ->) & _)|(N & _)]; [auto|exfalso; exact (N _ _ (conj eq_refl (conj eq_refl eq_refl)))]|]. intros (-> & ->). left. split; [auto|reflexivity].
    - split; [intros [((E1 & _) & _)|(_ & -> & ->)]; [contradiction|auto]|]. intros (-> & ->). right. split; [|auto]. intros y0 k (E1 & _). contradiction. }
  split.
  - intros (m & w1 & w2 & -> & H1 & H2). apply (digits_table _ _ _ K) in H1 as (c & -> & D & -> & ->). apply (R c D) in H2 as (-> & ->). exists c. auto.
  - intros (c & -> & D & -> & ->). exists (digit_word c), 0%Z, 0%Z. split; [reflexivity|]. split; [apply digits_table; [exact K|eauto]|now apply R].
Qed.
Lemma phone_power n x y w : forallb known x = true -> denote (Cardinal.phone_digits ** n)%fst x y w <-> List.length x = n /\ Forall digit_char x /\ y = flat_map phone_word x /\ w = 0%Z.
Proof.
  revert x y w. induction n as [|n IH]; intros x y w K.
  - cbn [power denote]. split; [intros (-> & -> & ->); auto|]. intros (L & _ & -> & ->). destruct x; [auto|discriminate].
  - assert (E : denote (Cardinal.phone_digits ** S n)%fst x y w <-> denote (Cardinal.phone_digits + Cardinal.phone_digits ** n)%fst x y w).
    { destruct n as [|n]; [|reflexivity]. cbn [power]. split.
      - intro H. rewrite <- (app_nil_r x), <- (app_nil_r y), <- (Z.add_0_r w). apply cat_i; [exact H|now cbn].
      - intro H. apply cat_inv in H as (x1 & y1 & w1 & x2 & y2 & w2 & -> & -> & -> & H & (-> & -> & ->)). now rewrite !app_nil_r, Z.add_0_r. }
    rewrite E. split.
    + intro H. apply cat_inv in H as (x1 & y1 & w1 & x2 & y2 & w2 & -> & -> & -> & H1 & H2). apply known_app in K as (K1 & K2).
      apply (phone_digit _ _ _ K1) in H1 as (c & -> & D & -> & ->). apply (IH _ _ _ K2) in H2 as (L & F & -> & ->). cbn [app List.length flat_map]. auto.
    + intros (L & F & -> & ->). destruct x as [|c x]; [discriminate|]. cbn [flat_map]. change (c :: x) with ([c] ++ x) in *. apply known_app in K as (K1 & K2).
      replace 0%Z with (0 + 0)%Z by lia. injection L as L. apply cat_i; [apply phone_digit; [exact K1|exists c; split; [reflexivity|]; split; [exact (Forall_inv F)|auto]]|].
      apply (IH _ _ _ K2). split; [exact L|]. split; [exact (Forall_inv_tail F)|auto].
Qed.
Lemma phone_known x y w : forallb known x = true -> denote Cardinal.phone x y w <-> hotline x /\ y = flat_map phone_word x /\ w = 0%Z.
Proof.
  intro K. assert (A : forallb (fun p : text * text => text_eqb (snd p) (flat_map phone_word (Datatypes.fst p))) (map entry zh_tn_cardinal_phone) = true) by (vm_compute; reflexivity).
  rewrite forallb_forall in A. split.
  - intros [[(I & ->)|H]|H].
    + specialize (A _ I). cbn [Datatypes.fst snd] in A. destruct (text_eqb_spec y (flat_map phone_word x)) as [->|]; [|discriminate]. split; [|auto]. left.
      apply in_map_iff in I as (l & E & I). apply in_map_iff. exists l. rewrite E. auto.
    + apply (phone_power 11 _ _ _ K) in H as (L & F & -> & ->). split; [right; auto|auto].
    + exfalso. revert H. apply (apart_known known); [vm_compute; reflexivity|exact K].
  - intros (H & -> & ->). left. destruct H as [H|(L & F)].
    + left. split; [|reflexivity]. apply in_map_iff in H as (l & E & I). specialize (A _ (in_map entry _ _ I)). destruct (text_eqb_spec (snd (entry l)) (flat_map phone_word (Datatypes.fst (entry l)))) as [E'|]; [|discriminate].
      apply in_map_iff. exists l. split; [|exact I]. rewrite E in E'. destruct (entry l) as (a, b). cbn [Datatypes.fst snd] in *. now subst.
    + right. apply phone_power; auto.
Qed.
Lemma minus_inside (a b : fst) x y w : tidy x -> (forall x y w, denote a x y w -> x <> []) -> ~ denote (a + delete (u "-") + b)%fst x y w.
Proof.
  intros T A H. apply cat_inv in H as (x1 & y1 & w1 & x2 & y2 & w2 & -> & -> & -> & H & H2). apply cat_inv in H as (x3 & y3 & w3 & x4 & y4 & w4 & -> & -> & -> & H3 & (-> & _)).
  apply tidy_app in T as (T & _). pose proof (tidy_after _ _ (A _ _ _ H3) T) as B. vm_compute in B. discriminate.
Qed.
Lemma three_dots a b x y w : tidy x -> ~ denote (a + (Cardinal.dot + b) ** 3)%fst x y w.
Proof.
  intros (K & _ & D) H. cbn [power] in H. apply cat_inv in H as (x1 & y1 & w1 & x2 & y2 & w2 & -> & -> & -> & _ & H).
  apply cat_inv in H as (x3 & y3 & w3 & x4 & y4 & w4 & -> & -> & -> & H3 & H4). apply cat_inv in H4 as (x5 & y5 & w5 & x6 & y6 & w6 & -> & -> & -> & H5 & _).
  apply known_app in K as (_ & K). apply known_app in K as (K3 & K). apply known_app in K as (K5 & _).
  assert (O : forall x y w, forallb known x = true -> denote (Cardinal.dot + b)%fst x y w -> 1 <= dots x).
  { intros x y w K0 H. apply cat_inv in H as (x7 & y7 & w7 & x8 & y8 & w8 & -> & -> & -> & H & _). apply known_app in K0 as (K7 & _). apply (dot_known _ _ _ K7) in H as (-> & _).
    rewrite dots_app. change (dots (u ".")) with 1. lia. }
  pose proof (O _ _ _ K3 H3). pose proof (O _ _ _ K5 H5). rewrite !dots_app in D. lia.
Qed.
Lemma plus_nonempty x y w : denote (plus Cardinal.digits) x y w -> x <> [].
Proof. apply eats_not. right. vm_compute. reflexivity. Qed.
Lemma cardinal_known x z v : tidy x -> denote Cardinal.cardinal x z v <-> (hotline x /\ z = flat_map phone_word x /\ v = -10000)%Z \/ denote Cardinal.percent x z v.
Proof.
  intro T. pose proof T as (K & _ & _). unfold Cardinal.cardinal. split.
  - intros [[[[H|H]|H]|H]|H].
    + exfalso. revert H. now apply three_dots.
    + auto.
    + exfalso. cbn [power] in H. apply cat_inv in H as (x1 & y1 & w1 & x2 & y2 & w2 & -> & -> & -> & H1 & H2). apply cat_inv in H2 as (x3 & y3 & w3 & x4 & y4 & w4 & -> & -> & -> & H3 & _).
      rewrite app_assoc in T. apply tidy_app in T as (T & _). refine (minus_inside (plus Cardinal.digits) (plus Cardinal.digits) (x1 ++ x3) (y1 ++ y3) (w1 + w3)%Z T plus_nonempty _).
      apply cat_inv in H3 as (x5 & y5 & w5 & x6 & y6 & w6 & -> & -> & -> & H5 & H6). rewrite !app_assoc, Z.add_assoc. apply cat_i; [apply cat_i; assumption|assumption].
    + exfalso. revert H. apply minus_inside; [exact T|]. intros x0 y0 w0. apply eats_not. right. vm_compute. reflexivity.
    + destruct H as (k & -> & H). apply (phone_known _ _ _ K) in H as (H & -> & ->). left. auto.
  - intros [(H & -> & ->)|H]; [right; exists 0%Z; split; [reflexivity|]; now apply phone_known|]. left. left. left. right. exact H.
Qed.
(** ** The token cases *)
Lemma math_known x z v : tidy x -> denote Math.math x z v <-> denote Cardinal.number x z v.
Proof.
  intro T. pose proof T as (K & _ & _). unfold Math.math. split.
  - intros [H|H]; [|exfalso; revert H; apply (apart_known known); [vm_compute; reflexivity|exact K]].
    apply cat_inv in H as (x1 & y1 & w1 & x2 & y2 & w2 & -> & -> & -> & H & S). match type of S with denote (Star ?g) _ _ _ => assert (A : apart body g = true) by (vm_compute; reflexivity); set (G := g) in *; clearbody G end.
    cbn [denote] in S. destruct S as [|a b k a' b' k' S _]; [now rewrite !app_nil_r, Z.add_0_r|].
    exfalso. assert (N : x1 <> []) by (revert H; apply eats_not; right; vm_compute; reflexivity). apply (tidy_after _ _ N) in T. rewrite forallb_app in T. apply andb_true_iff in T as (B & _).
    exact (apart_known body _ _ _ _ A B S).
  - intro H. left. rewrite <- (app_nil_r x), <- (app_nil_r z), <- (Z.add_0_r v). apply cat_i; [exact H|constructor].
Qed.
Lemma plain_value x : forallb known x = true -> escape_value x = x /\ ~ In 34%N x /\ ~ In 92%N x.
Proof.
  intro K. assert (~ In 34%N x /\ ~ In 92%N x) as (Q & B).
  { rewrite forallb_forall in K. split; intro I; apply K in I; vm_compute in I; discriminate. }
  split; [now apply escape_plain|auto].
Qed.
Lemma value_tagged name g x y w : forallb known x = true -> denote (add_tokens name (tag_field (u "value") g)) x y w <-> y = value_token name x ++ u " " /\ exists z, denote g x z w.
Proof.
  intro K. rewrite PlainRules.tokens_added. destruct (plain_value x K) as (E & _). split.
  - intros (z & -> & H). apply tag_field_spec in H as (_ & -> & H). split; [|exact H]. rewrite E. unfold value_token. change (u " { value: """) with (u " { " ++ u "value" ++ u ": """). change (u """ }") with (u """" ++ u " }").
    change (u " } ") with (u " }" ++ u " "). now rewrite <- !app_assoc.
  - intros (-> & H). exists (u "value" ++ u ": """ ++ x ++ u """"). split.
    + unfold value_token. change (u " { value: """) with (u " { " ++ u "value" ++ u ": """). change (u """ }") with (u """" ++ u " }"). change (u " } ") with (u " }" ++ u " "). now rewrite <- !app_assoc.
    + apply tag_field_spec. rewrite E. split; [exact (known_valid x K)|auto].
Qed.
Definition percented (x : text) : Prop := exists a, x = a ++ u "%".
Section Tokens.
Variables (o : options) (e : fst).
Hypothesis Union : tagger_union (rules o) = Some e.
Lemma token_tidy x y w : tidy x -> denote e x y w ->
  (w = 600 /\ hotline x /\ y = value_token (u "cardinal") x ++ u " ")%Z \/ (w = 10200 /\ date_like x)%Z \/
  (w = 10600 /\ percented x /\ y = value_token (u "cardinal") x ++ u " ")%Z \/ (w = 900000 /\ y = value_token (u "math") x ++ u " ")%Z \/ w = 1000000%Z.
Proof.
  intros T H. pose proof T as (K & _ & _). apply (taggers_spec _ _ Union) in H as (s & k & I & W & H).
  assert (A : forall r, apart known (r_tagger r) = true -> s_rule s = r -> False) by (intros r A E; rewrite E in H; exact (apart_known known _ _ _ _ A K H)).
  unfold rules in I. cbn [In] in I. destruct I as [<-|[<-|[<-|[<-|[<-|[<-|[<-|[<-|[<-|[<-|[<-|[]]]]]]]]]]]]; cbn [s_weight s_rule] in *; try discriminate; injection W as <-.
  - apply (date_token _ _ _ T) in H as (D & E). right. left. split; [lia|exact D].
  - exfalso. refine (A _ _ eq_refl). destruct (remove_erhua o); vm_compute; reflexivity.
  - exfalso. refine (A _ _ eq_refl). vm_compute. reflexivity.
  - exfalso. refine (A _ _ eq_refl). vm_compute. reflexivity.
  - exfalso. refine (A _ _ eq_refl). vm_compute. reflexivity.
  - exfalso. refine (A _ _ eq_refl). vm_compute. reflexivity.
  - exfalso. refine (A _ _ eq_refl). vm_compute. reflexivity.
  - apply (value_tagged (u "cardinal") Cardinal.cardinal x y _ K) in H as (-> & z & H). apply (cardinal_known _ _ _ T) in H as [(Hl & _ & E)|H].
    + left. split; [lia|auto].
    + right. right. left. pose proof (free_sound Cardinal.percent ltac:(vm_compute; reflexivity) _ _ _ H). apply percent_shape in H as (a & b & -> & _). split; [lia|]. split; [exists a; reflexivity|reflexivity].
  - apply (value_tagged (u "math") Math.math x y _ K) in H as (-> & z & H). apply (math_known _ _ _ T) in H.
    pose proof (free_sound Cardinal.number ltac:(vm_compute; reflexivity) _ _ _ H). right. right. right. left. split; [lia|reflexivity].
  - right. right. right. right. pose proof (free_sound (r_tagger Char.rule) ltac:(vm_compute; reflexivity) _ _ _ H). lia.
Qed.
End Tokens.
