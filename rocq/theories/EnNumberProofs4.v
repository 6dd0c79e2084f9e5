(** The cheapest reading of an English cardinal (C58). *)
From Coq Require Import List NArith ZArith Bool String Lia Arith.
From Verif Require Import Text TextFacts Fst FstFacts FstRun GrammarModel NumeralSpec EnglishNumeralSpec.
From Verif Require Import ZhNumberProofs EnNumberProofs EnNumberProofs2 EnNumberProofs3.
From Verif Require EnTnModel.
Import ListNotations.
Local Open Scope list_scope.

(** ** Graphs that write no "a" and cost nothing negative *)
Fixpoint quiet (e : fst) : bool :=
  match e with
  | Cross _ y => negb (existsb (N.eqb 97) y)
  | Table l => forallb (fun p : text * text => negb (existsb (N.eqb 97) (snd p))) l
  | Union a b | Cat a b => quiet a && quiet b
  | Star a => quiet a
  | Weight k a => (0 <=? k)%Z && quiet a
  | _ => false
  end.
Lemma quiet_sound e : quiet e = true -> forall x y w, denote e x y w -> ~ In 97%N y /\ (0 <= w)%Z.
Proof.
  induction e as [x0 y0|p|l|a IHa b IHb|a IHa b IHb|a IHa|k a IHa|a IHa b IHb|a IHa|a IHa|a IHa|tau IHt l r0];
    cbn [quiet]; try discriminate; intros Q x y w H; cbn [denote] in H.
  - destruct H as (-> & -> & ->). apply negb_true_iff in Q. split; [now apply existsb_absent|lia].
  - destruct H as (I & ->). rewrite forallb_forall in Q. specialize (Q _ I). cbn [snd] in Q. apply negb_true_iff in Q.
    split; [now apply existsb_absent|lia].
  - apply andb_true_iff in Q as (Qa & Qb). destruct H as [H|H]; eauto.
  - apply andb_true_iff in Q as (Qa & Qb). destruct H as (x1 & y1 & w1 & x2 & y2 & w2 & -> & -> & -> & H1 & H2).
    destruct (IHa Qa _ _ _ H1), (IHb Qb _ _ _ H2). split; [rewrite in_app_iff; tauto|lia].
  - induction H as [|x y w x' y' w' H S (N' & W)]; [split; [auto|lia]|].
    destruct (IHa Q _ _ _ H). split; [rewrite in_app_iff; tauto|lia].
  - apply andb_true_iff in Q as (Qk & Qa). apply Z.leb_le in Qk. destruct H as (v & -> & H).
    destruct (IHa Qa _ _ _ H). split; [assumption|lia].
Qed.

(** ** Bare "thousand" *)
Definition ONE : text := u "one".
Lemma thousand_prefix w q : numword w -> w = THOUSAND ++ q -> q = [].
Proof.
  intros [(_ & _ & A & _)|[B| ->]] E.
  - exfalso. apply A. rewrite E. apply in_app_iff. left. vm_compute. auto 10.
  - subst w. destruct B as [E|[E|[E|[E|[]]]]]; try (vm_compute in E; discriminate).
    rewrite <- (app_nil_r THOUSAND) in E at 1. now apply app_inv_head in E.
  - vm_compute in E. discriminate.
Qed.
Lemma words_prefix p q : exists v r, words q = v :: r /\ (spaceless p -> words (p ++ q) = (p ++ v) :: r).
Proof.
  pose proof (words_nonempty q) as Ne. destruct (words q) as [|v r] eqn:E; [now destruct Ne|]. exists v, r.
  split; [reflexivity|]. induction p as [|c p IH]; intro S; [exact E|].
  cbn [app words]. destruct (N.eqb_spec c 32) as [->|D]; [destruct S; now left|].
  rewrite IH by (intro I; apply S; now right). reflexivity.
Qed.
Lemma one_thousand_words y rest : Forall numword (words y) -> y = u "one thousand" ++ rest ->
  exists r, words y = ONE :: THOUSAND :: r /\ words (THOUSAND ++ rest) = THOUSAND :: r.
Proof.
  intros F E. change (u "one thousand") with (ONE ++ 32%N :: THOUSAND) in E.
  assert (E' : y = ONE ++ 32%N :: (THOUSAND ++ rest)) by (rewrite E, <- app_assoc; reflexivity).
  assert (W : words y = ONE :: words (THOUSAND ++ rest)) by (rewrite E', words_space; reflexivity).
  destruct (words_prefix THOUSAND rest) as (v & r & _ & P). specialize (P (proj2 spaceless_HT)).
  rewrite W, P in F. apply Forall_inv_tail, Forall_inv in F. pose proof (thousand_prefix _ v F eq_refl) as ->.
  rewrite app_nil_r in P. exists r. now rewrite W, P.
Qed.
Lemma below_one_thousand r : below_thousand (ONE :: THOUSAND :: r) = None.
Proof. destruct r as [|? [|]]; vm_compute; reflexivity. Qed.
Lemma cut_head s v w ws : v <> s -> w <> s ->
  cut s (v :: w :: ws) = match cut s ws with Some (a, b) => Some (v :: w :: a, b) | None => None end.
Proof. intros D D'. cbn [cut]. rewrite (text_eqb_neq v s D), (text_eqb_neq w s D'). now destruct (cut s ws) as [(a & b)|]. Qed.
Lemma cut_head1 s w ws : w <> s -> cut s (w :: ws) = match cut s ws with Some (a, b) => Some (w :: a, b) | None => None end.
Proof. intros D. cbn [cut]. now rewrite (text_eqb_neq w s D). Qed.
Lemma bare_step s k sc r m : ONE <> s -> THOUSAND <> s ->
  scaled true ((s, k) :: sc) (ONE :: THOUSAND :: r) = Some m ->
  (scaled true sc (ONE :: THOUSAND :: r) = Some m -> scaled true sc (THOUSAND :: r) = Some m) ->
  scaled true ((s, k) :: sc) (THOUSAND :: r) = Some m.
Proof.
  intros D D' H K. cbn [scaled] in H |- *. rewrite (cut_head s ONE THOUSAND r D D') in H. rewrite (cut_head1 s THOUSAND r D').
  destruct (cut s r) as [(a & b)|]; [|now apply K]. rewrite andb_false_r in H. rewrite below_one_thousand in H. discriminate.
Qed.
Lemma bare_value r m : scaled true scale_names (ONE :: THOUSAND :: r) = Some m -> scaled true scale_names (THOUSAND :: r) = Some m.
Proof.
  intro H. unfold scale_names in *.
  apply bare_step; [intro E; vm_compute in E; discriminate|intro E; vm_compute in E; discriminate|exact H|clear H; intro H].
  apply bare_step; [intro E; vm_compute in E; discriminate|intro E; vm_compute in E; discriminate|exact H|clear H; intro H].
  apply bare_step; [intro E; vm_compute in E; discriminate|intro E; vm_compute in E; discriminate|exact H|clear H; intro H].
  cbn [scaled] in H |- *. rewrite cut_head1 in H by (intro E; vm_compute in E; discriminate). cbn [cut] in H |- *.
  rewrite !text_eqb_refl in H |- *. cbn [andb] in H |- *. rewrite ?andb_false_r in H. exact H.
Qed.
Lemma one_thousand_value y rest n : Forall numword (words y) -> y = u "one thousand" ++ rest -> english_value y = Some n ->
  english_value (THOUSAND ++ rest) = Some n.
Proof.
  intros F E V. destruct (one_thousand_words y rest F E) as (r & W & W'). unfold english_value in *.
  rewrite text_eqb_neq in V by (rewrite E; intro C; vm_compute in C; discriminate).
  rewrite text_eqb_neq by (intro C; vm_compute in C; discriminate). rewrite W in V. rewrite W'. now apply bare_value.
Qed.

(** ** Numbers below 10^11 *)
Lemma group_zero g : group3 g -> decimal_value g = 0%N -> g = zeros.
Proof.
  intros G V. assert (T : forallb (fun g => negb (decimal_value g =? 0)%N || text_eqb g zeros) digits3 = true) by (vm_compute; reflexivity).
  rewrite forallb_forall in T. specialize (T g G). rewrite V in T. cbn [N.eqb negb orb] in T.
  destruct (text_eqb_spec g zeros); [assumption|discriminate].
Qed.
Lemma group_below g : group3 g -> (decimal_value g < 1000)%N.
Proof.
  intro G. assert (T : forallb (fun g => decimal_value g <? 1000)%N digits3 = true) by (vm_compute; reflexivity).
  rewrite forallb_forall in T. now apply N.ltb_lt, T.
Qed.
Lemma zero_and z w : ~ denote EnTnModel.Cardinal.integer_and (u "zero") z w.
Proof.
  intro D. apply integer_and_spec in D.
  - destruct D as (_ & [(p & s & E & _)|(p & s & E & _)]);
      (assert (I : In 32%N (u "zero")) by (rewrite E, !in_app_iff; right; right; now left)); vm_compute in I; intuition discriminate.
  - apply Forall_forall. intros c I. right. vm_compute in I. intuition (subst; lia).
Qed.
Lemma small_groups n y : number_words n y -> (n < 10 ^ 11)%N -> n <> 0%N ->
  exists g3 g2 g1 g0, group3 g3 /\ group3 g2 /\ group3 g1 /\ group3 g0 /\ (decimal_value g3 < 100)%N /\
    n = total zeros g3 g2 g1 g0 /\ y = join (say zeros g3 g2 g1 g0).
Proof.
  intros [(-> & _)|(_ & g4 & g3 & g2 & g1 & g0 & G4 & G3 & G2 & G1 & G0 & E & ->)] L Z; [now destruct Z|].
  assert (V4 : decimal_value g4 = 0%N) by (unfold total in E; lia). apply (group_zero g4 G4) in V4 as ->.
  exists g3, g2, g1, g0. do 4 (split; [assumption|]). split; [unfold total in E; lia|auto].
Qed.
Lemma and_all n y : number_words n y -> (n < 10 ^ 11)%N -> and_unique y n.
Proof.
  intros W L. destruct (N.eq_dec n 0) as [->|Z].
  - destruct W as [(_ & ->)|(Z & _)]; [|now destruct Z]. right. split; [exact zero_and|left; lia].
  - destruct (small_groups n y W L Z) as (g3 & g2 & g1 & g0 & G3 & G2 & G1 & G0 & V3 & E & ->).
    rewrite say_L, E. apply and_row; try assumption. now rewrite <- E.
Qed.
Lemma zero_plain : plainword (u "zero").
Proof. apply spell_ok_spec. vm_compute. reflexivity. Qed.
Lemma number_numwords n y : number_words n y -> (n < 10 ^ 11)%N -> Forall numword (words y).
Proof.
  intros W L. destruct (N.eq_dec n 0) as [->|Z].
  - destruct W as [(_ & ->)|(Z & _)]; [|now destruct Z]. rewrite words_one by (apply plain_spaceless, zero_plain).
    constructor; [left; exact zero_plain|constructor].
  - destruct (small_groups n y W L Z) as (g3 & g2 & g1 & g0 & G3 & G2 & G1 & G0 & V3 & E & ->).
    assert (Ne : say zeros g3 g2 g1 g0 <> []).
    { intro C. apply Z. rewrite E. now apply (say_counts zeros g3 g2 g1 g0 zeros_group G3 G2 G1 G0). }
    pose proof (say_spaceless zeros g3 g2 g1 g0 zeros_group G3 G2 G1 G0) as S.
    assert (F : Forall numword (say zeros g3 g2 g1 g0)).
    { rewrite say_L. apply Forall_forall. intros w I. apply L_words in I; try assumption. unfold numword. tauto. }
    destruct (say zeros g3 g2 g1 g0) as [|w ws]; [now destruct Ne|]. now rewrite words_join.
Qed.
(** Below a thousand there is no "a". *)
Lemma small_no_a n y : number_words n y -> (n < 1000)%N -> ~ In 97%N y.
Proof.
  intros W L. destruct (N.eq_dec n 0) as [->|Z].
  - destruct W as [(_ & ->)|(Z & _)]; [|now destruct Z]. intro I. vm_compute in I. intuition discriminate.
  - destruct (small_groups n y W ltac:(lia) Z) as (g3 & g2 & g1 & g0 & G3 & G2 & G1 & G0 & V3 & E & ->).
    unfold total in E. change (decimal_value zeros) with 0%N in E.
    assert (g3 = zeros) as -> by (apply group_zero; [exact G3|lia]).
    assert (g2 = zeros) as -> by (apply group_zero; [exact G2|lia]).
    assert (g1 = zeros) as -> by (apply group_zero; [exact G1|lia]).
    unfold say. rewrite !part_zeros. cbn [app]. intro I. pose proof (last_spaceless g0 G0) as S.
    assert (Z0 : g0 <> zeros) by (intros ->; apply Z; rewrite E; reflexivity).
    rewrite part_some, app_nil_r in I, S by assumption. pose proof (gw_words g0 G0) as F. pose proof (gw_nonempty g0 G0 Z0) as Ne.
    apply char_word in I as (w & J & D); [|discriminate].
    destruct (gw g0) as [|v vs]; [now destruct Ne|]. rewrite words_join in J by exact S.
    rewrite Forall_forall in F. apply F in J as (_ & _ & A & _). now apply A.
Qed.

(** ** The rules of cardinal.py:70-103 *)
Lemma vsigma_copy x y w : denote VSIGMA x y w -> y = x /\ w = 0%Z.
Proof.
  unfold VSIGMA. cbn [denote]. induction 1 as [|x y w x' y' w' H S (-> & ->)]; [auto|]. destruct H as (c & -> & -> & _ & ->). auto.
Qed.
Lemma vsigma_i x : forallb vchar x = true -> denote VSIGMA x x 0%Z.
Proof.
  unfold VSIGMA. cbn [denote]. induction x as [|c x IH]; intro V; [constructor|]. cbn [forallb] in V. apply andb_true_iff in V as (Vc & V).
  apply (star_app _ [c] [c] 0%Z x x 0%Z); [|now apply IH]. exists c. auto.
Qed.
Lemma nonzero_class x y w : denote EnTnModel.nonzero x y w <-> exists c, x = [c] /\ y = [c] /\ w = 0%Z /\ nz c.
Proof.
  unfold EnTnModel.nonzero, EnTnModel.digit_but. cbn [denote existsb]. unfold nz, is_digit, in_range. split.
  - intros (c & -> & -> & P & ->). exists c. rewrite orb_false_r in P. apply andb_true_iff in P as (P & Q). apply andb_true_iff in P as (A & B).
    apply N.leb_le in A, B. apply negb_true_iff, N.eqb_neq in Q. repeat split; lia.
  - intros (c & -> & -> & -> & A & B). exists c. split; [reflexivity|]. split; [reflexivity|]. split; [|reflexivity].
    rewrite orb_false_r. apply andb_true_iff. split; [apply andb_true_iff; split; apply N.leb_le; lia|]. apply negb_true_iff, N.eqb_neq. lia.
Qed.
Lemma nonzero_three x y w : denote (EnTnModel.nonzero ** 3)%fst x y w ->
  exists a b c, x = [a; b; c] /\ y = x /\ w = 0%Z /\ nz a /\ nz b /\ nz c.
Proof.
  cbn [power]. intro H. apply cat_inv in H as (x1 & y1 & w1 & x2 & y2 & w2 & -> & -> & -> & H1 & H2).
  apply cat_inv in H2 as (x3 & y3 & w3 & x4 & y4 & w4 & -> & -> & -> & H3 & H4).
  apply nonzero_class in H1 as (a & -> & -> & -> & A), H3 as (b & -> & -> & -> & B), H4 as (c & -> & -> & -> & C).
  exists a, b, c. auto 10.
Qed.
Lemma digits_copy x y w : denote (Star DIGIT) x y w -> y = x /\ Forall digit_char x.
Proof.
  cbn [denote]. induction 1 as [|a b v a' b' v' H S (-> & F)]; [auto|]. apply digit_class in H as (c & -> & -> & _ & C).
  split; [reflexivity|]. now constructor.
Qed.
Section Number.
Variables (n : N) (y0 : text).
Hypothesis (Y : number_words n y0).
(** [t] is a way to write [n], and [y0] its name. *)
Definition reads_as (t : text) : Prop := written t n /\ just EnTnModel.Cardinal.graph t y0.
Lemma optional_hundred_cases t z w : reads_as t -> denote EnTnModel.Cardinal.optional_hundred t z w ->
  w = 0%Z /\ ~ In 97%N z /\ ~ (n < 100 \/ n mod 100 = 0 \/ 1000 <= n)%N.
Proof.
  intros (W & J) (m & w1 & w2 & -> & (m' & w3 & w4 & -> & H1 & H2) & H3).
  apply nonzero_three in H1 as (a & b & c & -> & -> & -> & A & B & C). apply J in H2 as (-> & ->).
  destruct (written_groups _ n W) as ((_ & _ & _ & V) & _).
  rewrite nocomma_digits in V by (repeat constructor; unfold nz, digit_char in *; lia).
  unfold decimal_value in V. cbn [fold_left] in V. unfold nz in *.
  assert (V' : n = (100 * (a - 48) + (10 * (b - 48) + (c - 48)))%N) by lia.
  assert (M : (n mod 100 = 10 * (b - 48) + (c - 48))%N).
  { replace n with (10 * (b - 48) + (c - 48) + (a - 48) * 100)%N by lia. rewrite N.mod_add by discriminate. apply N.mod_small. lia. }
  apply cat_inv in H3 as (x1 & y1 & v1 & x2 & y2 & v2 & E & -> & -> & H3 & H4). apply vsigma_copy in H4 as (-> & ->).
  apply cat_inv in H3 as (x3 & y3 & v3 & x4 & y4 & v4 & E2 & -> & -> & H5 & (-> & -> & ->)). apply vsigma_copy in H5 as (-> & ->).
  split; [reflexivity|]. split; [|lia]. intro I. apply (small_no_a n y0 Y); [lia|]. rewrite E, E2, !in_app_iff. rewrite !in_app_iff in I.
  cbn [In] in I. tauto.
Qed.
Definition case0 (z : text) (w : Z) : Prop :=
  z = y0 /\ w = 1%Z \/ denote EnTnModel.Cardinal.integer_and y0 z w \/
  w = 0%Z /\ ~ In 97%N z /\ ~ (n < 100 \/ n mod 100 = 0 \/ 1000 <= n)%N \/ (10 <= w)%Z /\ ~ In 97%N z.
Lemma with_and_cases t z w : reads_as t -> denote EnTnModel.Cardinal.graph_with_and t z w ->
  z = y0 /\ w = 1%Z \/ denote EnTnModel.Cardinal.integer_and y0 z w \/
  w = 0%Z /\ ~ In 97%N z /\ ~ (n < 100 \/ n mod 100 = 0 \/ 1000 <= n)%N.
Proof.
  intros R [[(v & -> & H)|(m & w1 & w2 & -> & H & K)]|H].
  - apply R in H as (-> & ->). auto.
  - apply R in H as (-> & ->). auto.
  - right. right. now apply (optional_hundred_cases t).
Qed.
Lemma no_graph_nil z w : ~ denote EnTnModel.Cardinal.graph_with_and [] z w.
Proof.
  assert (G : forall z w, ~ denote EnTnModel.Cardinal.graph [] z w).
  { intros z' w' (m & w1 & w2 & _ & H & _). apply cat_inv in H as (x1 & y1 & v1 & x2 & y2 & v2 & E & _ & _ & H & _).
    symmetry in E. apply app_eq_nil in E as (-> & _). apply cat_inv in H as (x3 & y3 & v3 & x4 & y4 & v4 & E & _ & _ & H & _).
    symmetry in E. apply app_eq_nil in E as (-> & _). apply digit_class in H as (c & E & _). discriminate. }
  intros [[(v & _ & H)|(m & w1 & w2 & _ & H & _)]|(m & w1 & w2 & _ & (m' & w3 & w4 & _ & H1 & H) & _)]; try (now apply G in H).
  apply nonzero_three in H1 as (a & b & c & E & _). discriminate.
Qed.
Lemma final0_cases t z w : reads_as t -> denote EnTnModel.Cardinal.final0 t z w -> case0 z w.
Proof.
  intros R [[[H|(v & -> & H)]|(v & -> & H)]|H].
  - apply (with_and_cases t _ _ R) in H. unfold case0. tauto.
  - apply quiet_sound in H as (A & B); [|vm_compute; reflexivity]. right. right. right. split; [lia|exact A].
  - apply quiet_sound in H as (A & B); [|vm_compute; reflexivity]. right. right. right. split; [lia|exact A].
  - exfalso. apply cat_inv in H as (x1 & y1 & w1 & x2 & y2 & w2 & E & _ & _ & H & (m & w3 & w4 & _ & D & K)).
    apply digits_copy in D as (-> & F).
    apply cat_inv in H as (x3 & y3 & w5 & x4 & y4 & w6 & -> & _ & _ & (m & w7 & w8 & _ & P & _) & (-> & _)).
    rewrite app_nil_r in E. apply cat_inv in P as (x5 & y5 & w9 & x6 & y6 & w10 & -> & _ & _ & (-> & _) & P).
    assert (F6 : Forall digit_char x6).
    { clear -P. cbn [denote] in P. induction P as [|a b v a' b' v' H S IH]; [constructor|]. destruct H as (-> & _).
      apply Forall_app. split; [|exact IH]. constructor; [vm_compute; split; discriminate|constructor]. }
    destruct R as (W & _). destruct (written_groups t n W) as ((_ & _ & Hd & _) & _).
    rewrite nocomma_digits in Hd.
    + rewrite E in Hd. cbn in Hd. specialize (Hd eq_refl). injection Hd as Hd. apply app_eq_nil in Hd as (_ & ->).
      now apply no_graph_nil in K.
    + rewrite E. apply Forall_app. split; [|exact F]. constructor; [vm_compute; split; discriminate|exact F6].
Qed.
Lemma one_to_a_cases y z w : denote (EnTnModel.Cardinal.one_to_a + VSIGMA)%fst y z w ->
  w = 10%Z \/ w = (-10)%Z /\ exists r, y = u "one thousand" ++ r /\ z = THOUSAND ++ r.
Proof.
  intro H. apply cat_inv in H as (x1 & y1 & w1 & x2 & y2 & w2 & -> & -> & -> & H & S). apply vsigma_copy in S as (-> & ->).
  destruct H as [[(v & -> & (-> & -> & ->))|(v & -> & (-> & -> & ->))]|(v & -> & (-> & -> & ->))]; [now left| |now left].
  right. split; [reflexivity|]. now exists x2.
Qed.
Definition case1 (z : text) (w : Z) : Prop :=
  case0 z w \/ (exists z' w', case0 z' w' /\ w = (w' + 10)%Z) \/
  (exists r w', case0 (u "one thousand" ++ r) w' /\ z = THOUSAND ++ r /\ w = (w' - 10)%Z).
Lemma final1_cases t z w : reads_as t -> denote EnTnModel.Cardinal.final1 t z w -> case1 z w.
Proof.
  intros R [H|(m & w1 & w2 & -> & H & K)]; [left; now apply (final0_cases t)|].
  apply (final0_cases t _ _ R) in H. apply one_to_a_cases in K as [->|(-> & r & -> & ->)].
  - right. left. eauto.
  - right. right. exists r, w1. auto.
Qed.
Lemma final_cases t z w : reads_as t -> (forall t', decimal t' n -> reads_as t') ->
  denote EnTnModel.Cardinal.final_graph t z w -> case1 z w.
Proof.
  intros R D [H|(m & w1 & w2 & -> & H & K)]; [now apply (final1_cases t)|].
  assert (X : w1 = 0%Z /\ m = nocomma t /\ Forall digit_char m).
  { assert (Q : drops EnTnModel.Cardinal.four_digit_comma).
    { apply drops_cat; [apply drops_cat; [|apply drops_comma]|apply drops_power].
      intros x y w H'. apply nonzero_class in H' as (c & -> & -> & -> & C). unfold nz in C.
      assert (F : Forall digit_char [c]) by (constructor; [unfold digit_char; lia|constructor]). now rewrite nocomma_digits. }
    exact (Q _ _ _ H). }
  destruct X as (-> & -> & _). cbn [Z.add]. apply (final1_cases (nocomma t)); [|exact K]. apply D. now apply written_groups, R.
Qed.
Lemma no_thousand r z : z = u "one thousand" ++ r -> In 97%N z.
Proof. intros ->. apply in_app_iff. left. vm_compute. auto 20. Qed.
Lemma starts_with_dec (p z : text) : (exists r, z = p ++ r) \/ (forall r, z <> p ++ r).
Proof.
  destruct (strip p z) as [r|] eqn:E; [left; exists r; now apply strip_spec|]. right. intros r C. apply strip_spec in C. congruence.
Qed.
Lemma numwords_valid z : Forall numword (words z) -> forallb vchar z = true.
Proof.
  intro F. apply low_valid. apply Forall_forall. intros c I. destruct (N.eq_dec c 32) as [->|D]; [now left|]. right.
  apply char_word in I as (w & J & K); [|exact D]. rewrite Forall_forall in F. apply F in J as [(_ & P & _)|[B| ->]].
  - rewrite Forall_forall in P. now apply P.
  - destruct B as [<-|[<-|[<-|[<-|[]]]]]; vm_compute in K; intuition (subst; lia).
  - vm_compute in K. intuition (subst; lia).
Qed.
Lemma bare_i t z w r : denote EnTnModel.Cardinal.final0 t z w -> Forall numword (words z) -> z = u "one thousand" ++ r ->
  denote EnTnModel.Cardinal.final_graph t (THOUSAND ++ r) (w - 10)%Z.
Proof.
  intros H F E. left. right. apply (compose_i _ _ _ z _ w (-10)%Z); [exact H|]. rewrite E.
  apply (cat_i _ _ _ _ (-10)%Z r r 0%Z).
  - left. right. exists 0%Z. split; [reflexivity|]. cbn. auto.
  - apply vsigma_i. apply numwords_valid in F. rewrite E, forallb_app in F. now apply andb_true_iff in F as (_ & F).
Qed.
Hypothesis (L : (n < 10 ^ 11)%N).
Lemma cheapest_number t : reads_as t -> (forall t', decimal t' n -> reads_as t') ->
  exists y, english_value y = Some n /\ (forall r, y <> u "one thousand" ++ r) /\ cheapest (denote EnTnModel.Cardinal.final_graph) t y.
Proof.
  intros R D. pose proof (number_words_value n y0 Y) as V0. pose proof (number_numwords n y0 Y L) as F0.
  assert (C0 : denote EnTnModel.Cardinal.final0 t y0 1%Z).
  { do 3 left. left. left. exists 0%Z. split; [reflexivity|]. now apply R. }
  destruct (and_all n y0 Y L) as [(z & Vz & Fz & A)|(A & Sm)].
  - assert (Cz : denote EnTnModel.Cardinal.final0 t z (-10)%Z).
    { do 3 left. left. right. exists y0, 0%Z, (-10)%Z. split; [reflexivity|]. split; [now apply R|now apply A]. }
    destruct (starts_with_dec (u "one thousand") z) as [(r & E)|Nz].
    + exists (THOUSAND ++ r). split; [now apply (one_thousand_value z r n Fz E)|]. split; [discriminate|].
      exists (-20)%Z. split; [exact (bare_i t z (-10)%Z r Cz Fz E)|]. intros x v H. apply (final_cases t x v R D) in H.
      destruct H as [H|[(x' & v' & H & ->)|(r' & v' & H & -> & ->)]].
      * destruct H as [(_ & ->)|[H|[(-> & _)|(H & _)]]]; [|apply A in H as (_ & ->)| |]; split; lia.
      * destruct H as [(_ & ->)|[H|[(-> & _)|(H & _)]]]; [|apply A in H as (_ & ->)| |]; split; lia.
      * destruct H as [(_ & ->)|[H|[(_ & H & _)|(_ & H)]]]; [split; lia| |exfalso; apply H; now apply (no_thousand r')|exfalso; apply H; now apply (no_thousand r')].
        apply A in H as (H & ->). split; [lia|]. intros _. rewrite E in H. apply app_inv_head in H as ->. reflexivity.
    + exists z. split; [exact Vz|]. split; [exact Nz|]. exists (-10)%Z. split; [left; left; exact Cz|]. intros x v H. apply (final_cases t x v R D) in H.
      destruct H as [H|[(x' & v' & H & ->)|(r' & v' & H & -> & ->)]].
      * destruct H as [(_ & ->)|[H|[(-> & _)|(H & _)]]]; [split; lia|apply A in H as (-> & ->); auto with zarith|split; lia|split; lia].
      * destruct H as [(_ & ->)|[H|[(-> & _)|(H & _)]]]; [|apply A in H as (_ & ->)| |]; split; lia.
      * destruct H as [(_ & ->)|[H|[(_ & H & _)|(_ & H)]]]; [split; lia| |exfalso; apply H; now apply (no_thousand r')|exfalso; apply H; now apply (no_thousand r')].
        apply A in H as (H & _). symmetry in H. now apply Nz in H.
  - destruct (starts_with_dec (u "one thousand") y0) as [(r & E)|Nz].
    + exists (THOUSAND ++ r). split; [now apply (one_thousand_value y0 r n F0 E)|]. split; [discriminate|].
      exists (-9)%Z. split; [exact (bare_i t y0 1%Z r C0 F0 E)|]. intros x v H. apply (final_cases t x v R D) in H.
      destruct H as [H|[(x' & v' & H & ->)|(r' & v' & H & -> & ->)]].
      * destruct H as [(_ & ->)|[H|[(-> & _)|(H & _)]]]; [split; lia|now apply A in H|split; lia|split; lia].
      * destruct H as [(_ & ->)|[H|[(-> & _)|(H & _)]]]; [split; lia|now apply A in H|split; lia|split; lia].
      * destruct H as [(H & ->)|[H|[(_ & H & _)|(_ & H)]]]; [|now apply A in H|exfalso; apply H; now apply (no_thousand r')|exfalso; apply H; now apply (no_thousand r')].
        split; [lia|]. intros _. rewrite E in H. apply app_inv_head in H as ->. reflexivity.
    + exists y0. split; [exact V0|]. split; [exact Nz|]. exists 1%Z. split; [left; left; exact C0|]. intros x v H. apply (final_cases t x v R D) in H.
      destruct H as [H|[(x' & v' & H & ->)|(r' & v' & H & -> & ->)]].
      * destruct H as [(-> & ->)|[H|[(-> & _ & H)|(H & _)]]]; [auto with zarith|now apply A in H|tauto|split; lia].
      * destruct H as [(_ & ->)|[H|[(-> & _ & H)|(H & _)]]]; [split; lia|now apply A in H|tauto|split; lia].
      * destruct H as [(H & ->)|[H|[(_ & H & _)|(_ & H)]]]; [symmetry in H; now apply Nz in H|now apply A in H|exfalso; apply H; now apply (no_thousand r')|exfalso; apply H; now apply (no_thousand r')].
Qed.
End Number.
Lemma same_digits a : forall b, List.length a = List.length b -> Forall digit_char a -> Forall digit_char b ->
  decimal_value a = decimal_value b -> a = b.
Proof.
  induction a as [|c a IH]; intros [|d b] Len Fa Fb V; try discriminate; [reflexivity|]. injection Len as Len.
  change (c :: a) with ([c] ++ a) in V. change (d :: b) with ([d] ++ b) in V. rewrite !value_app, <- Len in V.
  pose proof (value_short a (Forall_inv_tail Fa)) as Ba. pose proof (value_short b (Forall_inv_tail Fb)) as Bb. rewrite <- Len in Bb.
  pose proof (Forall_inv Fa) as Dc. pose proof (Forall_inv Fb) as Dd. unfold digit_char in Dc, Dd.
  change (decimal_value [c]) with (10 * 0 + (c - 48))%N in V. change (decimal_value [d]) with (10 * 0 + (d - 48))%N in V.
  assert (E : (c - 48 = d - 48)%N) by nia. rewrite E in V.
  f_equal; [lia|]. apply IH; [exact Len|exact (Forall_inv_tail Fa)|exact (Forall_inv_tail Fb)|lia].
Qed.
Lemma decimal_unique n a b : decimal a n -> decimal b n -> a = b.
Proof.
  assert (P : forall c d a b, digit_char c -> c <> 48%N -> Forall digit_char (d :: b) -> decimal_value (c :: a) = decimal_value (d :: b) ->
              (List.length a <= List.length b)%nat).
  { intros c d x y Dc Nc F V. pose proof (value_long c x Dc Nc) as A. pose proof (value_short (d :: y) F) as B. rewrite <- V in B. cbn [List.length] in B.
    destruct (le_lt_dec (List.length x) (List.length y)) as [|M]; [assumption|exfalso].
    assert (10 ^ N.of_nat (S (List.length y)) <= 10 ^ N.of_nat (List.length x))%N by (apply N.pow_le_mono_r; lia). lia. }
  intros (Na & Fa & Ha & Va) (Nb & Fb & Hb & Vb). destruct a as [|c a]; [now destruct Na|]. destruct b as [|d b]; [now destruct Nb|].
  cbn [hd] in Ha, Hb. rewrite <- Vb in Va.
  destruct (N.eq_dec c 48) as [->|Dc]; destruct (N.eq_dec d 48) as [->|Dd].
  - now rewrite Ha, Hb.
  - specialize (Ha eq_refl). injection Ha as ->. pose proof (P d 48%N b [] (Forall_inv Fb) Dd Fa (eq_sym Va)) as Le. destruct b; [|cbn in Le; lia].
    apply same_digits; auto.
  - specialize (Hb eq_refl). injection Hb as ->. pose proof (P c 48%N a [] (Forall_inv Fa) Dc Fb Va) as Le. destruct a; [|cbn in Le; lia].
    apply same_digits; auto.
  - apply same_digits; auto. cbn [List.length]. f_equal. apply Nat.le_antisymm.
    + exact (P c d a b (Forall_inv Fa) Dc Fb Va).
    + exact (P d c b a (Forall_inv Fb) Dd Fa (eq_sym Va)).
Qed.
Theorem cheapest_bare t n : written t n -> (n < 10 ^ 11)%N ->
  exists y, english_value y = Some n /\ (forall r, y <> u "one thousand" ++ r) /\ cheapest (denote EnTnModel.Cardinal.final_graph) t y.
Proof.
  intros W L. destruct (written_groups t n W) as (D & J).
  destruct (names_reading (nocomma t) n D ltac:(lia)) as (y0 & Y & K).
  apply (cheapest_number n y0 Y L); [split; [exact W|exact (just_compose _ _ _ _ _ J K)]|].
  intros t' D'. assert (E : t' = nocomma t).
  { now apply (decimal_unique n). }
  subst t'. split; [now left|]. destruct (written_groups (nocomma t) n (or_introl D)) as (_ & J').
  assert (Q : nocomma (nocomma t) = nocomma t) by (apply nocomma_digits; apply D). rewrite Q in J'.
  exact (just_compose _ _ _ _ _ J' K).
Qed.
Theorem cheapest_written t n : written t n -> (n < 10 ^ 11)%N ->
  exists y, english_value y = Some n /\ cheapest (denote EnTnModel.Cardinal.final_graph) t y.
Proof. intros W L. destruct (cheapest_bare t n W L) as (y & V & _ & C). eauto. Qed.
