(** Spoken Japanese numbers: what the inverse normaliser's graph of numbers writes for a sign, a numeral and digits after 点 (C76). *)
From Coq Require Import List NArith ZArith Bool String Lia Arith.
From Verif Require Import Text TextFacts Fst FstFacts FstRun GrammarModel DataJaItn JaItnModel NumeralSpec JaNumeralSpec ZhTnEndSpec EnNumberProofs4 EnNumberProofs5 Apart JaApart JaHead ZhNumberProofs ZhNumberProofs2 JaNumber JaNumber2 JaSpoken JaSpoken2 JaSpoken3.
Import ListNotations.
Local Open Scope list_scope.
Local Open Scope fst_scope.

Definition among (l : text) (c : N) : bool := existsb (N.eqb c) l.
Lemma among_in l c : among l c = true <-> In c l.
Proof. unfold among. rewrite existsb_exists. split; [intros (d & I & E); apply N.eqb_eq in E; now subst|intro I; exists c; split; [exact I|apply N.eqb_refl]]. Qed.
(** The characters of signs, of numerals, and all together. *)
Definition sign_chars : text := Eval vm_compute in u "プラスマイナ".
Definition num_chars : text := Eval vm_compute in u "〇一二三四五六七八九十百千万".
Definition sp_chars : text := Eval vm_compute in sign_chars ++ num_chars ++ u "点".
Definition known (c : N) : bool := among sp_chars c.
Lemma known_valid c : known c = true -> vchar c = true.
Proof. intro H. apply among_in in H. assert (A : forallb vchar sp_chars = true) by (vm_compute; reflexivity). rewrite forallb_forall in A. exact (A c H). Qed.

(** ** Digits one by one *)
Lemma digit_word_one c : digit_char c -> ja_digit_word c = [if (c =? 48)%N then 12295%N else dw c].
Proof. intro D. assert (C : (c = 48 \/ c = 49 \/ c = 50 \/ c = 51 \/ c = 52 \/ c = 53 \/ c = 54 \/ c = 55 \/ c = 56 \/ c = 57)%N) by (unfold digit_char in D; lia). repeat destruct C as [->|C]; try subst c; vm_compute; reflexivity. Qed.
Lemma digits_one c : digit_char c -> denote Cardinal.digits (ja_digit_word c) [c] 0%Z.
Proof.
  intro D. rewrite (digit_word_one c D). destruct (N.eqb_spec c 48) as [->|N]; [left; vm_compute; tauto|right]. apply itn_digit. exists c. split; [|auto]. unfold nz, digit_char in *. lia.
Qed.
Lemma digits_known x y w : forallb known x = true -> denote Cardinal.digits x y w -> w = 0%Z /\ exists c, digit_char c /\ x = ja_digit_word c /\ y = [c].
Proof.
  intros K [(I & ->)|H].
  - split; [reflexivity|]. exists 48%N. split; [exact zero_digit|]. vm_compute in I. repeat destruct I as [I|I]; try contradiction; injection I as <- <-; try (vm_compute in K; discriminate K); split; reflexivity.
  - apply itn_digit in H as (c & C & -> & -> & ->). split; [reflexivity|]. exists c. split; [now apply nz_digit|]. split; [|reflexivity]. rewrite (digit_word_one c (nz_digit c C)). destruct (N.eqb_spec c 48) as [->|]; [unfold nz in C; lia|reflexivity].
Qed.
Lemma digit_word_inj a b : digit_char a -> digit_char b -> hd 0%N (ja_digit_word a) = hd 0%N (ja_digit_word b) -> a = b.
Proof.
  intros A B. assert (C : forall c, digit_char c -> (c = 48 \/ c = 49 \/ c = 50 \/ c = 51 \/ c = 52 \/ c = 53 \/ c = 54 \/ c = 55 \/ c = 56 \/ c = 57)%N) by (intros c D; unfold digit_char in D; lia).
  apply C in A. apply C in B. clear C. repeat destruct A as [->|A]; try subst a; repeat destruct B as [->|B]; try subst b; vm_compute; congruence.
Qed.
Lemma words_inj f g : Forall digit_char f -> Forall digit_char g -> flat_map ja_digit_word f = flat_map ja_digit_word g -> f = g.
Proof.
  intros F. revert g. induction F as [|c f D F IH]; intros g G E; destruct G as [|c' g D' G]; cbn [flat_map] in E; try reflexivity.
  - rewrite (digit_word_one c' D') in E. discriminate E.
  - rewrite (digit_word_one c D) in E. discriminate E.
  - rewrite (digit_word_one c D), (digit_word_one c' D') in E. cbn [app] in E. injection E as E1 E2. rewrite (IH g G E2). f_equal. apply digit_word_inj; [exact D|exact D'|]. rewrite (digit_word_one c D), (digit_word_one c' D'). exact E1.
Qed.
Lemma star_words x y w : star (denote Cardinal.digits) x y w -> forallb known x = true -> w = 0%Z /\ exists f, Forall digit_char f /\ x = flat_map ja_digit_word f /\ y = f.
Proof.
  induction 1 as [|x1 y1 w1 x2 y2 w2 H _ IH]; intro K; [split; [reflexivity|]; exists []; auto|]. rewrite forallb_app in K. apply andb_true_iff in K as (K1 & K2). destruct (IH K2) as (-> & f & F & -> & ->). destruct (digits_known _ _ _ K1 H) as (-> & c & D & -> & ->). split; [reflexivity|]. exists (c :: f). auto.
Qed.
Lemma plus_words x y w : denote (plus Cardinal.digits) x y w -> forallb known x = true -> w = 0%Z /\ exists f, Forall digit_char f /\ f <> [] /\ x = flat_map ja_digit_word f /\ y = f.
Proof.
  intros H K. apply cat_inv in H as (x1 & y1 & w1 & x2 & y2 & w2 & -> & -> & -> & H & G). rewrite forallb_app in K. apply andb_true_iff in K as (K1 & K2). destruct (star_words _ _ _ G K2) as (-> & f & F & -> & ->). destruct (digits_known _ _ _ K1 H) as (-> & c & D & -> & ->). split; [reflexivity|]. exists (c :: f). repeat split; auto. discriminate.
Qed.
Lemma star_i f : Forall digit_char f -> star (denote Cardinal.digits) (flat_map ja_digit_word f) f 0%Z.
Proof. induction 1 as [|c f D F IH]; [constructor|]. cbn [flat_map]. change (c :: f) with ([c] ++ f). change 0%Z with (0 + 0)%Z. constructor; [now apply digits_one|exact IH]. Qed.
Lemma plus_i f : Forall digit_char f -> f <> [] -> denote (plus Cardinal.digits) (flat_map ja_digit_word f) f 0%Z.
Proof. intros F N. destruct F as [|c f D F]; [congruence|]. cbn [flat_map]. change (c :: f) with ([c] ++ f). change 0%Z with (0 + 0)%Z. apply cat_i; [now apply digits_one|exact (star_i f F)]. Qed.

(** ** The sign *)
Definition signs (c : N) : bool := among sign_chars c.
Definition nums (c : N) : bool := among num_chars c.
Lemma sign_cases s sw : ja_sign_words s = Some sw -> s = [] /\ sw = [] \/ s = u "+" /\ sw = u "プラス" \/ s = u "-" /\ sw = u "マイナス" \/ s = u "±" /\ sw = u "プラスマイナス".
Proof.
  unfold ja_sign_words. intro E. destruct (text_eqb_spec s []) as [->|]; [injection E as <-; auto|]. destruct (text_eqb_spec s (u "+")) as [->|]; [injection E as <-; auto|].
  destruct (text_eqb_spec s (u "-")) as [->|]; [injection E as <-; auto|]. destruct (text_eqb_spec s (u "±")) as [->|]; [injection E as <-; auto 6|discriminate E].
Qed.
Lemma sign_signs s sw : ja_sign_words s = Some sw -> forallb signs sw = true.
Proof. intro E. apply sign_cases in E as [(_ & ->)|[(_ & ->)|[(_ & ->)|(_ & ->)]]]; vm_compute; reflexivity. Qed.
Lemma sign_just s sw : ja_sign_words s = Some sw -> just (ques Cardinal.sign) sw s.
Proof.
  intros E z w. split.
  - intros [(I & ->)|(-> & -> & ->)].
    + split; [|reflexivity]. vm_compute in I. apply sign_cases in E as [(-> & ->)|[(-> & ->)|[(-> & ->)|(-> & ->)]]]; repeat destruct I as [I|I]; try contradiction; try discriminate I; injection I as <-; reflexivity.
    + split; [|reflexivity]. apply sign_cases in E as [(-> & _)|[(_ & E)|[(_ & E)|(_ & E)]]]; [reflexivity|discriminate E..].
  - intros (-> & ->). apply sign_cases in E as [(-> & ->)|[(-> & ->)|[(-> & ->)|(-> & ->)]]]; [right; cbn; auto|left; vm_compute; tauto..].
Qed.
Lemma sign_only x y w : forallb known x = true -> denote (ques Cardinal.sign) x y w -> forallb signs x = true.
Proof. apply confined_sound; [exact known_valid|]. vm_compute. reflexivity. Qed.
Lemma int_only m x y w : forallb known x = true -> denote (Cardinal.positive_integer m) x y w -> forallb nums x = true.
Proof. apply confined_sound; [exact known_valid|]. destruct m; vm_compute; reflexivity. Qed.
Lemma int_some m x y w : denote (Cardinal.positive_integer m) x y w -> x <> [].
Proof. intros H ->. revert H. apply (proj1 (FstEval.eats_sound (Cardinal.positive_integer m))). destruct m; vm_compute; reflexivity. Qed.
Definition num_ok (c : N) : bool := known c && (negb (signs c) && negb (c =? 28857)%N).
Lemma nums_ok : forallb num_ok num_chars = true. Proof. vm_compute. reflexivity. Qed.
Lemma nums_known c : nums c = true -> known c = true /\ signs c = false /\ (c =? 28857)%N = false.
Proof.
  intro H. assert (I : In c num_chars) by (apply among_in; exact H). pose proof (proj1 (forallb_forall num_ok num_chars) nums_ok c I) as A. unfold num_ok in A.
  apply andb_true_iff in A as (A & B). apply andb_true_iff in B as (B & C). apply negb_true_iff in B. apply negb_true_iff in C. split; [exact A|]. split; [exact B|exact C].
Qed.
Lemma dot_just x y w : denote Cardinal.dot x y w <-> x = u "点" /\ y = u "." /\ w = 0%Z.
Proof.
  split; [intros (I & ->); vm_compute in I; destruct I as [I|[]]; injection I as <- <-; auto|intros (-> & -> & ->); vm_compute; auto].
Qed.
(** ** The characters of a numeral *)
Lemma word_nums s0 c s1 : lookup ja_big_words c = None -> ja_word s0 c = Some s1 -> nums c = true.
Proof.
  intros L E. destruct s0 as [D S g U B]. unfold ja_word in E. destruct (lookup ja_digit_words c) as [d|] eqn:L1.
  - apply lookup_in in L1 as (k & I & K). vm_compute in I. repeat destruct I as [I|I]; try contradiction; injection I as <- <-; vm_compute in K; injection K as ->; vm_compute; reflexivity.
  - destruct (lookup ja_unit_words c) as [d|] eqn:L2; [|rewrite L in E; discriminate E].
    apply lookup_in in L2 as (k & I & K). vm_compute in I. repeat destruct I as [I|I]; try contradiction; injection I as <- <-; vm_compute in K; injection K as ->; vm_compute; reflexivity.
Qed.
Lemma smaller_nums x : forall s0 s, smaller x -> ja_words s0 x = Some s -> forallb nums x = true.
Proof.
  induction x as [|c x IH]; intros s0 s Sm J; [reflexivity|]. cbn [ja_words] in J. destruct (ja_word s0 c) as [s1|] eqn:E; [|discriminate J]. cbn [forallb]. rewrite (word_nums _ _ _ (Forall_inv Sm) E). exact (IH _ _ (Forall_inv_tail Sm) J).
Qed.
Lemma reads_nums U x : reads U x -> forallb nums x = true.
Proof. intros (Sm & D & S & B & s & J). exact (smaller_nums x _ _ Sm J). Qed.
Lemma value_nums m n : japanese_value m = Some n -> (n < 100000000)%N -> forallb nums m = true /\ m <> [].
Proof.
  unfold japanese_value. destruct (text_eqb_spec m (u "〇")) as [->|_]; [intros _ _; split; [vm_compute; reflexivity|discriminate]|]. destruct (ja_words jr_start m) as [s|] eqn:J; [|discriminate]. cbv zeta. intros V L. destruct (0 <? _)%N eqn:P; [|discriminate V]. injection V as <-. apply N.ltb_lt in P. split.
  - destruct (numeral_split m s J L) as [R|(p & q & -> & _ & R1 & R2)]; [exact (reads_nums _ _ R)|]. rewrite !forallb_app, (reads_nums _ _ R1), (reads_nums _ _ R2). vm_compute. reflexivity.
  - intros ->. cbn in J. injection J as <-. cbn in P. lia.
Qed.
Lemma all_sub (p q : N -> bool) x : (forall c, p c = true -> q c = true) -> forallb p x = true -> forallb q x = true.
Proof. intros H K. rewrite forallb_forall in *. auto. Qed.

(** ** The whole number and its value *)
Lemma zero_reads M : forall z w, denote (Cardinal.positive_integer M) (u "〇") z w <-> z = u "0" /\ w = 0%Z.
Proof.
  intros z w. change (u "0") with [48%N]. assert (S : simple (Cardinal.positive_integer M) = true) by (destruct M; vm_compute; reflexivity). rewrite (outs_all _ S). destruct M; (match goal with |- In _ ?l <-> _ => let l' := eval vm_compute in l in assert (E : l = l') by (vm_compute; reflexivity); rewrite E end); cbn [In]; split.
  - intuition congruence.
  - intros (-> & ->). auto.
  - intuition congruence.
  - intros (-> & ->). auto.
Qed.
Lemma int_reads M m n : japanese_value m = Some n -> (n < 100000000)%N -> (M = true \/ n < 1000000)%N -> ~ one_ten m -> exists d, decimal d n /\ just (Cardinal.positive_integer M) m d.
Proof.
  unfold japanese_value. destruct (text_eqb_spec m (u "〇")) as [->|_].
  - intros [= <-] _ _ _. exists (u "0"). split; [|intros z w; apply zero_reads]. split; [discriminate|]. split; [constructor; [exact zero_digit|constructor]|]. split; reflexivity.
  - destruct (ja_words jr_start m) as [s|] eqn:J; [|discriminate]. cbv zeta. intros V L Mi O. destruct (0 <? _)%N eqn:P; [|discriminate V]. injection V as <-. apply N.ltb_lt in P. fold (amounts s) in *.
    destruct (integer_read M m s J (conj P L) Mi O) as (d & H). pose proof (integer_sound M m d _ s H J Mi) as (_ & D). exists d. split; [exact D|]. intros z w. split.
    + intro K. destruct (integer_sound M m z w s K J Mi) as (-> & D'). split; [exact (decimal_unique _ _ _ D' D)|reflexivity].
    + intros (-> & ->). exact H.
Qed.
(** A numeral that is digits one by one is one digit. *)
Lemma one_digit m n g : japanese_value m = Some n -> Forall digit_char g -> g <> [] -> m = flat_map ja_digit_word g -> exists c, g = [c].
Proof.
  intros V G N E. destruct G as [|c g D G]; [congruence|]. exists c. f_equal. destruct G as [|c' g D' G]; [reflexivity|exfalso]. cbn [flat_map] in E. rewrite (digit_word_one c D), (digit_word_one c' D') in E. cbn [app] in E. subst m.
  unfold japanese_value in V. match type of V with (if text_eqb ?a ?b then _ else _) = _ => destruct (text_eqb_spec a b) as [E|_]; [discriminate E|] end. destruct (N.eqb_spec c 48) as [->|Nc]; [vm_compute in V; discriminate V|].
  unfold jr_start in V. rewrite digit_step in V by (unfold nz, digit_char in *; lia). destruct (N.eqb_spec c' 48) as [->|Nc']; [vm_compute in V; discriminate V|]. rewrite digit_twice in V by (unfold nz, digit_char in *; lia). discriminate V.
Qed.
Definition dotted (x : text) : Prop := x = [] \/ exists r, x = u "点" ++ r.
Lemma cut3 a b c a' b' c' : forallb signs a = true -> forallb nums b = true -> b <> [] -> dotted c -> forallb signs a' = true -> forallb nums b' = true -> b' <> [] -> dotted c' -> a ++ b ++ c = a' ++ b' ++ c' -> a = a' /\ b = b' /\ c = c'.
Proof.
  intros A B Nb C A' B' Nb' C' E. assert (H : forall b c, forallb nums b = true -> b <> [] -> (match b ++ c with c0 :: _ => signs c0 | [] => false end) = false).
  { intros [|c0 b0] c0' F N; [congruence|]. cbn [app forallb] in *. apply andb_true_iff in F as (F & _). exact (proj1 (proj2 (nums_known _ F))). }
  destruct (split_unique signs a a' (b ++ c) (b' ++ c') A A' (H _ _ B Nb) (H _ _ B' Nb') E) as (-> & E'). split; [reflexivity|].
  assert (H' : forall c, dotted c -> (match c with c0 :: _ => nums c0 | [] => false end) = false) by (intros c0 [->|(r & ->)]; vm_compute; reflexivity).
  exact (split_unique nums b b' c c' B B' (H' _ C) (H' _ C') E').
Qed.
Lemma words_nums g : Forall digit_char g -> forallb nums (flat_map ja_digit_word g) = true.
Proof.
  induction 1 as [|c g D G IH]; [reflexivity|]. cbn [flat_map]. rewrite forallb_app, IH, andb_true_r. assert (C : (c = 48 \/ c = 49 \/ c = 50 \/ c = 51 \/ c = 52 \/ c = 53 \/ c = 54 \/ c = 55 \/ c = 56 \/ c = 57)%N) by (unfold digit_char in D; lia). repeat destruct C as [->|C]; try subst c; vm_compute; reflexivity.
Qed.
Lemma words_some g : Forall digit_char g -> g <> [] -> flat_map ja_digit_word g <> [].
Proof. intros G N. destruct G as [|c g D G]; [congruence|]. cbn [flat_map]. rewrite (digit_word_one c D). discriminate. Qed.

(** ** The graph *)
Section Graph.
Variables (M : bool) (s sw m d f : text) (n : N).
Hypothesis Sg : ja_sign_words s = Some sw.
Hypothesis V : japanese_value m = Some n.
Hypothesis L : (n < 100000000)%N.
Hypothesis F : Forall digit_char f.
Hypothesis J : just (Cardinal.positive_integer M) m d.
Let x := sw ++ m ++ ja_point_words f.
Let y := numeral s d f.
Lemma gk : forallb known x = true.
Proof.
  unfold x. rewrite !forallb_app, !andb_true_iff. split; [|split].
  - apply (all_sub signs); [|exact (sign_signs s sw Sg)]. intros c H. apply among_in in H. apply among_in. unfold sp_chars. cbn [In sign_chars] in *. intuition.
  - apply (all_sub nums); [|exact (proj1 (value_nums m n V L))]. intros c H. exact (proj1 (nums_known c H)).
  - destruct F as [|c g D G]; [reflexivity|]. unfold ja_point_words. rewrite forallb_app, andb_true_iff. split; [vm_compute; reflexivity|]. apply (all_sub nums); [intros c' H; exact (proj1 (nums_known c' H))|]. apply words_nums. now constructor.
Qed.
Lemma gdot : dotted (ja_point_words f). Proof. destruct f as [|c g]; [now left|right]. eexists. reflexivity. Qed.
Lemma gcut a b c : x = a ++ b ++ c -> forallb signs a = true -> forallb nums b = true -> b <> [] -> dotted c -> a = sw /\ b = m /\ c = ja_point_words f.
Proof. intros E A B N C. destruct (value_nums m n V L) as (Vn & Vs). destruct (cut3 _ _ _ _ _ _ A B N C (sign_signs _ _ Sg) Vn Vs gdot (eq_sym E)) as (-> & -> & ->). auto. Qed.
Lemma one_digit_d g : Forall digit_char g -> g <> [] -> m = flat_map ja_digit_word g -> g = d /\ List.length g = 1%nat.
Proof.
  intros G N E. destruct (one_digit m n g V G N E) as (c & ->). split; [|reflexivity]. pose proof (Forall_inv G) as D. apply (J [c] 0%Z). left. do 4 left. rewrite E. cbn [flat_map]. rewrite app_nil_r. now apply digits_one.
Qed.
Lemma sub_known a b c : x = a ++ b ++ c -> forallb known a = true /\ forallb known b = true /\ forallb known c = true.
Proof. intro E. pose proof gk as K. rewrite E, !forallb_app, !andb_true_iff in K. tauto. Qed.
Lemma number_reads z w : denote (Cardinal.number M) x z w <-> f = [] /\ z = y /\ w = 0%Z.
Proof.
  split.
  - intro H. apply cat_inv in H as (x1 & y1 & w1 & x2 & y2 & w2 & E & -> & -> & H1 & H2). assert (E' : x = x1 ++ x2 ++ []) by now rewrite app_nil_r. destruct (sub_known _ _ _ E') as (K1 & K2 & _).
    destruct (gcut _ _ _ E' (sign_only _ _ _ K1 H1) (int_only _ _ _ _ K2 H2) (int_some _ _ _ _ H2) (or_introl eq_refl)) as (-> & -> & Ef). apply (sign_just s sw Sg) in H1 as (-> & ->). apply J in H2 as (-> & ->).
    assert (f = []) as -> by (destruct f as [|c g]; [reflexivity|discriminate Ef]). unfold y, numeral. rewrite app_nil_r. auto.
  - intros (E & -> & ->). unfold x, y, numeral. rewrite E. cbn [ja_point_words]. rewrite !app_nil_r. change 0%Z with (0 + 0)%Z. apply cat_i; [now apply (sign_just s sw Sg)|now apply J].
Qed.
Lemma decimal_reads z w : denote (Cardinal.decimal M) x z w <-> f <> [] /\ z = y /\ w = 0%Z.
Proof.
  split.
  - intro H. apply cat_inv in H as (x1 & y1 & w1 & x4 & y4 & w4 & E & -> & -> & H & H4). apply cat_inv in H as (x2 & y2 & w2 & x3 & y3 & w3 & -> & -> & -> & H & H3). apply dot_just in H3 as (-> & -> & ->). apply cat_inv in H as (xa & ya & wa & xb & yb & wb & -> & -> & -> & Ha & Hb).
    assert (E' : x = xa ++ xb ++ (u "点" ++ x4)) by now rewrite E, <- !app_assoc. destruct (sub_known _ _ _ E') as (K1 & K2 & K3). rewrite forallb_app, andb_true_iff in K3.
    destruct (plus_words _ _ _ H4 (proj2 K3)) as (-> & g & G & Ng & -> & ->).
    destruct (gcut _ _ _ E' (sign_only _ _ _ K1 Ha) (int_only _ _ _ _ K2 Hb) (int_some _ _ _ _ Hb) (or_intror (ex_intro _ _ eq_refl))) as (-> & -> & Ef). apply (sign_just s sw Sg) in Ha as (-> & ->). apply J in Hb as (-> & ->).
    unfold y, numeral. destruct F as [|c f' Dc F']; [discriminate Ef|]. split; [discriminate|]. split; [|reflexivity]. unfold ja_point_words in Ef. apply app_inv_head in Ef. rewrite (words_inj _ _ G (Forall_cons _ Dc F') Ef). now rewrite <- !app_assoc.
  - intros (N & -> & ->). unfold x, y, numeral. destruct f as [|c g] eqn:Ef; [congruence|]. rewrite <- Ef in *. unfold ja_point_words. rewrite Ef at 1. rewrite !app_assoc. change 0%Z with (0 + 0 + 0 + 0)%Z. apply cat_i; [|now apply plus_i]. apply cat_i; [|now apply dot_just]. apply cat_i; [now apply (sign_just s sw Sg)|now apply J].
Qed.
Lemma digit_plus a b w : denote (plus Cardinal.digit) a b w -> denote (plus Cardinal.digits) a b w.
Proof.
  intro H. apply cat_inv in H as (x1 & y1 & w1 & x2 & y2 & w2 & -> & -> & -> & H & G). apply cat_i; [now right|]. cbn [denote] in *. clear H. induction G as [|x3 y3 w3 x4 y4 w4 H _ IH]; [constructor|]. constructor; [now right|exact IH].
Qed.
Lemma points_reads z w : denote (plus Cardinal.digit + plus (Cardinal.dot + plus Cardinal.digits)) x z w -> z = y /\ w = 0%Z.
Proof.
  intro H. apply cat_inv in H as (x1 & y1 & w1 & x2 & y2 & w2 & E & -> & -> & H1 & H2). apply digit_plus in H1. apply cat_inv in H2 as (x3 & y3 & w3 & x4 & y4 & w4 & -> & -> & -> & H3 & H4). apply cat_inv in H3 as (x5 & y5 & w5 & x6 & y6 & w6 & -> & -> & -> & H5 & H6). apply dot_just in H5 as (-> & -> & ->).
  assert (E' : x = [] ++ x1 ++ (u "点" ++ x6 ++ x4)) by now rewrite E, <- !app_assoc. destruct (sub_known _ _ _ E') as (_ & K1 & K3). rewrite !forallb_app, !andb_true_iff in K3.
  destruct (plus_words _ _ _ H1 K1) as (-> & g & G & Ng & -> & ->). destruct (plus_words _ _ _ H6 (proj1 (proj2 K3))) as (-> & h & Hh & Nh & -> & ->).
  destruct (gcut _ _ _ E' eq_refl (words_nums g G) (words_some g G Ng) (or_intror (ex_intro _ _ eq_refl))) as (Es & Em & Ef). destruct (one_digit_d g G Ng (eq_sym Em)) as (-> & _).
  assert (Es' : s = []) by (destruct (sign_cases s sw Sg) as [(-> & _)|[(_ & E1)|[(_ & E1)|(_ & E1)]]]; [reflexivity|rewrite E1 in Es; discriminate Es..]).
  destruct F as [|c f' Dc F']; [discriminate Ef|]. unfold ja_point_words in Ef. apply app_inv_head in Ef.
  assert (X4 : x4 = [] /\ y4 = [] /\ w4 = 0%Z).
  { cbn [denote] in H4. inversion H4 as [|x7 y7 w7 x8 y8 w8 H7 H8]; [auto|exfalso]. subst. apply cat_inv in H7 as (x9 & y9 & w9 & x10 & y10 & w10 & -> & -> & -> & H9 & _). apply dot_just in H9 as (-> & _).
    pose proof (words_nums (c :: f') (Forall_cons _ Dc F')) as W. rewrite <- Ef, !forallb_app in W. rewrite !andb_true_iff in W. destruct W as (_ & (W & _) & _). vm_compute in W. discriminate W. }
  destruct X4 as (-> & -> & ->). rewrite app_nil_r in Ef. rewrite (words_inj _ _ Hh (Forall_cons _ Dc F') Ef). unfold y, numeral. rewrite Es'. cbn [app]. rewrite app_nil_r. auto.
Qed.
Lemma many_digits g : Forall digit_char g -> (1 < List.length g)%nat -> x = flat_map ja_digit_word g -> False.
Proof.
  intros G Lg E. assert (Ng : g <> []) by (intros ->; cbn in Lg; lia). assert (E' : x = [] ++ flat_map ja_digit_word g ++ []) by now rewrite app_nil_r.
  destruct (gcut _ _ _ E' eq_refl (words_nums g G) (words_some g G Ng) (or_introl eq_refl)) as (_ & Em & _). destruct (one_digit_d g G Ng (eq_sym Em)) as (_ & K). lia.
Qed.
Lemma telephone_reads z w : ~ denote (Cardinal.digits ** 2 + plus Cardinal.digits) x z w.
Proof.
  intro H. apply cat_inv in H as (x1 & y1 & w1 & x2 & y2 & w2 & E & -> & -> & H1 & H2). apply cat_inv in H1 as (x3 & y3 & w3 & x4 & y4 & w4 & -> & -> & -> & H3 & H4). rewrite <- app_assoc in E. destruct (sub_known _ _ _ E) as (K1 & K2 & K3).
  destruct (digits_known _ _ _ K1 H3) as (_ & a & A & -> & _). destruct (digits_known _ _ _ K2 H4) as (_ & b & B & -> & _). destruct (plus_words _ _ _ H2 K3) as (_ & g & G & _ & -> & _).
  apply (many_digits (a :: b :: g)); [repeat (constructor; try assumption)|cbn; lia|]. cbn [flat_map]. exact E.
Qed.
Lemma two_reads z w : ~ denote (ques Cardinal.sign + (Cardinal.digits + plus Cardinal.digits)) x z w.
Proof.
  intro H. apply cat_inv in H as (x1 & y1 & w1 & x2 & y2 & w2 & E & -> & -> & H1 & H2). apply cat_inv in H2 as (x3 & y3 & w3 & x4 & y4 & w4 & -> & -> & -> & H3 & H4). destruct (sub_known _ _ _ E) as (K1 & K2 & K3).
  destruct (digits_known _ _ _ K2 H3) as (_ & a & A & -> & _). destruct (plus_words _ _ _ H4 K3) as (_ & g & G & Ng & -> & _).
  assert (E' : x = x1 ++ flat_map ja_digit_word (a :: g) ++ []) by (rewrite app_nil_r; exact E).
  destruct (gcut _ _ _ E' (sign_only _ _ _ K1 H1) (words_nums _ (Forall_cons _ A G)) (words_some _ (Forall_cons _ A G) ltac:(discriminate)) (or_introl eq_refl)) as (_ & Em & _).
  destruct (one_digit_d (a :: g) (Forall_cons _ A G) ltac:(discriminate) (eq_sym Em)) as (_ & K). destruct g; [congruence|discriminate K].
Qed.
Lemma percent_none z w : ~ denote (Cardinal.percent M) x z w.
Proof. apply (apart2_sound known known_valid); [destruct M; vm_compute; reflexivity|exact gk]. Qed.
Lemma big_none z w : ~ denote Cardinal.big_integer0 x z w.
Proof. apply (apart2_sound known known_valid); [vm_compute; reflexivity|exact gk]. Qed.
Lemma formats_reads z w : denote (Cardinal.formats M) x z w <-> f <> [] /\ z = y /\ w = 0%Z.
Proof.
  split.
  - intros [[[H|H]|H]|H].
    + split; [|exact (points_reads z w H)]. intros Ef. clear -H Ef V L J Sg. apply cat_inv in H as (x1 & y1 & w1 & x2 & y2 & w2 & E & -> & -> & H1 & H2).
      apply cat_inv in H2 as (x3 & y3 & w3 & x4 & y4 & w4 & -> & -> & -> & H3 & H4). apply cat_inv in H3 as (x5 & y5 & w5 & x6 & y6 & w6 & -> & -> & -> & H5 & H6). apply dot_just in H5 as (-> & _).
      assert (I : In 28857%N x) by (rewrite E, !in_app_iff; right; left; left; vm_compute; auto). unfold x in I. rewrite Ef in I. cbn [ja_point_words] in I. rewrite app_nil_r in I. apply in_app_iff in I as [I|I].
      * pose proof (sign_signs s sw Sg) as S. rewrite forallb_forall in S. specialize (S _ I). vm_compute in S. discriminate S.
      * pose proof (proj1 (value_nums m n V L)) as S. rewrite forallb_forall in S. specialize (S _ I). vm_compute in S. discriminate S.
    + now apply decimal_reads.
    + destruct (telephone_reads z w H).
    + destruct (percent_none z w H).
  - intros H. left. left. right. now apply decimal_reads.
Qed.
Hypothesis D : decimal d n.
Lemma minus_cases z w : denote Cardinal.ten_thousand_minus m z w -> (10 <= n)%N -> denote (Cardinal.teen ∪ Cardinal.tens ∪ Cardinal.hundred ∪ Cardinal.thousand) m z w.
Proof.
  intros H Ln. pose proof H as H0. destruct H as [[[[H|H]|H]|H]|H].
  - exfalso. assert (K : forallb known m = true) by (apply (all_sub nums); [intros c Hc; exact (proj1 (nums_known c Hc))|exact (proj1 (value_nums m n V L))]).
    destruct (digits_known _ _ _ K H) as (-> & c & C & _ & ->). assert (E : [c] = d) by (apply (J [c] 0%Z); left; exact H0). rewrite <- E in D. destruct D as (_ & _ & _ & Dv). unfold decimal_value in Dv. cbn [fold_left] in Dv. unfold digit_char in C. lia.
  - left. left. now left.
  - left. left. now right.
  - left. now right.
  - now right.
Qed.
Lemma two_plus_reads z w : denote (Cardinal.number_two_plus M) x z w -> f = [] /\ z = y /\ w = 0%Z.
Proof.
  intro H. apply cat_inv in H as (x1 & y1 & w1 & x2 & y2 & w2 & E & -> & -> & H1 & H2).
  assert (P : denote (Cardinal.positive_integer M) x2 y2 w2 -> f = [] /\ y1 ++ y2 = y /\ (w1 + w2)%Z = 0%Z) by (intro P; apply number_reads; rewrite E; now apply cat_i).
  destruct H2 as [[[[[[H2|H2]|H2]|H2]|H2]|H2]|H2].
  - exfalso. apply (two_reads (y1 ++ y2) (w1 + w2)%Z). rewrite E. now apply cat_i.
  - apply P. left. do 3 left. now right.
  - apply P. left. do 2 left. now right.
  - apply P. left. left. now right.
  - apply P. left. now right.
  - apply P. now right.
  - exfalso. apply (apart2_sound known known_valid Cardinal.big_integer0 ltac:(vm_compute; reflexivity) x2 y2 w2); [|exact H2]. assert (E' : x = x1 ++ x2 ++ []) by now rewrite app_nil_r. exact (proj1 (proj2 (sub_known _ _ _ E'))).
Qed.
Lemma two_plus_i : f = [] -> (10 <= n)%N -> denote (Cardinal.number_two_plus M) x y 0%Z.
Proof.
  intros Ef Ln. unfold x, y, numeral. rewrite Ef. cbn [ja_point_words]. rewrite !app_nil_r. change 0%Z with (0 + 0)%Z. apply cat_i; [now apply (sign_just s sw Sg)|].
  assert (H : denote (Cardinal.positive_integer M) m d 0%Z) by now apply J. destruct H as [H|H]; [|left; now right]. apply minus_cases in H as [[[H|H]|H]|H]; [| | | |exact Ln].
  - left. left. do 3 left. now right.
  - left. left. do 2 left. now right.
  - left. left. left. now right.
  - left. left. now right.
Qed.
End Graph.
(** What the graph of numbers writes. *)
Definition spoken_ok (o : options) (n : N) (f : text) : Prop :=
  f <> [] \/ enable_standalone_number o = true /\ (enable_0_to_9 o = true \/ (10 <= n)%N).
Lemma graph_just o s sw m n d f : ja_sign_words s = Some sw -> japanese_value m = Some n -> (n < 100000000)%N -> Forall digit_char f -> just (Cardinal.positive_integer (enable_million o)) m d -> decimal d n -> spoken_ok o n f ->
  just (Cardinal.graph o) (sw ++ m ++ ja_point_words f) (numeral s d f).
Proof.
  intros Sg V L F J D Ok z w. split.
  - intro H. unfold Cardinal.graph in H. destruct (enable_standalone_number o); [destruct (enable_0_to_9 o)|].
    + destruct H as [H|[H|H]].
      * apply (formats_reads _ s sw m d f n Sg V L F J) in H. tauto.
      * apply (number_reads _ s sw m d f n Sg V L F J) in H. tauto.
      * exfalso. revert H. eapply big_none; eassumption.
    + destruct H as [H|H].
      * apply (formats_reads _ s sw m d f n Sg V L F J) in H. tauto.
      * apply (two_plus_reads _ s sw m d f n Sg V L F J) in H. tauto.
    + apply (formats_reads _ s sw m d f n Sg V L F J) in H. tauto.
  - intros (-> & ->). unfold Cardinal.graph.
    assert (A : f <> [] -> denote (Cardinal.formats (enable_million o)) (sw ++ m ++ ja_point_words f) (numeral s d f) 0%Z) by (intro N; now apply (formats_reads _ s sw m d f n Sg V L F J)).
    destruct f as [|c g] eqn:Ef; [|rewrite <- Ef in *; specialize (A ltac:(rewrite Ef; discriminate)); destruct (enable_standalone_number o); [destruct (enable_0_to_9 o); now left|exact A]].
    destruct Ok as [Ok|(-> & Ok)]; [congruence|]. destruct (enable_0_to_9 o).
    + right. left. now apply (number_reads _ s sw m d [] n Sg V L F J).
    + right. apply (two_plus_i _ s sw m d [] n Sg V L J D eq_refl). destruct Ok as [Ok|Ok]; [discriminate Ok|exact Ok].
Qed.
