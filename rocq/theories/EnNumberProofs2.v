(** The values of the number names, and the optional "and" (C58). *)
From Coq Require Import List NArith ZArith Bool String Lia Arith.
From Verif Require Import Text TextFacts Fst FstFacts FstRun GrammarModel NumeralSpec EnglishNumeralSpec.
From Verif Require Import ZhNumberProofs EnNumberProofs.
From Verif Require EnTnModel.
Import ListNotations.
Local Open Scope list_scope.

(** ** Values *)
Lemma cut_none s ws : ~ In s ws -> cut s ws = None.
Proof.
  induction ws as [|w ws IH]; intro H; [reflexivity|]. cbn [cut]. rewrite text_eqb_neq by (intros ->; apply H; now left).
  rewrite IH; [reflexivity|]. intro I. apply H. now right.
Qed.
Lemma cut_some s a b : ~ In s a -> cut s (a ++ s :: b) = Some (a, b).
Proof.
  induction a as [|w a IH]; intro H; cbn [app cut]; [now rewrite text_eqb_refl|].
  rewrite text_eqb_neq by (intros ->; apply H; now left). rewrite IH; [reflexivity|]. intro I. apply H. now right.
Qed.
Lemma scaled_skip st s k sc ws : ~ In s ws -> scaled st ((s, k) :: sc) ws = scaled st sc ws.
Proof. intro H. cbn [scaled]. now rewrite cut_none. Qed.
Lemma scaled_here st s k sc a b n : ~ In s a -> a <> [] -> below_thousand a = Some n ->
  scaled st ((s, k) :: sc) (a ++ s :: b) =
  match b with [] => Some (n * k)%N
  | w :: r => plus_named (Some (n * k)%N) (if text_eqb w AND then below_hundred r else scaled false sc b) end.
Proof.
  intros H Ne V. cbn [scaled]. rewrite cut_some by exact H. destruct a as [|w a]; [now destruct Ne|].
  rewrite andb_false_r, V. reflexivity.
Qed.
(** [m] is what the rest of the words count. *)
Definition counts (sc : list (text * N)) (ws : list text) (m : N) : Prop :=
  (ws = [] -> m = 0%N) /\ (ws <> [] -> hd [] ws <> AND /\ forall st, scaled st sc ws = Some m).
Definition big (s : text) : Prop := In s [TRILLION; BILLION; MILLION; THOUSAND].
Lemma big_not_plain s : big s -> ~ plainword s.
Proof.
  intros [<-|[<-|[<-|[<-|[]]]]] (_ & _ & A & M & T & B); [now apply T|now apply B|apply M; vm_compute; auto|apply A; vm_compute; auto 10].
Qed.
Lemma and_not_plain : ~ plainword AND.
Proof. intros (_ & _ & A & _). apply A. vm_compute. auto. Qed.
Lemma gw_words g : group3 g -> Forall plainword (gw g).
Proof.
  intro G. destruct (text_eq_dec g zeros) as [->|Z]; [rewrite gw_zeros; constructor|]. now apply (gw_plain _ _ (proj1 (core_row g G Z))).
Qed.
Lemma part_words s g w : group3 g -> In w (part s g) -> plainword w \/ In w s.
Proof.
  intros G I. destruct (text_eq_dec g zeros) as [->|Z]; [rewrite part_zeros in I; destruct I|].
  rewrite part_some in I by assumption. apply in_app_iff in I as [I|I]; [|auto]. left.
  pose proof (gw_words g G) as F. rewrite Forall_forall in F. auto.
Qed.
Lemma gw_not s g : group3 g -> ~ plainword s -> ~ In s (gw g).
Proof. intros G N I. pose proof (gw_words g G) as F. rewrite Forall_forall in F. now apply N, F. Qed.
Lemma gw_hd g : group3 g -> g <> zeros -> forall r, hd [] (gw g ++ r) <> AND.
Proof.
  intros G Z r. pose proof (gw_words g G) as F. pose proof (gw_nonempty g G Z) as Ne. destruct (gw g) as [|w ws]; [now destruct Ne|].
  cbn [app hd]. intros ->. apply Forall_inv in F. now apply and_not_plain.
Qed.
Lemma scaled_part s k sc g ws m : group3 g -> big s -> ~ In s ws -> counts sc ws m ->
  counts ((s, k) :: sc) (part [s] g ++ ws) (decimal_value g * k + m).
Proof.
  intros G B Nw (C0 & C1). destruct (text_eq_dec g zeros) as [->|Z].
  - rewrite part_zeros. cbn [app]. change (decimal_value zeros) with 0%N. split.
    + intro E. now rewrite (C0 E).
    + intro Ne. destruct (C1 Ne) as (H & S). split; [exact H|]. intro st. rewrite scaled_skip by exact Nw. now rewrite S.
  - rewrite part_some by assumption. rewrite <- app_assoc. cbn [app]. pose proof (gw_nonempty g G Z) as Ne.
    split; [intro E; apply app_eq_nil in E as (E & _); now destruct Ne|]. intros _. split; [now apply gw_hd|].
    intro st. rewrite (scaled_here _ _ _ _ _ _ (decimal_value g)).
    + destruct ws as [|w r]; [rewrite (C0 eq_refl); f_equal; lia|].
      destruct (C1 ltac:(discriminate)) as (H & S). cbn [hd] in H. rewrite text_eqb_neq by exact H. rewrite S. reflexivity.
    + apply gw_not; [exact G|now apply big_not_plain].
    + exact Ne.
    + apply (gw_value _ _ (proj1 (core_row g G Z))).
Qed.
Lemma counts_last g : group3 g -> counts [] (part [] g) (decimal_value g).
Proof.
  intro G. destruct (text_eq_dec g zeros) as [->|Z]; [split; [reflexivity|intro Ne; now destruct Ne]|].
  rewrite part_some, app_nil_r by assumption. split; [intro E; now apply gw_nonempty in E|]. intros _.
  split; [rewrite <- (app_nil_r (gw g)); now apply gw_hd|]. intro st. cbn [scaled]. apply (gw_value _ _ (proj1 (core_row g G Z))).
Qed.
(** The scales above the thousands, in front of any words. *)
Lemma counts_above g4 g3 g2 sc ws m : group3 g4 -> group3 g3 -> group3 g2 ->
  ~ In TRILLION ws -> ~ In BILLION ws -> ~ In MILLION ws -> counts sc ws m ->
  counts ((TRILLION, 10 ^ 12) :: (BILLION, 10 ^ 9) :: (MILLION, 10 ^ 6) :: sc)%N
    (part [TRILLION] g4 ++ part [BILLION] g3 ++ part [MILLION] g2 ++ ws)
    (decimal_value g4 * 10 ^ 12 + (decimal_value g3 * 10 ^ 9 + (decimal_value g2 * 10 ^ 6 + m))).
Proof.
  intros G4 G3 G2 T B M C.
  assert (NI : forall s s' g, group3 g -> big s -> s <> s' -> ~ In s (part [s'] g)).
  { intros s s' g G Bs D I. apply part_words in I as [I|[I|[]]]; [now apply (big_not_plain s)|now subst|exact G]. }
  assert (BT : big TRILLION) by (cbn; auto). assert (BB : big BILLION) by (cbn; auto). assert (BM : big MILLION) by (cbn; auto).
  apply scaled_part; [exact G4|exact BT| |apply scaled_part; [exact G3|exact BB| |apply scaled_part; [exact G2|exact BM|exact M|exact C]]].
  - intro I. apply in_app_iff in I as [I|I]; [revert I; apply NI; [exact G3|exact BT|discriminate]|].
    apply in_app_iff in I as [I|I]; [revert I; apply NI; [exact G2|exact BT|discriminate]|now apply T].
  - intro I. apply in_app_iff in I as [I|I]; [revert I; apply NI; [exact G2|exact BB|discriminate]|now apply B].
Qed.
Lemma english_of ws m : Forall spaceless ws -> ws <> [] -> ws <> [u "zero"] -> counts scale_names ws m ->
  english_value (join ws) = Some m.
Proof.
  intros F Ne Nz (_ & C). unfold english_value. destruct (C Ne) as (_ & S).
  destruct ws as [|w ws]; [now destruct Ne|].
  rewrite text_eqb_neq; [now rewrite words_join, S|].
  intro E. apply Nz. rewrite <- (words_join w ws F), E. reflexivity.
Qed.
Lemma plain_spaceless w : plainword w -> spaceless w.
Proof. intros (_ & F & _) I. rewrite Forall_forall in F. specialize (F _ I). lia. Qed.
Lemma big_spaceless s : big s -> spaceless s.
Proof. intros [<-|[<-|[<-|[<-|[]]]]] I; vm_compute in I; intuition discriminate. Qed.
Lemma part_spaceless s g : group3 g -> big s -> Forall spaceless (part [s] g).
Proof.
  intros G B. apply Forall_forall. intros w I. apply part_words in I as [I|[<-|[]]]; [now apply plain_spaceless|now apply big_spaceless|exact G].
Qed.
Lemma last_spaceless g : group3 g -> Forall spaceless (part [] g).
Proof. intros G. apply Forall_forall. intros w I. apply part_words in I as [I|[]]; [now apply plain_spaceless|exact G]. Qed.
Lemma say_spaceless g4 g3 g2 g1 g0 : group3 g4 -> group3 g3 -> group3 g2 -> group3 g1 -> group3 g0 ->
  Forall spaceless (say g4 g3 g2 g1 g0).
Proof.
  intros. unfold say. rewrite !Forall_app.
  repeat split; try (apply part_spaceless; [assumption|cbn; auto]). now apply last_spaceless.
Qed.
Lemma zero_not ws m : counts scale_names ws m -> ws <> [u "zero"].
Proof. intros (_ & C) ->. destruct (C ltac:(discriminate)) as (_ & S). specialize (S true). vm_compute in S. discriminate. Qed.
Lemma say_counts g4 g3 g2 g1 g0 : group3 g4 -> group3 g3 -> group3 g2 -> group3 g1 -> group3 g0 ->
  counts scale_names (say g4 g3 g2 g1 g0) (total g4 g3 g2 g1 g0).
Proof.
  intros G4 G3 G2 G1 G0.
  replace (total g4 g3 g2 g1 g0) with (decimal_value g4 * 10 ^ 12 + (decimal_value g3 * 10 ^ 9 + (decimal_value g2 * 10 ^ 6 + (decimal_value g1 * 10 ^ 3 + decimal_value g0))))%N
    by (unfold total; lia).
  assert (NI : forall s, big s -> s <> THOUSAND -> ~ In s (part [THOUSAND] g1 ++ part [] g0)).
  { intros s B D I. apply in_app_iff in I as [I|I]; apply part_words in I as [I|I]; try assumption;
      try (now apply (big_not_plain s)); destruct I as [I|[]]. now subst. }
  apply counts_above; try assumption; try (apply NI; [cbn; auto|discriminate]).
  apply scaled_part; [exact G1|cbn; auto| |now apply counts_last].
  intro I. apply part_words in I as [I|[]]; [|exact G0]. revert I. apply big_not_plain. cbn. auto.
Qed.
Theorem say_value g4 g3 g2 g1 g0 : group3 g4 -> group3 g3 -> group3 g2 -> group3 g1 -> group3 g0 ->
  total g4 g3 g2 g1 g0 <> 0%N -> english_value (join (say g4 g3 g2 g1 g0)) = Some (total g4 g3 g2 g1 g0).
Proof.
  intros G4 G3 G2 G1 G0 T. pose proof (say_counts g4 g3 g2 g1 g0 G4 G3 G2 G1 G0) as C.
  apply english_of; [now apply say_spaceless| |now apply (zero_not _ _ C)|exact C].
  intro E. apply T. now apply C.
Qed.

(** ** Every way to write a number *)
Lemma decimal_length t n k : decimal t n -> (n < 10 ^ N.of_nat k)%N -> (1 <= k)%nat -> (List.length t <= k)%nat.
Proof.
  intros (Ne & F & H & <-) L K. destruct t as [|c t]; [now destruct Ne|]. cbn [hd] in H. cbn [List.length].
  destruct (N.eq_dec c 48) as [->|D]; [specialize (H eq_refl); injection H as ->; exact K|].
  pose proof (value_long c t (Forall_inv F) D) as V.
  destruct (le_lt_dec (S (List.length t)) k) as [|M]; [assumption|exfalso].
  assert (10 ^ N.of_nat k <= 10 ^ N.of_nat (List.length t))%N by (apply N.pow_le_mono_r; lia). lia.
Qed.
Definition number_words (n : N) (y : text) : Prop :=
  n = 0%N /\ y = u "zero" \/
  n <> 0%N /\ exists g4 g3 g2 g1 g0, group3 g4 /\ group3 g3 /\ group3 g2 /\ group3 g1 /\ group3 g0 /\
    n = total g4 g3 g2 g1 g0 /\ y = join (say g4 g3 g2 g1 g0).
Lemma number_words_value n y : number_words n y -> english_value y = Some n.
Proof.
  intros [(-> & ->)|(Z & g4 & g3 & g2 & g1 & g0 & G4 & G3 & G2 & G1 & G0 & -> & ->)]; [vm_compute; reflexivity|].
  now apply say_value.
Qed.
Lemma names_reading t n : decimal t n -> (n < 10 ^ 15)%N -> exists y, number_words n y /\ just EnTnModel.Names.graph t y.
Proof.
  intros D L. pose proof (decimal_length t n 15 D L ltac:(lia)) as Le. destruct D as (Ne & F & H & <-).
  destruct (N.eq_dec (hd 0%N t) 48) as [E|E].
  - rewrite (H E). exists (u "zero"). split; [left; auto|exact names_zero].
  - destruct (names_row t Le Ne F E) as (g4 & g3 & g2 & g1 & g0 & G4 & G3 & G2 & G1 & G0 & V & J).
    exists (join (say g4 g3 g2 g1 g0)). split; [|exact J]. right. split; [|now exists g4, g3, g2, g1, g0].
    destruct t as [|c t]; [now destruct Ne|]. cbn [hd] in E. pose proof (value_long c t (Forall_inv F) E) as V0.
    assert (10 ^ N.of_nat (List.length t) <> 0)%N by (apply N.pow_nonzero; discriminate). lia.
Qed.
Lemma names_too_long t n : decimal t n -> (10 ^ 15 <= n)%N -> forall y w, ~ denote EnTnModel.Names.graph t y w.
Proof.
  intros (Ne & F & H & <-) L y w D. apply names_domain in D. pose proof (value_short t F) as V.
  assert (10 ^ N.of_nat (List.length t) <= 10 ^ 15)%N by (apply (N.pow_le_mono_r 10 _ 15); lia). lia.
Qed.

Lemma digit_class x y w : denote DIGIT x y w <-> exists c, x = [c] /\ y = [c] /\ w = 0%Z /\ digit_char c.
Proof.
  unfold DIGIT. cbn [denote]. unfold digit_char, is_digit, in_range. split.
  - intros (c & -> & -> & P & ->). exists c. apply andb_true_iff in P as (A & B). apply N.leb_le in A, B. auto.
  - intros (c & -> & -> & -> & A & B). exists c. split; [reflexivity|]. split; [reflexivity|]. split; [|reflexivity].
    apply andb_true_iff. split; now apply N.leb_le.
Qed.
Lemma digit_i c : digit_char c -> denote DIGIT [c] [c] 0%Z.
Proof. intro D. apply digit_class. now exists c. Qed.
Lemma power_digits k : forall x y w, denote (DIGIT ** k)%fst x y w <->
  y = x /\ w = 0%Z /\ Forall digit_char x /\ List.length x = k.
Proof.
  induction k as [|k IH]; intros x y w.
  - cbn. split; [intros (-> & -> & ->); auto|]. intros (-> & -> & _ & L). destruct x; [auto|discriminate].
  - assert (E : denote (DIGIT ** S k)%fst x y w <-> denote (DIGIT + DIGIT ** k)%fst x y w).
    { destruct k; [|reflexivity]. cbn [power]. split.
      - intro H. rewrite <- (app_nil_r x), <- (app_nil_r y), <- (Z.add_0_r w). apply cat_i; [exact H|cbn; auto].
      - intro H. apply cat_inv in H as (x1 & y1 & w1 & x2 & y2 & w2 & -> & -> & -> & H & (-> & -> & ->)).
        now rewrite !app_nil_r, Z.add_0_r. }
    rewrite E. split.
    + intro H. apply cat_inv in H as (x1 & y1 & w1 & x2 & y2 & w2 & -> & -> & -> & H1 & H2).
      apply digit_class in H1 as (c & -> & -> & -> & D). apply IH in H2 as (-> & -> & F & L).
      split; [reflexivity|]. split; [reflexivity|]. split; [now constructor|]. cbn. now rewrite L.
    + intros (-> & -> & F & L). destruct x as [|c x]; [discriminate|]. injection L as L.
      apply (cat_i _ _ [c] [c] 0%Z x x 0%Z).
      * apply digit_class. exists c. split; [reflexivity|]. split; [reflexivity|]. split; [reflexivity|]. now apply Forall_inv in F.
      * apply IH. split; [reflexivity|]. split; [reflexivity|]. split; [now apply Forall_inv_tail in F|exact L].
Qed.
Definition nocomma (x : text) : text := filter (fun c => negb (c =? 44)%N) x.
Lemma nocomma_app a b : nocomma (a ++ b) = nocomma a ++ nocomma b.
Proof. apply filter_app. Qed.
Lemma nocomma_digits x : Forall digit_char x -> nocomma x = x.
Proof.
  induction 1 as [|c x D F IH]; [reflexivity|]. cbn [nocomma filter]. unfold digit_char in D.
  destruct (N.eqb_spec c 44) as [->|_]; [lia|]. cbn [negb]. fold (nocomma x). now rewrite IH.
Qed.
(** Deletes commas, costs nothing and leaves digits. *)
Definition drops (e : fst) : Prop := forall x y w, denote e x y w -> w = 0%Z /\ y = nocomma x /\ Forall digit_char y.
Lemma drops_cat a b : drops a -> drops b -> drops (a + b)%fst.
Proof.
  intros A B x y w H. apply cat_inv in H as (x1 & y1 & w1 & x2 & y2 & w2 & -> & -> & -> & H1 & H2).
  apply A in H1 as (-> & -> & F1). apply B in H2 as (-> & -> & F2). rewrite nocomma_app. split; [reflexivity|]. split; [reflexivity|].
  now apply Forall_app.
Qed.
Lemma drops_union a b : drops a -> drops b -> drops (a ∪ b)%fst.
Proof. intros A B x y w [H|H]; auto. Qed.
Lemma drops_star a : drops a -> drops (Star a).
Proof.
  intros A x y w. cbn [denote]. induction 1 as [|x y w x' y' w' H S (-> & -> & F)]; [now split|].
  apply A in H as (-> & -> & F'). rewrite nocomma_app. split; [reflexivity|]. split; [reflexivity|]. now apply Forall_app.
Qed.
Lemma drops_nil : drops (Cross [] []).
Proof. intros x y w (-> & -> & ->). now split. Qed.
Lemma drops_digit : drops DIGIT.
Proof.
  intros x y w H. apply digit_class in H as (c & -> & -> & -> & D). rewrite nocomma_digits by (now constructor).
  split; [reflexivity|]. split; [reflexivity|]. now constructor.
Qed.
Lemma drops_power k : drops (DIGIT ** k)%fst.
Proof. intros x y w H. apply power_digits in H as (-> & -> & F & _). now rewrite nocomma_digits. Qed.
Lemma drops_comma : drops (delete (u ",")).
Proof. intros x y w (-> & -> & ->). split; [reflexivity|]. split; [reflexivity|constructor]. Qed.
Definition digit_groups : fst :=
  (DIGIT + EnTnModel.upto DIGIT 2 + (Star (delete (u ",") + DIGIT ** 3) ∪ Star (DIGIT ** 3)))%fst.
Lemma drops_upto k : drops (EnTnModel.upto DIGIT k).
Proof.
  induction k as [|k IH]; cbn [EnTnModel.upto]; [apply drops_nil|].
  apply drops_union; [apply drops_cat; [apply drops_digit|exact IH]|apply drops_nil].
Qed.
Lemma drops_groups : drops digit_groups.
Proof.
  apply drops_cat; [apply drops_cat; [apply drops_digit|apply drops_upto]|].
  apply drops_union; apply drops_star; [apply drops_cat; [apply drops_comma|apply drops_power]|apply drops_power].
Qed.
Lemma upto_digits k : forall x, Forall digit_char x -> (List.length x <= k)%nat -> denote (EnTnModel.upto DIGIT k) x x 0%Z.
Proof.
  induction k as [|k IH]; intros x F L; cbn [EnTnModel.upto].
  - destruct x; [cbn; auto|cbn in L; lia].
  - destruct x as [|c x]; [apply ques_none|]. apply ques_some. apply (cat_i _ _ [c] [c] 0%Z x x 0%Z).
    + apply digit_i. now apply Forall_inv in F.
    + apply IH; [now apply Forall_inv_tail in F|cbn in L; lia].
Qed.
Lemma first_digits x : (1 <= List.length x <= 3)%nat -> Forall digit_char x -> denote (DIGIT + EnTnModel.upto DIGIT 2)%fst x x 0%Z.
Proof.
  intros L F. destruct x as [|c x]; [cbn in L; lia|]. apply (cat_i _ _ [c] [c] 0%Z x x 0%Z).
  - apply digit_i. now apply Forall_inv in F.
  - apply upto_digits; [now apply Forall_inv_tail in F|cbn in L; lia].
Qed.
Lemma three_groups x k : List.length x = (3 * k)%nat -> Forall digit_char x -> denote (Star (DIGIT ** 3)%fst) x x 0%Z.
Proof.
  revert x. induction k as [|k IH]; intros x L F.
  - destruct x; [apply star_nil|cbn in L; lia].
  - destruct x as [|a [|b [|c x]]]; cbn in L; try lia.
    apply (star_app _ [a; b; c] [a; b; c] 0%Z x x 0%Z).
    + apply power_digits. split; [reflexivity|]. split; [reflexivity|]. split; [|reflexivity].
      change (a :: b :: c :: x) with ([a; b; c] ++ x) in F. now apply Forall_app in F as (F & _).
    + apply IH; [lia|]. change (a :: b :: c :: x) with ([a; b; c] ++ x) in F. now apply Forall_app in F as (_ & F).
Qed.
Lemma groups_plain x : x <> [] -> Forall digit_char x -> denote digit_groups x x 0%Z.
Proof.
  intros Ne F. set (L := List.length x). assert (1 <= L)%nat by (unfold L; destruct x; [now destruct Ne|cbn; lia]).
  pose proof (Nat.div_mod (L - 1) 3 ltac:(lia)) as E. pose proof (Nat.mod_upper_bound (L - 1) 3 ltac:(lia)) as M.
  set (k := (1 + (L - 1) mod 3)%nat). rewrite <- (firstn_skipn k x) in F |- *. apply Forall_app in F as (F1 & F2).
  apply (cat_i _ _ _ _ 0%Z _ _ 0%Z).
  - apply first_digits; [rewrite firstn_length; fold L; unfold k; lia|exact F1].
  - right. apply (three_groups _ ((L - 1) / 3)); [rewrite skipn_length; fold L; unfold k; lia|exact F2].
Qed.
Lemma comma_groups gs : Forall (fun g => List.length g = 3%nat) gs -> Forall digit_char (List.concat gs) ->
  denote (Star (delete (u ",") + DIGIT ** 3)%fst) (List.concat (map (cons 44%N) gs)) (List.concat gs) 0%Z.
Proof.
  induction gs as [|g gs IH]; intros L F; [apply star_nil|]. cbn [map List.concat] in *. apply Forall_app in F as (F1 & F2).
  apply (star_app _ (44%N :: g) g 0%Z _ _ 0%Z); [|apply IH; [now apply Forall_inv_tail in L|exact F2]].
  apply (cat_i _ _ [44%N] [] 0%Z g g 0%Z); [cbn; auto|]. apply power_digits. apply Forall_inv in L. auto.
Qed.
Lemma written_groups t n : written t n -> decimal (nocomma t) n /\ just digit_groups t (nocomma t).
Proof.
  intro W. assert (X : decimal (nocomma t) n /\ denote digit_groups t (nocomma t) 0%Z).
  { destruct W as [D|(f & gs & -> & L & Lg & D)].
    - pose proof D as (Ne & F & _). rewrite nocomma_digits by exact F. split; [exact D|now apply groups_plain].
    - pose proof D as (_ & F & _). apply Forall_app in F as (Ff & Fg).
      assert (H : denote digit_groups (f ++ List.concat (map (cons 44%N) gs)) (f ++ List.concat gs) 0%Z).
      { apply (cat_i _ _ f f 0%Z _ _ 0%Z); [now apply first_digits|left; now apply comma_groups]. }
      pose proof (drops_groups _ _ _ H) as (_ & <- & _). auto. }
  destruct X as (D & H). split; [exact D|]. intros z w. split.
  - intro K. apply drops_groups in K as (-> & -> & _). auto.
  - intros (-> & ->). exact H.
Qed.
Lemma just_compose a b x y z : just a x y -> just b y z -> just (a @ b)%fst x z.
Proof.
  intros A B z' w. split.
  - intros (m & w1 & w2 & -> & H1 & H2). apply A in H1 as (-> & ->). apply B in H2 as (-> & ->). auto.
  - intros (-> & ->). exists y, 0%Z, 0%Z. repeat split; [now apply A|now apply B].
Qed.
Lemma graph_reading t n : written t n -> (n < 10 ^ 15)%N -> exists y, number_words n y /\ just EnTnModel.Cardinal.graph t y.
Proof.
  intros W L. destruct (written_groups t n W) as (D & J). destruct (names_reading _ n D L) as (y & Y & K).
  exists y. split; [exact Y|]. exact (just_compose _ _ _ _ _ J K).
Qed.
Lemma graph_none t n : written t n -> (10 ^ 15 <= n)%N -> forall y w, ~ denote EnTnModel.Cardinal.graph t y w.
Proof.
  intros W L y w (m & w1 & w2 & _ & H1 & H2). destruct (written_groups t n W) as (D & J). apply J in H1 as (-> & _).
  exact (names_too_long _ n D L _ _ H2).
Qed.
