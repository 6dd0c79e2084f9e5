(** The date rule of the Chinese inverse normaliser on whole dates (C84). *)
From Coq Require Import List NArith ZArith Bool String Lia Arith.
From Verif Require Import Text TextFacts TokenModel Fst FstFacts GrammarModel GrammarSpec NumeralSpec EnglishNumeralSpec DataZhItn ZhItnModel ZhTnEndSpec ZhDateSpec ZhItnDateSpec BoundarySpec WholeSpec.
From Verif Require Import Boundary BoundaryChar Letters OneToken TokenVerbal Fields Fields2 Least ZhItnVerbal ZhItnSaid.
From Verif Require PlainRules EndToEnd ZhDate.
Import ListNotations.
Local Open Scope list_scope.
Local Notation ten := ZhDate.ten.

Definition YEAR : N := Eval vm_compute in hd 0%N (u "年").
Definition MONTH : N := Eval vm_compute in hd 0%N (u "月").
Definition DAY : N := Eval vm_compute in hd 0%N (u "日").
Definition HAO : N := Eval vm_compute in hd 0%N (u "号").
Definition num_chars : text := Eval vm_compute in u "零一二三四五六七八九十".
Definition stamps : text := Eval vm_compute in u "年月日号".
Definition among (l : text) (c : N) : bool := existsb (N.eqb c) l.
Definition numc : N -> bool := among num_chars.
Definition stampc : N -> bool := among stamps.
Definition zc (c : N) : bool := among (num_chars ++ stamps) c.
Lemma among_in l c : among l c = true -> In c l.
Proof. unfold among. intro H. apply existsb_exists in H as (a & I & E). apply N.eqb_eq in E. subst a. exact I. Qed.
Lemma among_all l (P : N -> bool) : forallb P l = true -> forall c, among l c = true -> P c = true.
Proof. intros H c A. rewrite forallb_forall in H. apply H. now apply among_in. Qed.
Lemma numc_zc c : numc c = true -> zc c = true.
Proof. apply among_all. vm_compute. reflexivity. Qed.
Lemma zc_valid c : zc c = true -> vchar c = true.
Proof. apply among_all. vm_compute. reflexivity. Qed.
Lemma zc_bare c : zc c = true -> bare c = true.
Proof. apply among_all. vm_compute. reflexivity. Qed.
Lemma all_sub (P Q : N -> bool) x : (forall c, P c = true -> Q c = true) -> forallb P x = true -> forallb Q x = true.
Proof. intros H A. rewrite forallb_forall in A |- *. auto. Qed.
Lemma cut_num p : forall p' c q c' q', forallb numc p = true -> forallb numc p' = true -> numc c = false -> numc c' = false -> p ++ c :: q = p' ++ c' :: q' -> p = p' /\ c = c' /\ q = q'.
Proof.
  induction p as [|a p IH]; intros [|b p'] c q c' q' P P' C C' E; cbn [app] in E.
  - injection E as -> ->. auto.
  - injection E as <- _. cbn [forallb] in P'. rewrite C in P'. discriminate P'.
  - injection E as -> _. cbn [forallb] in P. rewrite C' in P. discriminate P.
  - injection E as -> E. cbn [forallb] in P, P'. apply andb_true_iff in P as (_ & P). apply andb_true_iff in P' as (_ & P'). destruct (IH p' c q c' q' P P' C C' E) as (-> & -> & ->). auto.
Qed.
(** ** The parts of a date *)
Definition key_of (c : N) : text := if (c =? YEAR)%N then u "year" else if (c =? MONTH)%N then u "month" else u "day".
Definition stamped (kv : text * text) : Prop := exists q c, snd kv = q ++ [c] /\ forallb numc q = true /\ stampc c = true /\ Datatypes.fst kv = key_of c.
Lemma stamp_num c : stampc c = true -> numc c = false.
Proof. intro H. assert (X : negb (numc c) = true) by (revert c H; apply among_all; vm_compute; reflexivity). now apply negb_true_iff. Qed.
Lemma stamped_inj fs : forall fs', Forall stamped fs -> Forall stamped fs' -> flat_map snd fs = flat_map snd fs' -> fs = fs'.
Proof.
  induction fs as [|[k v] fs IH]; intros [|[k' v'] fs'] F F' E; cbn [flat_map snd] in E.
  - reflexivity.
  - exfalso. apply Forall_inv in F' as (q & c & X & _). cbn [snd] in X. subst v'. destruct q; discriminate E.
  - exfalso. apply Forall_inv in F as (q & c & X & _). cbn [snd] in X. subst v. destruct q; discriminate E.
  - pose proof (Forall_inv F) as (q & c & X & Q & C & K). pose proof (Forall_inv F') as (q' & c' & X' & Q' & C' & K'). cbn [snd Datatypes.fst] in *. subst. rewrite <- !app_assoc in E. cbn [app] in E.
    apply cut_num in E as (-> & -> & E); [|assumption|assumption|now apply stamp_num|now apply stamp_num]. f_equal. apply IH; [exact (Forall_inv_tail F)|exact (Forall_inv_tail F')|exact E].
Qed.
Lemma stamped_zc kv : stamped kv -> forallb zc (snd kv) = true.
Proof.
  intros (q & c & -> & Q & C & _). rewrite forallb_app, (all_sub _ _ _ numc_zc Q). cbn [forallb]. rewrite andb_true_r. cbn [andb]. revert c C. apply (among_all stamps zc). vm_compute. reflexivity.
Qed.
Lemma stamped_count kv : stamped kv -> 1 <= count stampc (snd kv).
Proof. intros (q & c & -> & Q & C & _). rewrite (count_app zc). cbn [count]. rewrite C. lia. Qed.
Lemma all_zc fs : Forall stamped fs -> forallb zc (flat_map snd fs) = true.
Proof. intro F. induction F as [|kv fs H F IH]; [reflexivity|]. cbn [flat_map]. rewrite forallb_app. apply andb_true_iff. split; [exact (stamped_zc _ H)|exact IH]. Qed.
Lemma all_count fs : Forall stamped fs -> List.length fs <= count stampc (flat_map snd fs).
Proof. intro F. induction F as [|kv fs H F IH]; [cbn; lia|]. cbn [flat_map List.length]. rewrite (count_app zc). exact (Nat.add_le_mono 1 _ _ _ (stamped_count _ H) IH). Qed.
(** ** Digits *)
Lemma text_eqb_eq a b : text_eqb a b = true <-> a = b.
Proof. destruct (text_eqb_spec a b); split; congruence. Qed.
Lemma in_ten c : digit_char c -> In c ten.
Proof. unfold ZhDate.ten, digit_char. cbn [In]. lia. Qed.
Definition entry_ok (lo : bool) (e : text * text) : bool :=
  if forallb zc (Datatypes.fst e) then existsb (fun c => (negb lo || negb (c =? 48)%N) && (text_eqb (Datatypes.fst e) (digit_word c) && text_eqb (snd e) [c])) ten else true.
Lemma ten_digit c : In c ten -> digit_char c.
Proof. unfold ZhDate.ten, digit_char. cbn [In]. lia. Qed.
Lemma table_digit lo l x y : forallb (entry_ok lo) l = true -> forallb zc x = true -> In (x, y) l -> exists c, digit_char c /\ (lo = true -> c <> 48%N) /\ x = digit_word c /\ y = [c].
Proof.
  intros A K I. rewrite forallb_forall in A. specialize (A _ I). unfold entry_ok in A. cbn [Datatypes.fst snd] in A. rewrite K in A. apply existsb_exists in A as (c & J & A). rewrite !andb_true_iff in A. destruct A as (N & E1 & E2).
  exists c. split; [now apply ten_digit|]. apply text_eqb_eq in E1, E2. split; [|auto]. intros ->. cbn in N. apply negb_true_iff, N.eqb_neq in N. exact N.
Qed.
Lemma digit_known x y w : forallb zc x = true -> denote Date.digit x y w -> w = 0%Z /\ exists c, digit_char c /\ c <> 48%N /\ x = digit_word c /\ y = [c].
Proof. intros K (I & ->). split; [reflexivity|]. destruct (table_digit true (map Fst.entry zh_itn_number_digit) x y ltac:(vm_compute; reflexivity) K I) as (c & D & N & E). exists c. auto. Qed.
Lemma dz_known x y w : forallb zc x = true -> denote (Date.digit ∪ Date.zero)%fst x y w -> w = 0%Z /\ exists c, digit_char c /\ x = digit_word c /\ y = [c].
Proof.
  intros K [H|(I & ->)]; [apply digit_known in H as (-> & c & D & _ & E); [split; [reflexivity|]; exists c; auto|exact K]|]. split; [reflexivity|].
  destruct (table_digit false (map Fst.entry zh_itn_number_zero) x y ltac:(vm_compute; reflexivity) K I) as (c & D & _ & E). exists c. auto.
Qed.
Lemma digit_i c : digit_char c -> c <> 48%N -> denote Date.digit (digit_word c) [c] 0%Z.
Proof.
  intros D N. split; [|reflexivity]. assert (C : (c = 49 \/ c = 50 \/ c = 51 \/ c = 52 \/ c = 53 \/ c = 54 \/ c = 55 \/ c = 56 \/ c = 57)%N) by (unfold digit_char in D; lia).
  repeat destruct C as [->|C]; try subst c; vm_compute; tauto.
Qed.
Lemma dz_i c : digit_char c -> denote (Date.digit ∪ Date.zero)%fst (digit_word c) [c] 0%Z.
Proof. intro D. destruct (N.eq_dec c 48) as [->|N]; [right; split; [vm_compute; tauto|reflexivity]|left; now apply digit_i]. Qed.
Lemma word_zc c : digit_char c -> forallb numc (digit_word c) = true.
Proof. intro D. apply in_ten in D. revert c D. apply forallb_forall. vm_compute. reflexivity. Qed.
Lemma words_zc t : Forall digit_char t -> forallb numc (flat_map digit_word t) = true.
Proof. intro F. induction F as [|c t D F IH]; [reflexivity|]. cbn [flat_map]. now rewrite forallb_app, (word_zc c D), IH. Qed.
Lemma word_one c : digit_char c -> digit_word c = [hd 0%N (digit_word c)].
Proof. intro D. apply in_ten in D. assert (A : forallb (fun c => text_eqb (digit_word c) [hd 0%N (digit_word c)]) ten = true) by (vm_compute; reflexivity). rewrite forallb_forall in A. now apply text_eqb_eq, A. Qed.
Lemma word_inj a b : digit_char a -> digit_char b -> digit_word a = digit_word b -> a = b.
Proof.
  intros A B. assert (C : forall c, digit_char c -> (c = 48 \/ c = 49 \/ c = 50 \/ c = 51 \/ c = 52 \/ c = 53 \/ c = 54 \/ c = 55 \/ c = 56 \/ c = 57)%N) by (intros c D; unfold digit_char in D; lia).
  apply C in A. apply C in B. clear C. repeat destruct A as [->|A]; try subst a; repeat destruct B as [->|B]; try subst b; vm_compute; congruence.
Qed.
Lemma words_inj f g : Forall digit_char f -> Forall digit_char g -> flat_map digit_word f = flat_map digit_word g -> f = g.
Proof.
  intros F. revert g. induction F as [|c f D F IH]; intros g G E; destruct G as [|c' g D' G]; cbn [flat_map] in E; try reflexivity.
  - rewrite (word_one c' D') in E. discriminate E.
  - rewrite (word_one c D) in E. discriminate E.
  - rewrite (word_one c D), (word_one c' D') in E. cbn [app] in E. injection E as E1 E2. rewrite (IH g G E2). f_equal. apply word_inj; [exact D|exact D'|]. rewrite (word_one c D), (word_one c' D'). now rewrite E1.
Qed.
Lemma power_known n : forall x y w, forallb zc x = true -> denote ((Date.digit ∪ Date.zero) ** S n)%fst x y w -> w = 0%Z /\ Forall digit_char y /\ List.length y = S n /\ x = flat_map digit_word y.
Proof.
  induction n as [|n IH]; intros x y w K H.
  - cbn [power] in H. apply dz_known in H as (-> & c & D & -> & ->); [|exact K]. cbn [flat_map List.length]. rewrite app_nil_r. auto.
  - change (denote ((Date.digit ∪ Date.zero) + (Date.digit ∪ Date.zero) ** S n)%fst x y w) in H. apply cat_inv in H as (x1 & y1 & w1 & x2 & y2 & w2 & -> & -> & -> & H1 & H2). rewrite forallb_app, andb_true_iff in K. destruct K as (K1 & K2).
    apply dz_known in H1 as (-> & c & D & -> & ->); [|exact K1]. apply IH in H2 as (-> & F & L & ->); [|exact K2]. cbn [app flat_map List.length]. auto.
Qed.
Lemma power_i n : forall t, Forall digit_char t -> List.length t = S n -> denote ((Date.digit ∪ Date.zero) ** S n)%fst (flat_map digit_word t) t 0%Z.
Proof.
  induction n as [|n IH]; intros [|c t] F L; try discriminate L; injection L as L.
  - destruct t; [|discriminate L]. cbn [flat_map power]. rewrite app_nil_r. exact (dz_i c (Forall_inv F)).
  - change (denote ((Date.digit ∪ Date.zero) + (Date.digit ∪ Date.zero) ** S n)%fst (flat_map digit_word (c :: t)) (c :: t) 0%Z). cbn [flat_map]. change (c :: t) with ([c] ++ t). change 0%Z with (0 + 0)%Z. apply cat_i; [exact (dz_i c (Forall_inv F))|exact (IH t (Forall_inv_tail F) L)].
Qed.
Definition yr : fst := (Date.yyyy ∪ Date.yyy ∪ Date.yy)%fst.
Lemma head_known n x y w : forallb zc x = true -> denote (Date.digit + (Date.digit ∪ Date.zero) ** S n)%fst x y w -> w = 0%Z /\ Forall digit_char y /\ List.length y = S (S n) /\ hd 0%N y <> 48%N /\ x = flat_map digit_word y.
Proof.
  intros K H. apply cat_inv in H as (x1 & y1 & w1 & x2 & y2 & w2 & -> & -> & -> & H1 & H2). rewrite forallb_app, andb_true_iff in K. destruct K as (K1 & K2).
  apply digit_known in H1 as (-> & c & D & N & -> & ->); [|exact K1]. apply power_known in H2 as (-> & F & L & ->); [|exact K2]. cbn [app flat_map List.length hd]. auto.
Qed.
Lemma head_i n t : Forall digit_char t -> List.length t = S (S n) -> hd 0%N t <> 48%N -> denote (Date.digit + (Date.digit ∪ Date.zero) ** S n)%fst (flat_map digit_word t) t 0%Z.
Proof.
  intros F L N. destruct t as [|c t]; [discriminate L|]. injection L as L. cbn [flat_map]. change (c :: t) with ([c] ++ t). change 0%Z with (0 + 0)%Z. apply cat_i; [exact (digit_i c (Forall_inv F) N)|exact (power_i n t (Forall_inv_tail F) L)].
Qed.
Lemma yr_known x y w : forallb zc x = true -> denote yr x y w -> w = 0%Z /\ spoken_year y /\ x = flat_map digit_word y.
Proof.
  intros K [[H|H]|H].
  - apply (head_known 2) in H as (-> & F & L & N & ->); [|exact K]. split; [reflexivity|]; split; [split; [exact F|]|reflexivity]; auto 6.
  - apply (head_known 1) in H as (-> & F & L & N & ->); [|exact K]. split; [reflexivity|]; split; [split; [exact F|]|reflexivity]; auto 6.
  - apply (power_known 1) in H as (-> & F & L & ->); [|exact K]. split; [reflexivity|]; split; [split; [exact F|]|reflexivity]; auto 6.
Qed.
Lemma yr_i t : spoken_year t -> denote yr (flat_map digit_word t) t 0%Z.
Proof.
  intros (F & [L|([L|L] & N)]).
  - right. exact (power_i 1 t F L).
  - left. right. exact (head_i 1 t F L N).
  - left. left. exact (head_i 2 t F L N).
Qed.
Lemma year_read t z w : spoken_year t -> denote Date.g_year (flat_map digit_word t ++ [YEAR]) z w <-> z = t /\ w = 0%Z.
Proof.
  intro Y. pose proof (words_zc t (proj1 Y)) as K. split.
  - intro H. change (denote (yr + delete [YEAR])%fst (flat_map digit_word t ++ [YEAR]) z w) in H. apply cat_inv in H as (x1 & y1 & w1 & x2 & y2 & w2 & E & -> & -> & H & (-> & -> & ->)). apply app_inj_tail in E as (<- & _). apply yr_known in H as (-> & Y' & E); [|exact (all_sub _ _ _ numc_zc K)].
    apply words_inj in E as <-; [|exact (proj1 Y)|exact (proj1 Y')]. rewrite app_nil_r. auto.
  - intros (-> & ->). change (denote (yr + delete [YEAR])%fst (flat_map digit_word t ++ [YEAR]) t 0%Z). rewrite <- (app_nil_r t) at 2. change 0%Z with (0 + 0)%Z. apply cat_i; [now apply yr_i|now cbn].
Qed.
Lemma year_only_read t z w : spoken_year t -> denote Date.g_year_only (flat_map digit_word t ++ [YEAR]) z w <-> z = t ++ [YEAR] /\ w = 0%Z.
Proof.
  intro Y. pose proof (words_zc t (proj1 Y)) as K. split.
  - intro H. change (denote (yr + accep [YEAR])%fst (flat_map digit_word t ++ [YEAR]) z w) in H. apply cat_inv in H as (x1 & y1 & w1 & x2 & y2 & w2 & E & -> & -> & H & (-> & -> & ->)). apply app_inj_tail in E as (<- & _). apply yr_known in H as (-> & Y' & E); [|exact (all_sub _ _ _ numc_zc K)].
    apply words_inj in E as <-; [|exact (proj1 Y)|exact (proj1 Y')]. auto.
  - intros (-> & ->). change (denote (yr + accep [YEAR])%fst (flat_map digit_word t ++ [YEAR]) (t ++ [YEAR]) 0%Z). change 0%Z with (0 + 0)%Z. apply cat_i; [now apply yr_i|now cbn].
Qed.
(** ** Months and days *)
Definition stampedb (cs : text) (p : text) : bool := match rev p with c :: q => among cs c && forallb numc (rev q) | [] => false end.
Lemma stampedb_spec cs p : stampedb cs p = true -> exists q c, p = q ++ [c] /\ forallb numc q = true /\ among cs c = true.
Proof.
  unfold stampedb. destruct (rev p) as [|c q] eqn:E; [discriminate|]. intro H. apply andb_true_iff in H as (C & Q). exists (rev q), c. split; [|auto]. rewrite <- (rev_involutive p), E. reflexivity.
Qed.
Definition ends (cs : text) (e : text * text) : bool := if forallb zc (Datatypes.fst e) then stampedb cs (Datatypes.fst e) else true.
Lemma ends_spec cs l x y : forallb (ends cs) l = true -> forallb zc x = true -> In (x, y) l -> exists q c, x = q ++ [c] /\ forallb numc q = true /\ among cs c = true.
Proof. intros A K I. rewrite forallb_forall in A. specialize (A _ I). unfold ends in A. cbn [Datatypes.fst] in A. rewrite K in A. now apply stampedb_spec. Qed.
Lemma month_known x y w : forallb zc x = true -> denote Date.g_month x y w -> stamped (u "month", x).
Proof.
  intros K (I & _). destruct (ends_spec [MONTH] (map Fst.entry zh_itn_date_mm) x y ltac:(vm_compute; reflexivity) K I) as (q & c & -> & Q & C). apply among_in in C as [<-|[]]. exists q, MONTH. repeat split; auto.
Qed.
Lemma day_known x y w : forallb zc x = true -> denote Date.g_day x y w -> stamped (u "day", x).
Proof.
  intros K (I & _). destruct (ends_spec [DAY; HAO] (map Fst.entry zh_itn_date_dd) x y ltac:(vm_compute; reflexivity) K I) as (q & c & -> & Q & C). apply among_in in C as [<-|[<-|[]]]; eexists q, _; repeat split; auto.
Qed.
Lemma year_known (a : fst) x y w : (forall x y w, denote a x y w -> x = [YEAR]) -> forallb zc x = true -> denote (yr + a)%fst x y w -> stamped (u "year", x).
Proof.
  intros A K H. apply cat_inv in H as (x1 & y1 & w1 & x2 & y2 & w2 & -> & -> & -> & H1 & H2). apply A in H2. subst x2. rewrite forallb_app, andb_true_iff in K. destruct K as (K1 & _). apply yr_known in H1 as (_ & Y & ->); [|exact K1].
  eexists _, YEAR. repeat split. exact (words_zc _ (proj1 Y)).
Qed.
Definition uniq (l : list (text * text)) (k v : text) : bool :=
  existsb (fun e => text_eqb (Datatypes.fst e) k && text_eqb (snd e) v) l && forallb (fun e => if text_eqb (Datatypes.fst e) k then text_eqb (snd e) v else true) l.
Lemma uniq_spec l k v z w : uniq l k v = true -> denote (Table l) k z w <-> z = v /\ w = 0%Z.
Proof.
  unfold uniq. intro U. apply andb_true_iff in U as (E & A). apply existsb_exists in E as ((k0 & v0) & I & E). cbn [Datatypes.fst snd] in E. apply andb_true_iff in E as (E1 & E2). apply text_eqb_eq in E1, E2. subst k0 v0. rewrite forallb_forall in A. split.
  - intros (J & ->). specialize (A _ J). cbn [Datatypes.fst snd] in A. rewrite (proj2 (text_eqb_eq k k) eq_refl) in A. apply text_eqb_eq in A. auto.
  - intros (-> & ->). split; [exact I|reflexivity].
Qed.
Definition first (n : nat) : list N := map N.of_nat (seq 1 n).
Lemma first_in n i : (1 <= i <= N.of_nat n)%N -> In i (first n).
Proof. intro L. unfold first. apply in_map_iff. exists (N.to_nat i). split; [apply N2Nat.id|]. apply in_seq. lia. Qed.
Lemma month_read i z w : (1 <= i <= 12)%N -> denote Date.g_month (small_words i ++ [MONTH]) z w <-> z = two_digits i /\ w = 0%Z.
Proof.
  intro L. apply uniq_spec. apply (first_in 12) in L. revert i L. apply forallb_forall. vm_compute. reflexivity.
Qed.
Lemma day_read i c z w : (1 <= i <= 31)%N -> c = DAY \/ c = HAO -> denote Date.g_day (small_words i ++ [c]) z w <-> z = two_digits i /\ w = 0%Z.
Proof.
  intros L C. apply uniq_spec. apply (first_in 31) in L. destruct C as [->| ->]; revert i L; apply forallb_forall; vm_compute; reflexivity.
Qed.
Lemma small_num i : (1 <= i <= 31)%N -> forallb numc (small_words i) = true.
Proof. intro L. apply (first_in 31) in L. revert i L. apply forallb_forall. vm_compute. reflexivity. Qed.
