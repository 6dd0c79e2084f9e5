(** Spoken English numbers and the cardinals of the inverse grammar (C59). *)
From Coq Require Import List NArith ZArith Bool String Lia Arith.
From Verif Require Import Text TextFacts Fst FstFacts FstRun GrammarModel NumeralSpec EnglishNumeralSpec EnglishSpokenSpec.
From Verif Require Import ZhNumberProofs EnNumberProofs EnNumberProofs4 DataEnItn.
From Verif Require Import EnItnModel.
Import ListNotations.
Local Open Scope list_scope.

(** ** What a graph writes, whatever it costs *)
Definition gives (e : fst) (x d : text) : Prop := exists w, denote e x d w.
Lemma gives_union a b x d : gives (a ∪ b)%fst x d <-> gives a x d \/ gives b x d.
Proof. unfold gives. cbn [denote]. split; [intros (w & [H|H]); eauto|intros [(w & H)|(w & H)]; exists w; auto]. Qed.
Lemma gives_weight k a x d : gives (Weight k a) x d <-> gives a x d.
Proof. unfold gives. cbn [denote]. split; [intros (w & v & _ & H); eauto|intros (w & H); eauto]. Qed.
Lemma gives_cat a b x d : gives (a + b)%fst x d <->
  exists x1 d1 x2 d2, x = x1 ++ x2 /\ d = d1 ++ d2 /\ gives a x1 d1 /\ gives b x2 d2.
Proof.
  unfold gives. split.
  - intros (w & H). apply cat_inv in H as (x1 & y1 & w1 & x2 & y2 & w2 & -> & -> & _ & H1 & H2). eauto 12.
  - intros (x1 & d1 & x2 & d2 & -> & -> & (w1 & H1) & (w2 & H2)). exists (w1 + w2)%Z. now apply cat_i.
Qed.
Lemma gives_cross p q x d : gives (Cross p q) x d <-> x = p /\ d = q.
Proof. unfold gives. cbn [denote]. split; [intros (w & -> & -> & _); auto|intros (-> & ->); exists 0%Z; auto]. Qed.
Lemma gives_ins t x d : gives (insert t) x d <-> x = [] /\ d = t.
Proof. exact (gives_cross [] t x d). Qed.
Lemma gives_table l x d : gives (Table l) x d <-> In (x, d) l.
Proof. unfold gives. cbn [denote]. split; [intros (w & I & _); exact I|intro I; exists 0%Z; auto]. Qed.
Lemma gives_compose a b x d : gives (a @ b)%fst x d <-> exists m, gives a x m /\ gives b m d.
Proof.
  unfold gives. split.
  - intros (w & m & w1 & w2 & _ & H1 & H2). eauto.
  - intros (m & (w1 & H1) & (w2 & H2)). exists (w1 + w2)%Z. now apply compose_i with m.
Qed.
Lemma gives_ds e x d : gives (ds + e)%fst x d <-> exists x', x = 32%N :: x' /\ gives e x' d.
Proof.
  rewrite gives_cat. split.
  - intros (x1 & d1 & x2 & d2 & -> & -> & H & G). apply gives_cross in H as (-> & ->). exists x2. auto.
  - intros (x' & -> & G). exists [32%N], [], x', d. repeat split; auto. now apply gives_cross.
Qed.
Lemma gives_insert t e x d : gives (insert t + e)%fst x d <-> exists d', d = t ++ d' /\ gives e x d'.
Proof.
  rewrite gives_cat. split.
  - intros (x1 & d1 & x2 & d2 & -> & -> & H & G). apply gives_cross in H as (-> & ->). exists d2. auto.
  - intros (d' & -> & G). exists [], t, x, d'. repeat split; auto. now apply gives_cross.
Qed.
Lemma gives_assoc a b c x d : gives (a + b + c)%fst x d <-> gives (a + (b + c))%fst x d.
Proof.
  rewrite !gives_cat. split.
  - intros (x1 & d1 & x2 & d2 & -> & -> & H & G). apply gives_cat in H as (x3 & d3 & x4 & d4 & -> & -> & H1 & H2).
    exists x3, d3, (x4 ++ x2), (d4 ++ d2). rewrite !app_assoc. repeat split; auto. apply gives_cat. eauto 10.
  - intros (x1 & d1 & x2 & d2 & -> & -> & H & G). apply gives_cat in G as (x3 & d3 & x4 & d4 & -> & -> & H1 & H2).
    exists (x1 ++ x3), (d1 ++ d3), x4, d4. rewrite !app_assoc. repeat split; auto. apply gives_cat. eauto 10.
Qed.

(** ** Names and tables *)
Lemma named_in names w n : named names w = Some n -> exists s, In s names /\ u (Datatypes.fst s) = w /\ snd s = n.
Proof.
  unfold named. destruct (find _ _) as [s|] eqn:E; [|discriminate]. intros [= <-]. apply find_some in E as (I & E).
  exists s. destruct (text_eqb_spec (u (Datatypes.fst s)) w); [auto|discriminate].
Qed.
Lemma named_all (P : text -> N -> bool) names : forallb (fun s => P (u (Datatypes.fst s)) (snd s)) names = true ->
  forall w n, named names w = Some n -> P w n = true.
Proof. intros F w n H. apply named_in in H as (s & I & <- & <-). rewrite forallb_forall in F. exact (F s I). Qed.
Definition same_entry (a b : text * text) : bool :=
  text_eqb (Datatypes.fst a) (Datatypes.fst b) && text_eqb (snd a) (snd b).
Lemma same_entry_spec a b : same_entry a b = true -> a = b.
Proof.
  destruct a as (x, d), b as (x', d'). unfold same_entry. cbn [Datatypes.fst snd]. intro H. apply andb_true_iff in H as (A & B).
  destruct (text_eqb_spec x x'), (text_eqb_spec d d'); congruence || discriminate.
Qed.
Definition same_names (l : list (text * text)) (names : list (string * N)) (f : N -> text) : bool :=
  forallb (fun e => match named names (Datatypes.fst e) with Some n => text_eqb (snd e) (f n) | None => false end) l &&
  forallb (fun s => existsb (same_entry (u (Datatypes.fst s), f (snd s))) l) names.
Lemma table_named l names f : same_names l names f = true ->
  forall x d, gives (Table l) x d <-> exists n, named names x = Some n /\ d = f n.
Proof.
  unfold same_names. rewrite andb_true_iff, !forallb_forall. intros (A & B) x d. rewrite gives_table. split.
  - intro I. specialize (A _ I). cbn [Datatypes.fst snd] in A. destruct (named names x) as [n|]; [|discriminate].
    exists n. destruct (text_eqb_spec d (f n)); [auto|discriminate].
  - intros (n & H & ->). apply named_in in H as (s & I & <- & <-). apply B in I. apply existsb_exists in I as (e & I & E).
    apply same_entry_spec in E as <-. exact I.
Qed.
Definition two (n : N) : text := [(48 + n / 10)%N; (48 + n mod 10)%N].
Lemma digit_spec x d : gives digit x d <-> exists n, named unit_names x = Some n /\ d = [(48 + n)%N].
Proof. apply (table_named _ _ (fun n => [(48 + n)%N])). vm_compute. reflexivity. Qed.
Lemma teen_spec x d : gives teen x d <-> exists n, named teen_names x = Some n /\ d = two n.
Proof. apply (table_named _ _ two). vm_compute. reflexivity. Qed.
Lemma ties_spec x d : gives ties x d <-> exists n, named spoken_ties x = Some n /\ d = [(48 + n / 10)%N].
Proof. apply (table_named _ _ (fun n => [(48 + n / 10)%N])). vm_compute. reflexivity. Qed.
Lemma zero_spec x d : gives zero x d <-> x = u "zero" /\ d = u "0".
Proof.
  unfold zero, string_file. rewrite gives_table. split.
  - intro I. vm_compute in I. destruct I as [[= <- <-]|[]]. auto.
  - intros (-> & ->). vm_compute. auto.
Qed.

(** Words that numbers below a thousand are made of. *)
Definition numeral_word (w : text) : bool :=
  match named unit_names w with Some _ => true | None =>
  match named teen_names w with Some _ => true | None =>
  match named spoken_ties w with Some _ => true | None => text_eqb w HUNDRED end end end.
Definition no_space (w : text) : bool := negb (existsb (N.eqb 32) w).
Lemma no_space_spec w : no_space w = true -> spaceless w.
Proof.
  unfold no_space, spaceless. intros H I. apply negb_true_iff in H. assert (existsb (N.eqb 32) w = true) by (apply existsb_exists; exists 32%N; auto). congruence.
Qed.
Lemma unit_facts w n : named unit_names w = Some n -> spaceless w /\ (1 <= n <= 9)%N /\ small [w] = Some n /\ w <> HUNDRED /\
  named teen_names w = None /\ named spoken_ties w = None.
Proof.
  intro H. cbn [small]. rewrite H.
  pose proof (named_all (fun w n => no_space w && (1 <=? n)%N && (n <=? 9)%N && negb (text_eqb w HUNDRED) &&
     match named teen_names w with None => true | _ => false end && match named spoken_ties w with None => true | _ => false end)
     unit_names ltac:(vm_compute; reflexivity) w n H) as F.
  rewrite !andb_true_iff, !N.leb_le in F. destruct F as (((((A & B) & C) & D) & E) & G).
  split; [now apply no_space_spec|]. split; [lia|]. split; [reflexivity|]. split; [|split].
  - intros ->. rewrite text_eqb_refl in D. discriminate.
  - now destruct (named teen_names w).
  - now destruct (named spoken_ties w).
Qed.
Lemma teen_facts w n : named teen_names w = Some n -> spaceless w /\ (10 <= n <= 19)%N /\ small [w] = Some n /\ w <> HUNDRED /\ named unit_names w = None.
Proof.
  intro H. cbn [small]. rewrite H.
  pose proof (named_all (fun w n => no_space w && (10 <=? n)%N && (n <=? 19)%N && negb (text_eqb w HUNDRED) &&
     match named unit_names w with None => true | _ => false end)
     teen_names ltac:(vm_compute; reflexivity) w n H) as F.
  rewrite !andb_true_iff, !N.leb_le in F. destruct F as ((((A & B) & C) & D) & E).
  split; [now apply no_space_spec|]. split; [lia|]. split; [|split].
  - now destruct (named unit_names w).
  - intros ->. rewrite text_eqb_refl in D. discriminate.
  - now destruct (named unit_names w).
Qed.
Lemma tie_facts w n : named spoken_ties w = Some n -> spaceless w /\ (20 <= n <= 90)%N /\ (n mod 10 = 0)%N /\ small [w] = Some n /\ w <> HUNDRED /\
  named unit_names w = None /\ named teen_names w = None.
Proof.
  intro H. cbn [small]. rewrite H.
  pose proof (named_all (fun w n => no_space w && (20 <=? n)%N && (n <=? 90)%N && (n mod 10 =? 0)%N && negb (text_eqb w HUNDRED) &&
     match named unit_names w with None => true | _ => false end && match named teen_names w with None => true | _ => false end)
     spoken_ties ltac:(vm_compute; reflexivity) w n H) as F.
  rewrite !andb_true_iff, !N.leb_le, N.eqb_eq in F. destruct F as ((((((A & B) & C) & M) & D) & E) & G).
  split; [now apply no_space_spec|]. split; [lia|]. split; [exact M|].
  destruct (named unit_names w); [discriminate|]. destruct (named teen_names w); [discriminate|]. split; [reflexivity|].
  split; [intros ->; rewrite text_eqb_refl in D; discriminate|auto].
Qed.
Lemma hundred_spaceless : spaceless HUNDRED.
Proof. apply no_space_spec. reflexivity. Qed.
Lemma hundred_unit : named unit_names HUNDRED = None /\ named teen_names HUNDRED = None /\ named spoken_ties HUNDRED = None.
Proof. repeat split; vm_compute; reflexivity. Qed.

(** ** Digits in a fixed number of places *)
Definition pad (k : nat) (n : N) (d : text) : Prop :=
  Forall digit_char d /\ List.length d = k /\ decimal_value d = n.
Lemma pad_unique k n d d' : pad k n d -> pad k n d' -> d = d'.
Proof. intros (A & B & C) (A' & B' & C'). apply same_digits; congruence || auto. Qed.
Lemma pad_bound k n d : pad k n d -> (n < 10 ^ N.of_nat k)%N.
Proof. intros (A & <- & <-). now apply value_short. Qed.
Lemma pad_app k m n r d e : pad k n d -> pad m r e -> pad (k + m) (n * 10 ^ N.of_nat m + r) (d ++ e).
Proof.
  intros (A & B & C) (A' & B' & C'). split; [apply Forall_app; auto|]. split; [rewrite app_length; lia|].
  rewrite value_app. congruence.
Qed.
Lemma pad_split k m n r d : pad (k + m) (n * 10 ^ N.of_nat m + r) d -> (r < 10 ^ N.of_nat m)%N ->
  exists a b, d = a ++ b /\ pad k n a /\ pad m r b.
Proof.
  intros (A & B & C) R. exists (firstn k d), (skipn k d). pose proof (firstn_skipn k d) as E. split; [now symmetry|].
  assert (La : List.length (firstn k d) = k) by (rewrite firstn_length; lia).
  assert (Lb : List.length (skipn k d) = m) by (rewrite skipn_length; lia).
  rewrite <- E in A, C. apply Forall_app in A as (A1 & A2). rewrite value_app, Lb in C.
  pose proof (value_short _ A2) as S. rewrite Lb in S.
  assert (decimal_value (firstn k d) = n /\ decimal_value (skipn k d) = r) as (V1 & V2) by (apply (N.div_mod_unique (10 ^ N.of_nat m)); [exact S|exact R|rewrite !(N.mul_comm (10 ^ N.of_nat m)); exact C]).
  repeat split; auto.
Qed.
Lemma pad_zeros k : pad k 0 (repeat 48%N k).
Proof.
  induction k as [|k IH]; [split; [constructor|auto]|]. change (repeat 48%N (S k)) with ([48%N] ++ repeat 48%N k).
  change 0%N with (0 * 10 ^ N.of_nat k + 0)%N. apply (pad_app 1 k); [|exact IH].
  split; [constructor; [unfold digit_char; lia|constructor]|auto].
Qed.
Lemma pad_one n : (n <= 9)%N -> pad 1 n [(48 + n)%N].
Proof. intro L. split; [constructor; [unfold digit_char; lia|constructor]|]. split; [reflexivity|]. unfold decimal_value. cbn [fold_left]. lia. Qed.
Lemma pad_two n : (n <= 99)%N -> pad 2 n (two n).
Proof.
  intro L. pose proof (N.div_mod n 10 ltac:(lia)) as E. pose proof (N.mod_lt n 10 ltac:(lia)).
  assert (n / 10 <= 9)%N by lia. unfold two. change ([(48 + n / 10)%N; (48 + n mod 10)%N]) with ([(48 + n / 10)%N] ++ [(48 + n mod 10)%N]).
  replace n with (n / 10 * 10 ^ N.of_nat 1 + n mod 10)%N at 1 by (change (10 ^ N.of_nat 1)%N with 10%N; lia).
  apply (pad_app 1 1); apply pad_one; lia.
Qed.
Lemma pad_decimal k n d : pad (S k) n d -> (10 ^ N.of_nat k <= n)%N -> decimal d n.
Proof.
  intros (A & B & C) L. split; [now destruct d|]. split; [exact A|]. split; [|exact C]. intro H.
  destruct d as [|c d]; [discriminate|]. cbn [hd] in H. subst c. exfalso. cbn [List.length] in B. injection B as B.
  change (48%N :: d) with ([48%N] ++ d) in C. rewrite value_app in C. change (decimal_value [48%N]) with 0%N in C.
  pose proof (value_short d (Forall_inv_tail A)) as S. rewrite B in S. lia.
Qed.
Lemma pad_exists k n : (n < 10 ^ N.of_nat k)%N -> exists d, pad k n d.
Proof.
  revert n. induction k as [|k IH]; intros n L; [exists []; split; [constructor|]; split; [reflexivity|]; cbn in L; unfold decimal_value; cbn; lia|].
  rewrite Nnat.Nat2N.inj_succ, N.pow_succ_r' in L. pose proof (N.div_mod n (10 ^ N.of_nat k) ltac:(apply N.pow_nonzero; lia)) as E.
  pose proof (N.mod_lt n (10 ^ N.of_nat k) ltac:(apply N.pow_nonzero; lia)) as M.
  destruct (IH _ M) as (e & P). exists ([(48 + n / 10 ^ N.of_nat k)%N] ++ e).
  rewrite E at 1. rewrite N.mul_comm. apply (pad_app 1 k); [|exact P]. apply pad_one.
  assert (n / 10 ^ N.of_nat k < 10)%N by (apply N.div_lt_upper_bound; [apply N.pow_nonzero; lia|lia]). lia.
Qed.
Lemma decimal_pad k n d : decimal d n -> (10 ^ N.of_nat k <= n < 10 ^ N.of_nat (S k))%N -> pad (S k) n d.
Proof.
  intros D (G & L). destruct (pad_exists (S k) n L) as (e & P). now rewrite (decimal_unique n d e D (pad_decimal k n e P G)).
Qed.
Lemma decimal_app a k m r e : decimal a k -> (1 <= k)%N -> pad m r e -> decimal (a ++ e) (k * 10 ^ N.of_nat m + r).
Proof.
  intros (Ne & F & H & V) K (A' & B' & C'). split; [now destruct a|]. split; [apply Forall_app; auto|]. split.
  - destruct a as [|c a]; [now destruct Ne|]. cbn [app hd] in *. intro E. specialize (H E). rewrite H in V. vm_compute in V. lia.
  - rewrite value_app. congruence.
Qed.

(** ** Below a hundred *)
Lemma words_two w w' : spaceless w -> spaceless w' -> words (w ++ 32%N :: w') = [w; w'].
Proof. intros A B. now rewrite words_space, !words_one. Qed.
Lemma two_words x w w' : words x = [w; w'] -> x = w ++ 32%N :: w'.
Proof. intro E. rewrite <- (join_words x), E. cbn [join spaced flat_map app]. now rewrite app_nil_r. Qed.
Lemma one_word x w : words x = [w] -> x = w.
Proof. intro E. rewrite <- (join_words x), E. cbn [join spaced flat_map app]. now rewrite app_nil_r. Qed.
Lemma small_bound ws n : small ws = Some n -> (1 <= n <= 99)%N.
Proof.
  destruct ws as [|w [|w' [|w'' ws]]]; cbn [small]; try discriminate.
  - destruct (named unit_names w) as [k|] eqn:U; [intros [= <-]; apply unit_facts in U; lia|].
    destruct (named teen_names w) as [k|] eqn:T; [intros [= <-]; apply teen_facts in T; lia|].
    intro H. apply tie_facts in H. lia.
  - destruct (named spoken_ties w) as [k|] eqn:T; [|discriminate]. destruct (named unit_names w') as [j|] eqn:U; [|discriminate].
    intros [= <-]. apply tie_facts in T. apply unit_facts in U. lia.
Qed.
Lemma two_digit_spec x d : gives Cardinal.two_digit x d <-> exists n, small (words x) = Some n /\ (10 <= n)%N /\ pad 2 n d.
Proof.
  unfold Cardinal.two_digit. rewrite gives_union, teen_spec, gives_cat. split.
  - intros [(n & T & ->)|(x1 & d1 & x2 & d2 & -> & -> & H & G)].
    + exists n. apply teen_facts in T as (S & B & V & _). rewrite words_one by exact S. split; [exact V|]. split; [lia|]. apply pad_two. lia.
    + apply ties_spec in H as (n & T & ->). apply tie_facts in T as F. destruct F as (S & B & M & V & _).
      pose proof (N.div_mod n 10 ltac:(lia)) as E.
      apply gives_union in G as [G|G].
      * apply gives_ds in G as (x' & -> & G). apply digit_spec in G as (k & U & ->). apply unit_facts in U as F. destruct F as (S' & B' & _).
        exists (n + k)%N. rewrite words_two by assumption. cbn [small]. rewrite T, U. split; [reflexivity|]. split; [lia|].
        replace (n + k)%N with (n / 10 * 10 ^ N.of_nat 1 + k)%N by (change (10 ^ N.of_nat 1)%N with 10%N; lia).
        apply (pad_app 1 1); apply pad_one; lia.
      * apply gives_weight, gives_cross in G as (-> & ->). exists n. rewrite app_nil_r, words_one by exact S. split; [exact V|]. split; [lia|].
        replace n with (n / 10 * 10 ^ N.of_nat 1 + 0)%N at 1 by (change (10 ^ N.of_nat 1)%N with 10%N; lia).
        change (u "0") with [(48 + 0)%N]. apply (pad_app 1 1); apply pad_one; lia.
  - intros (n & V & L & P). destruct (words x) as [|w [|w' [|w'' ws]]] eqn:W; cbn [small] in V; try discriminate.
    + apply one_word in W as ->. destruct (named unit_names w) as [k|] eqn:U.
      { injection V as ->. apply unit_facts in U. lia. }
      destruct (named teen_names w) as [k|] eqn:T.
      { injection V as ->. left. exists n. split; [reflexivity|]. apply (pad_unique 2 n); [exact P|]. apply pad_two. apply teen_facts in T. lia. }
      right. exists w, [(48 + n / 10)%N], [], (u "0"). rewrite app_nil_r. split; [reflexivity|]. apply tie_facts in V as F.
      destruct F as (_ & B & M & _). pose proof (N.div_mod n 10 ltac:(lia)) as E. split; [|split].
      * apply (pad_unique 2 n); [exact P|]. replace n with (n / 10 * 10 ^ N.of_nat 1 + 0)%N at 1 by (change (10 ^ N.of_nat 1)%N with 10%N; lia).
        change (u "0") with [(48 + 0)%N]. apply (pad_app 1 1); apply pad_one; lia.
      * apply ties_spec. eauto.
      * apply gives_union. right. apply gives_weight, gives_cross. auto.
    + apply two_words in W as ->. destruct (named spoken_ties w) as [k|] eqn:T; [|discriminate]. destruct (named unit_names w') as [j|] eqn:U; [|discriminate].
      injection V as <-. apply tie_facts in T as F. destruct F as (_ & B & M & _). apply unit_facts in U as G. destruct G as (_ & B' & _).
      pose proof (N.div_mod k 10 ltac:(lia)) as E.
      right. exists w, [(48 + k / 10)%N], (32%N :: w'), [(48 + j)%N]. split; [reflexivity|]. split; [|split].
      * apply (pad_unique 2 (k + j)); [exact P|]. replace (k + j)%N with (k / 10 * 10 ^ N.of_nat 1 + j)%N by (change (10 ^ N.of_nat 1)%N with 10%N; lia).
        apply (pad_app 1 1); apply pad_one; lia.
      * apply ties_spec. eauto.
      * apply gives_union. left. apply gives_ds. exists w'. split; [reflexivity|]. apply digit_spec. eauto.
Qed.
Lemma one_digit_spec x d : gives digit x d <-> exists n, small (words x) = Some n /\ (n <= 9)%N /\ pad 1 n d.
Proof.
  rewrite digit_spec. split.
  - intros (n & U & ->). exists n. apply unit_facts in U as (S & B & V & _). rewrite words_one by exact S. split; [exact V|]. split; [lia|]. apply pad_one. lia.
  - intros (n & V & L & P). exists n. destruct (words x) as [|w [|w' [|w'' ws]]] eqn:W; cbn [small] in V; try discriminate.
    + apply one_word in W as ->. destruct (named unit_names w) as [k|] eqn:U.
      { injection V as ->. split; [reflexivity|]. apply (pad_unique 1 n); [exact P|]. now apply pad_one. }
      destruct (named teen_names w) as [k|] eqn:T; [injection V as ->; apply teen_facts in T; lia|]. apply tie_facts in V. lia.
    + destruct (named spoken_ties w) as [k|] eqn:T; [|discriminate]. destruct (named unit_names w') as [j|] eqn:U; [|discriminate].
      injection V as <-. apply tie_facts in T. apply unit_facts in U. lia.
Qed.
Lemma small_pad x d : gives Cardinal.two_digit x d \/ gives (insert (u "0") + digit)%fst x d <->
  exists n, small (words x) = Some n /\ pad 2 n d.
Proof.
  rewrite two_digit_spec, gives_insert. split.
  - intros [(n & V & L & P)|(d' & -> & G)]; [eauto|]. apply one_digit_spec in G as (n & V & L & P). exists n. split; [exact V|].
    change n with (0 * 10 ^ N.of_nat 1 + n)%N. change (u "0") with [(48 + 0)%N]. apply (pad_app 1 1); [apply pad_one; lia|exact P].
  - intros (n & V & P). destruct (N.le_gt_cases 10 n) as [L|L]; [left; eauto|]. right. exists [(48 + n)%N]. split.
    + apply (pad_unique 2 n); [exact P|]. change n with (0 * 10 ^ N.of_nat 1 + n)%N at 1. change (u "0") with [(48 + 0)%N].
      apply (pad_app 1 1); apply pad_one; lia.
    + apply one_digit_spec. exists n. split; [exact V|]. split; [lia|]. apply pad_one. lia.
Qed.

(** ** Hundreds *)
Definition follows (r : text) : list text := match r with [] => [] | _ :: r' => words r' end.
Lemma words_mid a h r : spaceless h -> (r = [] \/ exists r', r = 32%N :: r') -> words (a ++ 32%N :: h ++ r) = words a ++ h :: follows r.
Proof.
  intros S R. rewrite words_space. f_equal. destruct R as [->|(r' & ->)].
  - rewrite app_nil_r. now apply words_one.
  - rewrite words_space, words_one by exact S. reflexivity.
Qed.
Lemma words_spaceless t : Forall spaceless (words t).
Proof.
  induction t as [|c t IH]; cbn [words]; [constructor; [intros []|constructor]|].
  destruct (N.eqb_spec c 32) as [->|D]; [constructor; [intros []|exact IH]|].
  destruct (words t) as [|w ws]; [repeat constructor; intros [E|[]]; congruence|].
  constructor; [|exact (Forall_inv_tail IH)]. intros [E|I]; [congruence|]. now apply (Forall_inv IH).
Qed.
Lemma mid_words x a h b : words x = a ++ h :: b -> a <> [] ->
  exists r, x = join a ++ 32%N :: h ++ r /\ (r = [] \/ exists r', r = 32%N :: r') /\ follows r = b.
Proof.
  intros W Na. pose proof (words_spaceless x) as S. rewrite W in S. apply Forall_app in S as (Sa & S). exists (spaced b).
  rewrite <- (join_words x), W, join_app by exact Na. split; [reflexivity|].
  destruct b as [|w b]; [auto|]. split; [right; exists (join (w :: b)); reflexivity|].
  change (words (join (w :: b)) = w :: b). apply words_join. exact (Forall_inv_tail S).
Qed.
Lemma after_spec x d : gives Cardinal.after_hundred x d <->
  (x = [] \/ exists x', x = 32%N :: x') /\ exists n, (match follows x with [] => Some 0%N | _ => small (follows x) end) = Some n /\ pad 2 n d.
Proof.
  unfold Cardinal.after_hundred. rewrite !gives_union, gives_assoc, !gives_ds, gives_ins. split.
  - intros [[(x' & -> & G)|(x' & -> & G)]|(-> & ->)].
    + split; [eauto|]. cbn [follows]. destruct (small_pad x' d) as (H & _). destruct (H (or_introl G)) as (n & V & P). exists n.
      split; [|exact P]. pose proof (words_nonempty x'). now destruct (words x').
    + split; [eauto|]. cbn [follows]. destruct (small_pad x' d) as (H & _). destruct (H (or_intror G)) as (n & V & P). exists n.
      split; [|exact P]. pose proof (words_nonempty x'). now destruct (words x').
    + split; [now left|]. exists 0%N. split; [reflexivity|]. exact (pad_zeros 2).
  - intros ([->|(x' & ->)] & n & V & P); cbn [follows] in V.
    + injection V as <-. right. split; [reflexivity|]. exact (pad_unique 2 0 _ _ P (pad_zeros 2)).
    + left. assert (V' : small (words x') = Some n) by (pose proof (words_nonempty x'); now destruct (words x')).
      destruct (small_pad x' d) as (_ & H). destruct H as [H|H]; eauto.
Qed.
Lemma hundreds_gen pre x d : gives (pre + ds + delete (u "hundred") + Cardinal.after_hundred)%fst x d <->
  exists a r d1 d2, x = a ++ 32%N :: HUNDRED ++ r /\ d = d1 ++ d2 /\ gives pre a d1 /\ gives Cardinal.after_hundred r d2.
Proof.
  rewrite !gives_assoc, gives_cat. split.
  - intros (x1 & d1 & x2 & d2 & -> & -> & H & G). apply gives_ds in G as (x' & -> & G).
    apply gives_cat in G as (x3 & d3 & x4 & d4 & -> & -> & G1 & G2). apply gives_cross in G1 as (-> & ->). exists x1, x4, d1, d4. auto.
  - intros (a & r & d1 & d2 & -> & -> & H & G). exists a, d1, (32%N :: HUNDRED ++ r), d2. repeat split; auto.
    apply gives_ds. exists (HUNDRED ++ r). split; [reflexivity|]. apply gives_cat. exists HUNDRED, [], r, d2. repeat split; auto. now apply gives_cross.
Qed.
Lemma hundreds_value k r n : hundreds (Some k) r = Some n -> exists m, (match r with [] => Some 0%N | _ => small r end) = Some m /\ n = (k * 10 ^ N.of_nat 2 + m)%N /\ (m <= 99)%N.
Proof.
  unfold hundreds. destruct (match r with [] => Some 0%N | _ => small r end) as [m|] eqn:E; [|discriminate].
  cbn [plus_named]. intro H. assert (n = 100 * k + m)%N as -> by congruence. exists m. split; [reflexivity|].
  change (10 ^ N.of_nat 2)%N with 100%N. split; [lia|]. destruct r; [injection E as <-; lia|]. apply small_bound in E. lia.
Qed.
Lemma value_hundreds k r m : (match r with [] => Some 0%N | _ => small r end) = Some m -> hundreds (Some k) r = Some (k * 10 ^ N.of_nat 2 + m)%N.
Proof. unfold hundreds. intros ->. cbn [plus_named]. change (10 ^ N.of_nat 2)%N with 100%N. f_equal. lia. Qed.
Lemma hundreds_spec x d : gives Cardinal.hundreds x d <->
  exists w r n, words x = w :: HUNDRED :: r /\ hundreds (named unit_names w) r = Some n /\ pad 3 n d.
Proof.
  unfold Cardinal.hundreds. rewrite hundreds_gen. split.
  - intros (a & r & d1 & d2 & -> & -> & H & G). apply digit_spec in H as (k & U & ->). apply after_spec in G as (R & m & V & P).
    apply unit_facts in U as F. destruct F as (S & B & _). rewrite words_mid by (assumption || exact hundred_spaceless). rewrite words_one by exact S.
    exists a, (follows r), (k * 10 ^ N.of_nat 2 + m)%N. split; [reflexivity|]. rewrite U. split; [now apply value_hundreds|].
    apply (pad_app 1 2); [apply pad_one; lia|exact P].
  - intros (w & r & n & W & V & P). destruct (named unit_names w) as [k|] eqn:U; [|discriminate].
    apply hundreds_value in V as (m & V & -> & L). apply unit_facts in U as F. destruct F as (S & B & _).
    destruct (mid_words x [w] HUNDRED r W ltac:(discriminate)) as (r' & -> & R & <-).
    apply (pad_split 1 2) in P as (d1 & d2 & -> & P1 & P2); [|change (10 ^ N.of_nat 2)%N with 100%N; lia].
    exists (join [w]), r', d1, d2. split; [reflexivity|]. split; [reflexivity|]. cbn [join spaced flat_map]. rewrite app_nil_r. split.
    + apply digit_spec. exists k. split; [exact U|]. apply (pad_unique 1 k); [exact P1|apply pad_one; lia].
    + apply after_spec. eauto.
Qed.
Lemma small_hundred w r : small (w :: HUNDRED :: r) = None.
Proof.
  destruct r; [|reflexivity]. cbn [small]. destruct hundred_unit as (-> & _). now destruct (named spoken_ties w).
Qed.
Lemma below_cases ws n : below ws = Some n <->
  small ws = Some n \/ exists w r, ws = w :: HUNDRED :: r /\ hundreds (named unit_names w) r = Some n.
Proof.
  split.
  - destruct ws as [|w [|h r]]; cbn [below]; auto. destruct (text_eqb_spec h HUNDRED) as [->|]; eauto.
  - intros [H|(w & r & -> & H)].
    + destruct ws as [|w [|h r]]; cbn [below]; auto. destruct (text_eqb_spec h HUNDRED) as [->|]; [|exact H]. now rewrite small_hundred in H.
    + cbn [below]. now rewrite text_eqb_refl.
Qed.
Lemma hundreds_bound w r n : hundreds (named unit_names w) r = Some n -> (100 <= n <= 999)%N.
Proof.
  destruct (named unit_names w) as [k|] eqn:U; [|discriminate]. intro H. apply hundreds_value in H as (m & _ & -> & L).
  apply unit_facts in U. change (10 ^ N.of_nat 2)%N with 100%N. lia.
Qed.
Lemma below_bound ws n : below ws = Some n -> (1 <= n <= 999)%N.
Proof. rewrite below_cases. intros [H|(w & r & _ & H)]; [apply small_bound in H; lia|apply hundreds_bound in H; lia]. Qed.
Lemma padded_spec x d : gives Cardinal.up_to_999_padded x d <-> exists n, below (words x) = Some n /\ pad 3 n d.
Proof.
  unfold Cardinal.up_to_999_padded. rewrite !gives_union, hundreds_spec, !gives_insert. split.
  - intros [[(w & r & n & W & V & P)|(d' & -> & G)]|(d' & -> & G)].
    + exists n. split; [|exact P]. apply below_cases. eauto.
    + apply two_digit_spec in G as (n & V & L & P). exists n. split; [apply below_cases; auto|].
      change n with (0 * 10 ^ N.of_nat 2 + n)%N. apply (pad_app 1 2); [exact (pad_zeros 1)|exact P].
    + apply one_digit_spec in G as (n & V & L & P). exists n. split; [apply below_cases; auto|].
      change n with (0 * 10 ^ N.of_nat 1 + n)%N. apply (pad_app 2 1); [exact (pad_zeros 2)|exact P].
  - intros (n & V & P). apply below_cases in V as [V|(w & r & W & V)]; [|left; left; eauto 8].
    pose proof (small_bound _ _ V) as B. destruct (N.le_gt_cases 10 n) as [L|L].
    + left. right. change n with (0 * 10 ^ N.of_nat 2 + n)%N in P. apply (pad_split 1 2) in P as (d1 & d2 & -> & P1 & P2); [|change (10 ^ N.of_nat 2)%N with 100%N; lia].
      exists d2. split; [f_equal; exact (pad_unique 1 0 _ _ P1 (pad_zeros 1))|]. apply two_digit_spec. eauto.
    + right. change n with (0 * 10 ^ N.of_nat 1 + n)%N in P. apply (pad_split 2 1) in P as (d1 & d2 & -> & P1 & P2); [|change (10 ^ N.of_nat 1)%N with 10%N; lia].
      exists d2. split; [f_equal; exact (pad_unique 2 0 _ _ P1 (pad_zeros 2))|]. apply one_digit_spec. exists n. split; [exact V|]. split; [lia|exact P2].
Qed.
Lemma plain_spec x d : gives Cardinal.up_to_999 x d <-> exists n, below (words x) = Some n /\ decimal d n.
Proof.
  unfold Cardinal.up_to_999, Cardinal.up_to_99. rewrite !gives_union, one_digit_spec, two_digit_spec, hundreds_spec. split.
  - intros [[(n & V & L & P)|(n & V & L & P)]|(w & r & n & W & V & P)]; exists n.
    + split; [apply below_cases; auto|]. apply (pad_decimal 0); [exact P|]. apply small_bound in V. cbn. lia.
    + split; [apply below_cases; auto|]. apply (pad_decimal 1); [exact P|]. exact L.
    + split; [apply below_cases; eauto|]. apply (pad_decimal 2); [exact P|]. apply hundreds_bound in V. change (10 ^ N.of_nat 2)%N with 100%N. lia.
  - intros (n & V & D). assert (Ex : forall k, (n < 10 ^ N.of_nat (S k))%N -> (10 ^ N.of_nat k <= n)%N -> pad (S k) n d) by (intros; now apply decimal_pad).
    apply below_cases in V as [V|(w & r & W & V)].
    + left. pose proof (small_bound _ _ V) as B. destruct (N.le_gt_cases 10 n) as [L|L].
      * right. exists n. split; [exact V|]. split; [exact L|]. apply (Ex 1%nat); [change (10 ^ N.of_nat 2)%N with 100%N; lia|exact L].
      * left. exists n. split; [exact V|]. split; [lia|]. apply (Ex 0%nat); [cbn; lia|cbn; lia].
    + right. exists w, r, n. split; [exact W|]. split; [exact V|]. apply hundreds_bound in V as B.
      apply (Ex 2%nat); [change (10 ^ N.of_nat 3)%N with 1000%N; lia|change (10 ^ N.of_nat 2)%N with 100%N; lia].
Qed.
