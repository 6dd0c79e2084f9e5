(** Spoken English numbers: "and", the words up to twelve, and the names of EnglishNumeralSpec.v (C59). *)
From Coq Require Import List NArith ZArith Bool String Lia Arith.
From Verif Require Import Text TextFacts Fst FstFacts FstRun GrammarModel NumeralSpec EnglishNumeralSpec EnglishSpokenSpec.
From Verif Require Import ZhNumberProofs EnNumberProofs EnNumberProofs4 DataEnItn EnSpokenProofs EnSpokenProofs2 EnSpokenProofs3.
From Verif Require Import EnItnModel.
Import ListNotations.
Local Open Scope list_scope.

(** ** The words of a spoken number *)
Definition good (w : text) : bool := alpha_start w && negb (is_and w) && forallb vchar w.
Definition number_words_list : list text :=
  map (fun s => u (Datatypes.fst s)) (unit_names ++ teen_names ++ spoken_ties) ++ [HUNDRED; u "zero"] ++ map Datatypes.fst spoken_scales.
Lemma all_good : forallb good number_words_list = true.
Proof. vm_compute. reflexivity. Qed.
Lemma named_list names w n : named names w = Some n -> In w (map (fun s => u (Datatypes.fst s)) names).
Proof. intro H. apply named_in in H as (s & I & <- & _). now apply (in_map (fun s => u (Datatypes.fst s))) in I. Qed.
Lemma numeral_good w : numeral_word w = true -> good w = true.
Proof.
  intro H. pose proof all_good as A. rewrite forallb_forall in A. apply A. unfold number_words_list. rewrite !map_app, !in_app_iff.
  unfold numeral_word in H.
  destruct (named unit_names w) eqn:U; [apply named_list in U; auto|]. destruct (named teen_names w) eqn:T; [apply named_list in T; auto|].
  destruct (named spoken_ties w) eqn:S; [apply named_list in S; auto|]. destruct (text_eqb_spec w HUNDRED) as [->|]; [|discriminate].
  cbn [In]. auto.
Qed.
Lemma spoken_good ws n : spoken_words ws = Some n -> ws <> [] /\ Forall (fun w => good w = true) ws.
Proof.
  intro H. apply spoken_cases in H as [(-> & _)|[H|H]].
  - split; [discriminate|]. constructor; [vm_compute; reflexivity|constructor].
  - apply many_words in H as (F & _ & L). split; [intros ->; cbn in L; lia|]. eapply Forall_impl; [|exact F]. exact numeral_good.
  - split; [intros ->; vm_compute in H; discriminate|]. apply said_words in H. eapply Forall_impl; [|exact H]. intros w [E|I]; [now apply numeral_good|].
    pose proof all_good as A. rewrite forallb_forall in A. apply A. unfold number_words_list. rewrite !in_app_iff. auto.
Qed.
Lemma good_parts w : good w = true -> alpha_start w = true /\ is_and w = false /\ forallb vchar w = true.
Proof. unfold good. rewrite !andb_true_iff, negb_true_iff. tauto. Qed.

(** ** Dropping "and" *)
Definition without (ws : list text) : list text := filter (fun w => negb (is_and w)) ws.
Lemma is_and_spec w : is_and w = true <-> w = AND.
Proof. unfold is_and. destruct (text_eqb_spec w AND); split; congruence. Qed.
Lemma is_and_not w : is_and w = false <-> w <> AND.
Proof. unfold is_and. destruct (text_eqb_spec w AND); split; congruence. Qed.
Lemma drop_clean ws : Forall (fun w => is_and w = false) (drop ws) -> drop ws = without ws /\ last ws [] <> AND.
Proof.
  induction ws as [|w ws IH]; [split; [reflexivity|discriminate]|]. cbn [drop without filter].
  destruct (is_and w) eqn:A; cbn [andb negb].
  - destruct (alpha_start (hd [] ws)) eqn:S.
    + intro F. destruct (IH F) as (E & L). split; [exact E|]. destruct ws; [discriminate|exact L].
    + intro F. apply Forall_inv in F. congruence.
  - intro F. destruct (IH (Forall_inv_tail F)) as (E & L). split; [unfold without in E; now rewrite E|].
    destruct ws; [|exact L]. cbn [last]. now apply is_and_not.
Qed.
Lemma and_alpha : alpha_start AND = true.
Proof. reflexivity. Qed.
Lemma drop_without ws : last ws [] <> AND -> Forall (fun w => good w = true) (without ws) -> drop ws = without ws.
Proof.
  induction ws as [|w ws IH]; [reflexivity|]. cbn [drop without filter]. intros L F. destruct (is_and w) eqn:A; cbn [andb negb] in *.
  - apply is_and_spec in A as ->. destruct ws as [|v ws]; [now destruct L|]. assert (S : alpha_start v = true).
    { destruct (is_and v) eqn:B; [apply is_and_spec in B as ->; exact and_alpha|]. cbn [without filter] in F. rewrite B in F. cbn [negb] in F.
      apply Forall_inv in F. now apply good_parts in F. }
    cbn [hd]. rewrite S. apply IH; [exact L|exact F].
  - f_equal. apply IH; [destruct ws; [discriminate|exact L]|exact (Forall_inv_tail F)].
Qed.
Lemma without_valid ws : Forall (fun w => good w = true) (without ws) -> Forall (fun w => forallb vchar w = true) ws.
Proof.
  induction ws as [|w ws IH]; [constructor|]. cbn [without filter]. destruct (is_and w) eqn:A; cbn [negb]; intro F.
  - constructor; [apply is_and_spec in A as ->; reflexivity|now apply IH].
  - constructor; [apply Forall_inv in F; now apply good_parts in F|apply IH; exact (Forall_inv_tail F)].
Qed.
Lemma join_valid ws : Forall (fun w => forallb vchar w = true) ws -> forallb vchar (join ws) = true.
Proof.
  destruct ws as [|w ws]; [reflexivity|]. intro F. cbn [join]. rewrite forallb_app, (Forall_inv F). cbn [andb]. apply Forall_inv_tail in F.
  induction F as [|v vs V _ IH]; [reflexivity|]. cbn [spaced flat_map app forallb]. rewrite forallb_app, V. exact IH.
Qed.
Lemma spoken_valid y n : spoken y n -> forallb vchar y = true.
Proof.
  intros (_ & _ & V). apply spoken_good in V as (_ & F). rewrite <- (join_words y). apply join_valid. now apply without_valid.
Qed.
Lemma gives_and y m : gives delete_and y m -> words m = hd [] (words y) :: drop (tl (words y)).
Proof.
  intros (w & H). apply and_words in H as (_ & H). apply H. intros (o & E). now destruct o.
Qed.
Lemma spoken_spec y n : (exists m, gives delete_and y m /\ spoken_words (words m) = Some n) <-> spoken y n.
Proof.
  pose proof (words_nonempty y) as Ne. unfold spoken. fold (without (words y)). split.
  - intros (m & G & V). apply gives_and in G. rewrite G in V. apply spoken_good in V as F. destruct F as (_ & F).
    destruct (words y) as [|w ws]; [now destruct Ne|]. cbn [hd tl] in *. pose proof (good_parts w (Forall_inv F)) as (_ & A & _).
    destruct (drop_clean ws) as (E & L). { apply Forall_inv_tail in F. eapply Forall_impl; [|exact F]. intros v G'. now apply good_parts in G'. }
    split; [now apply is_and_not|]. split; [destruct ws; [now apply is_and_not|exact L]|].
    cbn [without filter]. rewrite A. cbn [negb]. fold (without ws). now rewrite <- E.
  - intros S. pose proof (spoken_valid y n S) as Vy. destruct S as (H & L & V). destruct (and_total y [] Vy) as (m & w & R). exists m.
    split; [now exists w|]. rewrite (gives_and y m) by now exists w. destruct (words y) as [|v ws]; [now destruct Ne|]. cbn [hd tl without filter] in *.
    apply is_and_not in H. rewrite H in V. cbn [negb] in V. fold (without ws) in V.
    rewrite drop_without; [exact V|destruct ws; [discriminate|exact L]|]. apply spoken_good in V as (_ & F). exact (Forall_inv_tail F).
Qed.
Theorem graph_spec y d : gives Cardinal.graph y d <-> exists n, spoken y n /\ decimal d n.
Proof.
  unfold Cardinal.graph. rewrite gives_compose. split.
  - intros (m & A & G). apply graph1_spec in G as (n & V & D). exists n. split; [|exact D]. apply spoken_spec. eauto.
  - intros (n & S & D). apply spoken_spec in S as (m & A & V). exists m. split; [exact A|]. apply graph1_spec. eauto.
Qed.

(** ** Texts outside a list *)
Lemma heads_in c l : In c (heads l) <-> exists r, In (c :: r) l.
Proof.
  unfold heads. rewrite in_flat_map. split.
  - intros ([|d r] & I & J); [destruct J|]. destruct J as [->|[]]. eauto.
  - intros (r & I). exists (c :: r). split; [exact I|now left].
Qed.
Lemma tails_in c l r : In r (tails c l) <-> In (c :: r) l.
Proof.
  unfold tails. rewrite in_flat_map. split.
  - intros ([|d t] & I & J); [destruct J|]. destruct (N.eqb_spec c d) as [->|]; [|destruct J]. destruct J as [->|[]]. exact I.
  - intro I. exists (c :: r). split; [exact I|]. rewrite N.eqb_refl. now left.
Qed.
Lemma gives_class p x d : gives (Class p) x d <-> exists c, x = [c] /\ d = [c] /\ p c = true.
Proof. unfold gives. cbn [denote]. split; [intros (w & c & A & B & C & _); eauto|intros (c & A & B & C); exists 0%Z, c; auto]. Qed.
Lemma gives_vsigma x d : gives VSIGMA x d <-> d = x /\ forallb vchar x = true.
Proof.
  split.
  - intros (w & H). unfold VSIGMA in H. cbn [denote] in H. induction H as [|a b w a' b' w' H _ (-> & IH)]; [auto|].
    cbn [denote VCHAR] in H. destruct H as (c & -> & -> & V & _). split; [reflexivity|]. cbn [app forallb]. now rewrite V.
  - intros (-> & V). exists 0%Z. unfold VSIGMA. cbn [denote]. induction x as [|c x IH]; [constructor|]. cbn [forallb] in V.
    apply andb_true_iff in V as (Vc & V). change (c :: x) with ([c] ++ x). change 0%Z with (0 + 0)%Z. constructor; [|auto].
    exists c. auto.
Qed.
Lemma gives_choice (f : N -> fst) g l x d : gives (fold_right (fun c g => f c ∪ g)%fst g l) x d <-> (exists c, In c l /\ gives (f c) x d) \/ gives g x d.
Proof.
  induction l as [|c l IH]; cbn [fold_right]; [split; [auto|intros [(c & [] & _)|H]; exact H]|]. rewrite gives_union, IH. cbn [In]. split.
  - intros [H|[(c' & I & H)|H]]; eauto.
  - intros [(c' & [<-|I] & H)|H]; eauto.
Qed.
Lemma except_spec n : forall l, (forall t, In t l -> List.length t <= n /\ forallb vchar t = true) ->
  forall x d, gives (except_within (S n) l) x d <-> d = x /\ forallb vchar x = true /\ ~ In x l.
Proof.
  induction n as [n IH] using lt_wf_ind. intros l Hl x d. cbn [except_within]. rewrite gives_choice, gives_union. rewrite gives_cat.
  assert (Rest : forall c, In c (nodup N.eq_dec (heads l)) -> forall x d, gives (accep [c] + except_within n (tails c l))%fst x d <->
     exists r, x = c :: r /\ d = x /\ forallb vchar x = true /\ ~ In x l).
  { intros c I z e. apply nodup_In, heads_in in I as (r & I). destruct (Hl _ I) as (L & V). destruct n as [|n]; [cbn in L; lia|].
    cbn [forallb] in V. apply andb_true_iff in V as (Vc & _).
    assert (Ht : forall t, In t (tails c l) -> List.length t <= n /\ forallb vchar t = true).
    { intros t It. apply tails_in in It. apply Hl in It as (L' & V'). cbn [List.length forallb] in L', V'. apply andb_true_iff in V'. split; [lia|tauto]. }
    rewrite gives_cat. split.
    - intros (x1 & d1 & x2 & d2 & -> & -> & H & G). apply gives_cross in H as (-> & ->). apply (IH n ltac:(lia) _ Ht) in G as (-> & V2 & Ni).
      exists x2. cbn [app forallb]. rewrite Vc, V2. repeat split; auto. intro J. apply Ni. now apply tails_in.
    - intros (r' & -> & -> & V' & Ni). exists [c], [c], r', r'. cbn [forallb] in V'. apply andb_true_iff in V' as (_ & V').
      repeat split; [now apply gives_cross|]. apply (IH n ltac:(lia) _ Ht). repeat split; auto. intro J. apply Ni. now apply tails_in in J. }
  split.
  - intros [(c & I & H)|[H|H]].
    + apply (Rest c I) in H as (r & -> & -> & V & Ni). auto.
    + destruct (existsb _ l) eqn:E; [apply gives_table in H as []|]. apply gives_cross in H as (-> & ->). repeat split. intro I.
      apply not_true_iff_false in E. apply E. apply existsb_exists. now exists [].
    + destruct H as (x1 & d1 & x2 & d2 & -> & -> & H & G). apply gives_class in H as (c & -> & -> & P). apply gives_vsigma in G as (-> & V).
      apply andb_true_iff in P as (Vc & P). apply negb_true_iff in P. split; [reflexivity|]. cbn [app forallb]. rewrite Vc. split; [exact V|]. intro I.
      assert (existsb (N.eqb c) (heads l) = true); [|congruence]. apply existsb_exists. exists c. split; [apply heads_in; eauto|apply N.eqb_refl].
  - intros (-> & V & Ni). destruct x as [|c x].
    + right. left. destruct (existsb _ l) eqn:E; [|now apply gives_cross]. apply existsb_exists in E as ([|c t] & I & E); [now destruct Ni|discriminate].
    + destruct (existsb (N.eqb c) (heads l)) eqn:E.
      * left. exists c. apply existsb_exists in E as (c' & I & E). apply N.eqb_eq in E as <-. assert (J : In c (nodup N.eq_dec (heads l))) by now apply nodup_In.
        split; [exact J|]. apply (Rest c J). eauto.
      * right. right. cbn [forallb] in V. apply andb_true_iff in V as (Vc & V). exists [c], [c], x, x. repeat split.
        -- apply gives_class. exists c. now rewrite Vc, E.
        -- now apply gives_vsigma.
Qed.
Lemma gives_except l x d : Forall (fun t => forallb vchar t = true) l -> gives (except l) x d <-> d = x /\ forallb vchar x = true /\ ~ In x l.
Proof.
  intro F. unfold except. apply except_spec. intros t I. split; [|rewrite Forall_forall in F; now apply F].
  pose proof (proj1 (list_max_le (map (@List.length N) l) _) (le_n _)) as M. rewrite Forall_forall in M. apply M. now apply in_map.
Qed.

(** ** The words up to twelve *)
Definition labels_12 : list text :=
  [u "zero"; u "one"; u "two"; u "three"; u "four"; u "five"; u "six"; u "seven"; u "eight"; u "nine"; u "ten"; u "eleven"; u "twelve"].
Lemma labels_are : Cardinal.exception_labels = labels_12.
Proof. vm_compute. reflexivity. Qed.
Lemma labels_valid : Forall (fun t => forallb vchar t = true) labels_12.
Proof. apply Forall_forall. intros t I. assert (F : forallb (forallb vchar) labels_12 = true) by (vm_compute; reflexivity). rewrite forallb_forall in F. auto. Qed.
Definition spoken_b (y : text) (m : N) : bool :=
  negb (is_and (hd [] (words y))) && negb (is_and (last (words y) [])) &&
  match spoken_words (without (words y)) with Some n => (n <=? m)%N | None => false end.
Lemma labels_spoken y n : In y labels_12 -> spoken y n -> (n <= 12)%N.
Proof.
  intros I (_ & _ & S). assert (F : forallb (fun y => spoken_b y 12) labels_12 = true) by (vm_compute; reflexivity).
  rewrite forallb_forall in F. apply F in I. unfold spoken_b in I. apply andb_true_iff in I as (_ & I). fold (without (words y)) in S. rewrite S in I.
  now apply N.leb_le in I.
Qed.
Lemma low_said ss ws n : said (mags ss) ws = Some n -> (n <= 12)%N -> below ws = Some n.
Proof.
  revert ws. induction ss as [|s ss IH]; intros ws; [auto|]. cbn [said mags]. fold (places ss). destruct (cut (u s) ws) as [(a, b)|]; [|auto].
  destruct (below a) as [k|] eqn:B; [|discriminate]. intros H L. exfalso. apply plus_both in H as (i & j & E & _ & ->).
  assert (i = k * 10 ^ N.of_nat (places ss))%N as -> by congruence. clear E. apply below_bound in B. assert (1000 <= 10 ^ N.of_nat (places ss))%N.
  { change 1000%N with (10 ^ 3)%N. apply N.pow_le_mono_r; [lia|]. unfold places. lia. }
  nia.
Qed.
Lemma low_unit w n : named unit_names w = Some n -> In w labels_12.
Proof. intro H. apply named_list in H. unfold labels_12. cbn [map unit_names Datatypes.fst In] in H |- *. tauto. Qed.
Lemma low_teen w n : named teen_names w = Some n -> (n <= 12)%N -> In w labels_12.
Proof.
  intros H L. pose proof (named_all (fun w n => negb (n <=? 12)%N || existsb (text_eqb w) labels_12) teen_names ltac:(vm_compute; reflexivity) w n H) as F.
  cbn beta in F. apply N.leb_le in L. rewrite L in F. cbn [negb orb] in F. apply existsb_exists in F as (v & I & E).
  destruct (text_eqb_spec w v) as [->|]; [exact I|discriminate].
Qed.
Lemma low_words ws n : spoken_words ws = Some n -> (n <= 12)%N -> exists w, ws = [w] /\ In w labels_12.
Proof.
  intros H L. apply spoken_cases in H as [(-> & _)|[H|H]]; [exists (u "zero"); split; [reflexivity|now left]| |].
  - exfalso. destruct ws as [|w [|h r]]; [discriminate..|]. cbn [many_hundreds] in H. destruct (text_eqb h HUNDRED).
    + destruct (named teen_names w) as [k|] eqn:T; [|discriminate]. apply teen_facts in T as (_ & T & _). apply hundreds_value in H as (m & _ & -> & _).
      change (10 ^ N.of_nat 2)%N with 100%N in L. lia.
    + destruct r as [|h' r]; [discriminate|]. destruct (text_eqb h' HUNDRED); [|discriminate]. destruct (plus_named _ _) as [k|] eqn:P; [|discriminate].
      apply plus_both in P as (i & j & T & _ & ->). apply tie_facts in T as (_ & T & _). apply hundreds_value in H as (m & _ & -> & _).
      change (10 ^ N.of_nat 2)%N with 100%N in L. lia.
  - rewrite <- mags_all in H. apply low_said in H; [|exact L]. apply below_cases in H as [H|(w & r & _ & H)]; [|apply hundreds_bound in H; lia].
    destruct ws as [|w [|w' [|w'' ws]]]; cbn [small] in H; try discriminate.
    + exists w. split; [reflexivity|]. destruct (named unit_names w) eqn:U; [now apply low_unit in U|].
      destruct (named teen_names w) eqn:T; [injection H as ->; now apply low_teen in T|]. apply tie_facts in H. lia.
    + exfalso. apply plus_both in H as (i & j & T & _ & ->). apply tie_facts in T. lia.
Qed.
(** One word and nothing but "and" around it, but not at the ends. *)
Lemma single_word ws w : ws <> [] -> hd [] ws <> AND -> last ws [] <> AND -> without ws = [w] -> ws = [w].
Proof.
  intros Ne H L E. destruct ws as [|v ws]; [now destruct Ne|]. cbn [hd] in H. cbn [without filter] in E. apply is_and_not in H. rewrite H in E. cbn [negb] in E.
  fold (without ws) in E. injection E as -> E. f_equal. clear Ne. destruct ws as [|a ws] using rev_ind; [reflexivity|].
  exfalso. rewrite app_comm_cons, last_last in L. apply is_and_not in L. unfold without in E. rewrite filter_app in E. cbn [filter] in E. rewrite L in E. cbn [negb] in E.
  now destruct (filter _ ws).
Qed.
Lemma spoken_low y n : spoken y n -> In y labels_12 <-> (n <= 12)%N.
Proof.
  intro S. split; [intro I; now apply (labels_spoken y n I)|]. intro L. destruct S as (H & La & V). apply low_words in V as (w & E & I); [|exact L].
  apply single_word in E; [|apply words_nonempty|exact H|exact La]. apply one_word in E as ->. exact I.
Qed.
Theorem integer_spec y d : gives Cardinal.integer y d <-> exists n, spoken y n /\ (13 <= n)%N /\ decimal d n.
Proof.
  unfold Cardinal.integer. rewrite gives_compose, labels_are. split.
  - intros (m & E & G). apply (gives_except _ _ _ labels_valid) in E as (-> & _ & Ni). apply graph_spec in G as (n & S & D). exists n.
    split; [exact S|]. split; [|exact D]. pose proof (spoken_low y n S). destruct (N.le_gt_cases n 12); [tauto|lia].
  - intros (n & S & L & D). exists y. split; [|apply graph_spec; eauto]. apply (gives_except _ _ _ labels_valid). split; [reflexivity|].
    split; [exact (spoken_valid y n S)|]. rewrite (spoken_low y n S). lia.
Qed.

(** ** The names of EnglishNumeralSpec.v *)
Lemma named_tie w n : named tie_names w = Some n -> named spoken_ties w = Some n.
Proof.
  intro H. pose proof (named_all (fun w n => match named spoken_ties w with Some m => (m =? n)%N | None => false end) tie_names ltac:(vm_compute; reflexivity) w n H) as F.
  cbn beta in F. destruct (named spoken_ties w); [|discriminate]. apply N.eqb_eq in F as ->. reflexivity.
Qed.
Lemma below_hundred_small ws n : below_hundred ws = Some n -> small ws = Some n.
Proof.
  destruct ws as [|w [|w' [|w'' ws]]]; cbn [below_hundred small]; try discriminate.
  - destruct (named unit_names w); [auto|]. destruct (named teen_names w); [auto|]. apply named_tie.
  - intro H. apply plus_both in H as (i & j & T & U & ->). now rewrite (named_tie _ _ T), U.
Qed.
Lemma without_good ws : Forall (fun w => good w = true) ws -> without ws = ws.
Proof.
  induction 1 as [|w ws G _ IH]; [reflexivity|]. cbn [without filter]. apply good_parts in G as (_ & -> & _). cbn [negb]. fold (without ws). now rewrite IH.
Qed.
Lemma small_good ws n : small ws = Some n -> Forall (fun w => good w = true) ws.
Proof. intro H. apply small_words in H. eapply Forall_impl; [|exact H]. exact numeral_good. Qed.
Lemma good_ends ws : Forall (fun w => good w = true) ws -> hd [] ws <> AND /\ last ws [] <> AND.
Proof.
  intro F. split.
  - destruct F as [|w ws G _]; [discriminate|]. apply good_parts in G. now apply is_and_not.
  - destruct ws as [|w ws] using rev_ind; [discriminate|]. rewrite last_last. apply Forall_app in F as (_ & F). apply Forall_inv, good_parts in F. now apply is_and_not.
Qed.
Definition fine (ws : list text) (v : option N) (n : N) : Prop := v = Some n /\ ws <> [] /\ hd [] ws <> AND /\ last ws [] <> AND.
Lemma small_fine ws n : small ws = Some n -> fine ws (small (without ws)) n.
Proof.
  intro H. pose proof (small_good ws n H) as G. unfold fine. rewrite without_good by exact G. split; [exact H|].
  split; [intros ->; discriminate|]. now apply good_ends.
Qed.
Lemma hd_cons (w : text) r : hd [] (w :: r) = w.
Proof. reflexivity. Qed.
Lemma below_thousand_fine ws n : below_thousand ws = Some n -> fine ws (below (without ws)) n.
Proof.
  intro H. assert (K : below_hundred ws = Some n \/ exists w r k, ws = w :: HUNDRED :: r /\ named unit_names w = Some k /\
    (r = [] /\ n = (100 * k)%N \/ exists r' m, (r = r' \/ r = AND :: r') /\ small r' = Some m /\ n = (100 * k + m)%N)).
  { destruct ws as [|w [|h r]]; cbn [below_thousand] in H; auto. destruct (text_eqb_spec h HUNDRED) as [->|]; [|auto]. right.
    destruct (named unit_names w) as [k|] eqn:U; [|discriminate]. exists w, r, k. split; [reflexivity|]. split; [exact U|]. destruct r as [|a r].
    - left. split; [reflexivity|congruence].
    - right. apply plus_both in H as (i & j & E & B & ->). apply below_hundred_small in B.
      assert (i = (100 * k)%N) as -> by congruence. destruct (text_eqb_spec a AND) as [->|]; eauto 8. }
  destruct K as [K|(w & r & k & -> & U & K)].
  - apply below_hundred_small in K. destruct (small_fine ws n K) as (S & Ne & F). split; [|split; [exact Ne|exact F]]. apply below_cases. auto.
  - assert (Gw : good w = true) by (apply numeral_good; unfold numeral_word; now rewrite U).
    assert (Gh : good HUNDRED = true) by (vm_compute; reflexivity).
    pose proof (good_parts _ Gw) as (_ & Aw & _). pose proof (good_parts _ Gh) as (_ & Ah & _).
    unfold fine. cbn [without filter]. rewrite Aw, Ah. cbn [negb below]. rewrite text_eqb_refl, U. fold (without r).
    destruct K as [(-> & ->)|(r' & m & R & S & ->)].
    + split; [cbn [without filter hundreds plus_named]; f_equal; lia|]. split; [discriminate|]. split; [now apply is_and_not|discriminate].
    + pose proof (small_good r' m S) as G. assert (W : without r = r').
      { destruct R as [->| ->]; [now apply without_good|]. change (without (AND :: r')) with (without r'). now apply without_good. }
      rewrite W. assert (Nr : r' <> []) by (intros ->; discriminate). split.
      * unfold hundreds. destruct r' as [|v r']; [now destruct Nr|]. now rewrite S.
      * split; [discriminate|]. split; [now apply is_and_not|]. destruct (good_ends _ G) as (_ & L).
        destruct R as [->| ->]; [|cbn [last]; destruct r' as [|v r']; [now destruct Nr|exact L]].
        cbn [last]. destruct r' as [|v r']; [now destruct Nr|exact L].
Qed.
Lemma cut_without s ws : s <> AND -> cut s (without ws) = match cut s ws with Some (a, b) => Some (without a, without b) | None => None end.
Proof.
  intro D. apply is_and_not in D. induction ws as [|w ws IH]; [reflexivity|]. cbn [without filter cut]. fold (without ws).
  destruct (text_eqb_spec w s) as [->|Ns].
  - rewrite D. cbn [negb cut]. now rewrite text_eqb_refl.
  - destruct (is_and w) eqn:A; cbn [negb].
    + rewrite IH. destruct (cut s ws) as [(a, b)|]; [|reflexivity]. cbn [without filter]. now rewrite A.
    + cbn [cut]. rewrite text_eqb_neq by exact Ns. rewrite IH. destruct (cut s ws) as [(a, b)|]; [|reflexivity]. cbn [without filter]. now rewrite A.
Qed.
Lemma scaled_fine ss : apart ss -> Forall (fun s => u s <> AND) ss -> forall ws n, scaled false (mags ss) ws = Some n -> fine ws (said (mags ss) (without ws)) n.
Proof.
  induction ss as [|s ss IH]; intros A F ws n; [exact (below_thousand_fine ws n)|]. pose proof A as (_ & Nw & _ & A').
  cbn [scaled said mags andb]. fold (places ss). pose proof (Forall_inv F) as Ns. apply Forall_inv_tail in F. specialize (IH A' F).
  rewrite cut_without by exact Ns. destruct (cut (u s) ws) as [(a, b)|] eqn:C; [|apply IH]. apply cut_some in C as (-> & _).
  destruct (below_thousand a) as [k|] eqn:B; [|discriminate]. apply below_thousand_fine in B as (-> & Na & Ha & _).
  assert (Hd : hd [] (a ++ u s :: b) <> AND) by (destruct a; [now destruct Na|exact Ha]).
  assert (Ne : a ++ u s :: b <> []) by (now destruct a).
  assert (La : forall v, v <> [] -> last (a ++ u s :: v) [] = last v []).
  { intros v Nv. destruct v as [|z v] using rev_ind; [now destruct Nv|]. now rewrite app_comm_cons, app_assoc, !last_last. }
  destruct b as [|w r].
  - intro H. assert (n = k * 10 ^ N.of_nat (places ss))%N as -> by congruence. split; [cbn [without filter plus_named]; f_equal; lia|]. split; [exact Ne|]. split; [exact Hd|]. now rewrite last_last.
  - intro H. apply plus_both in H as (i & j & E & R & ->). assert (i = k * 10 ^ N.of_nat (places ss))%N as -> by congruence. clear E.
    assert (K : fine r (said (mags ss) (without r)) j /\ w = AND \/ fine (w :: r) (said (mags ss) (without (w :: r))) j).
    { destruct (text_eqb_spec w AND) as [->|].
      - left. split; [|reflexivity]. apply below_hundred_small in R. destruct (small_fine r j R) as (S & Fi). split; [|exact Fi].
        rewrite said_none; [|exact A'|now apply small_words in S]. apply below_cases. auto.
      - right. now apply IH. }
    destruct K as [((S & Nr & _ & L) & ->)|(S & _ & Hw & L)].
    + split; [|split; [exact Ne|split; [exact Hd|rewrite La by discriminate; cbn [last]; destruct r; [now destruct Nr|exact L]]]].
      change (without (AND :: r)) with (without r). rewrite S. destruct (without r) eqn:W; [|reflexivity].
      exfalso. clear -S. revert S. induction ss; [discriminate|auto].
    + split; [|split; [exact Ne|split; [exact Hd|rewrite La by discriminate; exact L]]]. rewrite S. destruct (without (w :: r)) eqn:W; [|reflexivity].
      exfalso. clear -S. revert S. induction ss; [discriminate|auto].
Qed.
