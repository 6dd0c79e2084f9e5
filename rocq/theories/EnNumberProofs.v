(** The number names of the English archive (C58): words, groups of three digits, values. *)
From Coq Require Import List NArith ZArith Bool String Lia Arith.
From Verif Require Import Text TextFacts Fst FstFacts FstRun GrammarModel NumeralSpec EnglishNumeralSpec.
From Verif Require Import ZhNumberProofs DataEnTn.
From Verif Require EnTnModel.
Import EnTnModel(graph_digit, INSERT_SPACE).
Import ListNotations.
Local Open Scope list_scope.

(** ** Words *)
Definition spaceless (w : text) : Prop := ~ In 32%N w.
Definition spaced (ws : list text) : text := flat_map (cons 32%N) ws.
Definition join (ws : list text) : text := match ws with [] => [] | w :: r => w ++ spaced r end.
Lemma words_nonempty t : words t <> [].
Proof. destruct t as [|c t]; cbn; [discriminate|]. destruct (c =? 32)%N; [discriminate|]. now destruct (words t). Qed.
Lemma words_space a b : words (a ++ 32%N :: b) = words a ++ words b.
Proof.
  induction a as [|c a IH]; cbn [app words]; [reflexivity|]. rewrite IH.
  destruct (c =? 32)%N; [reflexivity|]. destruct (words a) as [|w ws] eqn:E; [now apply words_nonempty in E|reflexivity].
Qed.
Lemma words_one w : spaceless w -> words w = [w].
Proof.
  induction w as [|c w IH]; intro S; [reflexivity|]. cbn [words].
  destruct (N.eqb_spec c 32) as [->|D]; [destruct S; now left|]. rewrite IH; [reflexivity|]. intro I. apply S. now right.
Qed.
Lemma words_join w ws : Forall spaceless (w :: ws) -> words (join (w :: ws)) = w :: ws.
Proof.
  cbn [join]. revert w. induction ws as [|v ws IH]; intros w F.
  - cbn [spaced flat_map]. rewrite app_nil_r. apply words_one. now apply Forall_inv in F.
  - cbn [spaced flat_map app]. rewrite words_space, words_one by (now apply Forall_inv in F).
    fold (spaced ws). rewrite IH; [reflexivity|]. now apply Forall_inv_tail in F.
Qed.
Lemma words_last p : exists ws q, words p = ws ++ [q] /\ forall h, spaceless h -> words (p ++ h) = ws ++ [q ++ h].
Proof.
  induction p as [|c p (ws & q & E & H)].
  - exists [], []. split; [reflexivity|]. intros h S. now rewrite words_one.
  - cbn [words app]. destruct (N.eqb_spec c 32) as [->|D].
    + exists ([] :: ws), q. rewrite E. split; [reflexivity|]. intros h S. now rewrite H.
    + destruct ws as [|w ws].
      * exists [], (c :: q). rewrite E. split; [reflexivity|]. intros h S. now rewrite H.
      * exists ((c :: w) :: ws), q. rewrite E. split; [reflexivity|]. intros h S. now rewrite H.
Qed.
Lemma join_words t : join (words t) = t.
Proof.
  induction t as [|c t IH]; [reflexivity|]. cbn [words]. pose proof (words_nonempty t) as N.
  destruct (N.eqb_spec c 32) as [->|D]; destruct (words t) as [|w ws]; try (now destruct N).
  - change (32%N :: join (w :: ws) = 32%N :: t). now rewrite IH.
  - change (c :: join (w :: ws) = c :: t). now rewrite IH.
Qed.
Lemma words_injective a b : words a = words b -> a = b.
Proof. intro E. now rewrite <- (join_words a), E, join_words. Qed.
Lemma spaced_app a b : spaced (a ++ b) = spaced a ++ spaced b.
Proof. apply flat_map_app. Qed.
Lemma join_app a b : a <> [] -> join (a ++ b) = join a ++ spaced b.
Proof. destruct a as [|w a]; [now intros []|]. intros _. cbn [app join]. now rewrite spaced_app, app_assoc. Qed.
Lemma spaced_join a : a <> [] -> spaced a = 32%N :: join a.
Proof. destruct a; [now intros []|reflexivity]. Qed.

(** ** Groups of three digits *)
Definition group_core : fst :=
  (delete (u "00") + graph_digit ∪ delete (u "0") + EnTnModel.Names.tens ∪ EnTnModel.Names.hundreds)%fst.
Definition full (e : fst) (t : text) : list (text * Z) :=
  flat_map (fun i : item => let '(y, r, w) := i in match r with [] => [(y, w)] | _ => [] end) (outs e t).
Lemma full_spec e t y w : simple e = true -> denote e t y w <-> In (y, w) (full e t).
Proof.
  intro S. rewrite (outs_all e S). unfold full. rewrite in_flat_map. split.
  - intro I. exists (y, [], w). cbn. auto.
  - intros (((y' & r) & w') & I & J). destruct r; [|destruct J]. destruct J as [[= -> ->]|[]]. exact I.
Qed.
(** The words of a group; none for 000. *)
Definition gw (g : text) : list text := match full group_core g with [(y, _)] => words y | _ => [] end.
Definition zeros : text := u "000".
Definition digits3 : list text :=
  let d := map (fun n => (48 + N.of_nat n)%N) (seq 0 10) in
  flat_map (fun a => flat_map (fun b => map (fun c => [a; b; c]) d) d) d.
Definition group3 (g : text) : Prop := In g digits3.
Lemma digit_in a : digit_char a -> In a (map (fun n => (48 + N.of_nat n)%N) (seq 0 10)).
Proof.
  intros [L H]. apply in_map_iff. exists (N.to_nat (a - 48)). split; [lia|]. apply in_seq. lia.
Qed.
Lemma group3_i g : List.length g = 3%nat -> Forall digit_char g -> group3 g.
Proof.
  intros L F. destruct g as [|a [|b [|c [|]]]]; try discriminate.
  pose proof (Forall_inv F) as A. pose proof (Forall_inv (Forall_inv_tail F)) as B.
  pose proof (Forall_inv (Forall_inv_tail (Forall_inv_tail F))) as C.
  apply in_flat_map. exists a. split; [now apply digit_in|]. apply in_flat_map. exists b.
  split; [now apply digit_in|]. apply (in_map (fun c => [a; b; c])). now apply digit_in.
Qed.
Definition TRILLION : text := u "trillion". Definition BILLION : text := u "billion". Definition MILLION : text := u "million".
Definition text_nil (t : text) : bool := match t with [] => true | _ => false end.
Definition spell_ok (w : text) : bool :=
  forallb (fun c => in_range 97 122 c) w && negb (text_nil w) && negb (existsb (N.eqb 97) w) && negb (existsb (N.eqb 109) w)
  && negb (text_mem w [TRILLION; BILLION]).
Definition no_d (w : text) : bool := negb (existsb (N.eqb 100) w).
Definition opt_is (o : option N) (n : N) : bool := match o with Some m => (m =? n)%N | None => false end.
(** The words of a group: the value they have, and where "hundred" is. *)
Definition shape_ok (g : text) (ws : list text) : bool :=
  let n := decimal_value g in
  forallb spell_ok ws && opt_is (below_thousand ws) n &&
  if (n <? 100)%N then forallb no_d ws && opt_is (below_hundred ws) n
  else match ws with
       | w :: h :: r => text_eqb h HUNDRED && no_d w && opt_is (named unit_names w) (n / 100) && forallb no_d r &&
                        (if (n mod 100 =? 0)%N then match r with [] => true | _ => false end
                         else opt_is (below_hundred r) (n mod 100))
       | _ => false
       end.
Definition core_ok (g : text) : bool :=
  if text_eqb g zeros then match full group_core g with [] => true | _ => false end
  else match full group_core g with [(y, w)] => (w =? 0)%Z && shape_ok g (words y) | _ => false end.
Fixpoint strip_zeros (g : text) : text :=
  match g with c :: r => if (c =? 48)%N then strip_zeros r else g | [] => [] end.
Definition pair_eqb (a b : text * Z) : bool := text_eqb (Datatypes.fst a) (Datatypes.fst b) && (snd a =? snd b)%Z.
Definition first_ok (g : text) : bool :=
  text_eqb g zeros ||
  match full EnTnModel.Names.up_to_999 (strip_zeros g), full group_core g with
  | [a], [b] => pair_eqb a b | _, _ => false end.
Lemma core_table : forallb core_ok digits3 = true.
Proof. vm_compute. reflexivity. Qed.
Lemma first_table : forallb first_ok digits3 = true.
Proof. vm_compute. reflexivity. Qed.

Lemma opt_is_spec o n : opt_is o n = true -> o = Some n.
Proof. destruct o as [m|]; cbn; [|discriminate]. intro E. apply N.eqb_eq in E. now subst. Qed.
Lemma existsb_absent c w : existsb (N.eqb c) w = false -> ~ In c w.
Proof. intros E I. apply not_true_iff_false in E. apply E, existsb_exists. exists c. split; [exact I|apply N.eqb_refl]. Qed.
(** A word of a name below a thousand: letters, no "a", no "m". *)
Definition plainword (w : text) : Prop :=
  w <> [] /\ Forall (fun c => 97 <= c <= 122)%N w /\ ~ In 97%N w /\ ~ In 109%N w /\ w <> TRILLION /\ w <> BILLION.
Lemma spell_ok_spec w : spell_ok w = true -> plainword w.
Proof.
  unfold spell_ok. rewrite !andb_true_iff, !negb_true_iff. intros ((((L & N) & A) & M) & T). split; [now destruct w|].
  destruct (text_mem_spec w [TRILLION; BILLION]) as [|T']; [discriminate|]. cbn [In] in T'.
  split; [|split; [now apply existsb_absent|split; [now apply existsb_absent|split; intros ->; apply T'; auto]]].
  apply Forall_forall. intros c I. rewrite forallb_forall in L. specialize (L c I).
  unfold in_range in L. apply andb_true_iff in L as (L1 & L2). apply N.leb_le in L1, L2. lia.
Qed.
Lemma no_d_spec w : no_d w = true -> ~ In 100%N w.
Proof. unfold no_d. rewrite negb_true_iff. apply existsb_absent. Qed.
Lemma Forall_of {A} (f : A -> bool) (P : A -> Prop) l : (forall a, f a = true -> P a) -> forallb f l = true -> Forall P l.
Proof. intros H E. rewrite forallb_forall in E. apply Forall_forall. auto. Qed.

(** What is known of the words of a group. *)
Record group_words (n : N) (ws : list text) : Prop := {
  gw_plain : Forall plainword ws;
  gw_value : below_thousand ws = Some n;
  gw_small : (n < 100)%N -> Forall (fun w => ~ In 100%N w) ws /\ below_hundred ws = Some n;
  gw_large : (100 <= n)%N -> exists w r, ws = w :: HUNDRED :: r /\ ~ In 100%N w /\ named unit_names w = Some (n / 100)%N /\
    Forall (fun w => ~ In 100%N w) r /\ ((n mod 100 = 0)%N -> r = []) /\
    ((n mod 100 <> 0)%N -> below_hundred r = Some (n mod 100)%N) }.
Lemma core_row g : group3 g -> g <> zeros -> group_words (decimal_value g) (gw g) /\ just group_core g (join (gw g)).
Proof.
  intros G Z. pose proof core_table as T. rewrite forallb_forall in T. specialize (T g G).
  unfold core_ok in T. rewrite (text_eqb_neq _ _ Z) in T. unfold gw.
  assert (J : forall z w, denote group_core g z w <-> In (z, w) (full group_core g)) by (intros; now apply full_spec).
  destruct (full group_core g) as [|(y & v) [|]]; try discriminate.
  apply andb_true_iff in T as (V & S). apply Z.eqb_eq in V as ->. split.
  - unfold shape_ok in S. rewrite !andb_true_iff in S. destruct S as ((P & B) & S). apply opt_is_spec in B.
    split; [now apply (Forall_of _ _ _ spell_ok_spec)|exact B| |].
    + intro L. apply N.ltb_lt in L. rewrite L in S. apply andb_true_iff in S as (D & H).
      split; [now apply (Forall_of _ _ _ no_d_spec)|now apply opt_is_spec].
    + intro L. apply N.ltb_ge in L. rewrite L in S. destruct (words y) as [|w [|h r]]; try discriminate.
      rewrite !andb_true_iff in S. destruct S as ((((H & D) & U) & R) & M).
      destruct (text_eqb_spec h HUNDRED) as [->|]; [|discriminate]. exists w, r.
      split; [reflexivity|]. split; [now apply no_d_spec|]. split; [now apply opt_is_spec|].
      split; [now apply (Forall_of _ _ _ no_d_spec)|]. destruct (N.eqb_spec (decimal_value g mod 100) 0) as [E|E].
      * split; [intros _; now destruct r|intro C; now destruct C].
      * split; [intro C; now destruct E|intros _; now apply opt_is_spec].
  - intros z w. rewrite J, join_words. cbn. split; [intros [[= <- <-]|[]]; auto|intros (-> & ->); auto].
Qed.
Lemma core_zeros z w : ~ denote group_core zeros z w.
Proof. apply none_outs; reflexivity. Qed.
Lemma gw_zeros : gw zeros = [].
Proof. reflexivity. Qed.
Lemma gw_nonempty g : group3 g -> g <> zeros -> gw g <> [].
Proof.
  intros G Z E. destruct (core_row g G Z) as (W & _). apply gw_value in W. rewrite E in W. discriminate.
Qed.
Lemma first_row g : group3 g -> g <> zeros -> just EnTnModel.Names.up_to_999 (strip_zeros g) (join (gw g)).
Proof.
  intros G Z z w. pose proof first_table as T. rewrite forallb_forall in T. specialize (T g G).
  unfold first_ok in T. rewrite (text_eqb_neq _ _ Z) in T. cbn [orb] in T.
  destruct (core_row g G Z) as (_ & J). rewrite full_spec by reflexivity. specialize (J (join (gw g)) 0%Z) as J0.
  destruct J0 as (_ & J0). specialize (J0 (conj eq_refl eq_refl)). apply full_spec in J0; [|reflexivity].
  destruct (full EnTnModel.Names.up_to_999 (strip_zeros g)) as [|a [|]]; try discriminate.
  destruct (full group_core g) as [|b [|]]; try discriminate.
  destruct J0 as [->|[]]. destruct a as (y & v). unfold pair_eqb in T. cbn [Datatypes.fst snd] in T.
  apply andb_true_iff in T as (Ty & Tv). destruct (text_eqb_spec y (join (gw g))) as [->|]; [|discriminate].
  apply Z.eqb_eq in Tv as ->. cbn. split; [intros [[= <- <-]|[]]; auto|intros (-> & ->); auto].
Qed.

(** A group and its scale word, as words. *)
Definition part (s : list text) (g : text) : list text := match gw g with [] => [] | ws => ws ++ s end.
Lemma part_zeros s : part s zeros = [].
Proof. reflexivity. Qed.
Lemma part_some s g : group3 g -> g <> zeros -> part s g = gw g ++ s.
Proof. intros G Z. unfold part. pose proof (gw_nonempty g G Z). now destruct (gw g). Qed.
Lemma group_row name s g : u name = spaced s -> group3 g -> just (EnTnModel.Names.group name) g (spaced (part s g)).
Proof.
  intros E G z w. unfold EnTnModel.Names.group. fold group_core. split.
  - intros [(-> & -> & ->)|H]; [auto|].
    apply cat_inv in H as (x1 & y1 & w1 & x2 & y2 & w2 & Ex & -> & -> & H & (-> & -> & ->)).
    apply cat_inv in H as (x3 & y3 & w3 & x4 & y4 & w4 & -> & -> & -> & (-> & -> & ->) & H).
    cbn [app] in Ex. rewrite app_nil_r in Ex. subst x4. destruct (text_eq_dec g zeros) as [->|Z]; [now apply core_zeros in H|].
    apply (core_row g G Z) in H as (-> & ->). rewrite (part_some s g G Z), E, spaced_app.
    rewrite (spaced_join (gw g)) by (now apply gw_nonempty). split; reflexivity.
  - intros (-> & ->). destruct (text_eq_dec g zeros) as [->|Z]; [left; cbn; auto|]. right.
    rewrite (part_some s g G Z), spaced_app, (spaced_join (gw g)) by (now apply gw_nonempty).
    exists g, (32%N :: join (gw g)), 0%Z, [], (spaced s), 0%Z. split; [now rewrite app_nil_r|]. split; [reflexivity|].
    split; [reflexivity|]. split; [|cbn; auto]. exists [], [32%N], 0%Z, g, (join (gw g)), 0%Z.
    split; [reflexivity|]. split; [reflexivity|]. split; [reflexivity|]. split; [cbn; auto|now apply (core_row g G Z)].
Qed.
Lemma just_cat a b n x1 x2 y1 y2 : lengths b = Some [n] -> List.length x2 = n ->
  just a x1 y1 -> just b x2 y2 -> just (a + b)%fst (x1 ++ x2) (y1 ++ y2).
Proof.
  intros L Ln A B z w. split.
  - intro H. apply cat_inv in H as (u1 & v1 & w1 & u2 & v2 & w2 & E & -> & -> & H1 & H2).
    pose proof (lengths_sound b _ L _ _ _ H2) as [K|[]].
    assert (X : u1 = x1 /\ u2 = x2).
    { assert (List.length u1 = List.length x1) as K1.
      { apply (f_equal (@List.length N)) in E. rewrite !app_length in E. lia. }
      clear -E K1. revert u1 K1 E. induction x1 as [|c x1 IH]; intros [|d u1] K E; try discriminate; [auto|].
      injection E as <- E. injection K as K. destruct (IH u1 K E) as (-> & ->). auto. }
    destruct X as (-> & ->). apply A in H1 as (-> & ->). apply B in H2 as (-> & ->). auto.
  - intros (-> & ->). exists x1, y1, 0%Z, x2, y2, 0%Z. repeat split; [now apply A|now apply B].
Qed.
Lemma first_name name s g : u name = spaced s -> group3 g -> g <> zeros ->
  just (EnTnModel.Names.first name) (strip_zeros g) (join (part s g)).
Proof.
  intros E G Z. rewrite (part_some s g G Z), join_app by (now apply gw_nonempty). rewrite <- E.
  rewrite <- (app_nil_r (strip_zeros g)). apply (just_cat _ _ 0); [reflexivity|reflexivity|now apply first_row|].
  intros z w. cbn. tauto.
Qed.

(** ** The whole graph *)
Definition say (g4 g3 g2 g1 g0 : text) : list text :=
  part [TRILLION] g4 ++ part [BILLION] g3 ++ part [MILLION] g2 ++ part [THOUSAND] g1 ++ part [] g0.
Local Open Scope fst_scope.
Definition br2 : fst := EnTnModel.Names.first " thousand" + EnTnModel.Names.group "".
Definition br3 : fst := EnTnModel.Names.first " million" + EnTnModel.Names.group " thousand" + EnTnModel.Names.group "".
Definition br4 : fst := EnTnModel.Names.first " billion" + EnTnModel.Names.group " million" + EnTnModel.Names.group " thousand" + EnTnModel.Names.group "".
Definition br5 : fst := EnTnModel.Names.first " trillion" + EnTnModel.Names.group " billion" + EnTnModel.Names.group " million" + EnTnModel.Names.group " thousand" + EnTnModel.Names.group "".
Local Close Scope fst_scope.
Lemma graph_branches : EnTnModel.Names.graph = (EnTnModel.graph_zero ∪ EnTnModel.Names.up_to_999 ∪ br2 ∪ br3 ∪ br4 ∪ br5)%fst.
Proof. reflexivity. Qed.
Ltac len b l := let H := fresh "len" in assert (H : forall x y w, denote b x y w -> In (List.length x) l)
  by (intros x y w; apply lengths_sound; vm_compute; reflexivity); cbn [In] in H.
Lemma branch_lengths :
  (forall y w x, denote EnTnModel.graph_zero x y w -> x = [48%N]) /\
  (forall x y w, denote EnTnModel.Names.up_to_999 x y w -> (1 <= List.length x <= 3)%nat) /\
  (forall x y w, denote br2 x y w -> (4 <= List.length x <= 6)%nat) /\
  (forall x y w, denote br3 x y w -> (7 <= List.length x <= 9)%nat) /\
  (forall x y w, denote br4 x y w -> (10 <= List.length x <= 12)%nat) /\
  (forall x y w, denote br5 x y w -> (13 <= List.length x <= 15)%nat).
Proof.
  split; [|split; [|split; [|split; [|split]]]].
  - intros y w x (I & _). vm_compute in I. destruct I as [[= <- _]|[]]. reflexivity.
  - len EnTnModel.Names.up_to_999 [1; 2; 3]%nat. intros x y w H. apply len in H. lia.
  - len br2 [4; 5; 6]%nat. intros x y w H. apply len in H. lia.
  - len br3 [7; 8; 9]%nat. intros x y w H. apply len in H. lia.
  - len br4 [10; 11; 12]%nat. intros x y w H. apply len in H. lia.
  - len br5 [13; 14; 15]%nat. intros x y w H. apply len in H. lia.
Qed.
Lemma by_length_gen (e0 e1 e2 e3 e4 e5 : fst) :
  (forall y w x, denote e0 x y w -> x = [48%N]) -> (forall x y w, denote e1 x y w -> (1 <= List.length x <= 3)%nat) ->
  (forall x y w, denote e2 x y w -> (4 <= List.length x <= 6)%nat) -> (forall x y w, denote e3 x y w -> (7 <= List.length x <= 9)%nat) ->
  (forall x y w, denote e4 x y w -> (10 <= List.length x <= 12)%nat) -> (forall x y w, denote e5 x y w -> (13 <= List.length x <= 15)%nat) ->
  forall (g : fst) (t y : text), g = (e0 ∪ e1 ∪ e2 ∪ e3 ∪ e4 ∪ e5)%fst -> hd 0%N t <> 48%N ->
  ((List.length t <= 3)%nat -> just e1 t y -> just g t y) /\ ((4 <= List.length t <= 6)%nat -> just e2 t y -> just g t y) /\
  ((7 <= List.length t <= 9)%nat -> just e3 t y -> just g t y) /\ ((10 <= List.length t <= 12)%nat -> just e4 t y -> just g t y) /\
  ((13 <= List.length t <= 15)%nat -> just e5 t y -> just g t y).
Proof.
  intros L0 L1 L2 L3 L4 L5 g t y -> Z. unfold just. cbn [denote].
  assert (X0 : forall z w, ~ denote e0 t z w) by (intros z w H; apply L0 in H as ->; now destruct Z).
  split; [|split; [|split; [|split]]]; intros L J z w; rewrite <- J; (split; [|tauto]);
    intros [[[[[H|H]|H]|H]|H]|H]; try exact H; exfalso;
    (apply X0 in H || apply L1 in H || apply L2 in H || apply L3 in H || apply L4 in H || apply L5 in H); auto; lia.
Qed.
Lemma by_length t y : hd 0%N t <> 48%N ->
  ((List.length t <= 3)%nat -> just EnTnModel.Names.up_to_999 t y -> just EnTnModel.Names.graph t y) /\
  ((4 <= List.length t <= 6)%nat -> just br2 t y -> just EnTnModel.Names.graph t y) /\
  ((7 <= List.length t <= 9)%nat -> just br3 t y -> just EnTnModel.Names.graph t y) /\
  ((10 <= List.length t <= 12)%nat -> just br4 t y -> just EnTnModel.Names.graph t y) /\
  ((13 <= List.length t <= 15)%nat -> just br5 t y -> just EnTnModel.Names.graph t y).
Proof.
  destruct branch_lengths as (L0 & L1 & L2 & L3 & L4 & L5). rewrite graph_branches.
  exact (by_length_gen _ _ _ _ _ _ L0 L1 L2 L3 L4 L5 _ t y eq_refl).
Qed.
Lemma names_domain t y w : denote EnTnModel.Names.graph t y w -> (List.length t <= 15)%nat.
Proof.
  rewrite graph_branches. destruct branch_lengths as (L0 & L1 & L2 & L3 & L4 & L5).
  intros [[[[[H|H]|H]|H]|H]|H]; [apply L0 in H as ->; cbn; lia|apply L1 in H; lia|apply L2 in H; lia|apply L3 in H; lia|apply L4 in H; lia|apply L5 in H; lia].
Qed.
Lemma names_zero : just EnTnModel.Names.graph [48%N] (u "zero").
Proof. apply just_outs; vm_compute; reflexivity. Qed.

Lemma group_len name : lengths (EnTnModel.Names.group name) = Some [3%nat].
Proof. reflexivity. Qed.
Lemma chain2 g1 g0 : group3 g1 -> group3 g0 -> g1 <> zeros -> List.length g0 = 3%nat ->
  just br2 (strip_zeros g1 ++ g0) (join (say zeros zeros zeros g1 g0)).
Proof.
  intros G1 G0 Z L0. unfold say. rewrite !part_zeros. cbn [app].
  rewrite join_app by (rewrite part_some by assumption; now destruct (gw g1)).
  apply (just_cat _ _ 3); [apply group_len|exact L0|now apply (first_name _ [THOUSAND])|now apply group_row].
Qed.
Lemma chain3 g2 g1 g0 : group3 g2 -> group3 g1 -> group3 g0 -> g2 <> zeros -> List.length g1 = 3%nat -> List.length g0 = 3%nat ->
  just br3 ((strip_zeros g2 ++ g1) ++ g0) (join (say zeros zeros g2 g1 g0)).
Proof.
  intros G2 G1 G0 Z L1 L0. unfold say. rewrite !part_zeros. cbn [app].
  rewrite join_app by (rewrite part_some by assumption; now destruct (gw g2)). rewrite spaced_app, app_assoc.
  apply (just_cat _ _ 3); [apply group_len|exact L0| |now apply group_row].
  apply (just_cat _ _ 3); [apply group_len|exact L1|now apply (first_name _ [MILLION])|now apply (group_row _ [THOUSAND])].
Qed.
Lemma chain4 g3 g2 g1 g0 : group3 g3 -> group3 g2 -> group3 g1 -> group3 g0 -> g3 <> zeros ->
  List.length g2 = 3%nat -> List.length g1 = 3%nat -> List.length g0 = 3%nat ->
  just br4 (((strip_zeros g3 ++ g2) ++ g1) ++ g0) (join (say zeros g3 g2 g1 g0)).
Proof.
  intros G3 G2 G1 G0 Z L2 L1 L0. unfold say. rewrite !part_zeros. cbn [app].
  rewrite join_app by (rewrite part_some by assumption; now destruct (gw g3)). rewrite !spaced_app, !app_assoc.
  apply (just_cat _ _ 3); [apply group_len|exact L0| |now apply group_row].
  apply (just_cat _ _ 3); [apply group_len|exact L1| |now apply (group_row _ [THOUSAND])].
  apply (just_cat _ _ 3); [apply group_len|exact L2|now apply (first_name _ [BILLION])|now apply (group_row _ [MILLION])].
Qed.
Lemma chain5 g4 g3 g2 g1 g0 : group3 g4 -> group3 g3 -> group3 g2 -> group3 g1 -> group3 g0 -> g4 <> zeros ->
  List.length g3 = 3%nat -> List.length g2 = 3%nat -> List.length g1 = 3%nat -> List.length g0 = 3%nat ->
  just br5 ((((strip_zeros g4 ++ g3) ++ g2) ++ g1) ++ g0) (join (say g4 g3 g2 g1 g0)).
Proof.
  intros G4 G3 G2 G1 G0 Z L3 L2 L1 L0. unfold say.
  rewrite join_app by (rewrite part_some by assumption; now destruct (gw g4)). rewrite !spaced_app, !app_assoc.
  apply (just_cat _ _ 3); [apply group_len|exact L0| |now apply group_row].
  apply (just_cat _ _ 3); [apply group_len|exact L1| |now apply (group_row _ [THOUSAND])].
  apply (just_cat _ _ 3); [apply group_len|exact L2| |now apply (group_row _ [MILLION])].
  apply (just_cat _ _ 3); [apply group_len|exact L3|now apply (first_name _ [TRILLION])|now apply (group_row _ [BILLION])].
Qed.
Definition total (g4 g3 g2 g1 g0 : text) : N :=
  (decimal_value g4 * 10 ^ 12 + decimal_value g3 * 10 ^ 9 + decimal_value g2 * 10 ^ 6 + decimal_value g1 * 10 ^ 3 + decimal_value g0)%N.
(** The last three digits, if there are more. *)
Lemma last_three (t : text) : (3 < List.length t)%nat -> exists a g, t = a ++ g /\ List.length g = 3%nat.
Proof.
  intro L. exists (firstn (List.length t - 3) t), (skipn (List.length t - 3) t). split; [now rewrite firstn_skipn|].
  rewrite skipn_length. lia.
Qed.
(** The first group, with zeros in front. *)
Lemma first_three (t : text) : (1 <= List.length t <= 3)%nat -> Forall digit_char t -> hd 0%N t <> 48%N ->
  exists g, group3 g /\ g <> zeros /\ strip_zeros g = t /\ decimal_value g = decimal_value t.
Proof.
  intros L F Z. destruct t as [|a t]; [cbn in L; lia|]. cbn [hd] in Z. apply N.eqb_neq in Z as E.
  exists (repeat 48%N (3 - List.length (a :: t)) ++ a :: t). split; [|split; [|split]].
  - apply group3_i; [rewrite app_length, repeat_length; lia|]. apply Forall_app. split; [|exact F].
    apply Forall_forall. intros c I. apply repeat_spec in I as ->. unfold digit_char. lia.
  - intro C. apply Z. assert (I : In a zeros) by (rewrite <- C; apply in_app_iff; right; now left). cbn in I.
    destruct I as [<-|[<-|[<-|[]]]]; reflexivity.
  - destruct t as [|b [|c [|]]]; cbn [List.length] in *; try lia; cbn; now rewrite E.
  - rewrite value_app. destruct t as [|b [|c [|]]]; cbn [List.length] in *; try lia; reflexivity.
Qed.
Lemma zeros_group : group3 zeros. Proof. vm_compute. auto. Qed.
Lemma names_row (t : text) : (List.length t <= 15)%nat -> t <> [] -> Forall digit_char t -> hd 0%N t <> 48%N ->
  exists g4 g3 g2 g1 g0, group3 g4 /\ group3 g3 /\ group3 g2 /\ group3 g1 /\ group3 g0 /\
    decimal_value t = total g4 g3 g2 g1 g0 /\ just EnTnModel.Names.graph t (join (say g4 g3 g2 g1 g0)).
Proof.
  intros L Ne F Z. assert (L1 : (1 <= List.length t)%nat) by (destruct t; [now destruct Ne|cbn [List.length]; lia]).
  assert (HD : forall a b : text, a <> [] -> hd 0%N (a ++ b) = hd 0%N a) by (intros [|? ?] b H; [now destruct H|reflexivity]).
  pose proof zeros_group as GZ. pose proof (eq_refl : decimal_value zeros = 0%N) as VZ.
  assert (NE : forall a : text, (1 <= List.length a)%nat -> a <> []) by (intros [|? ?] H; [cbn in H; lia|discriminate]).
  destruct (le_lt_dec (List.length t) 3) as [S|S].
  { destruct (first_three t) as (g & G & Zg & E & V); [lia|exact F|exact Z|].
    exists zeros, zeros, zeros, zeros, g. do 5 (split; [assumption|]). split; [unfold total; rewrite VZ, V; lia|].
    refine (proj1 (by_length _ _ _) _ _); [exact Z|exact S|]. unfold say. rewrite !part_zeros. cbn [app].
    rewrite (part_some [] g G Zg), app_nil_r, <- E. now apply first_row. }
  destruct (last_three t S) as (t1 & g0 & -> & L0). rewrite app_length in L, L1, S.
  apply Forall_app in F as (F1 & F0). assert (G0 : group3 g0) by now apply group3_i.
  rewrite HD in Z by (apply NE; lia).
  destruct (le_lt_dec (List.length t1) 3) as [S1|S1].
  { destruct (first_three t1) as (g & G & Zg & E & V); [lia|exact F1|exact Z|].
    exists zeros, zeros, zeros, g, g0. do 5 (split; [assumption|]).
    split; [unfold total; rewrite value_app, VZ, V, L0; change (N.of_nat 3) with 3%N; lia|].
    refine (proj1 (proj2 (by_length _ _ _)) _ _); [rewrite HD by (apply NE; lia); exact Z|rewrite app_length; lia|].
    rewrite <- E. now apply chain2. }
  destruct (last_three t1 S1) as (t2 & g1 & -> & M1). rewrite app_length in L, L1, S, S1.
  apply Forall_app in F1 as (F2 & F1). assert (G1 : group3 g1) by now apply group3_i.
  rewrite HD in Z by (apply NE; lia).
  destruct (le_lt_dec (List.length t2) 3) as [S2|S2].
  { destruct (first_three t2) as (g & G & Zg & E & V); [lia|exact F2|exact Z|].
    exists zeros, zeros, g, g1, g0. do 5 (split; [assumption|]).
    split; [unfold total; rewrite !value_app, VZ, V, L0, M1; change (N.of_nat 3) with 3%N; lia|].
    refine (proj1 (proj2 (proj2 (by_length _ _ _))) _ _); [rewrite <- app_assoc, HD by (apply NE; lia); exact Z|rewrite !app_length; lia|].
    rewrite <- E. now apply chain3. }
  destruct (last_three t2 S2) as (t3 & g2 & -> & M2). rewrite app_length in L, L1, S, S1, S2.
  apply Forall_app in F2 as (F3 & F2). assert (G2 : group3 g2) by now apply group3_i.
  rewrite HD in Z by (apply NE; lia).
  destruct (le_lt_dec (List.length t3) 3) as [S3|S3].
  { destruct (first_three t3) as (g & G & Zg & E & V); [lia|exact F3|exact Z|].
    exists zeros, g, g2, g1, g0. do 5 (split; [assumption|]).
    split; [unfold total; rewrite !value_app, VZ, V, L0, M1, M2; change (N.of_nat 3) with 3%N; lia|].
    refine (proj1 (proj2 (proj2 (proj2 (by_length _ _ _)))) _ _); [rewrite <- !app_assoc, HD by (apply NE; lia); exact Z|rewrite !app_length; lia|].
    rewrite <- E. now apply chain4. }
  destruct (last_three t3 S3) as (t4 & g3 & -> & M3). rewrite app_length in L, L1, S, S1, S2, S3.
  apply Forall_app in F3 as (F4 & F3). assert (G3 : group3 g3) by now apply group3_i.
  rewrite HD in Z by (apply NE; lia).
  destruct (first_three t4) as (g & G & Zg & E & V); [lia|exact F4|exact Z|].
  exists g, g3, g2, g1, g0. do 5 (split; [assumption|]).
  split; [unfold total; rewrite !value_app, V, L0, M1, M2, M3; change (N.of_nat 3) with 3%N; lia|].
  refine (proj2 (proj2 (proj2 (proj2 (by_length _ _ _)))) _ _); [rewrite <- !app_assoc, HD by (apply NE; lia); exact Z|rewrite !app_length; lia|].
  rewrite <- E. now apply chain5.
Qed.
