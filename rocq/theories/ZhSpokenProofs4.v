(** A spoken Chinese number is read as one number (C61). *)
From Coq Require Import List NArith ZArith Bool String Lia Arith.
From Verif Require Import Text TextFacts Fst FstFacts FstRun GrammarModel NumeralSpec EnglishNumeralSpec ZhSpokenSpec.
From Verif Require Import ZhNumberProofs EnNumberProofs EnNumberProofs4 EnSpokenProofs.
From Verif Require Import DataZhItn ZhItnModel ZhSpokenProofs ZhSpokenProofs2 ZhSpokenProofs3.
Import ListNotations.
Local Open Scope list_scope.

(** ** The shapes there are *)
Lemma last_in l w : c_last l = Some w -> In l last_shapes.
Proof. destruct l as [|[] [|? ?]]; cbn; auto; discriminate. Qed.
Lemma tens_in l w : c_tens l = Some w -> In l tens_shapes.
Proof.
  unfold tens_shapes. rewrite in_app_iff, !in_map_iff. destruct l as [|a l]; [discriminate|].
  destruct a; try discriminate; [destruct l as [|[] l]; try discriminate; cbn [c_tens]; intro E; right; exists l; eauto using last_in|].
  cbn [c_tens]. intro E. left. exists l. eauto using last_in.
Qed.
Lemma hundreds_in l w : c_hundreds l = Some w -> In l hundred_shapes.
Proof.
  destruct l as [|[] [|[] l]]; try discriminate. cbn [c_hundreds]. intro E. unfold hundred_shapes. apply in_map_iff. exists l. split; [reflexivity|].
  apply in_app_iff. unfold c_after_hundred in E.
  destruct l as [|[] [|[] [|? ?]]]; try (left; cbn; tauto); right; exact (tens_in _ _ E).
Qed.
Lemma more_some k o w : more k o = Some w -> exists v, o = Some v /\ w = (v + k)%Z.
Proof. destruct o as [v|]; [|discriminate]. intros [= <-]. eauto. Qed.
Lemma thousands_in l w : c_thousands l = Some w -> In l thousand_shapes.
Proof.
  destruct l as [|[] [|[] l]]; try discriminate. cbn [c_thousands]. intro E. unfold thousand_shapes. apply in_map_iff. exists l. split; [reflexivity|].
  rewrite !in_app_iff. unfold c_after_thousand in E.
  assert (G : forall r, more 1000 (c_tens r) = Some w -> In (Ze :: r) (map (cons Ze) tens_shapes)).
  { intros r F. apply more_some in F as (v & F & _). apply in_map. exact (tens_in _ _ F). }
  destruct l as [|[] [|[] [|? ?]]]; try (left; cbn; tauto); right; first [left; apply G; exact E|right; exact (hundreds_in _ _ E)].
Qed.
Lemma after_in l w : c_after_wan l = Some w -> In l after_shapes.
Proof.
  unfold after_shapes. rewrite !in_app_iff, map_app, in_app_iff. unfold c_after_wan. intro E.
  assert (G : forall r, more 5000 (c_tens r) = Some w -> In (Ze :: r) (map (cons Ze) tens_shapes)).
  { intros r F. apply more_some in F as (v & F & _). apply in_map. exact (tens_in _ _ F). }
  assert (G' : forall r, more 1000 (c_after_hundred r) = Some w -> In (Ze :: Dg :: Hu :: r) (map (cons Ze) hundred_shapes)).
  { intros r F. apply more_some in F as (v & F & _). apply in_map. exact (hundreds_in (Dg :: Hu :: r) _ F). }
  destruct l as [|[] [|[] [|[] ?]]]; try (left; cbn; tauto); right;
    first [right; exact (thousands_in _ _ E)|left; left; apply G'; exact E|left; right; apply G; exact E].
Qed.
Lemma section_in l w : c_section l = Some w -> In l section_shapes.
Proof.
  unfold section_shapes. intro E. cbn [In]. rewrite !in_app_iff. unfold c_section in E.
  destruct l as [|[] [|[] ?]]; try discriminate; auto; right;
    first [left; exact (tens_in _ _ E)|right; left; exact (hundreds_in _ _ E)|right; right; exact (thousands_in _ _ E)].
Qed.
Lemma cut_w_some l a b : cut_w l = Some (a, b) -> l = a ++ Wa :: b.
Proof.
  revert a. induction l as [|c l IH]; intros a E; [discriminate|]. cbn [cut_w] in E. destruct c;
    try (injection E as <- <-; reflexivity);
    (destruct (cut_w l) as [(a', b')|]; [|discriminate]; injection E as <- <-; cbn [app]; now rewrite <- (IH a' eq_refl)).
Qed.
Lemma cut_w_found a b : forallb (fun c => match c with Wa => false | _ => true end) a = true -> cut_w (a ++ Wa :: b) = Some (a, b).
Proof. induction a as [|c a IH]; [reflexivity|]. cbn [forallb app cut_w]. destruct c; try discriminate; intro F; now rewrite IH. Qed.
Lemma cut_w_none a : forallb (fun c => match c with Wa => false | _ => true end) a = true -> cut_w a = None.
Proof. induction a as [|c a IH]; [reflexivity|]. cbn [forallb cut_w]. destruct c; try discriminate; intro F; now rewrite IH. Qed.
Lemma section_no_wan l w : c_section l = Some w -> forallb (fun c => match c with Wa => false | _ => true end) l = true.
Proof.
  intro E. apply section_in in E. revert l E. apply forallb_forall. vm_compute. reflexivity.
Qed.
Lemma number_in l w : c_number l = Some w -> In l shapes.
Proof.
  unfold c_number, shapes. intro E. destruct (cut_w l) as [(a, b)|] eqn:C.
  - apply cut_w_some in C as ->. destruct (c_section a) as [v|] eqn:A; [|discriminate]. destruct (c_after_wan b) as [v'|] eqn:B; [|discriminate].
    right. apply in_app_iff. right. apply in_flat_map. exists a. split; [exact (section_in _ _ A)|]. apply in_map_iff. exists b. split; [reflexivity|exact (after_in _ _ B)].
  - destruct l as [|[] [|? ?]]; [discriminate|..]; try (now left); right; apply in_app_iff; left; exact (section_in _ _ E).
Qed.

(** ** Texts in which digits are not side by side *)
Definition plain_cls (a : cls) : bool := match a with Ot => false | _ => true end.
Definition side_by_side (a b : cls) : bool := match a, b with Dg, Dg | Dg, Ze | Ze, Ze => true | _, _ => false end.
Fixpoint smooth (l : list cls) : bool :=
  match l with
  | [] => true
  | a :: r => plain_cls a && (match r with b :: _ => negb (side_by_side a b) | [] => true end) && smooth r
  end.
Lemma smooth_app a b : smooth (a ++ b) = true -> smooth a = true /\ smooth b = true.
Proof.
  induction a as [|c a IH]; [auto|]. cbn [app smooth]. rewrite !andb_true_iff. intros ((P & Q) & S). apply IH in S as (S1 & S2).
  split; [|exact S2]. split; [|exact S1]. split; [exact P|]. now destruct a.
Qed.
Lemma shapes_smooth : forallb smooth shapes = true.
Proof. vm_compute. reflexivity. Qed.
(** No 百 or 千 before 万. *)
Fixpoint low (l : list cls) : bool :=
  match l with
  | [] => true
  | a :: r => (match a with Hu | Th => forallb (fun c => match c with Wa => false | _ => true end) r | _ => true end) && low r
  end.
Lemma low_app a b : low (a ++ b) = true -> low a = true /\ low b = true.
Proof.
  induction a as [|c a IH]; [auto|]. cbn [app low]. rewrite !andb_true_iff. intros (P & S). apply IH in S as (S1 & S2).
  split; [|exact S2]. split; [|exact S1]. destruct c; auto; rewrite forallb_app, andb_true_iff in P; tauto.
Qed.

(** ** What every number costs *)
Lemma wan_cost e x d w : costs e c_section -> denote (e + delete (u "万") + Cardinal.below_wan)%fst x d w -> c_number (shape x) = Some w.
Proof.
  intros C H. apply cat_inv in H as (x1 & y1 & w1 & x2 & y2 & w2 & -> & -> & -> & H1 & H2).
  apply cat_inv in H1 as (x3 & y3 & w3 & x4 & y4 & w4 & -> & -> & -> & H1 & H3). apply C in H1. apply delete_shape in H3 as (-> & ->).
  apply costs_below_wan in H2. rewrite <- app_assoc, !shape_app. change (shape (u "万")) with [Wa]. cbn [app]. unfold c_number.
  rewrite (cut_w_found _ _ (section_no_wan _ _ H1)), H1, H2, Z.add_0_r. reflexivity.
Qed.
Lemma own_cost l w : c_section l = Some w -> c_number l = Some w.
Proof.
  intro E. unfold c_number. rewrite (cut_w_none _ (section_no_wan _ _ E)). destruct l as [|[] [|? ?]]; exact E || discriminate.
Qed.
Lemma has_unit l : low (l ++ [Wa]) = true -> forall w, c_thousands l = Some w \/ c_hundreds l = Some w -> False.
Proof.
  intros L w [E|E]; (destruct l as [|[] [|[] l]]; try discriminate); cbn [app low] in L; rewrite forallb_app in L;
    rewrite !andb_true_iff in L; destruct L as (_ & (_ & L) & _); discriminate.
Qed.
Lemma exclude0_cost m x d w : denote (Cardinal.exclude0 m) x d w -> m = true \/ low (shape x) = true -> c_number (shape x) = Some w.
Proof.
  intros H L. destruct H as [[[[H|H]|H]|H]|H].
  - apply own_cost, sections_cost. do 2 right. left. exact (costs_teen _ _ _ H).
  - apply own_cost, sections_cost. do 2 right. left. exact (costs_ties _ _ _ H).
  - apply own_cost, sections_cost. right. left. exact (costs_hundred _ _ _ H).
  - apply own_cost, sections_cost. left. exact (costs_thousand _ _ _ H).
  - destruct m; cbn [Cardinal.ten_thousand] in H.
    + exact (wan_cost _ _ _ _ costs_section H).
    + destruct H as [H|H].
      * eapply wan_cost; [|exact H]. intros x' d' w' [[E|E]|E]; apply sections_cost; [do 2 right; left|do 2 right; left|do 3 right];
          [exact (costs_teen _ _ _ E)|exact (costs_ties _ _ _ E)|exact (costs_digit _ _ _ E)].
      * exfalso. destruct L as [?|L]; [discriminate|].
        apply cat_inv in H as (x1 & y1 & w1 & x2 & y2 & w2 & -> & -> & -> & H & _).
        apply cat_inv in H as (x3 & y3 & w3 & x4 & y4 & w4 & -> & -> & -> & H & _).
        apply cat_inv in H as (x5 & y5 & w5 & x6 & y6 & w6 & -> & -> & -> & H & G). destruct G as (-> & _ & _).
        rewrite !shape_app, <- !app_assoc in L. change (shape (u "万")) with [Wa] in L. rewrite !app_assoc in L.
        apply low_app in L as (L & _). apply low_app in L as (L & _). apply (has_unit _ L w5).
        destruct H as [H|H]; [left; exact (costs_thousand _ _ _ H)|right; exact (costs_hundred _ _ _ H)].
Qed.
Lemma digits_shape x d w : denote Cardinal.digits x d w -> (shape x = [Dg] \/ shape x = [Ze]) /\ w = 0%Z.
Proof. intros [H|H]; [apply zero_shape in H as (-> & ->)|apply digit_shape in H as (-> & ->)]; auto. Qed.
Lemma number0_cost m x d w : denote (Cardinal.number0 m) x d w -> m = true \/ low (shape x) = true -> c_number (shape x) = Some w.
Proof.
  intros H L. destruct H as [[[[[H|H]|H]|H]|H]|H]; [apply digits_shape in H as ([E|E] & ->); rewrite E; reflexivity|..]; (apply (exclude0_cost m x d); [|exact L]).
  - do 4 left. exact H.
  - do 3 left. now right.
  - do 2 left. now right.
  - left. now right.
  - now right.
Qed.

(** ** What cannot be said of such a text *)
Definition unlike (e : fst) : Prop := forall x d w, denote e x d w -> smooth (shape x) = false.
Lemma unlike_app_l a b : smooth a = false -> smooth (a ++ b) = false.
Proof. intro F. destruct (smooth (a ++ b)) eqn:E; [|reflexivity]. apply smooth_app in E as (E & _). congruence. Qed.
Lemma unlike_app_r a b : smooth b = false -> smooth (a ++ b) = false.
Proof. intro F. destruct (smooth (a ++ b)) eqn:E; [|reflexivity]. apply smooth_app in E as (_ & E). congruence. Qed.
Lemma unlike_l a b : unlike a -> unlike (a + b)%fst.
Proof.
  intros A x d w H. apply cat_inv in H as (x1 & y1 & w1 & x2 & y2 & w2 & -> & -> & -> & H1 & H2). rewrite shape_app. apply unlike_app_l. eauto.
Qed.
Lemma unlike_r a b : unlike b -> unlike (a + b)%fst.
Proof.
  intros A x d w H. apply cat_inv in H as (x1 & y1 & w1 & x2 & y2 & w2 & -> & -> & -> & H1 & H2). rewrite shape_app. apply unlike_app_r. eauto.
Qed.
Lemma unlike_union a b : unlike a -> unlike b -> unlike (a ∪ b)%fst.
Proof. intros A B x d w [H|H]; eauto. Qed.
Lemma unlike_weight k a : unlike a -> unlike (Weight k a).
Proof. intros A x d w (v & _ & H). eauto. Qed.
Lemma unlike_table l : forallb (fun e => negb (smooth (shape (Datatypes.fst e)))) l = true -> unlike (Table l).
Proof. intros F x d w (I & _). rewrite forallb_forall in F. specialize (F _ I). now apply negb_true_iff in F. Qed.
Lemma unlike_char c l : cls_of c = Ot -> forallb (fun e => existsb (N.eqb c) (Datatypes.fst e)) l = true -> unlike (Table l).
Proof.
  intros O F x d w (I & _). rewrite forallb_forall in F. specialize (F _ I). cbn [Datatypes.fst] in F. apply existsb_exists in F as (c' & J & E).
  apply N.eqb_eq in E as <-. destruct (smooth (shape x)) eqn:S; [|reflexivity]. exfalso. apply in_split in J as (a & b & ->).
  rewrite shape_app in S. apply smooth_app in S as (_ & S). unfold shape in S. cbn [map smooth] in S. rewrite O in S. discriminate.
Qed.
Lemma dot_unlike : unlike Cardinal.dot.
Proof. apply unlike_table. vm_compute. reflexivity. Qed.
Lemma sign_unlike : unlike Cardinal.sign.
Proof. apply unlike_table. vm_compute. reflexivity. Qed.
Lemma repeat_unlike : unlike Cardinal.repeat_digit.
Proof. apply (unlike_char 20010); vm_compute; reflexivity. Qed.
Lemma tilde_unlike : unlike Cardinal.special_tilde.
Proof. apply unlike_l, unlike_table. vm_compute. reflexivity. Qed.
Lemma dash0_unlike : unlike Cardinal.special_dash0.
Proof. apply unlike_l, unlike_table. vm_compute. reflexivity. Qed.
Lemma dash_unlike : unlike Cardinal.special_dash.
Proof.
  repeat apply unlike_union; [apply unlike_r, dash0_unlike..|].
  intros x d w H. apply cat_inv in H as (x1 & y1 & w1 & x2 & y2 & w2 & -> & -> & -> & H & I). destruct I as (-> & _ & _).
  apply cat_inv in H as (x3 & y3 & w3 & x4 & y4 & w4 & -> & -> & -> & H & I2). apply digit_shape in I2 as (E2 & _).
  apply cat_inv in H as (x5 & y5 & w5 & x6 & y6 & w6 & -> & -> & -> & H & I). destruct I as (-> & _ & _).
  apply cat_inv in H as (x7 & y7 & w7 & x8 & y8 & w8 & -> & -> & -> & _ & I1). apply digit_shape in I1 as (E1 & _).
  rewrite !app_nil_r, !shape_app, E1, E2, <- app_assoc. apply unlike_app_r. reflexivity.
Qed.
Lemma two_digits a b x1 d1 w1 x2 d2 w2 x3 d3 w3 : denote Cardinal.digits x1 d1 w1 -> denote Cardinal.digits x2 d2 w2 -> denote Cardinal.digits x3 d3 w3 ->
  smooth (a ++ shape x1 ++ shape x2 ++ shape x3 ++ b) = false.
Proof.
  intros H1 H2 H3. apply unlike_app_r. apply digits_shape in H1 as ([->| ->] & _), H2 as ([->| ->] & _), H3 as ([->| ->] & _); reflexivity.
Qed.
Lemma three_unlike e : unlike (Cardinal.digits + (Cardinal.digits + (Cardinal.digits + e)))%fst.
Proof.
  intros x d w H. apply cat_inv in H as (x1 & y1 & w1 & x' & y' & w' & -> & -> & -> & H1 & H).
  apply cat_inv in H as (x2 & y2 & w2 & x'' & y'' & w'' & -> & -> & -> & H2 & H).
  apply cat_inv in H as (x3 & y3 & w3 & x4 & y4 & w4 & -> & -> & -> & H3 & H). rewrite !shape_app.
  exact (two_digits [] (shape x4) _ _ _ _ _ _ _ _ _ H1 H2 H3).
Qed.
Lemma power_unlike k : unlike (Cardinal.digits ** (S (S (S k))))%fst.
Proof.
  destruct k as [|k]; [|exact (three_unlike (Cardinal.digits ** S k)%fst)].
  intros x d w H. cbn [power] in H. apply (three_unlike (Cross [] []) x d w).
  apply cat_inv in H as (x1 & y1 & w1 & x' & y' & w' & -> & -> & -> & H1 & H). apply cat_inv in H as (x2 & y2 & w2 & x3 & y3 & w3 & -> & -> & -> & H2 & H3).
  apply cat_i; [exact H1|]. apply cat_i; [exact H2|]. rewrite <- (app_nil_r x3), <- (app_nil_r y3), <- (Z.add_0_r w3). apply cat_i; [exact H3|].
  repeat split.
Qed.
Lemma formats_unlike m : unlike (Cardinal.formats m).
Proof.
  unfold Cardinal.formats. repeat apply unlike_union.
  - apply unlike_r. apply unlike_l, unlike_l, dot_unlike.
  - apply unlike_l, unlike_r, dot_unlike.
  - exact (power_unlike 0).
  - exact (power_unlike 1).
  - exact (power_unlike 2).
  - exact (power_unlike 8).
  - apply unlike_l. exact (power_unlike 14).
  - exact (power_unlike 15).
  - apply unlike_l, unlike_r, repeat_unlike.
Qed.
