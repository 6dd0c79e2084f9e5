(** What the readings of a spoken Chinese number cost (C61). *)
From Coq Require Import List NArith ZArith Bool String Lia Arith.
From Verif Require Import Text TextFacts Fst FstFacts FstRun GrammarModel NumeralSpec EnglishNumeralSpec ZhSpokenSpec.
From Verif Require Import ZhNumberProofs EnNumberProofs EnNumberProofs4 EnSpokenProofs.
From Verif Require Import DataZhItn ZhItnModel ZhSpokenProofs ZhSpokenProofs2.
Import ListNotations.
Local Open Scope list_scope.

(** ** Characters by what they do: a digit, a zero, 十, 百, 千, 万, another *)
Inductive cls := Dg | Ze | Te | Hu | Th | Wa | Ot.
Definition cls_of (c : N) : cls :=
  match digit_of c with
  | Some _ => Dg
  | None => if zero_of c then Ze else if is "十" c then Te else if is "百" c then Hu else if is "千" c then Th else if is "万" c then Wa else Ot
  end.
Definition shape : text -> list cls := map cls_of.

(** ** The cost of a number by its shape *)
Definition more (k : Z) (o : option Z) : option Z := match o with Some w => Some (w + k)%Z | None => None end.
Definition c_last (l : list cls) : option Z := match l with [] => Some 1000%Z | [Dg] => Some 0%Z | _ => None end.
Definition c_tens (l : list cls) : option Z := match l with Te :: r => c_last r | Dg :: Te :: r => c_last r | _ => None end.
Definition c_after_hundred (l : list cls) : option Z :=
  match l with [] => Some 10000%Z | [Dg] => Some 5000%Z | [Ze; Dg] => Some 1000%Z | _ => c_tens l end.
Definition c_hundreds (l : list cls) : option Z := match l with Dg :: Hu :: r => c_after_hundred r | _ => None end.
Definition c_after_thousand (l : list cls) : option Z :=
  match l with [] => Some 10000%Z | [Dg] => Some 8000%Z | [Ze; Dg] => Some 5000%Z | Ze :: r => more 1000 (c_tens r) | _ => c_hundreds l end.
Definition c_thousands (l : list cls) : option Z := match l with Dg :: Th :: r => c_after_thousand r | _ => None end.
Definition c_after_wan (l : list cls) : option Z :=
  match l with
  | [] => Some 10000%Z | [Dg] => Some 8000%Z | [Ze; Dg] => Some 5000%Z
  | Ze :: Dg :: Hu :: r => more 1000 (c_after_hundred r)
  | Ze :: r => more 5000 (c_tens r)
  | _ => c_thousands l
  end.
Definition c_section (l : list cls) : option Z :=
  match l with [Dg] => Some 0%Z | Dg :: Hu :: _ => c_hundreds l | Dg :: Th :: _ => c_thousands l | _ => c_tens l end.
Fixpoint cut_w (l : list cls) : option (list cls * list cls) :=
  match l with
  | [] => None
  | Wa :: r => Some ([], r)
  | c :: r => match cut_w r with Some (a, b) => Some (c :: a, b) | None => None end
  end.
Definition c_number (l : list cls) : option Z :=
  match cut_w l with
  | Some (a, b) => match c_section a, c_after_wan b with Some v, Some w => Some (v + w)%Z | _, _ => None end
  | None => match l with [Ze] => Some 0%Z | _ => c_section l end
  end.

(** ** All shapes *)
Definition last_shapes : list (list cls) := [[]; [Dg]].
Definition tens_shapes := map (cons Te) last_shapes ++ map (fun l => Dg :: Te :: l) last_shapes.
Definition hundred_shapes := map (fun l => Dg :: Hu :: l) ([[]; [Dg]; [Ze; Dg]] ++ tens_shapes).
Definition thousand_shapes := map (fun l => Dg :: Th :: l) ([[]; [Dg]; [Ze; Dg]] ++ map (cons Ze) tens_shapes ++ hundred_shapes).
Definition after_shapes := [[]; [Dg]; [Ze; Dg]] ++ map (cons Ze) (hundred_shapes ++ tens_shapes) ++ thousand_shapes.
Definition section_shapes := [Dg] :: tens_shapes ++ hundred_shapes ++ thousand_shapes.
Definition shapes := [Ze] :: section_shapes ++ flat_map (fun a => map (fun b => a ++ Wa :: b) after_shapes) section_shapes.

(** ** The least cost of a text in two or more pieces *)
Definition omin (a b : option Z) : option Z :=
  match a, b with Some v, Some w => Some (Z.min v w) | Some v, None => Some v | None, b => b end.
Definition osum (a b : option Z) : option Z := match a, b with Some v, Some w => Some (v + w)%Z | _, _ => None end.
(** [pieces l p]: the least cost of cutting rev p ++ l, the first piece beginning with rev p. *)
Fixpoint pieces (l p : list cls) : option Z :=
  match l with
  | [] => more 1000 (c_number (rev p))
  | c :: r =>
      omin (pieces r (c :: p))
           (match c_number (rev p) with Some w => osum (Some (w + 1000)%Z) (pieces r [c]) | None => None end)
  end.
Fixpoint least2_from (l p : list cls) : option Z :=
  match l with
  | [] => None
  | c :: r => omin (least2_from r (c :: p))
        (match c_number (rev p) with Some w => osum (Some (w + 1000)%Z) (pieces r [c]) | None => None end)
  end.
Definition least2 (l : list cls) : option Z := least2_from l [].
Definition dear (l : list cls) : bool :=
  match c_number l with Some w => match least2 l with Some v => (w <? v)%Z | None => true end | None => false end.
Lemma all_dear : forallb dear shapes = true.
Proof. vm_compute. reflexivity. Qed.

(** ** The graphs cost what the shapes say *)
Definition costs (e : fst) (c : list cls -> option Z) : Prop := forall x d w, denote e x d w -> c (shape x) = Some w.
Lemma digit_shape x d w : denote Cardinal.digit x d w -> shape x = [Dg] /\ w = 0%Z.
Proof.
  intro H. assert (w = 0)%Z as -> by (destruct H as (_ & H); exact H). split; [|reflexivity].
  assert (G : gives Cardinal.digit x d) by (exists 0%Z; exact H). apply digit_graph in G as (c & n & -> & E & _). unfold shape, cls_of. cbn [map].
  now rewrite E.
Qed.
Lemma zero_shape x d w : denote Cardinal.zero x d w -> shape x = [Ze] /\ w = 0%Z.
Proof.
  intro H. assert (w = 0)%Z as -> by (destruct H as (_ & H); exact H). split; [|reflexivity].
  assert (G : gives Cardinal.zero x d) by (exists 0%Z; exact H). apply zero_graph in G as (c & -> & E & _). unfold shape, cls_of. cbn [map].
  destruct (zero_facts c E) as (-> & _). now rewrite E.
Qed.
Lemma delete_shape t x d w : denote (delete t) x d w -> x = t /\ w = 0%Z.
Proof. intros (-> & _ & ->). auto. Qed.
Lemma zeros_shape k x d w : denote (Cardinal.addzero ** k)%fst x d w -> x = [] /\ w = 0%Z.
Proof.
  revert x d w. induction k as [|[|k] IH]; intros x d w H.
  - destruct H as (-> & _ & ->). auto.
  - destruct H as (-> & _ & ->). auto.
  - apply cat_inv in H as (x1 & y1 & w1 & x2 & y2 & w2 & -> & -> & -> & (-> & _ & ->) & H). apply IH in H as (-> & ->). auto.
Qed.
Lemma shape_app a b : shape (a ++ b) = shape a ++ shape b.
Proof. apply map_app. Qed.
Lemma costs_unit s k e c f : shape (u s) = [k] -> costs e c -> (forall l, f (Dg :: k :: l) = c l) ->
  costs (Cardinal.digit + delete (u s) + e)%fst f.
Proof.
  intros U C F x d w H. apply cat_inv in H as (x1 & y1 & w1 & x2 & y2 & w2 & -> & -> & -> & H1 & H2).
  apply cat_inv in H1 as (x3 & y3 & w3 & x4 & y4 & w4 & -> & -> & -> & H1 & H3). apply digit_shape in H1 as (E & ->).
  apply delete_shape in H3 as (-> & ->). apply C in H2. rewrite !shape_app, E, U. cbn [app]. rewrite F, H2. reflexivity.
Qed.
Lemma costs_union a b c f g : costs a f -> costs b g -> (forall l w, f l = Some w -> c l = Some w) -> (forall l w, g l = Some w -> c l = Some w) ->
  costs (a ∪ b)%fst c.
Proof. intros A B F G x d w [H|H]; eauto. Qed.
Lemma costs_weight k a f : costs a f -> costs (Weight k a) (fun l => more k (f l)).
Proof. intros A x d w (v & -> & H). now rewrite (A _ _ _ H). Qed.
Lemma costs_weaken a f c : costs a f -> (forall l w, f l = Some w -> c l = Some w) -> costs a c.
Proof. intros A F x d w H. eauto. Qed.
Definition exactly (l0 : list cls) (k : Z) (l : list cls) : option Z :=
  if list_eq_dec (fun a b : cls => ltac:(decide equality) : {a = b} + {a <> b}) l l0 then Some k else None.
Lemma exactly_some l0 k l w : exactly l0 k l = Some w -> l = l0 /\ w = k.
Proof. unfold exactly. destruct (list_eq_dec _ l l0); [|discriminate]. intros [= <-]. auto. Qed.
Lemma exactly_refl l0 k : exactly l0 k l0 = Some k.
Proof. unfold exactly. destruct (list_eq_dec _ l0 l0); [reflexivity|congruence]. Qed.
Lemma costs_digit : costs Cardinal.digit (exactly [Dg] 0).
Proof. intros x d w H. apply digit_shape in H as (-> & ->). apply exactly_refl. Qed.
Lemma costs_zeros k : costs (Cardinal.addzero ** k)%fst (exactly [] 0).
Proof. intros x d w H. apply zeros_shape in H as (-> & ->). apply exactly_refl. Qed.
Lemma costs_trailing k : costs (Cardinal.digit + Cardinal.addzero ** k)%fst (exactly [Dg] 0).
Proof.
  intros x d w H. apply cat_inv in H as (x1 & y1 & w1 & x2 & y2 & w2 & -> & -> & -> & H1 & H2). apply digit_shape in H1 as (E & ->).
  apply zeros_shape in H2 as (-> & ->). rewrite app_nil_r, E. apply exactly_refl.
Qed.
Lemma costs_zero e c : costs e c -> costs (Cardinal.zero + e)%fst (fun l => match l with Ze :: r => c r | _ => None end).
Proof.
  intros C x d w H. apply cat_inv in H as (x1 & y1 & w1 & x2 & y2 & w2 & -> & -> & -> & H1 & H2). apply zero_shape in H1 as (E & ->).
  apply C in H2. now rewrite shape_app, E.
Qed.
Lemma costs_silent e c : costs e c -> costs (Cardinal.addzero + e)%fst c.
Proof.
  intros C x d w H. apply cat_inv in H as (x1 & y1 & w1 & x2 & y2 & w2 & -> & -> & -> & (-> & _ & ->) & H2). apply C in H2. exact H2.
Qed.
Lemma costs_assoc a b e c : costs (a + (b + e))%fst c -> costs (a + b + e)%fst c.
Proof.
  intros C x d w H. apply (C x d w). apply cat_inv in H as (x1 & y1 & w1 & x2 & y2 & w2 & -> & -> & -> & H1 & H2).
  apply cat_inv in H1 as (x3 & y3 & w3 & x4 & y4 & w4 & -> & -> & -> & H1 & H3). rewrite <- !app_assoc, <- Z.add_assoc.
  apply cat_i; [exact H1|]. now apply cat_i.
Qed.
Ltac by_shape := intros l w E; cbn beta in E; repeat (first [apply exactly_some in E as (-> & ->); reflexivity
  | match type of E with more _ (match ?l with _ => _ end) = _ => destruct l as [|[] ?] end
  | match type of E with more _ (exactly ?a ?b ?c) = _ => let F := fresh in destruct (exactly a b c) as [?|] eqn:F; [apply exactly_some in F as (-> & ->)|] end
  | discriminate | (injection E as <-; reflexivity) | exact E]).
Lemma costs_last : costs (Cardinal.digit ∪ Weight 1000 Cardinal.addzero)%fst c_last.
Proof. eapply costs_union; [exact costs_digit|exact (costs_weight 1000 _ _ (costs_zeros 1))|by_shape..]. Qed.
Lemma costs_ties : costs Cardinal.tens c_tens.
Proof. exact (costs_unit "十" Te _ c_last c_tens eq_refl costs_last (fun l => eq_refl)). Qed.
Lemma costs_teen : costs Cardinal.teen c_tens.
Proof.
  intros x d w H. apply cat_inv in H as (x1 & y1 & w1 & x2 & y2 & w2 & -> & -> & -> & (-> & _ & ->) & H2). apply costs_last in H2.
  rewrite shape_app. change (shape (u "十")) with [Te]. cbn [app c_tens]. exact H2.
Qed.
Lemma costs_tens : costs (Cardinal.tens ∪ Cardinal.teen)%fst c_tens.
Proof. eapply costs_union; [exact costs_ties|exact costs_teen|auto..]. Qed.
Lemma tens_after l w : c_tens l = Some w -> c_after_hundred l = Some w.
Proof. destruct l as [|[] [|[] [|? ?]]]; cbn; auto; discriminate. Qed.
Lemma costs_hundred : costs Cardinal.hundred c_hundreds.
Proof.
  refine (costs_unit "百" Hu _ c_after_hundred c_hundreds eq_refl _ (fun l => eq_refl)).
  eapply costs_union; [eapply costs_union; [eapply costs_union; [exact costs_tens|apply costs_weight, costs_zero, costs_digit|exact tens_after|]|
    apply costs_weight; exact (costs_trailing 1)|auto|]|apply costs_weight; exact (costs_zeros 2)|auto|]; by_shape.
Qed.
Lemma hundreds_after l w : c_hundreds l = Some w -> c_after_thousand l = Some w.
Proof. destruct l as [|[] [|[] ?]]; cbn; auto; discriminate. Qed.
Lemma zero_tens_after l w : more 1000 (match l with Ze :: r => c_tens r | _ => None end) = Some w -> c_after_thousand l = Some w.
Proof. destruct l as [|[] [|[] [|? ?]]]; cbn; auto; discriminate. Qed.
Lemma costs_thousand : costs Cardinal.thousand c_thousands.
Proof.
  refine (costs_unit "千" Th _ c_after_thousand c_thousands eq_refl _ (fun l => eq_refl)).
  eapply costs_union; [eapply costs_union; [eapply costs_union; [eapply costs_union; [exact costs_hundred|apply costs_weight, costs_zero, costs_tens|exact hundreds_after|exact zero_tens_after]|
    apply costs_weight, costs_assoc, costs_silent, costs_zero, costs_digit|auto|]|
    apply costs_weight; exact (costs_trailing 2)|auto|]|apply costs_weight; exact (costs_zeros 3)|auto|]; by_shape.
Qed.
Lemma thousands_after l w : c_thousands l = Some w -> c_after_wan l = Some w.
Proof. destruct l as [|[] [|[] ?]]; cbn; auto; discriminate. Qed.
Lemma zero_hundreds_after l w : more 1000 (match l with Ze :: r => c_hundreds r | _ => None end) = Some w -> c_after_wan l = Some w.
Proof. destruct l as [|[] [|[] [|[] ?]]]; cbn; auto; discriminate. Qed.
Lemma zero_tens_wan l w : more 5000 (match l with Ze :: r => c_tens r | _ => None end) = Some w -> c_after_wan l = Some w.
Proof. destruct l as [|[] [|[] [|[] ?]]]; cbn; auto; discriminate. Qed.
Lemma costs_below_wan : costs Cardinal.below_wan c_after_wan.
Proof.
  unfold Cardinal.below_wan.
  eapply costs_union; [eapply costs_union; [eapply costs_union; [eapply costs_union; [eapply costs_union;
    [exact costs_thousand|apply costs_weight, costs_zero, costs_hundred|exact thousands_after|exact zero_hundreds_after]|
    apply costs_weight, costs_assoc, costs_silent, costs_zero, costs_tens|auto|exact zero_tens_wan]|
    apply costs_weight, costs_assoc, costs_assoc, costs_silent, costs_silent, costs_zero, costs_digit|auto|]|
    apply costs_weight; exact (costs_trailing 3)|auto|]|apply costs_weight; exact (costs_zeros 4)|auto|]; by_shape.
Qed.
Lemma sections_cost l w : (c_thousands l = Some w \/ c_hundreds l = Some w \/ c_tens l = Some w \/ exactly [Dg] 0 l = Some w) -> c_section l = Some w.
Proof.
  intros [E|[E|[E|E]]]; [..|apply exactly_some in E as (-> & ->); reflexivity]; destruct l as [|[] [|[] ?]]; cbn in *; auto; discriminate.
Qed.
Lemma costs_section : costs (Cardinal.thousand ∪ Cardinal.hundred ∪ Cardinal.teen ∪ Cardinal.tens ∪ Cardinal.digit)%fst c_section.
Proof.
  intros x d w [[[[E|E]|E]|E]|E]; apply sections_cost; [left|right; left|do 2 right; left|do 2 right; left|do 3 right];
    [exact (costs_thousand _ _ _ E)|exact (costs_hundred _ _ _ E)|exact (costs_teen _ _ _ E)|exact (costs_ties _ _ _ E)|exact (costs_digit _ _ _ E)].
Qed.
