(** Lemmas about Text.v. *)
From Coq Require Import List NArith Bool Lia Arith ZifyBool ZifyNat ZifyN.
From Verif Require Import Text.
Import ListNotations.

Lemma text_eqb_spec a b : reflect (a = b) (text_eqb a b).
Proof.
  revert b; induction a as [|x a IH]; destruct b as [|y b]; cbn; try (constructor; congruence).
  destruct (N.eqb_spec x y); cbn.
  - destruct (IH b); constructor; congruence.
  - constructor; congruence.
Qed.
Lemma text_eqb_refl a : text_eqb a a = true.
Proof. destruct (text_eqb_spec a a); congruence. Qed.
Lemma text_eqb_neq a b : a <> b -> text_eqb a b = false.
Proof. destruct (text_eqb_spec a b); congruence. Qed.
Lemma text_eq_dec (a b : text) : {a = b} + {a <> b}.
Proof. apply (list_eq_dec N.eq_dec). Qed.

Lemma text_mem_spec x xs : reflect (In x xs) (text_mem x xs).
Proof.
  induction xs as [|y r IH]; cbn; [constructor; tauto|].
  destruct (text_eqb_spec x y); cbn; [constructor; auto|].
  destruct IH; constructor; firstorder congruence.
Qed.

Lemma dict_get_In {A} k (d : list (text * A)) v : dict_get k d = Some v -> In (k, v) d.
Proof.
  induction d as [|[k' v'] r IH]; cbn; [discriminate|].
  destruct (text_eqb_spec k k'); [intros [= ->]; subst; auto | auto].
Qed.
Lemma dict_get_None {A} k (d : list (text * A)) : dict_get k d = None <-> ~ In k (map fst d).
Proof.
  induction d as [|[k' v'] r IH]; cbn; [tauto|].
  destruct (text_eqb_spec k k'); [split; [discriminate|subst; tauto]|].
  rewrite IH; split; firstorder congruence.
Qed.
Lemma dict_get_NoDup {A} k v (d : list (text * A)) :
  NoDup (map fst d) -> In (k, v) d -> dict_get k d = Some v.
Proof.
  induction d as [|[k' v'] r IH]; cbn; [tauto|].
  intros ND [E|I].
  - injection E as -> ->; now rewrite text_eqb_refl.
  - inversion ND; subst. destruct (text_eqb_spec k k'); [|auto].
    subst. exfalso. apply H1. apply in_map_iff. now exists (k', v).
Qed.

Lemma slice_app_mid {A} (a b c : list A) :
  slice (a ++ b ++ c) (length a) (length a + length b) = b.
Proof.
  unfold slice. rewrite skipn_app, skipn_all, Nat.sub_diag. cbn.
  replace (length a + length b - length a) with (length b) by lia.
  rewrite firstn_app, firstn_all, Nat.sub_diag. cbn. now rewrite app_nil_r.
Qed.

Lemma repeat_snoc {A} (x : A) n : repeat x n ++ [x] = x :: repeat x n.
Proof. induction n; cbn; congruence. Qed.
Lemma repeat_app_cons {A} (x : A) n r : repeat x n ++ x :: r = x :: repeat x n ++ r.
Proof. induction n; cbn; congruence. Qed.
