(** Dictionaries that are the same up to key order answer lookups alike, and are equal
    for Python. *)
From Coq Require Import List NArith ZArith Bool Arith Lia String Permutation.
From Verif Require Import Text TextFacts CacheModel JsonModel JsonSpec JsonProofs.
Import ListNotations.
Local Open Scope list_scope.

Lemma get_In k v l : obj_get k l = Some v -> In (k, v) l.
Proof. induction l as [|[k' v'] l IH]; cbn [obj_get]; [discriminate|]. destruct (text_eqb_spec k k') as [->|]; [intros [= ->]; now left|right; auto]. Qed.
Lemma In_get k v l : NoDup (map fst l) -> In (k, v) l -> obj_get k l = Some v.
Proof.
  induction l as [|[k' v'] l IH]; cbn [map fst obj_get In]; [contradiction|]. intros N I. inversion N as [|a b N1 N2]; subst.
  destruct (text_eqb_spec k k') as [->|D].
  - destruct I as [X|X]; [congruence|]. exfalso. apply N1. now apply (in_map fst) in X.
  - destruct I as [X|X]; [congruence|]. auto.
Qed.
Lemma Forall2_keys l m : Forall2 (fun a b : text * json => fst a = fst b /\ json_same (snd a) (snd b)) l m -> map fst l = map fst m.
Proof. induction 1 as [|a b l m [E _] F IH]; [reflexivity|]. cbn [map]. congruence. Qed.
Lemma Forall2_In_r {A B} (R : A -> B -> Prop) l m y : Forall2 R l m -> In y m -> exists x, In x l /\ R x y.
Proof. induction 1 as [|a b l m H F IH]; intros I; [contradiction|]. destruct I as [<-|I]; [exists a; split; [now left|assumption]|]. destruct (IH I) as (x & ? & ?). exists x. split; [now right|assumption]. Qed.
Lemma Forall2_In_l {A B} (R : A -> B -> Prop) l m x : Forall2 R l m -> In x l -> exists y, In y m /\ R x y.
Proof. induction 1 as [|a b l m H F IH]; intros I; [contradiction|]. destruct I as [<-|I]; [exists b; split; [now left|assumption]|]. destruct (IH I) as (y & ? & ?). exists y. split; [now right|assumption]. Qed.

Lemma same_obj_inv l b : json_same (JObj l) b -> exists m m', b = JObj m /\ Permutation m m' /\ Forall2 (fun a b => fst a = fst b /\ json_same (snd a) (snd b)) l m'.
Proof. intros S. inversion S; subst. eauto 6. Qed.
Lemma same_obj_inv_r a m : json_same a (JObj m) -> exists l m', a = JObj l /\ Permutation m m' /\ Forall2 (fun a b => fst a = fst b /\ json_same (snd a) (snd b)) l m'.
Proof. intros S. inversion S; subst. eauto 6. Qed.
Lemma same_keys l m : json_same (JObj l) (JObj m) -> Permutation (map fst l) (map fst m).
Proof.
  intros S. apply same_obj_inv in S as (m0 & m' & E & P & F). injection E as <-. rewrite (Forall2_keys _ _ F). symmetry. now apply Permutation_map.
Qed.
Lemma same_nodup l m : json_same (JObj l) (JObj m) -> NoDup (map fst m) -> NoDup (map fst l).
Proof. intros S N. exact (Permutation_NoDup (Permutation_sym (same_keys _ _ S)) N). Qed.
Lemma same_get l m k v : json_same (JObj l) (JObj m) -> NoDup (map fst m) -> obj_get k m = Some v -> exists x, obj_get k l = Some x /\ json_same x v.
Proof.
  intros S N G. pose proof (same_nodup _ _ S N) as Nl. apply same_obj_inv in S as (m0 & m' & E & P & F). injection E as <-.
  apply get_In in G. apply (Permutation_in _ P) in G. destruct (Forall2_In_r _ _ _ _ F G) as ([k' x] & I & K & Sx). cbn [fst snd] in *. subst k'.
  exists x. split; [now apply In_get|assumption].
Qed.

Lemma py_eq_arr l m : py_eq (JArr l) (JArr m) = (fix go (l m : list json) : bool := match l, m with [], [] => true | x :: l', y :: m' => py_eq x y && go l' m' | _, _ => false end) l m.
Proof. reflexivity. Qed.
Lemma py_eq_obj l m : py_eq (JObj l) (JObj m) = (List.length l =? List.length m) &&
  forallb (fun kv => match obj_get (fst kv) m with Some w => py_eq (snd kv) w | None => false end) l.
Proof.
  cbn [py_eq]. f_equal. induction l as [|[k v] l IH]; [reflexivity|]. cbn [forallb fst snd]. now rewrite IH.
Qed.
Lemma same_py_eq a : forall b, json_wf a -> json_wf b -> json_same a b -> py_eq a b = true.
Proof.
  induction a as [|b0|z0|t0|l IH|l IH] using json_ind'; intros b Wa Wb S; inversion S; subst.
  - reflexivity.
  - cbn. now destruct b0.
  - cbn. apply Z.eqb_refl.
  - cbn. apply text_eqb_refl.
  - rewrite py_eq_arr. inversion Wa as [| | | |? Fa|]; inversion Wb as [| | | |? Fb|]; subst.
    match goal with H : Forall2 _ l m |- _ => rename H into F end. clear S Wa Wb. revert IH Fa Fb.
    induction F as [|x y l m Sx F IHF]; intros IH Fa Fb; [reflexivity|]. inversion IH; inversion Fa; inversion Fb; subst. apply andb_true_iff. split; auto.
  - rewrite py_eq_obj. inversion Wa as [| | | | |? Na Fa]; inversion Wb as [| | | | |? Nb Fb]; subst.
    apply andb_true_iff. split.
    + apply Nat.eqb_eq. rewrite <- (map_length fst l), <- (map_length fst m). apply Permutation_length. now apply same_keys.
    + apply forallb_forall. intros [k v] I. cbn [fst snd].
      destruct (same_get m l k v (same_sym _ _ S) Na (In_get _ _ _ Na I)) as (x & G & Sx). rewrite G.
      rewrite Forall_forall in IH, Fa, Fb. pose proof (in_map snd _ _ I) as J. pose proof (in_map snd _ _ (get_In _ _ _ G)) as J'. cbn [snd] in J, J'.
      apply IH; [assumption|auto|auto|now apply same_sym].
Qed.
