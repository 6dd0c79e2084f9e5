(** What the Chinese normaliser says for a number does not end in 两 (C62). *)
From Coq Require Import List NArith ZArith Bool String Lia Arith.
From Verif Require Import Text TextFacts Fst FstFacts FstRun GrammarModel GrammarShape NumeralSpec EnglishNumeralSpec.
From Verif Require Import ZhTnModel ZhNumberProofs ZhNumberProofs4.
Import ListNotations.
Local Open Scope list_scope.

(** Graphs that never write a character. *)
Fixpoint never (n : N) (e : fst) : bool :=
  match e with
  | Cross _ y => negb (existsb (N.eqb n) y)
  | Class p => negb (p n)
  | Table l => forallb (fun p => negb (existsb (N.eqb n) (snd p))) l
  | Union a b | Cat a b => never n a && never n b
  | Star a | Weight _ a => never n a
  | Compose _ b => never n b
  | Erase _ => true
  | Input _ | Except _ | Rewrite _ _ _ => false
  end.
Lemma absent_in n y : negb (existsb (N.eqb n) y) = true -> ~ In n y.
Proof.
  rewrite negb_true_iff. intros F I. assert (existsb (N.eqb n) y = true); [|congruence]. apply existsb_exists. exists n. split; [exact I|apply N.eqb_refl].
Qed.
Lemma never_sound n e : never n e = true -> forall x y w, denote e x y w -> ~ In n y.
Proof.
  induction e as [x y|p|l|a IHa b IHb|a IHa b IHb|a IHa|k a IHa|a IHa b IHb|a IHa|a IHa|a IHa|t IHt l r]; cbn [never]; try discriminate; intros A x0 y0 w0 H.
  - destruct H as (_ & -> & _). now apply absent_in.
  - destruct H as (c & _ & -> & P & _). intros [->|[]]. rewrite P in A. discriminate.
  - destruct H as (I & _). rewrite forallb_forall in A. exact (absent_in _ _ (A _ I)).
  - apply andb_true_iff in A as (A & B). destruct H as [H|H]; eauto.
  - apply andb_true_iff in A as (A & B). apply cat_inv in H as (x1 & y1 & w1 & x2 & y2 & w2 & -> & -> & -> & H1 & H2). rewrite in_app_iff.
    intros [I|I]; [exact (IHa A _ _ _ H1 I)|exact (IHb B _ _ _ H2 I)].
  - cbn [denote] in H. induction H as [|x1 y1 w1 x2 y2 w2 H1 _ IH]; [auto|]. rewrite in_app_iff. intros [I|I]; [exact (IHa A _ _ _ H1 I)|exact (IH I)].
  - destruct H as (v & _ & H). eauto.
  - destruct H as (m & w1 & w2 & _ & _ & H). eauto.
  - destruct H as (-> & _). auto.
Qed.
Lemma integer_never : never LIANG Cardinal.integer = true.
Proof. vm_compute. reflexivity. Qed.
Lemma liang_ends t a : ~ In LIANG t -> liang_fn t <> a ++ [LIANG].
Proof.
  intros N E. assert (G : forall t, ~ In LIANG t -> t <> a ++ [LIANG]) by (intros t' N' ->; apply N'; apply in_app_iff; right; now left).
  destruct t as [|c [|d r]]; try exact (G _ N E). cbn [liang_fn] in E. destruct ((c =? ER)%N && liang_unit d)%bool; [|exact (G _ N E)].
  destruct a as [|x a]; [discriminate|]. injection E as _ E. apply N. right. rewrite E. apply in_app_iff. right. now left.
Qed.
Lemma number_ends t z w : Forall digit_char t -> denote Cardinal.number t z w -> forall a, z <> a ++ [LIANG].
Proof.
  intros F H a. apply number_digits in H; [|exact F]. apply plain_digits in H as (m & w1 & w2 & _ & I & L); [|exact F].
  assert (V : forallb vchar m = true).
  { apply (writes_valid_sound Cardinal.integer) with t w1; [vm_compute; reflexivity|exact I|].
    apply forallb_forall. intros c J. rewrite Forall_forall in F. apply F in J. apply vchar_spec.
    unfold GrammarSpec.valid_char, digit_char in *. lia. }
  apply liang_spec in L as (-> & _); [|exact V]. apply liang_ends. exact (never_sound _ _ integer_never _ _ _ I).
Qed.
