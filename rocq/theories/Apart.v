(** Graphs that read no text made of given characters only. *)
From Coq Require Import List NArith ZArith Bool String Lia Arith.
From Verif Require Import Text TextFacts Fst FstFacts GrammarModel.
Import ListNotations.
Local Open Scope list_scope.

Section Apart.
Variable known : N -> bool.
Definition strange (t : text) : bool := negb (forallb known t).
(** Every text the graph reads has a character that is not known. *)
Fixpoint apart (e : fst) : bool :=
  match e with
  | Cross x _ => strange x
  | Table l => forallb (fun p => strange (Datatypes.fst p)) l
  | Union a b => apart a && apart b
  | Cat a b => apart a || apart b
  | Weight _ a | Compose a _ | Input a | Erase a => apart a
  | Class _ | Star _ | Except _ | Rewrite _ _ _ => false
  end.
Lemma strange_app a b : strange (a ++ b) = strange a || strange b.
Proof. unfold strange. now rewrite forallb_app, negb_andb. Qed.
Lemma apart_sound e : apart e = true -> forall x y w, denote e x y w -> strange x = true.
Proof.
  induction e as [x y|p|l|a IHa b IHb|a IHa b IHb|a IHa|k a IHa|a IHa b IHb|a IHa|a IHa|a IHa|t IHt l r]; cbn [apart]; try discriminate; intros A x0 y0 w0 H.
  - destruct H as (-> & _). exact A.
  - destruct H as (I & _). rewrite forallb_forall in A. exact (A _ I).
  - apply andb_true_iff in A as (A & B). destruct H as [H|H]; eauto.
  - apply cat_inv in H as (x1 & y1 & w1 & x2 & y2 & w2 & -> & -> & -> & H1 & H2). rewrite strange_app. apply orb_true_iff in A as [A|A].
    + now rewrite (IHa A _ _ _ H1).
    + now rewrite (IHb A _ _ _ H2), orb_true_r.
  - destruct H as (v & _ & H). eauto.
  - destruct H as (m & w1 & w2 & _ & H & _). eauto.
  - destruct H as (_ & z & H). eauto.
  - destruct H as (_ & z & H). eauto.
Qed.
(** The known texts of a table. *)
Lemma table_known l x y w : forallb known x = true -> denote (Table l) x y w ->
  In (x, y) (filter (fun p => forallb known (Datatypes.fst p)) l) /\ w = 0%Z.
Proof. intros K (I & ->). split; [|reflexivity]. apply filter_In. auto. Qed.
Lemma apart_known e x y w : apart e = true -> forallb known x = true -> ~ denote e x y w.
Proof. intros A K H. apply (apart_sound e A) in H. unfold strange in H. now rewrite K in H. Qed.
End Apart.
