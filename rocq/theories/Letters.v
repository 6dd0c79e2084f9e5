(** The characters a graph reads and writes. *)
From Coq Require Import List NArith ZArith Bool String Lia Arith.
From Verif Require Import Text TextFacts Fst FstFacts GrammarModel.
Import ListNotations.
Local Open Scope list_scope.

Section Letters.
Variable p : N -> bool.
(** Every text the graph reads consists of characters of [p]. *)
Fixpoint reads (e : fst) : bool :=
  match e with
  | Cross x _ => forallb p x
  | Table l => forallb (fun q => forallb p (Datatypes.fst q)) l
  | Union a b | Cat a b => reads a && reads b
  | Star a | Weight _ a | Compose a _ | Input a | Erase a => reads a
  | Class _ | Except _ | Rewrite _ _ _ => false
  end.
Lemma reads_sound e : reads e = true -> forall x y w, denote e x y w -> forallb p x = true.
Proof.
  induction e as [x y|q|l|a IHa b IHb|a IHa b IHb|a IHa|k a IHa|a IHa b IHb|a IHa|a IHa|a IHa|t IHt l r]; cbn [reads]; try discriminate; intros A x0 y0 w0 H.
  - destruct H as (-> & _). exact A.
  - destruct H as (I & _). rewrite forallb_forall in A. exact (A _ I).
  - apply andb_true_iff in A as (A & B). destruct H as [H|H]; eauto.
  - apply andb_true_iff in A as (A & B). apply cat_inv in H as (x1 & y1 & w1 & x2 & y2 & w2 & -> & -> & -> & H1 & H2).
    rewrite forallb_app, (IHa A _ _ _ H1). exact (IHb B _ _ _ H2).
  - cbn [denote] in H. induction H as [|x1 y1 w1 x2 y2 w2 H _ IH]; [reflexivity|]. rewrite forallb_app, IH. now rewrite (IHa A _ _ _ H).
  - destruct H as (v & _ & H). eauto.
  - destruct H as (m & w1 & w2 & _ & H & _). eauto.
  - destruct H as (_ & z & H). eauto.
  - destruct H as (_ & z & H). eauto.
Qed.
(** Every text it writes. *)
Fixpoint writes (e : fst) : bool :=
  match e with
  | Cross _ y => forallb p y
  | Table l => forallb (fun q => forallb p (snd q)) l
  | Union a b | Cat a b => writes a && writes b
  | Star a | Weight _ a | Compose _ a => writes a
  | Erase _ => true
  | Class _ | Input _ | Except _ | Rewrite _ _ _ => false
  end.
Lemma writes_sound e : writes e = true -> forall x y w, denote e x y w -> forallb p y = true.
Proof.
  induction e as [x y|q|l|a IHa b IHb|a IHa b IHb|a IHa|k a IHa|a IHa b IHb|a IHa|a IHa|a IHa|t IHt l r]; cbn [writes]; try discriminate; intros A x0 y0 w0 H.
  - destruct H as (_ & -> & _). exact A.
  - destruct H as (I & _). rewrite forallb_forall in A. exact (A _ I).
  - apply andb_true_iff in A as (A & B). destruct H as [H|H]; eauto.
  - apply andb_true_iff in A as (A & B). apply cat_inv in H as (x1 & y1 & w1 & x2 & y2 & w2 & -> & -> & -> & H1 & H2).
    rewrite forallb_app, (IHa A _ _ _ H1). exact (IHb B _ _ _ H2).
  - cbn [denote] in H. induction H as [|x1 y1 w1 x2 y2 w2 H _ IH]; [reflexivity|]. rewrite forallb_app, IH. now rewrite (IHa A _ _ _ H).
  - destruct H as (v & _ & H). eauto.
  - destruct H as (m & w1 & w2 & _ & _ & H). eauto.
  - destruct H as (-> & _). reflexivity.
Qed.
End Letters.
(** Graphs without weights cost nothing. *)
Fixpoint free (e : fst) : bool :=
  match e with
  | Weight _ _ => false
  | Union a b | Cat a b | Compose a b => free a && free b
  | Star a | Input a | Erase a | Rewrite a _ _ => free a
  | _ => true
  end.
Lemma free_sound e : free e = true -> forall x y w, denote e x y w -> w = 0%Z.
Proof.
  induction e as [x y|q|l|a IHa b IHb|a IHa b IHb|a IHa|k a IHa|a IHa b IHb|a IHa|a IHa|a IHa|t IHt l r]; cbn [free]; try discriminate; intros A x0 y0 w0 H.
  - now destruct H as (_ & _ & ->).
  - now destruct H as (c & _ & _ & _ & ->).
  - now destruct H as (_ & ->).
  - apply andb_true_iff in A as (A & B). destruct H as [H|H]; eauto.
  - apply andb_true_iff in A as (A & B). apply cat_inv in H as (x1 & y1 & w1 & x2 & y2 & w2 & -> & -> & -> & H1 & H2).
    now rewrite (IHa A _ _ _ H1), (IHb B _ _ _ H2).
  - cbn [denote] in H. induction H as [|x1 y1 w1 x2 y2 w2 H _ IH]; [reflexivity|]. now rewrite (IHa A _ _ _ H).
  - apply andb_true_iff in A as (A & B). destruct H as (m & w1 & w2 & -> & H1 & H2). now rewrite (IHa A _ _ _ H1), (IHb B _ _ _ H2).
  - destruct H as (_ & z & H). eauto.
  - destruct H as (_ & z & H). eauto.
  - now destruct H as (_ & -> & _).
  - cbn [denote] in H. induction H as [|out p q w rest y v _ T _ _ _ _ _ ->|]; [reflexivity| |assumption]. now rewrite (IHt A _ _ _ T).
Qed.
