(** Graphs that read no text made of given characters only, behind a preprocessor that keeps such
    texts (C71). *)
From Coq Require Import List NArith ZArith Bool String Lia Arith.
From Verif Require Import Text TextFacts Fst FstFacts GrammarModel TokenVerbal Apart.
Import ListNotations.
Local Open Scope list_scope.

Section Apart.
Variable known : N -> bool.
Hypothesis Valid : forall c, known c = true -> vchar c = true.
(** A rewriting none of whose texts begins with a known character. *)
Definition head_strange (p : text * text) : bool := match Datatypes.fst p with [] => true | c :: _ => negb (known c) end.
Fixpoint still (e : fst) : bool :=
  match e with
  | Rewrite (Cross [] _) Anywhere Anywhere => true
  | Rewrite (Table l) Anywhere Anywhere => forallb head_strange l
  | Compose a b => if still a then still b else false
  | _ => false
  end.
Lemma still_sound e : still e = true -> forall x y w, forallb known x = true -> (denote e x y w <-> y = x /\ w = 0%Z).
Proof.
  induction e as [x y|p|l|a IHa b IHb|a IHa b IHb|a IHa|k a IHa|a IHa b IHb|a IHa|a IHa|a IHa|t IHt l r]; cbn [still]; try discriminate.
  - destruct (still a); [|discriminate]. intros B x y w K. specialize (IHa eq_refl). specialize (IHb B). split.
    + intros (m & w1 & w2 & -> & H & G). apply (IHa _ _ _ K) in H as (-> & ->). apply (IHb _ _ _ K) in G as (-> & ->). auto.
    + intros (-> & ->). exists x, 0%Z, 0%Z. split; [reflexivity|]. split; [now apply IHa|now apply IHb].
  - intros S x y w K. cbn [denote]. assert (F : forall c x y w, denote t (c :: x) y w -> known c = false).
    + intros c x' y' w' H. destruct t; try discriminate.
      * destruct x0; [|discriminate]. destruct H as (E & _). discriminate.
      * destruct l, r; try discriminate. rewrite forallb_forall in S. destruct H as (I & _). specialize (S _ I). cbn in S. now apply negb_true_iff.
    + assert (l = Anywhere /\ r = Anywhere) as (-> & ->) by (destruct t; try discriminate S; [destruct x0; try discriminate S|]; destruct l, r; try discriminate S; auto).
      exact (rewrite_keeps _ _ _ known F Valid x _ y w K).
Qed.
Fixpoint apart2 (e : fst) : bool :=
  match e with
  | Cross x _ => strange known x
  | Table l => forallb (fun p => strange known (Datatypes.fst p)) l
  | Union a b => if apart2 a then apart2 b else false
  | Cat a b => if apart2 a then true else apart2 b
  | Compose a b => if still a then apart2 b else apart2 a
  | Weight _ a | Input a | Erase a => apart2 a
  | Class _ | Star _ | Except _ | Rewrite _ _ _ => false
  end.
Lemma apart2_sound e : apart2 e = true -> forall x y w, forallb known x = true -> ~ denote e x y w.
Proof.
  induction e as [x y|p|l|a IHa b IHb|a IHa b IHb|a IHa|k a IHa|a IHa b IHb|a IHa|a IHa|a IHa|t IHt l r]; cbn [apart2]; try discriminate; intros A x0 y0 w0 K H.
  - destruct H as (-> & _). unfold strange in A. now rewrite K in A.
  - destruct H as (I & _). rewrite forallb_forall in A. specialize (A _ I). unfold strange in A. cbn in A. now rewrite K in A.
  - destruct (apart2 a); [|discriminate]. destruct H as [H|H]; [exact (IHa eq_refl _ _ _ K H)|exact (IHb A _ _ _ K H)].
  - apply cat_inv in H as (x1 & y1 & w1 & x2 & y2 & w2 & -> & -> & -> & H1 & H2). rewrite forallb_app in K. apply andb_true_iff in K as (K1 & K2).
    destruct (apart2 a); [exact (IHa eq_refl _ _ _ K1 H1)|exact (IHb A _ _ _ K2 H2)].
  - destruct H as (v & _ & H). exact (IHa A _ _ _ K H).
  - destruct H as (m & w1 & w2 & _ & H & G). destruct (still a) eqn:S; [|exact (IHa A _ _ _ K H)].
    apply (still_sound a S _ _ _ K) in H as (-> & ->). exact (IHb A _ _ _ K G).
  - destruct H as (_ & z & H). exact (IHa A _ _ _ K H).
  - destruct H as (_ & z & H). exact (IHa A _ _ _ K H).
Qed.
Lemma still_pre a g : still a = true -> forall x y w, forallb known x = true -> (denote (Compose a g) x y w <-> denote g x y w).
Proof.
  intros S x y w K. split.
  - intros (m & w1 & w2 & -> & H & G). apply (still_sound a S _ _ _ K) in H as (-> & ->). exact G.
  - intro G. exists x, 0%Z, w. split; [lia|]. split; [now apply (still_sound a S)|exact G].
Qed.
End Apart.
