(** The first character, and all the characters, of what a graph reads, behind a preprocessor that keeps the given characters (C74, C75). *)
From Coq Require Import List NArith ZArith Bool String Lia Arith.
From Verif Require Import Text TextFacts Fst FstFacts GrammarModel TokenVerbal Apart JaApart.
From Verif Require FstEval.
Import ListNotations.
Local Open Scope list_scope.

Section Head.
Variables known p : N -> bool.
Hypothesis Valid : forall c, known c = true -> vchar c = true.
Definition head_ok (x : text) : bool := match x with [] => true | c :: _ => if p c then true else strange known x end.
(** Every text of known characters that it reads is empty or begins with a character of [p]. *)
Fixpoint begins (e : fst) : bool :=
  match e with
  | Cross x _ => head_ok x
  | Table l => forallb (fun q => head_ok (Datatypes.fst q)) l
  | Union a b => if begins a then begins b else false
  | Cat a b => if begins a then if Datatypes.fst (FstEval.eats a) then true else begins b else false
  | Compose a b => if still known a then begins b else begins a
  | Star a | Weight _ a | Input a | Erase a => begins a
  | Class _ | Except _ | Rewrite _ _ _ => false
  end.
Definition headed (x : text) : Prop := match x with [] => True | c :: _ => p c = true end.
Lemma head_ok_sound x : head_ok x = true -> forallb known x = true -> headed x.
Proof. intros H K. destruct x as [|c x]; [exact I|]. cbn [headed]. unfold head_ok in H. destruct (p c); [reflexivity|]. unfold strange in H. rewrite K in H. discriminate H. Qed.
Lemma begins_sound e : begins e = true -> forall x y w, forallb known x = true -> denote e x y w -> headed x.
Proof.
  induction e as [x y|q|l|a IHa b IHb|a IHa b IHb|a IHa|k a IHa|a IHa b IHb|a IHa|a IHa|a IHa|t IHt l r]; cbn [begins]; try discriminate; intros A x0 y0 w0 K H.
  - destruct H as (-> & _). now apply head_ok_sound.
  - destruct H as (I & _). rewrite forallb_forall in A. exact (head_ok_sound _ (A _ I) K).
  - destruct (begins a); [|discriminate]. destruct H as [H|H]; eauto.
  - destruct (begins a); [|discriminate]. apply cat_inv in H as (x1 & y1 & w1 & x2 & y2 & w2 & -> & -> & -> & H1 & H2). rewrite forallb_app in K. apply andb_true_iff in K as (K1 & K2).
    destruct x1 as [|c x1]; [|exact (IHa eq_refl _ _ _ K1 H1)]. destruct (Datatypes.fst (FstEval.eats a)) eqn:E; [|exact (IHb A _ _ _ K2 H2)]. exfalso. exact (proj1 (FstEval.eats_sound a) E _ _ H1).
  - cbn [denote] in H. induction H as [|x1 y1 w1 x2 y2 w2 H _ IH]; [exact I|]. rewrite forallb_app in K. apply andb_true_iff in K as (K1 & K2). destruct x1 as [|c x1]; [exact (IH K2)|]. exact (IHa A _ _ _ K1 H).
  - destruct H as (v & _ & H). eauto.
  - destruct H as (m & w1 & w2 & _ & H & G). destruct (still known a) eqn:S; [|exact (IHa A _ _ _ K H)]. apply (still_sound known Valid a S _ _ _ K) in H as (-> & ->). exact (IHb A _ _ _ K G).
  - destruct H as (_ & z & H). eauto.
  - destruct H as (_ & z & H). eauto.
Qed.
(** Every text of known characters that it reads consists of characters of [p]. *)
Definition all_ok (x : text) : bool := if forallb p x then true else strange known x.
Fixpoint confined (e : fst) : bool :=
  match e with
  | Cross x _ => all_ok x
  | Table l => forallb (fun q => all_ok (Datatypes.fst q)) l
  | Union a b | Cat a b => if confined a then confined b else false
  | Compose a b => if still known a then confined b else confined a
  | Star a | Weight _ a | Input a | Erase a => confined a
  | Class _ | Except _ | Rewrite _ _ _ => false
  end.
Lemma all_ok_sound x : all_ok x = true -> forallb known x = true -> forallb p x = true.
Proof. intros H K. unfold all_ok, strange in H. rewrite K in H. destruct (forallb p x); [reflexivity|discriminate H]. Qed.
Lemma confined_sound e : confined e = true -> forall x y w, forallb known x = true -> denote e x y w -> forallb p x = true.
Proof.
  induction e as [x y|q|l|a IHa b IHb|a IHa b IHb|a IHa|k a IHa|a IHa b IHb|a IHa|a IHa|a IHa|t IHt l r]; cbn [confined]; try discriminate; intros A x0 y0 w0 K H.
  - destruct H as (-> & _). now apply all_ok_sound.
  - destruct H as (I & _). rewrite forallb_forall in A. exact (all_ok_sound _ (A _ I) K).
  - destruct (confined a); [|discriminate]. destruct H as [H|H]; eauto.
  - destruct (confined a); [|discriminate]. apply cat_inv in H as (x1 & y1 & w1 & x2 & y2 & w2 & -> & -> & -> & H1 & H2). rewrite forallb_app in K. apply andb_true_iff in K as (K1 & K2).
    rewrite forallb_app, (IHa eq_refl _ _ _ K1 H1). exact (IHb A _ _ _ K2 H2).
  - cbn [denote] in H. induction H as [|x1 y1 w1 x2 y2 w2 H _ IH]; [reflexivity|]. rewrite forallb_app in K. apply andb_true_iff in K as (K1 & K2). rewrite forallb_app, (IH K2), (IHa A _ _ _ K1 H). reflexivity.
  - destruct H as (v & _ & H). eauto.
  - destruct H as (m & w1 & w2 & _ & H & G). destruct (still known a) eqn:S; [|exact (IHa A _ _ _ K H)]. apply (still_sound known Valid a S _ _ _ K) in H as (-> & ->). exact (IHb A _ _ _ K G).
  - destruct H as (_ & z & H). eauto.
  - destruct H as (_ & z & H). eauto.
Qed.
End Head.
