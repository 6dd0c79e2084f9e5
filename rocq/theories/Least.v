(** Lower bounds for the cost of reading texts made of some characters, and upper bounds for how many
    characters of a kind are read: what decides between the rules of the Chinese inverse normaliser,
    whose weights may be negative (C84). *)
From Coq Require Import List NArith ZArith Bool String Lia Arith.
From Verif Require Import Text TextFacts Fst FstFacts Whole.
Import ListNotations.
Local Open Scope list_scope.

Inductive low := Never | AtLeast (z : Z) | Unsure.
Definition low_min (a b : low) : low :=
  match a, b with Unsure, _ | _, Unsure => Unsure | Never, x | x, Never => x | AtLeast x, AtLeast y => AtLeast (Z.min x y) end.
Definition low_add (a b : low) : low :=
  match a, b with Never, _ | _, Never => Never | Unsure, _ | _, Unsure => Unsure | AtLeast x, AtLeast y => AtLeast (x + y) end.
Definition low_ok (l : low) (w : Z) : Prop := match l with Never => False | AtLeast z => (z <= w)%Z | Unsure => True end.
Definition sure (b : bool) : low := if b then AtLeast 0 else Never.
Definition nonneg_low (b : bool) : low := if b then AtLeast 0 else Unsure.
Section Low.
Variable K : N -> bool.
Fixpoint least (e : fst) : low :=
  match e with
  | Cross x _ => sure (forallb K x)
  | Class _ | Except _ => AtLeast 0
  | Table l => sure (existsb (fun p => forallb K (Datatypes.fst p)) l)
  | Union a b => low_min (least a) (least b)
  | Cat a b => low_add (least a) (least b)
  | Star a => match least a with Never => AtLeast 0 | AtLeast z => if (0 <=? z)%Z then AtLeast 0 else Unsure | Unsure => Unsure end
  | Weight k a => low_add (least a) (AtLeast k)
  | Compose a b => low_add (least a) (nonneg_low (nonneg b))
  | Input a | Erase a => least a
  | Rewrite a l r => nonneg_low (nonneg (Rewrite a l r))
  end.
Lemma min_l a b w : low_ok a w -> low_ok (low_min a b) w.
Proof. destruct a, b; cbn; try tauto; lia. Qed.
Lemma min_r a b w : low_ok b w -> low_ok (low_min a b) w.
Proof. destruct a, b; cbn; try tauto; lia. Qed.
Lemma add_ok a b v w : low_ok a v -> low_ok b w -> low_ok (low_add a b) (v + w).
Proof. destruct a, b; cbn; try tauto; lia. Qed.
Lemma least_sound e : forall x y w, forallb K x = true -> denote e x y w -> low_ok (least e) w.
Proof.
  induction e as [x y|q|l|a IHa b IHb|a IHa b IHb|a IHa|k a IHa|a IHa b IHb|a IHa|a IHa|a IHa|t IHt l r]; cbn [least]; intros x0 y0 w0 A H.
  - destruct H as (-> & _ & ->). rewrite A. cbn. lia.
  - destruct H as (c & _ & _ & _ & ->). cbn. lia.
  - destruct H as (I & ->). assert (E : existsb (fun p => forallb K (Datatypes.fst p)) l = true) by (apply existsb_exists; exists (x0, y0); auto). rewrite E. cbn. lia.
  - destruct H as [H|H]; [apply min_l; eauto|apply min_r; eauto].
  - apply cat_inv in H as (x1 & y1 & w1 & x2 & y2 & w2 & -> & -> & -> & H1 & H2). rewrite forallb_app, andb_true_iff in A. destruct A as (A1 & A2). apply add_ok; eauto.
  - cbn [denote] in H. induction H as [|x1 y1 w1 x2 y2 w2 H _ IH].
    + destruct (least a) as [|z|]; [cbn; lia| |exact I]. destruct (0 <=? z)%Z; cbn; [lia|exact I].
    + rewrite forallb_app, andb_true_iff in A. destruct A as (A1 & A2). specialize (IH A2). specialize (IHa _ _ _ A1 H). destruct (least a) as [|z|]; cbn in *; [contradiction| |exact I].
      destruct (0 <=? z)%Z eqn:E; cbn in *; [|exact I]. apply Z.leb_le in E. lia.
  - destruct H as (v & -> & H). apply add_ok; [eauto|cbn; lia].
  - destruct H as (m & w1 & w2 & -> & H1 & H2). apply add_ok; [eauto|]. destruct (nonneg b) eqn:N; cbn; [exact (nonneg_sound _ N _ _ _ H2)|exact I].
  - destruct H as (_ & z & H). eauto.
  - destruct H as (_ & z & H). eauto.
  - destruct H as (_ & -> & _). cbn. lia.
  - destruct (nonneg (Rewrite t l r)) eqn:N; [exact (nonneg_sound _ N _ _ _ H)|exact I].
Qed.
(** ** How many characters of [S] *)
Variable S : N -> bool.
Fixpoint count (x : text) : nat := match x with [] => 0 | c :: x => (if S c then 1 else 0) + count x end.
Lemma count_app x y : count (x ++ y) = (count x + count y)%nat.
Proof. induction x as [|c x IH]; [reflexivity|]. cbn [app count]. rewrite IH. lia. Qed.
Definition in_max (a b : option nat) : option nat := match a, b with Some a, Some b => Some (Nat.max a b) | _, _ => None end.
Definition in_add (a b : option nat) : option nat := match a, b with Some a, Some b => Some (a + b)%nat | _, _ => None end.
Fixpoint marks (e : fst) : option nat :=
  match e with
  | Cross x _ => Some (if forallb K x then count x else 0)
  | Class _ => Some 1
  | Table l => Some (fold_right (fun p n => Nat.max (if forallb K (Datatypes.fst p) then count (Datatypes.fst p) else 0) n) 0 l)
  | Union a b => in_max (marks a) (marks b)
  | Cat a b => match least a, least b with Never, _ | _, Never => Some 0 | _, _ => in_add (marks a) (marks b) end
  | Star a => match least a, marks a with Never, _ => Some 0 | _, Some 0 => Some 0 | _, _ => None end
  | Weight _ a | Compose a _ | Input a | Erase a => marks a
  | Except _ | Rewrite _ _ _ => None
  end.
Definition upto (n : option nat) (x : text) : Prop := match n with Some n => (count x <= n)%nat | None => True end.
Lemma never_absurd e x y w : least e = Never -> forallb K x = true -> denote e x y w -> False.
Proof. intros L A H. pose proof (least_sound e x y w A H) as X. now rewrite L in X. Qed.
Lemma marks_sound e : forall x y w, forallb K x = true -> denote e x y w -> upto (marks e) x.
Proof.
  induction e as [x y|q|l|a IHa b IHb|a IHa b IHb|a IHa|k a IHa|a IHa b IHb|a IHa|a IHa|a IHa|t IHt l r]; cbn [marks]; intros x0 y0 w0 A H; try exact I.
  - destruct H as (-> & _). rewrite A. cbn. lia.
  - destruct H as (c & -> & _). cbn. destruct (S c); lia.
  - destruct H as (I & _). cbn. induction l as [|p l IH]; [destruct I|]. cbn [fold_right]. destruct I as [->|I]; [cbn [Datatypes.fst]; rewrite A; lia|specialize (IH I); lia].
  - destruct H as [H|H]; [specialize (IHa _ _ _ A H)|specialize (IHb _ _ _ A H)]; destruct (marks a), (marks b); cbn in *; try exact I; lia.
  - apply cat_inv in H as (x1 & y1 & w1 & x2 & y2 & w2 & -> & -> & -> & H1 & H2). rewrite forallb_app, andb_true_iff in A. destruct A as (A1 & A2).
    destruct (least a) eqn:La; [destruct (never_absurd _ _ _ _ La A1 H1)| |]; (destruct (least b) eqn:Lb; [destruct (never_absurd _ _ _ _ Lb A2 H2)| |]);
      specialize (IHa _ _ _ A1 H1); specialize (IHb _ _ _ A2 H2); destruct (marks a), (marks b); cbn in *; try exact I; rewrite count_app; lia.
  - cbn [denote] in H. assert (Z : match least a, marks a with Never, _ => True | _, Some 0 => True | _, _ => False end -> (count x0 <= 0)%nat).
    { intro C. induction H as [|x1 y1 w1 x2 y2 w2 H _ IH]; [cbn; lia|]. rewrite forallb_app, andb_true_iff in A. destruct A as (A1 & A2). specialize (IH A2). rewrite count_app. specialize (IHa _ _ _ A1 H).
      destruct (least a) eqn:La; [destruct (never_absurd _ _ _ _ La A1 H)| |]; destruct (marks a) as [[|]|]; try contradiction; cbn in *; lia. }
    destruct (least a); [apply Z; exact I| |]; destruct (marks a) as [[|]|]; cbn [upto]; try exact I; apply Z; exact I.
  - destruct H as (v & _ & H). eauto.
  - destruct H as (m & w1 & w2 & _ & H1 & _). eauto.
  - destruct H as (_ & z & H). eauto.
  - destruct H as (_ & z & H). eauto.
Qed.
(** Both at once: each part of the grammar is gone through a single time. *)
Fixpoint both (e : fst) : low * option nat :=
  match e with
  | Union a b => let (la, ma) := both a in let (lb, mb) := both b in (low_min la lb, in_max ma mb)
  | Cat a b => let (la, ma) := both a in let (lb, mb) := both b in (low_add la lb, match la, lb with Never, _ | _, Never => Some 0 | _, _ => in_add ma mb end)
  | Star a => let (la, ma) := both a in (match la with Never => AtLeast 0 | AtLeast z => if (0 <=? z)%Z then AtLeast 0 else Unsure | Unsure => Unsure end, match la, ma with Never, _ => Some 0 | _, Some 0 => Some 0 | _, _ => None end)
  | Weight k a => let (la, ma) := both a in (low_add la (AtLeast k), ma)
  | Compose a b => let (la, ma) := both a in (low_add la (nonneg_low (nonneg b)), ma)
  | Input a | Erase a => both a
  | e => (least e, marks e)
  end.
Lemma both_eq e : both e = (least e, marks e).
Proof.
  induction e as [x y|q|l|a IHa b IHb|a IHa b IHb|a IHa|k a IHa|a IHa b IHb|a IHa|a IHa|a IHa|t IHt l r]; cbn [both least marks]; rewrite ?IHa, ?IHb; reflexivity.
Qed.
End Low.
