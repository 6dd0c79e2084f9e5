(** Running the graphs that use neither closure nor composition. *)
From Coq Require Import List NArith ZArith Bool String Lia Arith.
From Verif Require Import Text TextFacts Fst FstFacts.
Import ListNotations.
Local Open Scope list_scope.

Fixpoint strip (p t : text) : option text :=
  match p, t with
  | [], _ => Some t
  | a :: p', b :: t' => if (a =? b)%N then strip p' t' else None
  | _ :: _, [] => None
  end.
Lemma strip_spec p : forall t r, strip p t = Some r <-> t = p ++ r.
Proof.
  induction p as [|a p IH]; intros t r; cbn.
  - split; [now intros [= ->]|now intros ->].
  - destruct t as [|b t]; [split; discriminate|].
    destruct (N.eqb_spec a b) as [->|D].
    + rewrite IH. split; [now intros ->|now intros [= ->]].
    + split; [discriminate|intros [= -> _]; now destruct D].
Qed.

Definition item := (text * text * Z)%type.   (* output, rest of the input, cost *)
Definition out_item (p q t : text) : list item :=
  match strip p t with Some r => [(q, r, 0%Z)] | None => [] end.
Fixpoint outs (e : fst) (t : text) : list item :=
  match e with
  | Cross x y => out_item x y t
  | Class p => match t with c :: r => if p c then [([c], r, 0%Z)] else [] | [] => [] end
  | Table l => flat_map (fun e => out_item (Datatypes.fst e) (snd e) t) l
  | Union a b => outs a t ++ outs b t
  | Cat a b => flat_map (fun i => let '(y, r, w) := i in
                 map (fun j => let '(y', r', w') := j in (y ++ y', r', (w + w')%Z)) (outs b r)) (outs a t)
  | Weight k a => map (fun i => let '(y, r, w) := i in (y, r, (w + k)%Z)) (outs a t)
  | Erase a => map (fun i => let '(y, r, w) := i in ([], r, w)) (outs a t)
  | _ => []
  end.
Fixpoint simple (e : fst) : bool :=
  match e with
  | Cross _ _ | Class _ | Table _ => true
  | Union a b | Cat a b => simple a && simple b
  | Weight _ a | Erase a => simple a
  | _ => false
  end.
Lemma out_item_spec p q t y r w : In (y, r, w) (out_item p q t) <-> t = p ++ r /\ y = q /\ w = 0%Z.
Proof.
  unfold out_item. destruct (strip p t) as [r'|] eqn:E.
  - apply strip_spec in E as ->. cbn. split.
    + intros [[= <- <- <-]|[]]. auto.
    + intros (E & -> & ->). apply app_inv_head in E as ->. auto.
  - cbn. split; [tauto|]. intros (-> & _). now rewrite (proj2 (strip_spec p _ r) eq_refl) in E.
Qed.
Lemma outs_spec e : simple e = true -> forall t y r w,
  In (y, r, w) (outs e t) <-> exists x, t = x ++ r /\ denote e x y w.
Proof.
  induction e as [x0 y0|p|l|a IHa b IHb|a IHa b IHb|a IHa|k a IHa|a IHa b IHb|a IHa|a IHa|a IHa|tau IHt l r0];
    cbn [simple]; try discriminate; intros Si t y r w; cbn [outs denote].
  - rewrite out_item_spec. split.
    + intros (-> & -> & ->). eauto.
    + intros (x & -> & -> & -> & ->). auto.
  - split.
    + destruct t as [|c t]; [intros []|]. destruct (p c) eqn:P; [|intros []].
      intros [[= <- <- <-]|[]]. exists [c]. split; [reflexivity|]. exists c. auto.
    + intros (x & -> & c & -> & -> & P & ->). cbn [app]. rewrite P. cbn. auto.
  - rewrite in_flat_map. split.
    + intros ((p & q) & I & H). apply out_item_spec in H as (-> & -> & ->). exists p. auto.
    + intros (x & -> & I & ->). exists (x, y). split; [exact I|]. apply out_item_spec. auto.
  - apply andb_true_iff in Si as (Sa & Sb). rewrite in_app_iff, IHa, IHb by assumption. split.
    + intros [(x & E & H)|(x & E & H)]; eauto.
    + intros (x & E & [H|H]); eauto.
  - apply andb_true_iff in Si as (Sa & Sb). rewrite in_flat_map. split.
    + intros (((y1 & r1) & w1) & I & J). apply in_map_iff in J as (((y2 & r2) & w2) & [= <- <- <-] & J).
      apply (IHa Sa) in I as (x1 & -> & H1). apply (IHb Sb) in J as (x2 & -> & H2).
      exists (x1 ++ x2). split; [now rewrite app_assoc|]. exists x1, y1, w1, x2, y2, w2. auto.
    + intros (x & -> & x1 & y1 & w1 & x2 & y2 & w2 & -> & -> & -> & H1 & H2).
      exists (y1, x2 ++ r, w1). split.
      * apply (IHa Sa). exists x1. split; [now rewrite app_assoc|exact H1].
      * apply in_map_iff. exists (y2, r, w2). split; [reflexivity|]. apply (IHb Sb). eauto.
  - rewrite in_map_iff. split.
    + intros (((y1 & r1) & w1) & [= <- <- <-] & I). apply (IHa Si) in I as (x & E & H). eauto.
    + intros (x & E & v & -> & H). exists (y, r, v). split; [reflexivity|]. apply (IHa Si). eauto.
  - rewrite in_map_iff. split.
    + intros (((y1 & r1) & w1) & [= <- <- <-] & I). apply (IHa Si) in I as (x & E & H). exists x. eauto.
    + intros (x & E & -> & z & H). exists (z, r, w). split; [reflexivity|]. apply (IHa Si). eauto.
Qed.
Lemma outs_all e : simple e = true -> forall x y w, denote e x y w <-> In (y, [], w) (outs e x).
Proof.
  intros S x y w. rewrite (outs_spec e S). split.
  - intro H. exists x. now rewrite app_nil_r.
  - intros (x' & -> & H). now rewrite app_nil_r.
Qed.

(** Possible lengths of the input. *)
Fixpoint lengths (e : fst) : option (list nat) :=
  match e with
  | Cross x _ => Some [List.length x]
  | Class _ => Some [1%nat]
  | Table l => Some (nodup Nat.eq_dec (map (fun e => List.length (Datatypes.fst e)) l))
  | Union a b => match lengths a, lengths b with
                 | Some l, Some m => Some (nodup Nat.eq_dec (l ++ m)) | _, _ => None end
  | Cat a b => match lengths a, lengths b with
               | Some l, Some m => Some (nodup Nat.eq_dec (flat_map (fun i => map (fun j => (i + j)%nat) m) l))
               | _, _ => None end
  | Weight _ a | Input a | Erase a => lengths a
  | _ => None
  end.
Lemma lengths_sound e : forall l, lengths e = Some l -> forall x y w, denote e x y w -> In (List.length x) l.
Proof.
  induction e as [x0 y0|p|l|a IHa b IHb|a IHa b IHb|a IHa|k a IHa|a IHa b IHb|a IHa|a IHa|a IHa|tau IHt l r0];
    cbn [lengths]; intros m Em x y w H; cbn [denote] in H; try discriminate.
  - injection Em as <-. destruct H as (-> & _). cbn. auto.
  - injection Em as <-. destruct H as (c & -> & _). cbn. auto.
  - injection Em as <-. destruct H as (I & _). apply nodup_In, in_map_iff. exists (x, y). auto.
  - destruct (lengths a) as [la|], (lengths b) as [lb|]; try discriminate. injection Em as <-.
    apply nodup_In, in_app_iff. destruct H as [H|H]; eauto.
  - destruct (lengths a) as [la|], (lengths b) as [lb|]; try discriminate. injection Em as <-.
    destruct H as (x1 & y1 & w1 & x2 & y2 & w2 & -> & _ & _ & H1 & H2).
    apply nodup_In, in_flat_map. exists (List.length x1). split; [eauto|].
    apply in_map_iff. exists (List.length x2). split; [now rewrite app_length|eauto].
  - destruct H as (v & _ & H). eauto.
  - destruct H as (_ & z & H). eauto.
  - destruct H as (_ & z & H). eauto.
Qed.

(** On valid text a graph writes valid text. *)
Fixpoint writes_valid (e : fst) : bool :=
  match e with
  | Cross _ y => forallb vchar y
  | Class _ | Input _ | Erase _ | Except _ | Rewrite _ _ _ => true
  | Table l => forallb (fun e => forallb vchar (snd e)) l
  | Union a b | Cat a b | Compose a b => writes_valid a && writes_valid b
  | Star a | Weight _ a => writes_valid a
  end.
Lemma rewritten_valid tau l r out x y w : rewritten tau l r out x y w ->
  forallb vchar x = true /\ forallb vchar y = true.
Proof.
  induction 1 as [out|out p q w rest y v N T Lo Ro Vp Vq R (IHx & IHy)|out c rest y v M Vc R (IHx & IHy)]; [auto| |].
  - rewrite !forallb_app, Vp, Vq, IHx, IHy. auto.
  - cbn [forallb]. rewrite Vc, IHx, IHy. auto.
Qed.
Lemma writes_valid_sound e : writes_valid e = true -> forall x y w, denote e x y w ->
  forallb vchar x = true -> forallb vchar y = true.
Proof.
  induction e as [x0 y0|p|l|a IHa b IHb|a IHa b IHb|a IHa|k a IHa|a IHa b IHb|a IHa|a IHa|a IHa|tau IHt l r0];
    cbn [writes_valid]; intros S x y w H V; cbn [denote] in H; try (apply andb_true_iff in S as (Sa & Sb)).
  - now destruct H as (_ & -> & _).
  - now destruct H as (c & -> & -> & _).
  - destruct H as (I & _). rewrite forallb_forall in S. exact (S _ I).
  - destruct H as [H|H]; eauto.
  - destruct H as (x1 & y1 & w1 & x2 & y2 & w2 & -> & -> & _ & H1 & H2).
    rewrite forallb_app in *. apply andb_true_iff in V as (V1 & V2).
    rewrite (IHa Sa _ _ _ H1 V1), (IHb Sb _ _ _ H2 V2). reflexivity.
  - induction H as [|x y w x' y' w' H HS IH]; [reflexivity|].
    rewrite forallb_app in *. apply andb_true_iff in V as (V1 & V2).
    now rewrite (IHa S _ _ _ H V1), IH.
  - destruct H as (v & _ & H). eauto.
  - destruct H as (m & w1 & w2 & _ & H1 & H2). eauto.
  - now destruct H as (-> & _).
  - now destruct H as (-> & _).
  - now destruct H as (-> & _).
  - now apply rewritten_valid in H as (_ & H).
Qed.

(** A rule with "[BOS]" on its left does nothing after the beginning. *)
Lemma rewritten_later tau r out x y w : out <> [] ->
  rewritten tau Edge r out x y w <-> y = x /\ w = 0%Z /\ forallb vchar x = true.
Proof.
  intro N. split.
  - intro H. remember Edge as l eqn:El. revert N.
    induction H as [out|out p q w rest y v Np T Lo Ro Vp Vq R IH|out c rest y v M Vc R IH]; intro N.
    + auto.
    + subst l. now destruct N.
    + destruct IH as (-> & -> & V); [now destruct out|]. cbn [forallb]. rewrite Vc. auto.
  - intros (-> & -> & V). revert out N. induction x as [|c x IH]; intros out N; [constructor|].
    cbn [forallb] in V. apply andb_true_iff in V as (Vc & V). constructor; [|exact Vc|].
    + intros p q w rest' _ _ _ (Lo & _). now destruct N.
    + apply IH; [exact V|now destruct out].
Qed.
