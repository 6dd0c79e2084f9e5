(** Cutting a text where no rule reads across (C63): the four grammars without word spaces. *)
From Coq Require Import List NArith ZArith Bool String Lia Arith.
From Verif Require Import Text TextFacts TokenModel TokenSpec Fst FstFacts GrammarModel GrammarShape GrammarAccept ShapeSpec.
From Verif Require Import BoundarySpec TokenRun Boundary.
From Verif Require ZhTnModel ZhItnModel JaTnModel JaItnModel ZhTnShape ZhItnShape JaTnShape JaItnShape.
Import ListNotations.
Local Open Scope list_scope.

Definition spaced_rule (s : rule_spec) : bool := Datatypes.fst (spaced (r_tagger (s_rule s))).
Definition token_rule (s : rule_spec) : bool := one_token (r_verbalizer (s_rule s)) && trailing (r_verbalizer (s_rule s)).
Definition cut_rules (rs : list rule_spec) : bool := forallb spaced_rule rs && forallb token_rule rs.
Lemma blank_union rs e : forallb spaced_rule rs = true -> tagger_union rs = Some e -> forall x y w, denote e x y w -> ends_blank y.
Proof.
  intros C E x y w H. apply (taggers_spec _ _ E) in H as (s & k & I & _ & H). rewrite forallb_forall in C.
  exact (proj1 (spaced_sound _ _ _ _ H) (C _ I)).
Qed.
Lemma closed_union rs v : forallb token_rule rs = true -> verbalizer_union rs = Some v -> forall x y w, denote v x y w -> closed (run Init x) = true.
Proof.
  intros C E x y w H. apply (verbalizers_spec _ _ E) in H as (s & I & _ & H). rewrite forallb_forall in C. specialize (C _ I).
  apply andb_true_iff in C as (C & _). exact (one_token_spec _ _ _ _ C H).
Qed.
Lemma trailing_union rs v : forallb token_rule rs = true -> verbalizer_union rs = Some v ->
  forall x y w, ~ ends_blank x -> denote v (x ++ [32%N]) y w <-> denote v x y w.
Proof.
  intros C E x y w N. rewrite !(verbalizers_spec _ _ E). rewrite forallb_forall in C.
  split; intros (s & I & V & H); exists s; (split; [exact I|split; [exact V|]]); specialize (C _ I); apply andb_true_iff in C as (_ & C);
    now apply (trailing_sound _ C _ _ _ N).
Qed.
Lemma uncrossed_union rs e a b : tagger_union rs = Some e -> uncrossed rs a b ->
  forall a' p q b' y w, a = a' ++ p -> b = q ++ b' -> p <> [] -> q <> [] -> ~ denote e (p ++ q) y w.
Proof. intros E U a' p q b' y w Ea Eb Np Nq H. apply (taggers_spec _ _ E) in H as (s & k & I & _ & H). exact (U _ _ _ _ _ _ _ Ea Eb Np Nq I H). Qed.

(** The statement for a grammar: where no rule reads across, the answers for the two parts are the answers for the whole. *)
Definition cuts (os : orders) (rs : list rule_spec) (tagger verbalizer : option fst) : Prop :=
  forall t v, tagger = Some t -> verbalizer = Some v -> forall a b, a <> [] -> b <> [] -> uncrossed rs a b ->
  forall d, best_answer os t v (a ++ b) d <-> exists d1 d2, d = d1 ++ d2 /\ best_answer os t v a d1 /\ best_answer os t v b d2.
Lemma cuts_post os rs A (post : fst) : cut_rules rs = true -> Forall (fun e => emits e A) (taggers rs) ->
  cuts os rs (match tagger_union rs with Some t => Some (trim_end t) | None => None end)
             (match verbalizer_union rs with Some v => Some (Star (v @ post)) | None => None end)%fst.
Proof.
  intros C Em t v Et Ev a b Na Nb U. apply andb_true_iff in C as (C1 & C2).
  destruct (tagger_union rs) as [e|] eqn:E; [|discriminate]. injection Et as <-. destruct (verbalizer_union rs) as [g|] eqn:G; [|discriminate]. injection Ev as <-.
  apply (answers_cut e _ A os).
  - exact (union_of_emits _ _ Em _ E).
  - exact (blank_union rs e C1 E).
  - intros x y w (m & w1 & w2 & _ & H & _). exact (closed_union rs g C2 G _ _ _ H).
  - intros x y w N. split; intros (m & w1 & w2 & Ew & H & P); exists m, w1, w2; (split; [exact Ew|split; [|exact P]]); now apply (trailing_union rs g C2 G _ _ _ N).
  - exact Na.
  - exact Nb.
  - exact (uncrossed_union rs e a b E U).
Qed.
Lemma cuts_bare os rs A : cut_rules rs = true -> Forall (fun e => emits e A) (taggers rs) ->
  cuts os rs (match tagger_union rs with Some t => Some (trim_end t) | None => None end)
             (match verbalizer_union rs with Some v => Some (Star v) | None => None end).
Proof.
  intros C Em t v Et Ev a b Na Nb U. apply andb_true_iff in C as (C1 & C2).
  destruct (tagger_union rs) as [e|] eqn:E; [|discriminate]. injection Et as <-. destruct (verbalizer_union rs) as [g|] eqn:G; [|discriminate]. injection Ev as <-.
  apply (answers_cut e _ A os).
  - exact (union_of_emits _ _ Em _ E).
  - exact (blank_union rs e C1 E).
  - exact (closed_union rs g C2 G).
  - exact (trailing_union rs g C2 G).
  - exact Na.
  - exact Nb.
  - exact (uncrossed_union rs e a b E U).
Qed.
Lemma zh_tn_rules o : cut_rules (ZhTnModel.rules o) = true.
Proof. destruct o as [i e t p f v]. destruct e; vm_compute; reflexivity. Qed.
Lemma zh_itn_rules o : cut_rules (ZhItnModel.rules o) = true.
Proof. destruct o as [i s n m]. destruct s, n, m; vm_compute; reflexivity. Qed.
Lemma ja_tn_rules o : cut_rules (JaTnModel.rules o) = true.
Proof. destruct o as [t i p f v]. destruct t, f; vm_compute; reflexivity. Qed.
Lemma ja_itn_rules o : cut_rules (JaItnModel.rules o) = true.
Proof. destruct o as [f s n m]. destruct f, s, n; vm_compute; reflexivity. Qed.
