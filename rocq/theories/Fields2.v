(** Reading fields back with the graphs of their values (C79 to C82). *)
From Coq Require Import List NArith ZArith Bool String Lia Arith.
From Verif Require Import Text TextFacts TokenModel Fst FstFacts GrammarModel GrammarSpec EnglishNumeralSpec BoundarySpec BoundaryChar TokenVerbal Fields.
From Verif Require EnNumberProofs5 GrammarAccept.
Import ListNotations.
Local Open Scope list_scope.

Definition lead (sp : bool) : text := if sp then u " " else [].
Lemma vfield_denote sp k g x d w : denote (verbalize_field k (Some g) sp) x d w <->
  exists z, x = lead sp ++ piece k (escape_value z) /\ forallb vchar z = true /\ denote g z d w.
Proof.
  destruct sp; cbn [lead].
  - change (verbalize_field k (Some g) true) with (verbalize_field (u " " ++ k) (Some g) false). rewrite field_denote. unfold piece. split; intros (z & -> & R); exists z; (split; [reflexivity|exact R]).
  - rewrite field_denote. reflexivity.
Qed.
Lemma vfield_i sp k g x d w : forallb bare x = true -> forallb vchar x = true -> denote g x d w -> denote (verbalize_field k (Some g) sp) (lead sp ++ piece k x) d w.
Proof. intros B V H. apply vfield_denote. exists x. now rewrite (bare_escape x B). Qed.
(** A field in front of a text without backslashes is read with its own value only. *)
Lemma vfield_cut sp k g t d w rest x r : forallb bare x = true -> ~ In 92%N r -> denote (verbalize_field k (Some g) sp) t d w -> t ++ rest = lead sp ++ piece k x ++ r ->
  denote g x d w /\ t = lead sp ++ piece k x /\ rest = r.
Proof.
  intros B Nr H E. apply vfield_denote in H as (z & -> & V & G). rewrite <- app_assoc in E. apply app_inv_head in E. unfold piece in E. rewrite <- !app_assoc in E. do 2 apply app_inv_head in E.
  assert (Nx : ~ In 34%N x /\ ~ In 92%N x) by (rewrite forallb_forall in B; split; intro I; specialize (B _ I); discriminate B). destruct Nx as (Nq & Nb).
  assert (Nz : ~ In 92%N (escape_value z)).
  { intro I. assert (J : In 92%N (escape_value z ++ u """" ++ rest)) by (apply in_app_iff; auto). rewrite E in J. apply in_app_iff in J as [J|J]; [contradiction|]. apply in_app_iff in J as [J|J]; [vm_compute in J; intuition discriminate|contradiction]. }
  destruct (escape_bsl z Nz) as (N1 & N2). rewrite (GrammarAccept.escape_plain z N1 N2) in E |- *. change (u """") with [34%N] in E. cbn [app] in E. apply EnNumberProofs5.quoted_unique in E as (-> & ->); [auto|exact N1|exact Nq].
Qed.
Lemma bare_no_bsl x : forallb bare x = true -> ~ In 92%N x.
Proof. intros B I. rewrite forallb_forall in B. specialize (B _ I). discriminate B. Qed.
Lemma piece_no_bsl k x : forallb bare k = true -> forallb bare x = true -> ~ In 92%N (piece k x).
Proof. intros Bk Bx I. unfold piece in I. rewrite !in_app_iff in I. destruct I as [I|[I|[I|I]]]; [exact (bare_no_bsl k Bk I)|vm_compute in I; intuition discriminate|exact (bare_no_bsl x Bx I)|vm_compute in I; intuition discriminate]. Qed.
(** Tokens of two fields. *)
Lemma two_fields name k1 v1 k2 v2 : forallb bare v1 = true -> forallb bare v2 = true -> fields_token name [(k1, v1); (k2, v2)] = name ++ u " { " ++ (piece k1 v1 ++ u " " ++ piece k2 v2) ++ u " }".
Proof. intros B1 B2. unfold fields_token. cbn [map join Datatypes.fst snd]. rewrite (bare_escape _ B1), (bare_escape _ B2), <- !app_assoc. reflexivity. Qed.
Lemma two_verbal k1 g1 v1 d1 k2 g2 v2 d2 : forallb bare k2 = true -> forallb bare v1 = true -> forallb bare v2 = true -> forallb vchar v1 = true -> forallb vchar v2 = true ->
  (forall z w, denote g1 v1 z w <-> z = d1 /\ w = 0%Z) -> (forall z w, denote g2 v2 z w <-> z = d2 /\ w = 0%Z) -> forall z w,
  denote (verbalize_field k1 (Some g1) false + verbalize_field k2 (Some g2) true)%fst (piece k1 v1 ++ u " " ++ piece k2 v2) z w <-> z = d1 ++ d2 /\ w = 0%Z.
Proof.
  intros Bk B1 B2 V1 V2 R1 R2 z w. split.
  - intro H. apply cat_inv in H as (x1 & y1 & w1 & x2 & y2 & w2 & E & -> & -> & H1 & H2).
    destruct (vfield_cut false k1 g1 x1 y1 w1 x2 v1 (u " " ++ piece k2 v2) B1) as (G1 & _ & ->); [|exact H1|cbn [lead app]; now rewrite <- E|].
    { intro I. apply in_app_iff in I as [I|I]; [vm_compute in I; intuition discriminate|exact (piece_no_bsl k2 v2 Bk B2 I)]. }
    destruct (vfield_cut true k2 g2 (u " " ++ piece k2 v2) y2 w2 [] v2 [] B2 (fun I => I) H2 ltac:(rewrite !app_nil_r; reflexivity)) as (G2 & _). apply R1 in G1 as (-> & ->). apply R2 in G2 as (-> & ->). auto.
  - intros (-> & ->). change 0%Z with (0 + 0)%Z. apply cat_i; [exact (vfield_i false k1 g1 v1 d1 0%Z B1 V1 (proj2 (R1 _ _) (conj eq_refl eq_refl)))|exact (vfield_i true k2 g2 v2 d2 0%Z B2 V2 (proj2 (R2 _ _) (conj eq_refl eq_refl)))].
Qed.
