(** From the grammars to what normalize answers: a text whose cheapest tagging has a cheapest
    verbalisation is normalised to it. *)
From Coq Require Import List NArith ZArith Bool String Lia Arith.
From Verif Require Import Text TextFacts TokenModel TokenSpec TokenProofs Fst FstFacts GrammarModel GrammarAccept EnglishNumeralSpec.
From Verif Require EnNumberProofs5.
From Verif Require Import NbestModel NbestSpec NbestProofs NbestMap EngineSpec FstEval GrammarEngine TokenVerbal.
Import ListNotations.
Local Open Scope list_scope.

Lemma cheapest_outcome e x y : EnglishNumeralSpec.cheapest (denote e) x y ->
  exists w, outcomes e x y w /\ (forall z v, outcomes e x z v -> (w <= v)%Z /\ (v = w -> z = y)).
Proof.
  intros (w & H & M). exists w. split.
  - split; [exact H|]. intros w' H'. exact (proj1 (M _ _ H')).
  - intros z v (H' & _). exact (M _ _ H').
Qed.
Theorem cheapest_answer en t v x y r d : loopfree t = true -> search_oracle en (outcomes t) (outcomes v) -> x <> [] ->
  EnglishNumeralSpec.cheapest (denote t) x y -> reorder (engine_orders en) y = Ok r -> EnglishNumeralSpec.cheapest (denote v) r d ->
  forall fuel ans, normalize fuel en x (PyInt 1) = POk ans -> ans = One d.
Proof.
  intros Lf O Nx Ct R Cv fuel ans E. pose proof (normalize_shape _ _ _ _ _ E) as (z & [= <-] & _ & S). destruct ans as [a|l]; [|destruct S as (S & _); congruence].
  destruct (normalize_best en _ _ O fuel x a Nx (outcomes_finite t x Lf) E) as (t0 & r0 & tw & b & T0 & R0 & V0 & (_ & L0) & Best).
  apply cheapest_outcome in Ct as (w & T1 & M1). apply cheapest_outcome in Cv as (k & V1 & M2).
  pose proof (Best _ _ _ _ _ T1 R V1) as L. destruct (M1 _ _ T0) as (L' & U). rewrite (U ltac:(lia)) in R0.
  assert (r0 = r) as -> by congruence. pose proof (L0 _ _ V1) as L2. destruct (M2 _ _ V0) as (L3 & U2). now rewrite (U2 ltac:(lia)).
Qed.
Theorem cheapest_steps en t v x y r d : loopfree t = true -> search_oracle en (outcomes t) (outcomes v) -> best_oracle en (outcomes t) (outcomes v) -> x <> [] ->
  EnglishNumeralSpec.cheapest (denote t) x y -> reorder (engine_orders en) y = Ok r -> EnglishNumeralSpec.cheapest (denote v) r d ->
  tag en x (PyInt 1) = POk (One y) /\ verbalize en y = POk d.
Proof.
  intros Lf O B Nx Ct R Cv. apply cheapest_outcome in Ct as (w & T1 & M1). apply cheapest_outcome in Cv as (k & V1 & M2).
  destruct (tag_then_verbalize en _ _ O B x y w r d k Nx (outcomes_finite t x Lf) T1) as (A & C & _); [|exact R|exact V1| |auto].
  - intros z v' H N. destruct (M1 _ _ H) as (L & U). destruct (Z.eq_dec v' w) as [E|]; [elim N; auto|lia].
  - intros z v' H N. destruct (M2 _ _ H) as (L & U). destruct (Z.eq_dec v' k) as [E|]; [elim N; auto|lia].
Qed.

(** ** The parser leaves a token with one field as it is *)
Definition namechars (t : text) : bool := match t with [] => false | _ => forallb key_char t end.
Lemma namechars_spec t : namechars t = true -> is_name t.
Proof.
  unfold namechars. destruct t as [|c t]; [discriminate|]. intro F. split; [discriminate|]. apply Forall_forall. intros a I.
  apply key_char_spec. rewrite forallb_forall in F. auto.
Qed.
Lemma plain_decodes x : ~ In 34%N x -> ~ In 92%N x -> decodes x x.
Proof.
  induction x as [|c x IH]; intros Q B; constructor; try (intros ->; cbn in *; tauto). apply IH; cbn in *; tauto.
Qed.
Lemma value_text name x : namechars name = true -> ~ In 34%N x -> ~ In 92%N x -> token_text (value_token name x) name [(u "value", x)].
Proof.
  intros N Q B. exists (u "value" ++ u ": """ ++ x ++ u """" ++ u " "). split; [|split; [now apply namechars_spec|split]].
  - unfold value_token. change (u " { value: """) with (u " { " ++ u "value" ++ u ": """). change (u """ }") with (u """" ++ u " " ++ u "}").
    now rewrite <- !app_assoc.
  - apply (ft_cons 0 (u "value") x x (u " ") []); [apply namechars_spec; reflexivity|now apply plain_decodes|exact (ft_nil 1)].
  - cbn [map Datatypes.fst]. constructor; [intros []|constructor].
Qed.
Lemma value_reordered os name x : namechars name = true -> dict_get name os = None -> ~ In 34%N x -> ~ In 92%N x ->
  reorder os (value_token name x) = Ok (value_token name x).
Proof.
  intros N D Q B. pose proof (value_text name x N Q B) as T.
  assert (S : TokenSpec.stream 0 (value_token name x) [SToken name (0 + 0) (0 + 0 + List.length (value_token name x)) [(u "value", x)]]).
  { replace (value_token name x) with (repeat 32%N 0 ++ value_token name x ++ repeat 32%N 0) at 1 by (cbn [repeat app]; apply app_nil_r).
    exact (stream_cons 0 0 _ name _ _ [] T (stream_nil _ 0)). }
  rewrite (reorder_join _ _ _ (parse_complete _ _ (token_text_nonempty _ _ _ T) S)). f_equal.
  cbn [map join]. unfold to_token. cbn [st_name st_from st_to st_fields map Datatypes.fst]. unfold token_string, effective_order.
  cbn [tk_name tk_members tk_order]. rewrite D.
  cbn [flat_map dict_get]. change (text_eqb (u "value") (u "value")) with true. cbn [format_field app].
  unfold format_field, value_token. rewrite (escape_plain x Q B), app_nil_r. f_equal. cbn [app]. let v := eval vm_compute in (u "value") in change (u "value") with v. cbn [app].
  rewrite <- !app_assoc. reflexivity.
Qed.
(** The space after the last token is deleted. *)
Lemma trim_cheapest e x z : forallb vchar z = true -> EnglishNumeralSpec.cheapest (denote (Star e)) x (z ++ u " ") ->
  EnglishNumeralSpec.cheapest (denote (trim_end e)) x z.
Proof.
  intros V (w & S & M). assert (Vz : forallb vchar (z ++ u " ") = true) by (rewrite forallb_app, V; reflexivity).
  destruct (total_rewrite (delete (u " ")) Anywhere Edge eq_refl eq_refl _ Vz) as (y & k & R & _).
  pose proof (EnNumberProofs5.trim_space _ _ _ _ R _ eq_refl) as (-> & ->).
  exists (w + 0)%Z. split; [apply compose_i with (1 := S); exact R|].
  intros z' v (m & w1 & w2 & -> & S' & R').
  assert (w2 = 0)%Z as -> by (refine (rewrite_free _ _ _ _ _ _ _ _ R'); intros ? ? ? (_ & _ & ->); reflexivity).
  destruct (M _ _ S') as (L & U). split; [lia|]. intro E. rewrite (U ltac:(lia)) in R'.
  now destruct (EnNumberProofs5.trim_space _ _ _ _ R' _ eq_refl) as (-> & _).
Qed.
Lemma value_valid name x : forallb vchar name = true -> forallb vchar x = true -> forallb vchar (value_token name x) = true.
Proof. intros N V. unfold value_token. rewrite !forallb_app, N, V. reflexivity. Qed.
