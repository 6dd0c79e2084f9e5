(** tag and verbalize over the graphs: an engine that answers them, and what follows when
    every tagging can be verbalised. *)
From Coq Require Import List NArith ZArith Bool String Lia Arith.
From Verif Require Import Text TextFacts TokenModel TokenSpec TokenProofs TokenProofs2 TokenProofs3.
From Verif Require Import AlignModel AlignSpec AlignBytes AlignProofs NbestModel NbestSpec NbestStream NbestProofs NbestMap NbestWitness.
From Verif Require Import Fst FstFacts FstRun GrammarModel GrammarSpec GrammarAccept FstEval EngineSpec GrammarEngine.
From Verif Require EnItnAccept.
Import ListNotations.
Local Open Scope list_scope.

(** ** One text at a time *)
Lemma verbalize_best_at en V t r : best_verb en V r -> reorder (engine_orders en) t = Ok r -> (exists o w, V r o w) ->
  exists o w, verbalize en t = POk o /\ V r o w /\ NbestSpec.least (V r) w.
Proof.
  intros B Hr (o' & w' & Hv). rewrite (verbalize_unfold en t r Hr).
  destruct B as [(_ & _ & N)|(o & w & arcs & Ho & Hl & Es & Hst & Ha & Hsp)]; [destruct (N _ _ Hv)|].
  rewrite Ha, Es. cbn [of_fuel pbind].
  pose proof (transduce_exact r o (verb_machine en r None) arcs [] Hst Hsp I I) as X.
  destruct (transduce_with_spans r [] _ (AOk arcs) o) as [[out outs]|e]; cbn [of_align pbind].
  - exists o, w. destruct X as (-> & _). repeat split; [exact Ho|apply Hl|apply Hl].
  - exfalso. destruct e as [[]| | |]; try exact X. destruct X as (k & _ & _ & L & _). cbn in L; lia.
Qed.
Lemma verbalize_none_at en V t r : best_verb en V r -> reorder (engine_orders en) t = Ok r -> encodable r ->
  (forall o w, ~ V r o w) -> verbalize en t = PErr (PAlign (AlignmentError NoPath)).
Proof.
  intros B Hr He N. rewrite (verbalize_unfold en t r Hr).
  destruct B as [(Hs & Ha & _)|(o & w & arcs & Ho & _)]; [|destruct (N _ _ Ho)].
  rewrite Ha. cbn [of_fuel pbind]. unfold transduce_with_spans. rewrite (text_boundaries_ok r He). cbn [abind].
  unfold character_spans_to_byte_spans. cbn. rewrite Hs. reflexivity.
Qed.

(** ** A straight machine *)
Lemma reads_renumber l : forall i, reads (renumber i l) = reads l.
Proof. induction l as [|a l IH]; intro i; [reflexivity|]. unfold reads in *. cbn [renumber map filter ilabel]. now rewrite IH. Qed.
Lemma writes_renumber l : forall i, writes (renumber i l) = writes l.
Proof. induction l as [|a l IH]; intro i; [reflexivity|]. unfold writes in *. cbn [renumber map filter olabel]. now rewrite IH. Qed.
Lemma renumber_length l : forall i, List.length (renumber i l) = List.length l.
Proof. induction l as [|a l IH]; intro i; cbn; [reflexivity|]. now rewrite IH. Qed.
Lemma renumber_nth l : forall i k a, nth_error (renumber i l) k = Some a -> nextstate a = S (i + k).
Proof.
  induction l as [|b l IH]; intros i k a; [destruct k; discriminate|]. cbn [renumber]. destruct k as [|k]; cbn [nth_error].
  - intros [= <-]. cbn. lia.
  - intro H. rewrite (IH _ _ _ H). lia.
Qed.
Lemma line_linear l : linear_arcs (line l) = Some (AOk (renumber 0 l)).
Proof.
  unfold linear_arcs, line. cbn [start_state state_arcs].
  set (R := renumber 0 l). set (m := Machine _ _).
  assert (G : forall b a fuel visited, R = a ++ b -> (forall s, In s visited -> s < List.length a) -> List.length b < fuel ->
    linear_loop fuel m visited (List.length a) a = Some (AOk R)).
  { induction b as [|c b IH]; intros a fuel visited E F L; (destruct fuel as [|f]; [cbn in L; lia|]); cbn [linear_loop].
    - replace (existsb (Nat.eqb (List.length a)) visited) with false.
      2:{ symmetry. apply not_true_is_false. intro X. apply existsb_exists in X as (s & I & X). apply Nat.eqb_eq in X. apply F in I. lia. }
      rewrite app_nil_r in E. subst m. cbn [state_arcs]. rewrite nth_error_app2; rewrite map_length, E; [|lia].
      rewrite Nat.sub_diag. reflexivity.
    - replace (existsb (Nat.eqb (List.length a)) visited) with false.
      2:{ symmetry. apply not_true_is_false. intro X. apply existsb_exists in X as (s & I & X). apply Nat.eqb_eq in X. apply F in I. lia. }
      assert (Nc : nth_error R (List.length a) = Some c) by (rewrite E, nth_error_app2, Nat.sub_diag by lia; reflexivity).
      assert (Nm : nth_error (state_arcs m) (List.length a) = Some [c]).
      { subst m. cbn [state_arcs]. rewrite nth_error_app1; [|rewrite map_length, E, app_length; cbn; lia].
        erewrite map_nth_error; [reflexivity|exact Nc]. }
      rewrite Nm. pose proof (renumber_nth l 0 (List.length a) c Nc) as Nx. rewrite Nx. cbn [Nat.add].
      replace (S (List.length a)) with (List.length (a ++ [c])) by (rewrite app_length; cbn; lia).
      apply IH.
      + now rewrite <- app_assoc.
      + intros s [<-|I]; rewrite app_length; cbn; [lia|]. apply F in I. lia.
      + cbn in L. lia. }
  apply (G R []); [reflexivity|intros s []|]. rewrite app_length, map_length. cbn. lia.
Qed.
Lemma zip_reads a : forall b, forallb lab a = true -> reads (zip_arcs a b) = a.
Proof.
  unfold reads. induction a as [|x a IH]; intros b F.
  - cbn [zip_arcs]. induction b as [|y b IHb]; [reflexivity|]. cbn. exact IHb.
  - cbn [forallb] in F. apply andb_true_iff in F as (X & F). destruct b as [|y b]; cbn [zip_arcs map filter ilabel]; rewrite X, IH by exact F; reflexivity.
Qed.
Lemma zip_writes a : forall b, forallb lab b = true -> writes (zip_arcs a b) = b.
Proof.
  unfold writes. induction a as [|x a IH]; intros b F.
  - cbn [zip_arcs]. induction b as [|y b IHb]; [reflexivity|]. cbn [forallb] in F. apply andb_true_iff in F as (Y & F).
    cbn [map filter olabel]. rewrite Y, IHb by exact F. reflexivity.
  - destruct b as [|y b]; cbn [zip_arcs map filter olabel].
    + cbn. now apply IH.
    + cbn [forallb] in F. apply andb_true_iff in F as (Y & F). rewrite Y, IH by exact F. reflexivity.
Qed.
(** ** Valid text is encodable, without NUL *)
Lemma utf8_char_labels c : vchar c = true -> exists b, utf8_char c = Some b /\ forallb lab b = true.
Proof.
  unfold vchar. rewrite orb_true_iff, !andb_true_iff, !N.leb_le, !N.ltb_lt. intro V. unfold utf8_char, lab.
  assert (P : forall a b, (0 < a)%N -> negb ((a + b) =? 0)%N = true) by (intros a b L; apply negb_true_iff, N.eqb_neq; lia).
  destruct (N.ltb_spec c 128); [|destruct (N.ltb_spec c 2048); [|destruct (N.leb_spec 55296 c); [destruct (N.ltb_spec c 57344)|]; cbn [andb]]].
  - eexists. split; [reflexivity|]. cbn [forallb]. rewrite andb_true_r. apply negb_true_iff, N.eqb_neq. lia.
  - eexists. split; [reflexivity|]. cbn [forallb]. now rewrite !P by lia.
  - lia.
  - destruct (N.ltb_spec c 65536); [|destruct (N.ltb_spec c 1114112); [|lia]]; eexists; (split; [reflexivity|]); cbn [forallb]; now rewrite !P by lia.
  - destruct (N.ltb_spec c 65536); [|lia]. eexists. split; [reflexivity|]. cbn [forallb]. now rewrite !P by lia.
Qed.
Lemma encode_valid x : forallb vchar x = true -> encode x = Some (bytes x) /\ forallb lab (bytes x) = true.
Proof.
  unfold bytes. induction x as [|c x IH]; [auto|]. cbn [forallb encode]. intro V. apply andb_true_iff in V as (C & V).
  destruct (utf8_char_labels c C) as (b & -> & Lb). destruct (IH V) as (E & L). destruct (encode x) as [bs|]; [|discriminate].
  split; [reflexivity|]. now rewrite forallb_app, Lb, L.
Qed.

(** ** The engine *)
Definition full_engine (os : orders) (t v : fst) : engine :=
  let path x y := line (zip_arcs (bytes x) (bytes y)) in
  Engine (fun x k => firstn k (ranking t x)) (fun r k => firstn k (ranking v r))
    (fun x => match ranking t x with (y, _) :: _ => Some y | [] => None end) path
    (fun r o => match o with
                | Some o => path r o
                | None => match ranking v r with (o, _) :: _ => path r o | [] => no_machine end
                end)
    (fun r o => match o with
                | Some o => o
                | None => match ranking v r with (o, _) :: _ => o | [] => [] end
                end) os.
Lemma ranking_least e x y w l : loopfree e = true -> ranking e x = (y, w) :: l ->
  outcomes e x y w /\ NbestSpec.least (outcomes e x) w.
Proof.
  intros Lf E. assert (O : outcomes e x y w) by (apply (ranking_spec e x y w Lf); rewrite E; now left).
  split; [exact O|]. split; [now exists y|]. intros y' w' O'. apply (ranking_spec e x y' w' Lf) in O'. rewrite E in O'.
  assert (S : Sorted.StronglySorted lighter (ranking e x)) by apply firsts_sorted, cheapest_sorted.
  rewrite E in S. inversion S as [|? ? _ F]; subst. destruct O' as [[= -> ->]|I]; [lia|]. rewrite Forall_forall in F. exact (F _ I).
Qed.
Lemma full_engine_search os t v : loopfree t = true -> loopfree v = true ->
  search_oracle (full_engine os t v) (outcomes t) (outcomes v).
Proof.
  intros Lt Lv. split; [intro; apply outcomes_functional|]. split; [intro; apply outcomes_functional|].
  split; intros; now apply ranking_kbest.
Qed.
Lemma full_engine_best_on (D : text -> Prop) os t v : loopfree t = true -> loopfree v = true ->
  (forall r o w, D r -> outcomes v r o w -> forallb vchar r = true /\ forallb vchar o = true) ->
  best_on D (full_engine os t v) (outcomes t) (outcomes v).
Proof.
  intros Lt Lv W. split.
  - intros x _. unfold best_tag, full_engine. cbn [tag_string]. destruct (ranking t x) as [|(y & w) l] eqn:E.
    + intros y w O. apply (ranking_spec t x y w Lt) in O. now rewrite E in O.
    + exists w. exact (ranking_least t x y w l Lt E).
  - intros r Dr. unfold best_verb, full_engine. cbn [verb_machine verb_string]. destruct (ranking v r) as [|(o & w) l] eqn:E.
    + left. split; [reflexivity|]. split; [reflexivity|]. intros y w O. apply (ranking_spec v r y w Lv) in O. now rewrite E in O.
    + right. destruct (ranking_least v r o w l Lv E) as (O & L). destruct (W r o w Dr O) as (Vr & Vo).
      destruct (encode_valid r Vr) as (Er & Lr). destruct (encode_valid o Vo) as (Eo & Lo).
      exists o, w, (renumber 0 (zip_arcs (bytes r) (bytes o))). split; [exact O|]. split; [exact L|]. split; [reflexivity|].
      split; [discriminate|]. split; [apply line_linear|]. split; [now rewrite reads_renumber, zip_reads|now rewrite writes_renumber, zip_writes].
Qed.
Lemma full_engine_best os t v : loopfree t = true -> loopfree v = true -> writes_valid v = true ->
  best_on valid_text (full_engine os t v) (outcomes t) (outcomes v).
Proof.
  intros Lt Lv Wv. apply full_engine_best_on; [exact Lt|exact Lv|]. intros r o w Vr (O & _). apply vtext_spec in Vr.
  split; [exact Vr|exact (writes_valid_sound v Wv r o w O Vr)].
Qed.

(** ** Reordering keeps validity *)
Notation valid := (forallb vchar).
Lemma valid_app a b : valid (a ++ b) = true <-> valid a = true /\ valid b = true.
Proof. now rewrite forallb_app, andb_true_iff. Qed.
Lemma decodes_valid b v : decodes b v -> valid b = true -> valid v = true.
Proof.
  induction 1 as [|c b v _ _ D IH|c b v _ D IH|c b v _ _ D IH]; cbn [forallb]; rewrite ?andb_true_iff; [auto|..]; tauto.
Qed.
Lemma fields_valid t fs : fields_text t fs -> valid t = true ->
  Forall (fun f => valid (Datatypes.fst f) = true /\ valid (snd f) = true) fs.
Proof.
  induction 1 as [n|n key b v rest fs K D F IH]; [constructor|]. rewrite !valid_app. intros (_ & Vk & _ & Vb & _ & Vr).
  constructor; [|now apply IH]. cbn. split; [exact Vk|exact (decodes_valid _ _ D Vb)].
Qed.
Lemma stream_valid o t ts : TokenSpec.stream o t ts -> valid t = true ->
  Forall (fun s => valid (st_name s) = true /\ Forall (fun f => valid (Datatypes.fst f) = true /\ valid (snd f) = true) (st_fields s)) ts.
Proof.
  induction 1 as [|o n t name fs rest ts T S IH]; [constructor|]. rewrite !valid_app. intros (_ & Vt & Vr).
  destruct T as (body & -> & _ & F & _). rewrite !valid_app in Vt. destruct Vt as (Vn & _ & Vb & _).
  constructor; [|now apply IH]. cbn. split; [exact Vn|exact (fields_valid _ _ F Vb)].
Qed.
Lemma escape_valid v : valid v = true -> valid (escape_value v) = true.
Proof.
  assert (R : forall c d, valid d = true -> forall v, valid v = true -> valid (replace_char c d v) = true).
  { intros c d D. induction v0 as [|a r IH]; [auto|]. unfold replace_char in *. cbn [flat_map forallb]. rewrite andb_true_iff. intros (A & V).
    rewrite forallb_app, IH by exact V. rewrite andb_true_r. destruct (a =? c)%N; [exact D|]. cbn. now rewrite A. }
  intro V. unfold escape_value. apply R; [reflexivity|]. apply R; [reflexivity|exact V].
Qed.
Lemma token_string_valid t os : valid (tk_name t) = true ->
  Forall (fun f => valid (Datatypes.fst f) = true /\ valid (snd f) = true) (tk_members t) -> valid (token_string t os) = true.
Proof.
  intros Vn F. unfold token_string. rewrite !valid_app. split; [exact Vn|]. split; [reflexivity|]. split; [|reflexivity].
  induction (effective_order t os) as [|k l IH]; [reflexivity|]. cbn [flat_map]. rewrite valid_app. split; [|exact IH].
  destruct (dict_get k (tk_members t)) as [v|] eqn:E; [|reflexivity]. apply dict_get_In in E. rewrite Forall_forall in F.
  destruct (F _ E) as (Vk & Vv). unfold format_field. rewrite !valid_app. repeat split; auto. now apply escape_valid.
Qed.
Lemma reorder_valid os y r : reorder os y = Ok r -> valid y = true -> valid r = true.
Proof.
  intros R V. destruct (reorder_inv _ _ _ R) as (spans & toks & _ & P). rewrite (reorder_join os y toks P) in R. injection R as <-.
  apply parse_exact in P as (_ & ts & S & D). apply stream_valid in S; [|exact V]. apply EnItnAccept.join_valid, Forall_forall. intros s I.
  apply in_map_iff in I as (t & <- & I). clear -S D I. induction D as [|t0 s0 l l' (En & _ & _ & _ & Em) D IH]; [destruct I|].
  pose proof (Forall_inv S) as (Vn & Vf). destruct I as [->|I]; [|exact (IH (Forall_inv_tail S) I)].
  apply token_string_valid; [now rewrite En|now rewrite Em].
Qed.

(** ** If every tagging can be verbalised, so can the one tag returns *)
Lemma tag_verbalizes en t v : loopfree t = true -> loopfree v = true -> writes_valid t = true ->
  best_on valid_text en (outcomes t) (outcomes v) -> forall x, valid_text x -> x <> [] ->
  (exists y w, denote t x y w) ->
  (forall y w, denote t x y w -> exists r, reorder (engine_orders en) y = Ok r /\ exists o w', denote v r o w') ->
  exists y o, tag en x (PyInt 1) = POk (One y) /\ verbalize en y = POk o.
Proof.
  intros Lt Lv Wt (Bt & Bv) x Vx Nx (y0 & w0 & D0) A. specialize (Bt x Vx). unfold best_tag in Bt.
  destruct (outcomes_exist t x y0 w0 Lt D0) as (w1 & O1).
  destruct (tag_string en x) as [y|] eqn:E; [|destruct (Bt _ _ O1)]. destruct Bt as (w & (D & _) & _).
  destruct (A y w D) as (r & R & o & k & Do). exists y. destruct (outcomes_exist v r o k Lv Do) as (k' & Oo).
  assert (Vr : valid_text r).
  { apply vtext_spec. apply (reorder_valid _ _ _ R). apply vtext_spec in Vx. exact (writes_valid_sound t Wt x y w D Vx). }
  destruct (verbalize_best_at en (outcomes v) y r (Bv r Vr) R (ex_intro _ o (ex_intro _ k' Oo))) as (o' & _ & Ev & _).
  exists o'. split; [|exact Ev]. now apply tag_best.
Qed.
