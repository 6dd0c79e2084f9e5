(** An engine that answers for the graphs, and what an engine must answer. *)
From Coq Require Import List NArith ZArith Bool String Lia Arith Sorted.
From Verif Require Import Text TextFacts TokenModel AlignModel NbestModel NbestSpec NbestStream NbestProofs.
From Verif Require Import Fst FstFacts GrammarModel FstEval EngineSpec.
From Verif Require ZhTnModel ZhItnModel JaTnModel JaItnModel EnItnModel.
Import ListNotations.
Local Open Scope list_scope.

Lemma outcomes_functional e x : functional (outcomes e x).
Proof. intros t w w' (D & L) (D' & L'). apply L in D'. apply L' in D. lia. Qed.

(** Cheapest first, the first of each text. *)
Fixpoint insert_cheap (a : text * Z) (l : list (text * Z)) : list (text * Z) :=
  match l with
  | [] => [a]
  | b :: r => if (snd a <=? snd b)%Z then a :: l else b :: insert_cheap a r
  end.
Definition cheapest (l : list (text * Z)) : list (text * Z) := fold_right insert_cheap [] l.
Fixpoint firsts (seen : list text) (l : list (text * Z)) : list (text * Z) :=
  match l with
  | [] => []
  | a :: r => if text_mem (Datatypes.fst a) seen then firsts seen r else a :: firsts (Datatypes.fst a :: seen) r
  end.
Definition ranking (e : fst) (x : text) : list (text * Z) := firsts [] (cheapest (outputs_of e x)).

Lemma insert_cheap_in a l x : In x (insert_cheap a l) <-> x = a \/ In x l.
Proof.
  induction l as [|b r IH]; cbn [insert_cheap]; [cbn; intuition|].
  destruct (snd a <=? snd b)%Z; cbn [In]; [intuition congruence|rewrite IH; intuition].
Qed.
Lemma cheapest_in l x : In x (cheapest l) <-> In x l.
Proof. induction l as [|a r IH]; cbn; [tauto|]. rewrite insert_cheap_in, IH. intuition. Qed.
Lemma insert_cheap_sorted a l : StronglySorted lighter l -> StronglySorted lighter (insert_cheap a l).
Proof.
  induction 1 as [|b r S IH F]; cbn [insert_cheap]; [repeat constructor|].
  destruct (Z.leb_spec (snd a) (snd b)).
  - constructor; [now constructor|]. constructor; [exact H|].
    rewrite Forall_forall in *. intros x I. apply F in I. unfold lighter in *. lia.
  - constructor; [exact IH|]. rewrite Forall_forall in *. intros x I. apply insert_cheap_in in I as [-> | I]; [unfold lighter; lia|now apply F].
Qed.
Lemma cheapest_sorted l : StronglySorted lighter (cheapest l).
Proof. induction l; cbn; [constructor|now apply insert_cheap_sorted]. Qed.
Lemma firsts_in seen l x : In x (firsts seen l) -> In x l /\ ~ In (Datatypes.fst x) seen.
Proof.
  revert seen. induction l as [|a r IH]; intros seen; cbn [firsts]; [intros []|].
  destruct (text_mem (Datatypes.fst a) seen) eqn:M.
  - intro I. apply IH in I as (I & N). split; [now right|exact N].
  - intros [<- | I].
    + split; [now left|]. intro I. apply text_mem_In in I. congruence.
    + apply IH in I as (I & N). split; [now right|]. intro I'. apply N. now right.
Qed.
Lemma firsts_sorted seen l : StronglySorted lighter l -> StronglySorted lighter (firsts seen l).
Proof.
  intro S. revert seen. induction S as [|a r S IH F]; intros seen; cbn [firsts]; [constructor|].
  destruct (text_mem (Datatypes.fst a) seen); [apply IH|]. constructor; [apply IH|].
  rewrite Forall_forall in *. intros x I. apply firsts_in in I as (I & _). now apply F.
Qed.
Lemma firsts_nodup seen l : NoDup (map Datatypes.fst (firsts seen l)).
Proof.
  revert seen. induction l as [|a r IH]; intros seen; cbn [firsts]; [constructor|].
  destruct (text_mem (Datatypes.fst a) seen); [apply IH|]. cbn [map]. constructor; [|apply IH].
  intro I. apply in_map_iff in I as (x & E & I). apply firsts_in in I as (_ & N). apply N. left. congruence.
Qed.
(** The first occurrence of a text in a sorted list is its cheapest. *)
Lemma firsts_least seen l y w : StronglySorted lighter l -> ~ In y seen ->
  (In (y, w) (firsts seen l) <-> In (y, w) l /\ forall w', In (y, w') l -> (w <= w')%Z).
Proof.
  intro S. revert seen. induction S as [|(y0 & w0) r S IH F]; intros seen N; cbn [firsts Datatypes.fst]; [cbn; tauto|].
  rewrite Forall_forall in F. destruct (text_mem y0 seen) eqn:M.
  - apply text_mem_In in M. rewrite IH by exact N. assert (y0 <> y) by congruence. split.
    + intros (I & L). split; [now right|]. intros w' [E|I']; [congruence|now apply L].
    + intros ([E|I] & L); [congruence|]. split; [exact I|]. intros w' I'. apply L. now right.
  - destruct (list_eq_dec N.eq_dec y0 y) as [-> | D].
    + split.
      * intros [E|I].
        -- injection E as ->. split; [now left|]. intros w' [E|I']; [injection E; lia|]. apply F in I'. exact I'.
        -- apply firsts_in in I as (_ & Nn). destruct Nn. now left.
      * intros ([E|I] & L); [left; exact E|]. left. f_equal. pose proof (F _ I) as A. unfold lighter in A. cbn in A.
        specialize (L w0 (or_introl eq_refl)). lia.
    + assert (N' : ~ In y (y0 :: seen)) by (intros [E|I]; [contradiction|now apply N]).
      cbn [In]. rewrite (IH _ N'). split.
      * intros [E|(I & L)]; [congruence|]. split; [now right|]. intros w' [E|I']; [congruence|now apply L].
      * intros ([E|I] & L); [congruence|]. right. split; [exact I|]. intros w' I'. apply L. now right.
Qed.
Lemma ranking_spec e x y w : loopfree e = true -> (In (y, w) (ranking e x) <-> outcomes e x y w).
Proof.
  intro Lf. unfold ranking, outcomes. rewrite (firsts_least [] _ y w (cheapest_sorted _)) by (intros []).
  rewrite cheapest_in, (outputs_of_spec e x y w Lf). split; intros (D & L); (split; [exact D|]); intros w' D'.
  - apply L, cheapest_in, (outputs_of_spec e x y w' Lf), D'.
  - apply cheapest_in, (outputs_of_spec e x y w' Lf) in D'. now apply L.
Qed.
Lemma firstn_in {A} k (l : list A) x : In x (firstn k l) -> In x l.
Proof. intro I. rewrite <- (firstn_skipn k l). apply in_or_app. now left. Qed.
Lemma sorted_firstn k l : StronglySorted lighter l -> StronglySorted lighter (firstn k l).
Proof.
  intro S. revert k. induction S as [|a r S IH F]; intros [|k]; cbn [firstn]; try constructor; [apply IH|].
  rewrite Forall_forall in *. intros x I. apply F. now apply firstn_in in I.
Qed.
Lemma nodup_firstn {A} k (l : list A) : NoDup l -> NoDup (firstn k l).
Proof.
  intro S. revert k. induction S as [|a r F S IH]; intros [|k]; cbn [firstn]; try constructor; [|apply IH].
  intro I. apply F. now apply firstn_in in I.
Qed.
Lemma sorted_split (l l' : list (text * Z)) x y : StronglySorted lighter (l ++ l') -> In x l -> In y l' -> lighter x y.
Proof.
  induction l as [|a l IH]; [intros _ []|]. cbn [app]. intros S I J. inversion S as [|? ? S' F]; subst.
  destruct I as [<- | I]; [|now apply IH]. rewrite Forall_forall in F. apply F, in_or_app. now right.
Qed.
Lemma ranking_kbest e x k : loopfree e = true -> kbest (outcomes e x) k (firstn k (ranking e x)).
Proof.
  intro Lf. assert (S : StronglySorted lighter (ranking e x)) by apply firsts_sorted, cheapest_sorted.
  split; [intros t w I; apply firstn_in in I; now apply ranking_spec|].
  split; [rewrite <- firstn_map; apply nodup_firstn, firsts_nodup|]. split; [now apply sorted_firstn|].
  split; [|split].
  - intros t w a O N I. apply (ranking_spec e x t w Lf) in O. rewrite <- (firstn_skipn k (ranking e x)) in O, S.
    apply in_app_or in O as [O|O]; [contradiction|]. exact (sorted_split _ _ _ _ S I O).
  - rewrite firstn_length. lia.
  - intros L t w O. apply (ranking_spec e x t w Lf) in O. rewrite firstn_length in L. rewrite firstn_all2 by lia. exact O.
Qed.
Lemma outcomes_finite e x : loopfree e = true -> finite (outcomes e x).
Proof.
  intro Lf. exists (map Datatypes.fst (ranking e x)). intros t w O. apply (ranking_spec e x t w Lf) in O.
  apply in_map_iff. now exists (t, w).
Qed.
Lemma least_weight (l : list (text * Z)) y : forall w, In (y, w) l ->
  exists m, In (y, m) l /\ forall w', In (y, w') l -> (m <= w')%Z.
Proof.
  induction l as [|(y1 & w1) r IH]; intros v Iv; [destruct Iv|].
  destruct (list_eq_dec N.eq_dec y1 y) as [-> | D].
  - destruct (in_dec (list_eq_dec N.eq_dec) y (map Datatypes.fst r)) as [I|I].
    + apply in_map_iff in I as ((y2 & v2) & E & I). cbn in E. subst. destruct (IH _ I) as (m & Im & Lm).
      exists (Z.min m w1). split; [destruct (Z.min_spec m w1) as [(_ & ->)|(_ & ->)]; [now right|now left]|].
      intros w' [E|J]; [injection E as ->; lia|]. apply Lm in J. lia.
    + exists w1. split; [now left|]. intros w' [E|J]; [injection E; lia|]. destruct I. apply in_map_iff. now exists (y, w').
  - destruct Iv as [E|Iv]; [congruence|]. destruct (IH _ Iv) as (m & Im & Lm). exists m. split; [now right|].
    intros w' [E|J]; [congruence|now apply Lm].
Qed.
Lemma outcomes_exist e x y w : loopfree e = true -> denote e x y w -> exists w', outcomes e x y w'.
Proof.
  intros Lf D. apply (outputs_of_spec e x y w Lf), least_weight in D as (m & I & L). exists m.
  split; [now apply (outputs_of_spec e x y m Lf)|]. intros w' D'. now apply L, (outputs_of_spec e x y w' Lf).
Qed.
(** A least member, if there is any. *)
Lemma outcomes_least e x y w : loopfree e = true -> denote e x y w -> exists b, least (outcomes e x) b.
Proof.
  intros Lf D. apply (outcomes_exist e x y w Lf) in D as (w' & O).
  destruct (ranking e x) as [|(t & b) r] eqn:E.
  - apply (ranking_spec e x y w' Lf) in O. rewrite E in O. destruct O.
  - exists b. split; [exists t; apply (ranking_spec e x t b Lf); rewrite E; now left|].
    intros t' v O'. apply (ranking_spec e x t' v Lf) in O'.
    assert (S : StronglySorted lighter (ranking e x)) by apply firsts_sorted, cheapest_sorted.
    rewrite E in O', S. inversion S as [|? ? _ F]; subst. destruct O' as [[= -> ->]|I]; [lia|].
    rewrite Forall_forall in F. exact (F _ I).
Qed.

(** An engine for the search that answers with these lists; its other answers are not used. *)
Definition graph_engine (os : orders) (t v : fst) (base : engine) : engine :=
  Engine (fun x k => firstn k (ranking t x)) (fun r k => firstn k (ranking v r))
    (tag_string base) (trace_machine base) (verb_machine base) (verb_string base) os.
Lemma graph_engine_oracle os t v base : loopfree t = true -> loopfree v = true ->
  search_oracle (graph_engine os t v base) (outcomes t) (outcomes v).
Proof.
  intros Lt Lv. split; [intro; apply outcomes_functional|]. split; [intro; apply outcomes_functional|].
  split; intros; now apply ranking_kbest.
Qed.

(** If every tagging of [x] can be verbalised, normalize returns. *)
Lemma normalize_returns en t v : loopfree t = true -> loopfree v = true ->
  search_oracle en (outcomes t) (outcomes v) -> forall x z, x <> [] -> (1 <= z)%Z ->
  (exists y w, denote t x y w) ->
  (forall y w, denote t x y w -> exists r, reorder (engine_orders en) y = Ok r /\ exists o w', denote v r o w') ->
  exists n, forall fuel, n <= fuel -> exists ans, normalize fuel en x (PyInt z) = POk ans.
Proof.
  intros Lt Lv O x z Nx Nz (y & w & D) A. destruct (outcomes_finite t x Lt) as (l & F).
  exists (S (List.length l * S (Z.to_nat z))). intros fuel Lf.
  pose proof (normalize_terminates en _ _ O x z l Nx Nz F fuel ltac:(lia)) as H.
  destruct (normalize fuel en x (PyInt z)) as [ans|[]] eqn:E; try contradiction; [eauto| |].
  - destruct H as (y' & w' & (D' & _) & R). apply A in D' as (r & R' & _). congruence.
  - exfalso. destruct (outcomes_exist t x y w Lt D) as (w1 & O1). destruct (A y w D) as (r & R & o & w2 & D2).
    destruct (outcomes_exist v r o w2 Lv D2) as (w3 & O3). destruct (outcomes_least v r o w2 Lv D2) as (b & B).
    apply (H y o (w1 + (w3 - b))%Z). exists r, w1, w3, b. auto 8.
Qed.

(** The closures of the shipped grammars consume input. *)
Lemma loopfree_when b p s : loopfree p = true -> loopfree s = true -> loopfree (when b p s) = true.
Proof. intros P S. destruct b; [|exact P]. cbn [when loopfree]. now rewrite P, S. Qed.
Lemma loopfree_star_compose v p : (Datatypes.fst (eats v) && loopfree v)%bool = true -> loopfree p = true ->
  loopfree (Star (v @ p)%fst) = true.
Proof.
  intros H P. apply andb_true_iff in H as (E & L). cbn [loopfree eats Datatypes.fst]. now rewrite E, L, P.
Qed.
Definition opt_loopfree (e : option fst) : Prop := match e with Some g => loopfree g = true | None => False end.
Lemma zh_tn_tagger_loopfree o : opt_loopfree (ZhTnModel.tagger o).
Proof. destruct o as [? [] ? ? ? ?]; vm_compute; reflexivity. Qed.
Lemma zh_tn_verbalizer_loopfree o : opt_loopfree (ZhTnModel.verbalizer o).
Proof.
  unfold opt_loopfree, ZhTnModel.verbalizer. destruct (verbalizer_union (ZhTnModel.rules o)) as [v|] eqn:E.
  - apply loopfree_star_compose.
    + assert (G : match verbalizer_union (ZhTnModel.rules o) with Some v => (Datatypes.fst (eats v) && loopfree v)%bool = true | None => True end);
        [|now rewrite E in G].
      clear. destruct o as [? [] ? ? ? ?]; vm_compute; reflexivity.
    + unfold ZhTnModel.postprocessor. repeat apply loopfree_when; vm_compute; reflexivity.
  - discriminate.
Qed.
Lemma zh_itn_tagger_loopfree o : opt_loopfree (ZhItnModel.tagger o).
Proof. destruct o as [? [] [] []]; vm_compute; reflexivity. Qed.
Lemma zh_itn_verbalizer_loopfree o : opt_loopfree (ZhItnModel.verbalizer o).
Proof. destruct o as [[] [] [] []]; vm_compute; reflexivity. Qed.
Lemma ja_tn_tagger_loopfree o : opt_loopfree (JaTnModel.tagger o).
Proof. destruct o as [[] ? ? [] ?]; vm_compute; reflexivity. Qed.
Lemma ja_tn_verbalizer_loopfree o : opt_loopfree (JaTnModel.verbalizer o).
Proof.
  unfold opt_loopfree, JaTnModel.verbalizer. destruct (verbalizer_union (JaTnModel.rules o)) as [v|] eqn:E.
  - apply loopfree_star_compose.
    + assert (G : match verbalizer_union (JaTnModel.rules o) with Some v => (Datatypes.fst (eats v) && loopfree v)%bool = true | None => True end);
        [|now rewrite E in G].
      clear. destruct o as [[] ? ? [] ?]; vm_compute; reflexivity.
    + unfold JaTnModel.postprocessor. repeat apply loopfree_when; vm_compute; reflexivity.
  - destruct o as [[] ? ? ? ?]; discriminate.
Qed.
Lemma ja_itn_tagger_loopfree o : opt_loopfree (JaItnModel.tagger o).
Proof. destruct o as [[] [] [] []]; vm_compute; reflexivity. Qed.
Lemma ja_itn_verbalizer_loopfree o : opt_loopfree (JaItnModel.verbalizer o).
Proof. destruct o as [[] [] [] []]; vm_compute; reflexivity. Qed.
Lemma en_itn_tagger_loopfree : opt_loopfree EnItnModel.tagger.
Proof. vm_compute; reflexivity. Qed.
Lemma en_itn_verbalizer_loopfree : opt_loopfree EnItnModel.verbalizer.
Proof. vm_compute; reflexivity. Qed.

(** The same with ties broken the other way. *)
Definition ranking_back (e : fst) (x : text) : list (text * Z) := firsts [] (cheapest (rev (outputs_of e x))).
Lemma ranking_back_spec e x y w : loopfree e = true -> (In (y, w) (ranking_back e x) <-> outcomes e x y w).
Proof.
  intro Lf. rewrite <- (ranking_spec e x y w Lf). unfold ranking_back, ranking.
  rewrite !(firsts_least [] _ y w (cheapest_sorted _)) by (intros []). rewrite !cheapest_in, <- in_rev.
  split; intros (I & L); (split; [exact I|]); intros w' J; apply L; rewrite cheapest_in in *; rewrite <- in_rev in *; exact J.
Qed.
Lemma ranking_back_kbest e x k : loopfree e = true -> kbest (outcomes e x) k (firstn k (ranking_back e x)).
Proof.
  intro Lf. assert (S : StronglySorted lighter (ranking_back e x)) by apply firsts_sorted, cheapest_sorted.
  split; [intros t w I; apply firstn_in in I; now apply ranking_back_spec|].
  split; [rewrite <- firstn_map; apply nodup_firstn, firsts_nodup|]. split; [now apply sorted_firstn|].
  split; [|split].
  - intros t w a O N I. apply (ranking_back_spec e x t w Lf) in O. rewrite <- (firstn_skipn k (ranking_back e x)) in O, S.
    apply in_app_or in O as [O|O]; [contradiction|]. exact (sorted_split _ _ _ _ S I O).
  - rewrite firstn_length. lia.
  - intros L t w O. apply (ranking_back_spec e x t w Lf) in O. rewrite firstn_length in L. rewrite firstn_all2 by lia. exact O.
Qed.
Definition graph_engine_back (os : orders) (t v : fst) (base : engine) : engine :=
  Engine (fun x k => firstn k (ranking_back t x)) (fun r k => firstn k (ranking_back v r))
    (tag_string base) (trace_machine base) (verb_machine base) (verb_string base) os.
Lemma graph_engine_back_oracle os t v base : loopfree t = true -> loopfree v = true ->
  search_oracle (graph_engine_back os t v base) (outcomes t) (outcomes v).
Proof.
  intros Lt Lv. split; [intro; apply outcomes_functional|]. split; [intro; apply outcomes_functional|].
  split; intros; now apply ranking_back_kbest.
Qed.
