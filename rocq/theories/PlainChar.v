(** One character through the postprocessors (C64). *)
From Coq Require Import List NArith ZArith Bool String Lia Arith FMapPositive.
From Verif Require Import Text TextFacts Fst FstFacts GrammarModel TokenVerbal PlainSpec DataZhTn DataZhItn DataJaTn DataJaItn.
From Verif Require ZhTnModel ZhItnModel JaTnModel JaItnModel.
Import ListNotations.
Local Open Scope list_scope.

Definition maybe (a : option N) : text := match a with Some c => [c] | None => [] end.
(** A step takes each character to a character or to nothing. *)
Definition stage (s : fst) (F : N -> option N) : Prop :=
  (forall z w, denote s [] z w <-> z = [] /\ w = 0%Z) /\
  (forall c, vchar c = true -> (forall z w, denote s [c] z w <-> z = maybe (F c) /\ w = 0%Z) /\ forall d, F c = Some d -> vchar d = true).
Lemma stage_compose p F s G : stage p F -> stage s G -> stage (p @ s)%fst (fun c => then_ (F c) G).
Proof.
  intros (P0 & P1) (S0 & S1). split.
  - intros z w. split.
    + intros (m & w1 & w2 & -> & H & K). apply P0 in H as (-> & ->). apply S0 in K as (-> & ->). auto.
    + intros (-> & ->). exists [], 0%Z, 0%Z. split; [reflexivity|]. split; [now apply P0|now apply S0].
  - intros c V. destruct (P1 c V) as (Pd & Pv). destruct (F c) as [d|]; cbn [then_ maybe] in *.
    + destruct (S1 d (Pv d eq_refl)) as (Sd & Sv). split; [|exact Sv]. intros z w. split.
      * intros (m & w1 & w2 & -> & H & K). apply Pd in H as (-> & ->). apply Sd in K as (-> & ->). auto.
      * intros (-> & ->). exists [d], 0%Z, 0%Z. split; [reflexivity|]. split; [now apply Pd|now apply Sd].
    + split; [|discriminate]. intros z w. split.
      * intros (m & w1 & w2 & -> & H & K). apply Pd in H as (-> & ->). apply S0 in K as (-> & ->). auto.
      * intros (-> & ->). exists [], 0%Z, 0%Z. split; [reflexivity|]. split; [now apply Pd|now apply S0].
Qed.
Lemma stage_ext s F G : (forall c, F c = G c) -> stage s F -> stage s G.
Proof. intros E (A & B). split; [exact A|]. intros c V. rewrite <- E. exact (B c V). Qed.
Lemma stage_when b p F s G : stage p F -> stage s G -> stage (when b p s) (fun c => then_ (F c) (fun c => if b then G c else Some c)).
Proof.
  intros P S. unfold when. destruct b; [now apply stage_compose|]. apply (stage_ext _ F); [|exact P]. intro c. now destruct (F c).
Qed.
Lemma nil_rewrite tau l r o z w : rewritten tau l r o [] z w <-> z = [] /\ w = 0%Z.
Proof.
  split; [|intros (-> & ->); constructor]. intro H. remember [] as x eqn:Ex in H. destruct H as [|out p q v rest y k Np|]; [auto| |discriminate].
  apply app_eq_nil in Ex as (-> & _). contradiction.
Qed.
Lemma one_rewrite (tau : rel) o c z w : vchar c = true ->
  (rewritten tau Anywhere Anywhere o [c] z w <->
   (tau [c] z w /\ forallb vchar z = true) \/ ((forall y k, ~ tau [c] y k) /\ z = [c] /\ w = 0%Z)).
Proof.
  intro V. split.
  - intro H. remember [c] as x eqn:Ex. destruct H as [|out p q v rest y k Np T _ _ Vp Vq R|out d rest y v M _ R]; [discriminate| |].
    + destruct p as [|a p]; [contradiction|]. injection Ex as -> Ep. apply app_eq_nil in Ep as (-> & ->). apply nil_rewrite in R as (-> & ->).
      rewrite !app_nil_r, Z.add_0_r. left. split; [exact T|exact Vq].
    + injection Ex as -> ->. apply nil_rewrite in R as (-> & ->). right. split; [|auto]. intros y k T. apply (M [c] y k [] eq_refl); [discriminate|exact T|split; exact I].
  - intros [(T & Vz)|(N & -> & ->)].
    + rewrite <- (app_nil_r z), <- (Z.add_0_r w). change [c] with ([c] ++ []). apply rw_match; try exact I; [discriminate|exact T|cbn; now rewrite V|exact Vz|constructor].
    + apply rw_copy; [|exact V|constructor]. intros p q v rest E Np T _. destruct p as [|a p]; [contradiction|]. injection E as <- Ep.
      symmetry in Ep. apply app_eq_nil in Ep as (-> & ->). exact (N _ _ T).
Qed.
Lemma stage_rewrite (tau : fst) (F : N -> option N) :
  (forall c, vchar c = true -> ((forall y k, ~ denote tau [c] y k) /\ F c = Some c) \/
     ((forall y k, denote tau [c] y k <-> y = maybe (F c) /\ k = 0%Z) /\ forallb vchar (maybe (F c)) = true)) ->
  stage (build_rule tau Anywhere Anywhere) F.
Proof.
  intro H. split; [intros; apply nil_rewrite|]. intros c V. specialize (H c V). split.
  - intros z w. unfold build_rule. cbn [denote]. rewrite (one_rewrite _ _ _ _ _ V). destruct H as [(N & E)|(J & Vd)].
    + rewrite E. cbn [maybe]. split; [intros [(T & _)|(_ & -> & ->)]; [now apply N in T|auto]|intros (-> & ->); auto].
    + split; [intros [(T & _)|(N & _)]; [now apply J|exfalso; exact (N _ _ (proj2 (J _ _) (conj eq_refl eq_refl)))]|].
      intros (-> & ->). left. split; [now apply J|exact Vd].
  - intros d E. destruct H as [(_ & E')|(_ & Vd)]; [congruence|]. rewrite E in Vd. cbn in Vd. now apply andb_true_iff in Vd as (Vd & _).
Qed.
Lemma stage_same : stage (build_rule (Cross [] []) Anywhere Anywhere) Some.
Proof. apply stage_rewrite. intros c _. left. split; [|reflexivity]. intros y k (E & _). discriminate. Qed.

(** ** Tables of single characters *)
Fixpoint fresh (m : PositiveMap.t unit) (l : list N) : bool :=
  match l with
  | [] => true
  | c :: r => match PositiveMap.find (N.succ_pos c) m with None => fresh (PositiveMap.add (N.succ_pos c) tt m) r | Some _ => false end
  end.
Lemma succ_pos_inj a b : N.succ_pos a = N.succ_pos b -> a = b.
Proof. intro E. apply N.succ_inj. rewrite <- !N.succ_pos_spec. now rewrite E. Qed.
Lemma fresh_spec l : forall m, fresh m l = true -> NoDup l /\ forall c, In c l -> PositiveMap.find (N.succ_pos c) m = None.
Proof.
  induction l as [|a l IH]; intros m F; [split; [constructor|intros c []]|]. cbn [fresh] in F. destruct (PositiveMap.find (N.succ_pos a) m) eqn:E; [discriminate|].
  destruct (IH _ F) as (N & L). split.
  - constructor; [|exact N]. intro I. apply L in I. rewrite PositiveMap.gss in I. discriminate.
  - intros c [<-|I]; [exact E|]. specialize (L c I). destruct (N.eq_dec c a) as [->|D]; [exact E|]. rewrite PositiveMap.gso in L; [exact L|]. intro X. now apply succ_pos_inj in X.
Qed.
Definition single_keys (l : list (text * text)) : bool := forallb (fun p => match Datatypes.fst p with [c] => true | _ => false end) l.
Definition single_values (l : list (text * text)) : bool := forallb (fun p => match snd p with [c] => vchar c | _ => false end) l.
Definition key (p : text * text) : N := match Datatypes.fst p with c :: _ => c | [] => 0%N end.
Definition good_table (lines : list string) : bool :=
  let l := map entry lines in single_keys l && single_values l && fresh (PositiveMap.empty unit) (map key l).
Lemma find_key l c y : NoDup (map key l) -> single_keys l = true -> In ([c], y) l -> find (fun p : text * text => text_eqb (Datatypes.fst p) [c]) l = Some ([c], y).
Proof.
  induction l as [|(k & v) l IH]; intros D S I; [destruct I|]. cbn [single_keys forallb map] in *. apply andb_true_iff in S as (Sk & S). inversion D as [|a b Ni D' Ea]; subst.
  cbn [find Datatypes.fst] in *. destruct (text_eqb_spec k [c]) as [->|Ne].
  - destruct I as [I|I]; [injection I as <-; reflexivity|]. exfalso. apply Ni. apply in_map_iff. exists ([c], y). auto.
  - destruct I as [I|I]; [injection I as -> _; contradiction|auto].
Qed.
Lemma table_single lines : good_table lines = true -> forall c,
  (forall y k, ~ denote (string_file lines) [c] y k) /\ swapped lines c = c \/
  (forall y w, denote (string_file lines) [c] y w <-> y = [swapped lines c] /\ w = 0%Z) /\ vchar (swapped lines c) = true.
Proof.
  unfold good_table. cbv zeta. rewrite !andb_true_iff. intros ((K & V) & F) c. apply fresh_spec in F as (F & _). unfold string_file, swapped. cbn [denote].
  set (l := map entry lines) in *. destruct (find (fun p : text * text => text_eqb (Datatypes.fst p) [c]) l) as [(k & v)|] eqn:E.
  - right. pose proof (find_some _ _ E) as (I & T). cbn [Datatypes.fst] in T. destruct (text_eqb_spec k [c]) as [->|]; [|discriminate].
    unfold single_values in V. rewrite forallb_forall in V. specialize (V _ I). cbn [snd] in V. destruct v as [|d [|]]; try discriminate. split; [|exact V]. intros y w. split.
    + intros (J & ->). apply (find_key l c y F K) in J. rewrite E in J. injection J as <-. auto.
    + intros (-> & ->). auto.
  - left. split; [|reflexivity]. intros y' k (J & _). pose proof (find_none _ _ E _ J) as T. cbn [Datatypes.fst] in T. now destruct (text_eqb_spec [c] [c]).
Qed.
Lemma stage_swap lines : good_table lines = true -> stage (build_rule (string_file lines) Anywhere Anywhere) (fun c => Some (swapped lines c)).
Proof.
  intro G. apply stage_rewrite. intros c V. destruct (table_single lines G c) as [(N & E)|(J & Vs)].
  - left. rewrite E. auto.
  - right. split; [exact J|]. cbn [maybe forallb]. now rewrite Vs.
Qed.
Lemma listed_spec lines c : listed lines c = true <-> exists y, denote (string_file lines) [c] y 0%Z.
Proof.
  unfold listed, string_file. rewrite existsb_exists. cbn [denote]. split.
  - intros ((k & v) & I & E). cbn [Datatypes.fst] in E. destruct (text_eqb_spec k [c]) as [->|]; [|discriminate]. exists v. auto.
  - intros (y & I & _). exists ([c], y). split; [exact I|]. cbn [Datatypes.fst]. now destruct (text_eqb_spec [c] [c]).
Qed.
Lemma stage_erase (e : fst) (p : N -> bool) : (forall c y w, denote e [c] y w -> w = 0%Z /\ p c = true) -> (forall c, vchar c = true -> p c = true -> exists y, denote e [c] y 0%Z) ->
  stage (build_rule (Erase e) Anywhere Anywhere) (fun c => drop_if (p c) c).
Proof.
  intros A B. apply stage_rewrite. intros c V. unfold drop_if. destruct (p c) eqn:P.
  - right. split; [|reflexivity]. intros y k. cbn [denote maybe]. split.
    + intros (-> & z & H). apply A in H as (-> & _). auto.
    + intros (-> & ->). split; [reflexivity|]. now apply B.
  - left. split; [|reflexivity]. intros y k (_ & z & H). apply A in H as (_ & H). congruence.
Qed.
Lemma stage_drop lines : stage (build_rule (Erase (string_file lines)) Anywhere Anywhere) (fun c => drop_if (listed lines c) c).
Proof.
  apply stage_erase.
  - intros c y w H. pose proof H as (_ & ->). split; [reflexivity|]. apply listed_spec. eauto.
  - intros c _ L. now apply listed_spec.
Qed.
Lemma stage_puncts lines : stage (build_rule (Erase (string_file lines ∪ PUNCT)%fst) Anywhere Anywhere) (fun c => drop_if (listed lines c || is_punct c) c).
Proof.
  apply stage_erase.
  - intros c y w [H|H].
    + pose proof H as (_ & ->). split; [reflexivity|]. apply orb_true_iff. left. apply listed_spec. eauto.
    + destruct H as (a & E & -> & P & ->). injection E as <-. split; [reflexivity|]. now rewrite P, orb_true_r.
  - intros c V H. apply orb_true_iff in H as [L|P].
    + apply listed_spec in L as (y & L). exists y. now left.
    + exists [c]. right. exists c. auto.
Qed.

(** ** The four postprocessors *)
(** The last step may write marks. *)
Lemma oov_mark p c z w : vchar c = true -> (denote (oov_tagger (u "oov") (Class (fun c => vchar c && negb (p c)))) [c] z w <-> z = mark_if (negb (p c)) c /\ w = 0%Z).
Proof.
  intro V. unfold oov_tagger.
  match goal with |- denote (Rewrite ?t _ _) _ _ _ <-> _ => set (tau := t); change (denote (Rewrite tau Anywhere Anywhere) [c] z w) with (rewritten (denote tau) Anywhere Anywhere [] [c] z w) end.
  rewrite (one_rewrite _ _ _ _ _ V).
  assert (J : forall y k, denote tau [c] y k <-> negb (p c) = true /\ y = u "<oov>" ++ [c] ++ u "</oov>" /\ k = 0%Z).
  { intros y k. split.
    - intro H. apply cat_inv in H as (x1 & y1 & w1 & x2 & y2 & w2 & E & -> & -> & H & (-> & -> & ->)). rewrite app_nil_r in E.
      apply cat_inv in H as (x3 & y3 & w3 & x4 & y4 & w4 & E' & -> & -> & (-> & -> & ->) & (a & -> & -> & P & ->)). rewrite <- E in E'. injection E' as <-.
      apply andb_true_iff in P as (_ & P). auto.
    - intros (P & -> & ->). change [c] with (([] ++ [c]) ++ []) at 1. change 0%Z with ((0 + 0) + 0)%Z. rewrite app_assoc.
      apply (cat_i (insert (u "<oov>") + Class (fun c => vchar c && negb (p c)))%fst (insert (u "</oov>"))); [|now cbn].
      apply (cat_i (insert (u "<oov>")) (Class (fun c => vchar c && negb (p c)))); [now cbn|]. exists c. now rewrite V, P. }
  rewrite J. unfold mark_if. destruct (negb (p c)) eqn:P.
  - split.
    + intros [((_ & -> & ->) & _)|(N & _)]; [auto|]. exfalso. apply (N (u "<oov>" ++ [c] ++ u "</oov>") 0%Z). now apply J.
    + intros (-> & ->). left. split; [auto|]. rewrite !forallb_app. cbn [forallb]. now rewrite V.
  - split.
    + intros [((A & _) & _)|(_ & -> & ->)]; [discriminate|auto].
    + intros (-> & ->). right. split; [|auto]. intros y k H. apply J in H as (A & _). discriminate.
Qed.
Lemma last_stage (b : bool) p F s : stage p F -> forall c z w, vchar c = true ->
  (denote (when b p (oov_tagger (u "oov") (Class (fun c => vchar c && negb (s c))))) [c] z w <-> z = written (F c) (fun c => mark_if (b && negb (s c)) c) /\ w = 0%Z).
Proof.
  intros (P0 & P1) c z w V. destruct (P1 c V) as (Pd & Pv). destruct b; cbn [when andb].
  - split.
    + intros (m & w1 & w2 & -> & H & K). apply Pd in H as (-> & ->). destruct (F c) as [d|]; cbn [maybe written] in *.
      * apply (oov_mark s d) in K; [|now apply Pv]. destruct K as (-> & ->). auto.
      * apply nil_rewrite in K as (-> & ->). auto.
    + intros (-> & ->). exists (maybe (F c)), 0%Z, 0%Z. split; [reflexivity|]. split; [now apply Pd|]. destruct (F c) as [d|]; cbn [maybe written].
      * apply (oov_mark s d); [now apply Pv|auto].
      * now apply nil_rewrite.
  - rewrite Pd. unfold mark_if, written, maybe. destruct (F c); reflexivity.
Qed.
Lemma zh_simple_table : good_table zh_tn_char_traditional_to_simple = true.
Proof. vm_compute. reflexivity. Qed.
Lemma zh_half_table : good_table zh_tn_char_fullwidth_to_halfwidth = true.
Proof. vm_compute. reflexivity. Qed.
Lemma ja_half_table : good_table ja_tn_char_fullwidth_to_halfwidth = true.
Proof. vm_compute. reflexivity. Qed.
Lemma ja_itn_half_table : good_table ja_itn_char_fullwidth_to_halfwidth = true.
Proof. vm_compute. reflexivity. Qed.
Lemma if_same {A} (b : bool) (x y : A) : (if b then Some x else Some y) = Some (if b then x else y).
Proof. now destruct b. Qed.
Lemma if_drop (b p : bool) (c : N) : (if b then drop_if p c else Some c) = drop_if (b && p) c.
Proof. now destruct b. Qed.
Theorem zh_tn_post o c z w : vchar c = true -> (denote (ZhTnModel.postprocessor o) [c] z w <-> z = zh_tn_clean o c /\ w = 0%Z).
Proof.
  intro V. unfold ZhTnModel.postprocessor, zh_tn_clean.
  apply (last_stage (ZhTnModel.tag_oov o) _ (fun c =>
    then_ (then_ (then_ (Some (if ZhTnModel.traditional_to_simple o then swapped zh_tn_char_traditional_to_simple c else c))
      (fun c => drop_if (ZhTnModel.remove_interjections o && listed zh_tn_default_blacklist c) c))
      (fun c => drop_if (ZhTnModel.remove_puncts o && (listed zh_tn_char_punctuations_zh c || is_punct c)) c))
      (fun c => Some (if ZhTnModel.full_to_half o then swapped zh_tn_char_fullwidth_to_halfwidth c else c)))); [|exact V].
  pose proof stage_same as S.
  apply (stage_when (ZhTnModel.traditional_to_simple o) _ _ _ _) with (2 := stage_swap _ zh_simple_table) in S.
  apply (stage_when (ZhTnModel.remove_interjections o) _ _ _ _) with (2 := stage_drop zh_tn_default_blacklist) in S.
  apply (stage_when (ZhTnModel.remove_puncts o) _ _ _ _) with (2 := stage_puncts zh_tn_char_punctuations_zh) in S.
  apply (stage_when (ZhTnModel.full_to_half o) _ _ _ _) with (2 := stage_swap _ zh_half_table) in S.
  refine (stage_ext _ _ _ _ S). intro d. cbn [then_].
  destruct (ZhTnModel.traditional_to_simple o), (ZhTnModel.remove_interjections o), (ZhTnModel.remove_puncts o), (ZhTnModel.full_to_half o); reflexivity.
Qed.
Theorem ja_tn_post o c z w : vchar c = true -> (denote (JaTnModel.postprocessor o) [c] z w <-> z = ja_tn_clean o c /\ w = 0%Z).
Proof.
  intro V. unfold JaTnModel.postprocessor, ja_tn_clean.
  apply (last_stage (JaTnModel.tag_oov o) _ (fun c =>
    then_ (then_ (Some (if JaTnModel.full_to_half o then swapped ja_tn_char_fullwidth_to_halfwidth c else c))
      (fun c => drop_if (JaTnModel.remove_interjections o && listed ja_tn_default_blacklist c) c))
      (fun c => drop_if (JaTnModel.remove_puncts o && (listed ja_tn_char_punctuations_ja c || is_punct c)) c))); [|exact V].
  pose proof stage_same as S.
  apply (stage_when (JaTnModel.full_to_half o) _ _ _ _) with (2 := stage_swap _ ja_half_table) in S.
  apply (stage_when (JaTnModel.remove_interjections o) _ _ _ _) with (2 := stage_drop ja_tn_default_blacklist) in S.
  apply (stage_when (JaTnModel.remove_puncts o) _ _ _ _) with (2 := stage_puncts ja_tn_char_punctuations_ja) in S.
  refine (stage_ext _ _ _ _ S). intro d. cbn [then_].
  destruct (JaTnModel.full_to_half o), (JaTnModel.remove_interjections o), (JaTnModel.remove_puncts o); reflexivity.
Qed.
Lemma stage_vsigma : stage VSIGMA Some.
Proof.
  split; [intros z w; rewrite vsigma_denote; cbn [forallb]; tauto|]. intros c V. split; [|intros d [= <-]; exact V].
  intros z w. rewrite vsigma_denote. cbn [forallb maybe]. rewrite V. tauto.
Qed.
Theorem zh_itn_post o c z w : vchar c = true -> (denote (ZhItnModel.postprocessor o) [c] z w <-> z = zh_itn_clean o c /\ w = 0%Z).
Proof.
  intro V. unfold ZhItnModel.postprocessor, zh_itn_clean. destruct (ZhItnModel.remove_interjections o).
  - exact (proj1 (proj2 (stage_compose _ _ _ _ stage_vsigma (stage_drop zh_itn_default_blacklist)) c V) z w).
  - exact (proj1 (proj2 stage_vsigma c V) z w).
Qed.
Lemma ja_itn_stage o : stage (JaItnModel.preprocessor o) (fun c => Some (if JaItnModel.full_to_half o then swapped ja_itn_char_fullwidth_to_halfwidth c else c)).
Proof.
  unfold JaItnModel.preprocessor. destruct (JaItnModel.full_to_half o).
  - exact (stage_compose _ _ _ _ stage_same (stage_swap _ ja_itn_half_table)).
  - exact stage_same.
Qed.
Theorem ja_itn_pre o c z w : vchar c = true -> (denote (JaItnModel.Char.graph o) [c] z w <-> z = ja_itn_clean o c /\ w = 0%Z).
Proof.
  intro V. destruct (proj2 (ja_itn_stage o) c V) as (J & Vd). specialize (Vd _ eq_refl). unfold ja_itn_clean. split.
  - intros (m & w1 & w2 & -> & H & (d & -> & -> & P & ->)). apply J in H as (E & ->). cbn [maybe] in E. injection E as ->. auto.
  - intros (-> & ->). exists (maybe (Some (if JaItnModel.full_to_half o then swapped ja_itn_char_fullwidth_to_halfwidth c else c))), 0%Z, 0%Z.
    split; [reflexivity|]. split; [now apply J|]. eexists. repeat split. exact Vd.
Qed.
