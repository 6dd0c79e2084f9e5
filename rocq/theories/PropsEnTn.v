(** Properties C42, C43 and C44 of the English normaliser, and C57.

    [denote t x y w] (Fst.v): the graph [t] turns [x] into [y] at cost [w]; [parse] and
    [reorder] are the token parser's (TokenModel.v); [en_tn_tokens] and [spaced] are in
    ShapeSpec.v, [tame], [english] and [hyphen_as_space] in EnglishSpec.v.  The grammar has
    no options.  [ys] is the graph the rule of date.py:66-71 compiles to, which the model
    leaves open (EnTnModel.v): the theorems hold whatever it is. *)
From Coq Require Import List NArith ZArith Bool String Lia.
From Verif Require Import Text TextFacts TokenModel PipelineModel AlignModel AlignSpec NbestModel NbestSpec.
From Verif Require Import NbestStream NbestSearch NbestProofs NbestMap NbestWitness EngineFull.
From Verif Require Import Fst FstRun GrammarModel GrammarSpec FstFacts ShapeSpec GrammarShape GrammarAccept SpacedShape.
From Verif Require Import EngineSpec FstEval GrammarEngine PropsShape EnglishSpec.
From Verif Require EnTnModel EnTnShape EnTnAccept EnItnModel DataEnTn.
Import EnTnModel(tagger, verbalizer).
Import ListNotations.
Local Open Scope list_scope.

Lemma built ys : exists t v, tagger ys = Some t /\ verbalizer ys = Some v.
Proof.
  unfold tagger, verbalizer. destruct (tagger_union _) as [t|] eqn:T; [|discriminate].
  destruct (verbalizer_union _) as [v|] eqn:V; [|discriminate].
  eexists. eexists. split; reflexivity.
Qed.
(** The orders of EnTnModel.v are those of PipelineModel.v. *)
Lemma same_orders : EnTnModel.token_orders = en_tn_token_orders.
Proof. reflexivity. Qed.

(** ** C42: every tagging of a tame text is a list of tokens of the table *)
Definition well_formed_on (D : text -> Prop) (table : token_table) (tagger : option fst) : Prop :=
  exists t, tagger = Some t /\ forall x y w, D x -> denote t x y w ->
    exists toks, parse y = Ok toks /\ toks <> [] /\ Forall (known table) toks.
Theorem C42_en_tn : forall ys, well_formed_on tame en_tn_tokens (tagger ys).
Proof.
  intro ys. destruct (built ys) as (t & _ & Et & _). exists t. split; [exact Et|]. intros x y w Dx D.
  destruct (EnTnShape.en_tn_lays ys t Et) as (A & F & L). destruct (EnTnAccept.lays_parse _ _ _ _ _ _ _ L Dx D) as (toks & P & N & Sh).
  exists toks. split; [exact P|]. split; [exact N|]. eapply Forall_impl; [|exact Sh]. exact (known_shape _ _ F).
Qed.
Print Assumptions C42_en_tn.

(** ** C43: the tokens are the words of the text *)
Theorem C43_en_tn : forall ys, exists t, tagger ys = Some t /\
  forall x y w toks, tame x -> denote t x y w -> parse y = Ok toks -> spaced hyphen_as_space x (map token_content toks).
Proof.
  intro ys. destruct (built ys) as (t & _ & Et & _). exists t. split; [exact Et|]. intros x y w toks Dx D.
  destruct (EnTnShape.en_tn_lays ys t Et) as (A & _ & L). exact (lays_spaced _ _ _ _ _ _ _ _ _ L Dx D).
Qed.
Print Assumptions C43_en_tn.

(** ** C44 *)
(** Every English text has a tagging that is verbalised, and no tagging of it makes
    [reorder] raise. *)
Theorem C44_en_tn : forall ys, exists t v, tagger ys = Some t /\ verbalizer ys = Some v /\
  forall x, english x ->
    (exists y w r z w', denote t x y w /\ reorder en_tn_token_orders y = Ok r /\ denote v r z w') /\
    (forall y w, denote t x y w -> exists r, reorder en_tn_token_orders y = Ok r).
Proof.
  intro ys. destruct (built ys) as (t & v & Et & Ev). exists t, v. split; [exact Et|]. split; [exact Ev|]. intros x E.
  assert (Dx : tame x) by exact (proj1 E). split.
  - destruct (EnTnAccept.english_tagged x E) as (y & w & H). destruct (EnTnAccept.small_tagger_sub ys t Et x y w Dx H) as (w' & H').
    destruct (EnTnAccept.small_verbalizes ys v x y w Ev Dx H) as (r & R & z & k & A). rewrite same_orders in R. eauto 10.
  - intros y w D. destruct (EnTnShape.en_tn_lays ys t Et) as (A & _ & L).
    destruct (EnTnAccept.lays_parse _ _ _ _ _ _ _ L Dx D) as (toks & P & _). rewrite (reorder_join _ y toks P). eauto.
Qed.
Print Assumptions C44_en_tn.

Lemma tagger_loopfree ys : loopfree ys = true -> opt_loopfree (tagger ys).
Proof. intro L. vm_compute in L |- *. rewrite !L. reflexivity. Qed.
Lemma verbalizer_loopfree ys : loopfree ys = true -> opt_loopfree (verbalizer ys).
Proof. intro L. vm_compute in L |- *. rewrite ?L. reflexivity. Qed.
(** If all taggings can be reordered and one can be verbalised, normalize returns. *)
Lemma normalize_returns_one en t v : loopfree t = true -> loopfree v = true ->
  search_oracle en (outcomes t) (outcomes v) -> forall x z, x <> [] -> (1 <= z)%Z ->
  (exists y w r o w', denote t x y w /\ reorder (engine_orders en) y = Ok r /\ denote v r o w') ->
  (forall y w, denote t x y w -> exists r, reorder (engine_orders en) y = Ok r) ->
  exists n, forall fuel, n <= fuel -> exists ans, normalize fuel en x (PyInt z) = POk ans.
Proof.
  intros Lt Lv O x z Nx Nz (y & w & r & o & w2 & D & R & D2) A. destruct (outcomes_finite t x Lt) as (l & F).
  exists (S (List.length l * S (Z.to_nat z))). intros fuel Lf.
  pose proof (normalize_terminates en _ _ O x z l Nx Nz F fuel ltac:(lia)) as H.
  destruct (normalize fuel en x (PyInt z)) as [ans|[]] eqn:E; try contradiction; [eauto| |].
  - destruct H as (y' & w' & (D' & _) & R'). apply A in D' as (r' & R''). congruence.
  - exfalso. destruct (outcomes_exist t x y w Lt D) as (w1 & O1).
    destruct (outcomes_exist v r o w2 Lv D2) as (w3 & O3). destruct (outcomes_least v r o w2 Lv D2) as (b & B).
    apply (H y o (w1 + (w3 - b))%Z). exists r, w1, w3, b. auto 8.
Qed.
Lemma english_nonempty x : english x -> x <> [].
Proof.
  intros (_ & [(n & m & k & (N & _) & ->)|(a & m & p & m' & b & _ & _ & P & _ & _ & ->)]) E.
  - apply app_eq_nil in E as (_ & E). apply app_eq_nil in E as (E & _). contradiction.
  - apply app_eq_nil in E as (_ & E). apply app_eq_nil in E as (_ & E). apply app_eq_nil in E as (E & _).
    destruct P as [w (N & _)|w s r (N & _) _ _]; [contradiction|]. apply app_eq_nil in E as (E & _). contradiction.
Qed.
(** So normalize returns, for an engine that answers for the graphs; there is one. *)
Theorem C44_en_tn_normalize : forall ys, loopfree ys = true -> exists t v, tagger ys = Some t /\ verbalizer ys = Some v /\
  (forall en, engine_orders en = en_tn_token_orders -> search_oracle en (outcomes t) (outcomes v) ->
   forall x z, english x -> (1 <= z)%Z -> exists n, forall fuel, n <= fuel -> exists ans, normalize fuel en x (PyInt z) = POk ans) /\
  (exists en, engine_orders en = en_tn_token_orders /\ search_oracle en (outcomes t) (outcomes v)).
Proof.
  intros ys Ly. destruct (C44_en_tn ys) as (t & v & Et & Ev & H). exists t, v. split; [exact Et|]. split; [exact Ev|].
  pose proof (tagger_loopfree ys Ly) as Lt. pose proof (verbalizer_loopfree ys Ly) as Lv. rewrite Et in Lt. rewrite Ev in Lv.
  split.
  - intros en Eo O x z E Nz. destruct (H x E) as (H1 & H2). apply (normalize_returns_one en t v Lt Lv O x z); auto.
    + now apply english_nonempty.
    + rewrite Eo. exact H1.
    + rewrite Eo. exact H2.
  - exists (graph_engine en_tn_token_orders t v engine_w). split; [reflexivity|]. exact (graph_engine_oracle _ t v engine_w Lt Lv).
Qed.
Print Assumptions C44_en_tn_normalize.

(** English texts: *)
Lemma letters_i x : forallb EnTnModel.Word.word_char x = true -> Forall letter x.
Proof. rewrite forallb_forall, Forall_forall. auto. Qed.
Lemma digits_i x : forallb is_digit x = true -> Forall digit x.
Proof.
  rewrite forallb_forall, Forall_forall. intros F c I. apply F in I. unfold is_digit, in_range in I.
  now rewrite andb_true_iff, !N.leb_le in I.
Qed.
Lemma marks_i x : forallb EnTnModel.Punctuation.punct_mark x = true -> Forall mark x.
Proof. rewrite forallb_forall, Forall_forall. intros F c I. left. auto. Qed.
Lemma absent c x : forallb (fun d => negb (c =? d)%N) x = true -> ~ In c x.
Proof. intros F I. rewrite forallb_forall in F. apply F in I. now rewrite N.eqb_refl in I. Qed.
Definition markb (c : N) : bool := EnTnModel.Punctuation.punct_mark c || (c =? 34)%N.
Lemma loose_i m : (text_eqb m [] || existsb markb m) && forallb (fun c => (c =? 32)%N || markb c) m = true -> loose m.
Proof.
  assert (Mk : forall c, markb c = true -> mark c).
  { intros c H. unfold markb in H. rewrite orb_true_iff, N.eqb_eq in H. unfold mark. tauto. }
  intro H. apply andb_true_iff in H as (H & F). apply orb_true_iff in H as [H|H].
  - left. now destruct (text_eqb_spec m []).
  - right. split.
    + apply Exists_exists. apply existsb_exists in H as (c & I & H). exists c. auto.
    + apply Forall_forall. intros c I. rewrite forallb_forall in F. apply F in I. rewrite orb_true_iff, N.eqb_eq in I.
      destruct I as [I|I]; [now left|right; auto].
Qed.
Lemma core_i w : negb (text_eqb w []) && (forallb EnTnModel.Word.word_char w || forallb is_digit w) = true -> core w.
Proof.
  intro H. apply andb_true_iff in H as (H & F). split; [intros ->; discriminate|].
  apply orb_true_iff in F as [F|F]; [left; now apply letters_i|right; now apply digits_i].
Qed.
Lemma more_i x w s r : x = w ++ s ++ r -> core w -> separator s -> phrase r -> phrase x.
Proof. intros ->. apply ph_more. Qed.
Lemma marks_sep_i s : negb (text_eqb s []) && existsb markb s && forallb (fun c => (c =? 32)%N || markb c) s = true -> separator s.
Proof.
  rewrite !andb_true_iff. intros ((N & E) & F). apply sep_marks; [|intros ->; discriminate].
  apply loose_i. now rewrite E, F, orb_true_r.
Qed.
Lemma white_space_i : Forall white [32%N].
Proof. constructor; [unfold white; lia|constructor]. Qed.
Example english_case : english (u "  (In 2012, ""they"" paid 30 - 40 yen)... ").
Proof.
  assert (S1 : separator [32%N]) by (apply (sep_white [] 32%N []); [now left|unfold white; lia|now left]).
  split; [left; apply absent; vm_compute; reflexivity|]. right.
  exists [32; 32]%N, (u "("), (u "In 2012, ""they"" paid 30 - 40 yen"), (u ")..."), [32%N].
  split; [exact (Forall_cons _ (Forall_inv white_space_i) white_space_i)|].
  split; [apply loose_i; vm_compute; reflexivity|].
  split; [|split; [apply loose_i; vm_compute; reflexivity|split; [exact white_space_i|vm_compute; reflexivity]]].
  apply (more_i _ (u "In") [32%N] (u "2012, ""they"" paid 30 - 40 yen")); [vm_compute; reflexivity|apply core_i; vm_compute; reflexivity|exact S1|].
  apply (more_i _ (u "2012") (u ", """) (u "they"" paid 30 - 40 yen")); [vm_compute; reflexivity|apply core_i; vm_compute; reflexivity|apply marks_sep_i; vm_compute; reflexivity|].
  apply (more_i _ (u "they") (u """ ") (u "paid 30 - 40 yen")); [vm_compute; reflexivity|apply core_i; vm_compute; reflexivity|apply marks_sep_i; vm_compute; reflexivity|].
  apply (more_i _ (u "paid") [32%N] (u "30 - 40 yen")); [vm_compute; reflexivity|apply core_i; vm_compute; reflexivity|exact S1|].
  apply (more_i _ (u "30") (u " - ") (u "40 yen")); [vm_compute; reflexivity|apply core_i; vm_compute; reflexivity|apply marks_sep_i; vm_compute; reflexivity|].
  apply (more_i _ (u "40") [32%N] (u "yen")); [vm_compute; reflexivity|apply core_i; vm_compute; reflexivity|exact S1|].
  apply ph_core, core_i. vm_compute. reflexivity.
Qed.

(** ** Outside the domains *)
(** All taggings of a text are found by evaluation (FstEval.v), whatever [ys] is. *)
Definition taggings (ys : fst) (x : text) : list (text * Z) :=
  match tagger ys with Some t => ranking t x | None => [] end.
Lemma taggings_spec ys t x y w : loopfree ys = true -> tagger ys = Some t -> (In (y, w) (taggings ys x) <-> outcomes t x y w).
Proof.
  intros Ly Et. unfold taggings. rewrite Et. apply ranking_spec. pose proof (tagger_loopfree ys Ly) as L. now rewrite Et in L.
Qed.
(** No tagging: normalize raises.  Two spaces, a letter that is not ASCII next to a digit,
    marks with a space between them, a symbol next to a number. *)
Definition untagged : list text :=
  [u "a  b"; u "5é"; u "! ?"; u "18+"; u "#5"; u "@5"; u "5*"; u "5_"; u "+5"; u "5="].
Theorem C44_en_tn_refuted : forall ys, loopfree ys = true ->
  exists t v, tagger ys = Some t /\ verbalizer ys = Some v /\
  forall x, In x untagged ->
  forall en, search_oracle en (outcomes t) (outcomes v) ->
  forall fuel z, 1 <= fuel -> (1 <= z)%Z -> normalize fuel en x (PyInt z) = PErr PNoPath.
Proof.
  intros ys Ly. destruct (built ys) as (t & v & Et & Ev). exists t, v. split; [exact Et|]. split; [exact Ev|]. intros x I.
  assert (U : x <> [] /\ taggings ys x = []).
  { unfold untagged in I. cbn [In] in I. repeat (destruct I as [<-|I]; [split; [discriminate|vm_compute; reflexivity]|]). destruct I. }
  destruct U as (Nx & U). intros en O fuel z Lf Nz.
  assert (None : forall y w, ~ outcomes t x y w) by (intros y w T; apply (taggings_spec ys t x y w Ly Et) in T; now rewrite U in T).
  pose proof (normalize_terminates en _ _ O x z [] Nx Nz (fun y w T => None y w T) fuel) as H. cbn [List.length Nat.mul] in H.
  specialize (H ltac:(lia)). destruct (normalize fuel en x (PyInt z)) as [ans|[]]; try contradiction; [|..].
  - destruct H as (y & o & w & r & tw & vw & b & T & _). destruct (None _ _ T).
  - destruct H as (y & w & T & _). destruct (None _ _ T).
  - reflexivity.
Qed.
Print Assumptions C44_en_tn_refuted.

(** The tagging of a text that is cheaper than all others, if there is one. *)
Definition cheapest_tagging (ys : fst) (x y : text) : bool :=
  match taggings ys x with
  | (y0, w0) :: l => text_eqb y y0 && forallb (fun p => (w0 <? snd p)%Z) l
  | [] => false
  end.
Lemma cheapest_tagging_spec ys t x y : loopfree ys = true -> tagger ys = Some t -> cheapest_tagging ys x y = true ->
  exists w, outcomes t x y w /\ forall y' w', outcomes t x y' w' -> y' <> y -> (w < w')%Z.
Proof.
  intros Ly Et C. unfold cheapest_tagging in C. destruct (taggings ys x) as [|(y0 & w0) l] eqn:E; [discriminate|].
  apply andb_true_iff in C as (Ey & F). destruct (text_eqb_spec y y0) as [->|]; [|discriminate]. exists w0. split.
  - apply (taggings_spec ys t x y0 w0 Ly Et). rewrite E. now left.
  - intros y' w' T N. apply (taggings_spec ys t x y' w' Ly Et) in T. rewrite E in T. destruct T as [[= -> ->]|T]; [contradiction|].
    rewrite forallb_forall in F. apply F in T. now apply Z.ltb_lt in T.
Qed.
Lemma tag_returns en t x y w : best_tag en (outcomes t) x -> x <> [] -> outcomes t x y w ->
  (forall y' w', outcomes t x y' w' -> y' <> y -> (w < w')%Z) -> tag en x (PyInt 1) = POk (One y).
Proof.
  intros B Nx O L. apply (tag_best en x y Nx). unfold best_tag in B. destruct (tag_string en x) as [y'|]; [|destruct (B _ _ O)].
  destruct B as (w' & O' & (_ & M)). destruct (list_eq_dec N.eq_dec y' y) as [->|N]; [reflexivity|].
  specialize (L _ _ O' N). specialize (M _ _ O). lia.
Qed.
(** ** C42 fails for a quotation mark between < and >: the one cheapest tagging is not a list
    of tokens, and normalize raises. *)
Lemma first_unparsable en T V x y w e : search_oracle en T V -> x <> [] ->
  T x y w -> (forall y' w', T x y' w' -> y' <> y -> (w < w')%Z) -> reorder (engine_orders en) y = Err e ->
  forall fuel z, 1 <= fuel -> (1 <= z)%Z -> normalize fuel en x (PyInt z) = PErr (PParse e).
Proof.
  intros O Nx Ty L R fuel z Lf Nz.
  assert (E0 : ET en x 0 = Some (y, w)).
  { assert (Le : NbestSpec.least (T x) w).
    { split; [now exists y|]. intros y' w' T'. destruct (list_eq_dec N.eq_dec y' y) as [->|N]; [|specialize (L _ _ T' N); lia].
      destruct O as (Fu & _). rewrite (Fu x y w' w T' Ty). lia. }
    apply (enum_first _ _ _ (ET_enum en T V x O)) in Le as (y' & E). rewrite E. do 2 f_equal.
    destruct (list_eq_dec N.eq_dec y' y) as [->|N]; [reflexivity|]. exfalso.
    destruct (ET_enum en T V x O) as (Sub & _). specialize (L _ _ (Sub _ _ _ E) N). lia. }
  destruct O as (Fu & _ & Kb & _).
  unfold normalize. assert (Ev : validate_nbest (PyInt z) = POk (Z.to_nat z)) by (apply validate_ok; exists z; repeat split; lia).
  rewrite Ev. cbn [pbind]. destruct x as [|c x]; [contradiction|]. unfold normalization_candidates.
  destruct fuel as [|f]; [lia|]. cbn [search_loop q_cands List.length]. replace (0 <? Z.to_nat z) with true by (symmetry; apply PeanoNat.Nat.ltb_lt; lia).
  unfold search_step. cbn [q_tags].
  destruct (peek_at _ _ (Fu (c :: x)) (Kb (c :: x)) 0 _ (at_new (tag_paths en (c :: x)))) as (s' & -> & A).
  cbn [of_fuel pbind q_frontier q_activated q_cands q_seen]. unfold activate. cbn [q_tags].
  destruct (pop_at _ _ (Fu (c :: x)) (Kb (c :: x)) 0 s' A) as (s'' & -> & _).
  unfold ET in E0. rewrite E0. cbn [of_fuel pbind i_text]. rewrite R. reflexivity.
Qed.
Theorem C42_en_tn_refuted : forall ys, loopfree ys = true ->
  exists t v y, tagger ys = Some t /\ verbalizer ys = Some v /\ parse y = Err (TokenParseError InvalidKey) /\
  (forall en, best_tag en (outcomes t) (u "<p"">") -> tag en (u "<p"">") (PyInt 1) = POk (One y)) /\
  (forall en, engine_orders en = en_tn_token_orders -> search_oracle en (outcomes t) (outcomes v) ->
   forall fuel z, 1 <= fuel -> (1 <= z)%Z -> normalize fuel en (u "<p"">") (PyInt z) = PErr (PParse (TokenParseError InvalidKey))).
Proof.
  intros ys Ly. destruct (built ys) as (t & v & Et & Ev). exists t, v, (u "p { v: ""<p"">"" }").
  split; [exact Et|]. split; [exact Ev|]. split; [vm_compute; reflexivity|].
  destruct (cheapest_tagging_spec ys t (u "<p"">") (u "p { v: ""<p"">"" }") Ly Et) as (w & O & L); [vm_compute; reflexivity|]. split.
  - intros en B. exact (tag_returns _ _ (u "<p"">") _ _ B ltac:(discriminate) O L).
  - intros en Eo S. apply (first_unparsable en (outcomes t) (outcomes v) (u "<p"">") _ w _ S ltac:(discriminate) O L).
    rewrite Eo. vm_compute. reflexivity.
Qed.
Print Assumptions C42_en_tn_refuted.

(** ** C57: verbalize(tag(x)), which the command line prints, raises although normalize
    returns: the cheapest tagging has no verbalisation. *)
Theorem C57_en_tn_refuted : forall ys, loopfree ys = true ->
  exists t v y, tagger ys = Some t /\ verbalizer ys = Some v /\
  (forall en, engine_orders en = en_tn_token_orders -> best_tag en (outcomes t) (u "a.com_") -> best_verb en (outcomes v) y ->
   tag en (u "a.com_") (PyInt 1) = POk (One y) /\ verbalize en y = PErr (PAlign (AlignmentError NoPath))) /\
  (forall en, engine_orders en = en_tn_token_orders -> search_oracle en (outcomes t) (outcomes v) ->
   exists n, forall fuel, n <= fuel -> exists ans, normalize fuel en (u "a.com_") (PyInt 1) = POk ans).
Proof.
  intros ys Ly. destruct (C44_en_tn_normalize ys Ly) as (t & v & Et & Ev & No & _). exists t, v, (u "electronic { domain: ""a.com_"" }").
  split; [exact Et|]. split; [exact Ev|]. split.
  - intros en Eo B Bv. destruct (cheapest_tagging_spec ys t (u "a.com_") (u "electronic { domain: ""a.com_"" }") Ly Et) as (w & O & L); [vm_compute; reflexivity|].
    split; [exact (tag_returns _ _ (u "a.com_") _ _ B ltac:(discriminate) O L)|].
    assert (R : reorder en_tn_token_orders (u "electronic { domain: ""a.com_"" }") = Ok (u "electronic { domain: ""a.com_"" }")) by (vm_compute; reflexivity).
    rewrite <- Eo in R.
    apply (verbalize_none_at en (outcomes v) _ _ Bv R).
    + unfold encodable. vm_compute. discriminate.
    + intros o k (D & _). pose proof (verbalizer_loopfree ys Ly) as Lv. rewrite Ev in Lv.
      apply (outputs_of_spec v _ o k Lv) in D.
      assert (E : match verbalizer ys with Some v => outputs_of v (u "electronic { domain: ""a.com_"" }") | None => [] end = []) by (vm_compute; reflexivity).
      rewrite Ev in E. now rewrite E in D.
  - intros en Eo S. apply (No en Eo S); [|lia]. split; [left; apply absent; vm_compute; reflexivity|]. right.
    exists [], [], (u "a.com_"), [], []. split; [constructor|]. split; [now left|]. split; [|split; [now left|split; [constructor|vm_compute; reflexivity]]].
    apply (more_i _ (u "a") (u ".") (u "com_")); [vm_compute; reflexivity|apply core_i; vm_compute; reflexivity|apply marks_sep_i; vm_compute; reflexivity|].
    apply ph_core, core_i. vm_compute. reflexivity.
Qed.
Print Assumptions C57_en_tn_refuted.
(** Each symbol of whitelist/symbol.tsv is one character, as [Serial.symbol_chars] takes it. *)
Example symbol_file : map (fun c => [c]) EnTnModel.Serial.symbol_chars
  = map Datatypes.fst (EnItnModel.labels DataEnTn.en_tn_whitelist_symbol).
Proof. vm_compute. reflexivity. Qed.

(** There are such graphs [ys] and such engines. *)
Example en_tn_engines : exists ys t v en, loopfree ys = true /\ tagger ys = Some t /\ verbalizer ys = Some v /\
  engine_orders en = en_tn_token_orders /\ search_oracle en (outcomes t) (outcomes v) /\
  best_tag en (outcomes t) (u "<p"">") /\ best_tag en (outcomes t) (u "a.com_") /\
  best_verb en (outcomes v) (u "electronic { domain: ""a.com_"" }").
Proof.
  destruct (built (Cross [] [])) as (t & v & Et & Ev). exists (Cross [] []), t, v, (full_engine en_tn_token_orders t v).
  pose proof (tagger_loopfree (Cross [] []) eq_refl) as Lt. pose proof (verbalizer_loopfree (Cross [] []) eq_refl) as Lv.
  rewrite Et in Lt. rewrite Ev in Lv.
  split; [reflexivity|]. split; [exact Et|]. split; [exact Ev|]. split; [reflexivity|].
  split; [now apply full_engine_search|].
  set (r := u "electronic { domain: ""a.com_"" }").
  destruct (full_engine_best_on (eq r) en_tn_token_orders t v Lt Lv) as (_ & Bv).
  { intros r' o w <- (D & _). exfalso. apply (outputs_of_spec v r o w Lv) in D.
    assert (E : match verbalizer (Cross [] []) with Some v => outputs_of v r | None => [] end = []) by (vm_compute; reflexivity).
    rewrite Ev in E. now rewrite E in D. }
  assert (Bt : forall x, best_tag (full_engine en_tn_token_orders t v) (outcomes t) x).
  { intro x. unfold best_tag, full_engine. cbn [tag_string]. destruct (ranking t x) as [|(y & w) l] eqn:E.
    - intros y w O. apply (ranking_spec t x y w Lt) in O. now rewrite E in O.
    - exists w. exact (ranking_least t x y w l Lt E). }
  auto.
Qed.
