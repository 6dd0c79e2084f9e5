(** Property C44: the shipped Chinese and Japanese grammars tag every text and verbalise
    every tagging.

    [denote t x y w] (Fst.v): the graph [t] turns [x] into [y] at cost [w]; [valid_text]
    (GrammarSpec.v): Unicode scalar values other than NUL; [reorder] is the token parser's
    reordering (TokenModel.v), the order tables are in PipelineModel.v. *)
From Coq Require Import List NArith ZArith Bool String Lia.
From Verif Require Import Text TextFacts TokenModel PipelineModel NbestModel NbestSpec NbestWitness.
From Verif Require Import Fst GrammarModel GrammarSpec FstFacts ShapeSpec GrammarShape GrammarAccept.
From Verif Require Import EngineSpec FstEval GrammarEngine.
From Verif Require ZhTnModel ZhItnModel JaTnModel JaItnModel.
From Verif Require ZhTnShape ZhItnShape JaTnShape JaItnShape.
From Verif Require ZhTnAccept ZhItnAccept JaTnAccept JaItnAccept.
Import ListNotations.
Local Open Scope list_scope.

(** Both graphs are built; every non-empty valid text has a tagging, and every tagging of
    it can be reordered and has a verbalisation. *)
Definition always_normalizes (os : orders) (tagger verbalizer : option fst) : Prop :=
  exists t v, tagger = Some t /\ verbalizer = Some v /\
    forall x, valid_text x -> x <> [] ->
      (exists y w, denote t x y w) /\
      (forall y w, denote t x y w -> exists r, reorder os y = Ok r /\ exists z w', denote v r z w').
Lemma normalizes_i os A t v : (forall x y w, denote t x y w -> (x = [] /\ y = []) \/ writes A x y) ->
  (forall x, forallb vchar x = true -> accepts t x) ->
  (forall x y, writes A x y -> exists out, reorder os y = Ok out /\ accepts v out) ->
  always_normalizes os (Some t) (Some v).
Proof.
  intros W T V. exists t, v. split; [reflexivity|]. split; [reflexivity|]. intros x Vx Nx. split.
  - now apply T, vtext_spec.
  - intros y w D. destruct (W _ _ _ D) as [(E & _)|Wy]; [contradiction|]. exact (V _ _ Wy).
Qed.
Theorem C44_zh_tn : forall o, always_normalizes zh_tn_token_orders (ZhTnModel.tagger o) (ZhTnModel.verbalizer o).
Proof.
  intro o. eapply normalizes_i.
  - intros x y w. exact (ZhTnShape.zh_tn_writes o _ x y w eq_refl).
  - intros x. exact (ZhTnAccept.zh_tn_tags o _ x eq_refl).
  - intros x y. exact (ZhTnAccept.zh_tn_verbalizes o _ x y eq_refl).
Qed.
Print Assumptions C44_zh_tn.
Theorem C44_zh_itn : forall o, always_normalizes zh_itn_token_orders (ZhItnModel.tagger o) (ZhItnModel.verbalizer o).
Proof.
  intro o. eapply normalizes_i.
  - intros x y w. exact (ZhItnShape.zh_itn_writes o _ x y w eq_refl).
  - intros x. exact (ZhItnAccept.zh_itn_tags o _ x eq_refl).
  - intros x y. exact (ZhItnAccept.zh_itn_verbalizes o _ x y eq_refl).
Qed.
Print Assumptions C44_zh_itn.
Theorem C44_ja_tn : forall o, always_normalizes ja_tn_token_orders (JaTnModel.tagger o) (JaTnModel.verbalizer o).
Proof.
  intro o. destruct (JaTnModel.tagger o) as [t|] eqn:Et; [|destruct o as [[] ? ? ? ?]; discriminate].
  destruct (JaTnModel.verbalizer o) as [v|] eqn:Ev; [|destruct o as [[] ? ? ? ?]; discriminate].
  eapply normalizes_i.
  - intros x y w. exact (JaTnShape.ja_tn_writes o _ x y w Et).
  - intros x. exact (JaTnAccept.ja_tn_tags o _ x Et).
  - intros x y. exact (JaTnAccept.ja_tn_verbalizes o _ x y Ev).
Qed.
Print Assumptions C44_ja_tn.
Theorem C44_ja_itn : forall o, always_normalizes ja_itn_token_orders (JaItnModel.tagger o) (JaItnModel.verbalizer o).
Proof.
  intro o. eapply normalizes_i.
  - intros x y w. exact (JaItnShape.ja_itn_writes o _ x y w eq_refl).
  - intros x. exact (JaItnAccept.ja_itn_tags o _ x eq_refl).
  - intros x y. exact (JaItnAccept.ja_itn_verbalizes o _ x y eq_refl).
Qed.
Print Assumptions C44_ja_itn.

(** So normalize returns: whatever engine answers the search's questions about the two
    graphs with their cheapest outputs ([search_oracle], NbestSpec.v; [outcomes],
    EngineSpec.v), in whatever order it puts ties, normalize gives an answer for every
    non-empty valid text and every nbest of at least 1.  (Fuel: the number of rounds of the
    search.)  And there is such an engine. *)
Definition normalize_returns_always (os : orders) (tagger verbalizer : option fst) : Prop :=
  exists t v, tagger = Some t /\ verbalizer = Some v /\
    (forall en, engine_orders en = os -> search_oracle en (outcomes t) (outcomes v) ->
      forall x z, valid_text x -> x <> [] -> (1 <= z)%Z ->
      exists n, forall fuel, n <= fuel -> exists ans, normalize fuel en x (PyInt z) = POk ans) /\
    (exists en, engine_orders en = os /\ search_oracle en (outcomes t) (outcomes v)).
Lemma returns_i os tagger verbalizer : opt_loopfree tagger -> opt_loopfree verbalizer ->
  always_normalizes os tagger verbalizer -> normalize_returns_always os tagger verbalizer.
Proof.
  intros Lt Lv (t & v & -> & -> & A). exists t, v. split; [reflexivity|]. split; [reflexivity|]. split.
  - intros en Eo O x z Vx Nx Nz. destruct (A x Vx Nx) as (T & V). apply (normalize_returns en t v Lt Lv O x z Nx Nz T).
    now rewrite Eo.
  - exists (graph_engine os t v engine_w). split; [reflexivity|]. exact (graph_engine_oracle os t v engine_w Lt Lv).
Qed.
Theorem C44_zh_tn_normalize : forall o,
  normalize_returns_always zh_tn_token_orders (ZhTnModel.tagger o) (ZhTnModel.verbalizer o).
Proof. exact (fun o => returns_i _ _ _ (zh_tn_tagger_loopfree o) (zh_tn_verbalizer_loopfree o) (C44_zh_tn o)). Qed.
Print Assumptions C44_zh_tn_normalize.
Theorem C44_zh_itn_normalize : forall o,
  normalize_returns_always zh_itn_token_orders (ZhItnModel.tagger o) (ZhItnModel.verbalizer o).
Proof. exact (fun o => returns_i _ _ _ (zh_itn_tagger_loopfree o) (zh_itn_verbalizer_loopfree o) (C44_zh_itn o)). Qed.
Print Assumptions C44_zh_itn_normalize.
Theorem C44_ja_tn_normalize : forall o,
  normalize_returns_always ja_tn_token_orders (JaTnModel.tagger o) (JaTnModel.verbalizer o).
Proof. exact (fun o => returns_i _ _ _ (ja_tn_tagger_loopfree o) (ja_tn_verbalizer_loopfree o) (C44_ja_tn o)). Qed.
Print Assumptions C44_ja_tn_normalize.
Theorem C44_ja_itn_normalize : forall o,
  normalize_returns_always ja_itn_token_orders (JaItnModel.tagger o) (JaItnModel.verbalizer o).
Proof. exact (fun o => returns_i _ _ _ (ja_itn_tagger_loopfree o) (ja_itn_verbalizer_loopfree o) (C44_ja_itn o)). Qed.
Print Assumptions C44_ja_itn_normalize.
