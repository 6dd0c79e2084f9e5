(** Property C57: what tag returns, verbalize accepts.

    The command line prints verbalize(tag(line)) (tn/cli.py:192-195).  [best_on valid_text]
    (EngineSpec.v) says that the engine returns a cheapest tagging and a cheapest
    verbalisation where there is one.  The English normaliser fails (PropsEnTn.v). *)
From Coq Require Import List NArith ZArith Bool String Lia.
From Verif Require Import Text TextFacts TokenModel PipelineModel NbestModel NbestSpec.
From Verif Require Import Fst FstFacts FstRun GrammarModel GrammarSpec FstEval GrammarEngine EngineSpec EngineFull PropsTotal PropsEnItn.
From Verif Require ZhTnModel ZhItnModel JaTnModel JaItnModel EnItnModel.
From Verif Require ZhTnAccept ZhItnAccept JaTnAccept EnItnAccept.
Import ListNotations.
Local Open Scope list_scope.

(** For every engine that answers for the graphs, and there is one, every text of the domain
    is tagged and what comes back is verbalised. *)
Definition tag_then_verbalize_returns (D : text -> Prop) (os : orders) (tagger verbalizer : option fst) : Prop :=
  exists t v, tagger = Some t /\ verbalizer = Some v /\
    (forall en, engine_orders en = os -> best_on valid_text en (outcomes t) (outcomes v) ->
     forall x, D x -> exists y o, tag en x (PyInt 1) = POk (One y) /\ verbalize en y = POk o) /\
    (exists en, engine_orders en = os /\ search_oracle en (outcomes t) (outcomes v) /\ best_on valid_text en (outcomes t) (outcomes v)).
Definition some_text (x : text) : Prop := valid_text x /\ x <> [].
Definition opt_valid (e : option fst) : Prop := match e with Some g => writes_valid g = true | None => False end.
Lemma returns_tagged (D : text -> Prop) os tagger verbalizer : opt_loopfree tagger -> opt_loopfree verbalizer ->
  opt_valid tagger -> opt_valid verbalizer -> (forall x, D x -> some_text x) ->
  (exists t v, tagger = Some t /\ verbalizer = Some v /\ (forall x, D x -> exists y w, denote t x y w) /\
    (forall x y w, D x -> denote t x y w -> exists r, reorder os y = Ok r /\ exists z w', denote v r z w')) ->
  tag_then_verbalize_returns D os tagger verbalizer.
Proof.
  intros Lt Lv Wt Wv S (t & v & -> & -> & T & V). exists t, v. split; [reflexivity|]. split; [reflexivity|]. cbn in *. split.
  - intros en Eo B x Dx. destruct (S x Dx) as (Vx & Nx). apply (tag_verbalizes en t v Lt Lv Wt B x Vx Nx (T x Dx)).
    rewrite Eo. intros y w. now apply V.
  - exists (full_engine os t v). split; [reflexivity|]. split; [now apply full_engine_search|now apply full_engine_best].
Qed.
Lemma always_tagged os tagger verbalizer : opt_loopfree tagger -> opt_loopfree verbalizer ->
  opt_valid tagger -> opt_valid verbalizer -> always_normalizes os tagger verbalizer ->
  tag_then_verbalize_returns some_text os tagger verbalizer.
Proof.
  intros Lt Lv Wt Wv (t & v & Et & Ev & H). apply returns_tagged; auto. exists t, v. split; [exact Et|]. split; [exact Ev|].
  split; [intros x (Vx & Nx); exact (proj1 (H x Vx Nx))|intros x y w (Vx & Nx); exact (proj2 (H x Vx Nx) y w)].
Qed.
Lemma zh_tn_tagger_valid o : opt_valid (ZhTnModel.tagger o).
Proof. destruct o as [? [] ? ? ? ?]; vm_compute; reflexivity. Qed.
Lemma valid_when b p s : writes_valid p = true -> writes_valid s = true -> writes_valid (when b p s) = true.
Proof. intros P S. destruct b; [|exact P]. cbn [when writes_valid]. now rewrite P, S. Qed.
Lemma zh_tn_verbalizer_valid o : opt_valid (ZhTnModel.verbalizer o).
Proof.
  unfold opt_valid, ZhTnModel.verbalizer. destruct (verbalizer_union (ZhTnModel.rules o)) as [v|] eqn:E; [|discriminate].
  cbn [writes_valid]. rewrite (GrammarAccept.union_valid _ _ E (ZhTnAccept.verbalizers_valid o)). cbn [andb].
  unfold ZhTnModel.postprocessor. repeat apply valid_when; vm_compute; reflexivity.
Qed.
Theorem C57_zh_tn : forall o, tag_then_verbalize_returns some_text zh_tn_token_orders (ZhTnModel.tagger o) (ZhTnModel.verbalizer o).
Proof.
  exact (fun o => always_tagged _ _ _ (zh_tn_tagger_loopfree o) (zh_tn_verbalizer_loopfree o) (zh_tn_tagger_valid o) (zh_tn_verbalizer_valid o) (C44_zh_tn o)).
Qed.
Print Assumptions C57_zh_tn.
Lemma zh_itn_valid o : opt_valid (ZhItnModel.tagger o) /\ opt_valid (ZhItnModel.verbalizer o).
Proof. destruct o as [[] [] [] []]; split; vm_compute; reflexivity. Qed.
Theorem C57_zh_itn : forall o, tag_then_verbalize_returns some_text zh_itn_token_orders (ZhItnModel.tagger o) (ZhItnModel.verbalizer o).
Proof.
  exact (fun o => always_tagged _ _ _ (zh_itn_tagger_loopfree o) (zh_itn_verbalizer_loopfree o) (proj1 (zh_itn_valid o)) (proj2 (zh_itn_valid o)) (C44_zh_itn o)).
Qed.
Print Assumptions C57_zh_itn.
Lemma ja_tn_tagger_valid o : opt_valid (JaTnModel.tagger o).
Proof. destruct o as [[] ? ? [] ?]; vm_compute; reflexivity. Qed.
Lemma ja_tn_verbalizer_valid o : opt_valid (JaTnModel.verbalizer o).
Proof.
  unfold opt_valid, JaTnModel.verbalizer. destruct (verbalizer_union (JaTnModel.rules o)) as [v|] eqn:E; [|destruct o as [[] ? ? ? ?]; discriminate].
  cbn [writes_valid]. rewrite (GrammarAccept.union_valid _ _ E (JaTnAccept.verbalizers_valid o)). cbn [andb].
  unfold JaTnModel.postprocessor. repeat apply valid_when; vm_compute; reflexivity.
Qed.
Theorem C57_ja_tn : forall o, tag_then_verbalize_returns some_text ja_tn_token_orders (JaTnModel.tagger o) (JaTnModel.verbalizer o).
Proof.
  exact (fun o => always_tagged _ _ _ (ja_tn_tagger_loopfree o) (ja_tn_verbalizer_loopfree o) (ja_tn_tagger_valid o) (ja_tn_verbalizer_valid o) (C44_ja_tn o)).
Qed.
Print Assumptions C57_ja_tn.
Lemma ja_itn_valid o : opt_valid (JaItnModel.tagger o) /\ opt_valid (JaItnModel.verbalizer o).
Proof. destruct o as [[] [] [] []]; split; vm_compute; reflexivity. Qed.
Theorem C57_ja_itn : forall o, tag_then_verbalize_returns some_text ja_itn_token_orders (JaItnModel.tagger o) (JaItnModel.verbalizer o).
Proof.
  exact (fun o => always_tagged _ _ _ (ja_itn_tagger_loopfree o) (ja_itn_verbalizer_loopfree o) (proj1 (ja_itn_valid o)) (proj2 (ja_itn_valid o)) (C44_ja_itn o)).
Qed.
Print Assumptions C57_ja_itn.
Lemma en_itn_valid : opt_valid EnItnModel.tagger /\ opt_valid EnItnModel.verbalizer.
Proof. split; vm_compute; reflexivity. Qed.
Theorem C57_en_itn : tag_then_verbalize_returns plain_english en_itn_token_orders EnItnModel.tagger EnItnModel.verbalizer.
Proof.
  apply (returns_tagged _ _ _ _ en_itn_tagger_loopfree en_itn_verbalizer_loopfree (proj1 en_itn_valid) (proj2 en_itn_valid)).
  - intros x (Vx & _ & _ & (c & r & -> & _) & _). split; [exact Vx|discriminate].
  - destruct C44_en_itn as (t & v & Et & Ev & T & V). exists t, v. split; [exact Et|]. split; [exact Ev|]. split; [exact T|].
    intros x y w _. apply V.
Qed.
Print Assumptions C57_en_itn.
Example C57_case : some_text (u "2008年8月8日") /\ plain_english (u "it's 5 o'clock,  isn't it?").
Proof. split; [split; [apply vtext_spec; vm_compute; reflexivity|discriminate]|exact plain_english_case]. Qed.
