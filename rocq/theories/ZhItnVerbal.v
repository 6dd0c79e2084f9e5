(** One token with a value through the verbalizer of the Chinese inverse normaliser. *)
From Coq Require Import List NArith ZArith Bool String Lia Arith.
From Verif Require Import Text TextFacts TokenModel Fst FstFacts FstRun GrammarModel GrammarShape GrammarAccept EnglishNumeralSpec.
From Verif Require Import EnNumberProofs5 TokenVerbal ZhItnModel DataZhItn.
Import ListNotations.
Local Open Scope list_scope.

Definition rule_table (o : options) : list (text * rule) :=
  [(Date.name, Date.rule); (Whitelist.name, Whitelist.rule); (Fraction.name, Fraction.rule o); (Measure.name, Measure.rule o);
   (Money.name, Money.rule o); (Time.name, Time.rule); (Cardinal.name, Cardinal.rule o); (Math.name, Math.rule o);
   (LicensePlate.name, LicensePlate.rule); (TrainNumber.name, TrainNumber.rule); (Char.name, Char.rule)].
Lemma table_rules o : map snd (rule_table o) = map s_rule (rules o).
Proof. reflexivity. Qed.
Lemma table_start o m r t d w : In (m, r) (rule_table o) -> denote (r_verbalizer r) t d w -> exists z, t = m ++ u " { " ++ z.
Proof.
  intros I H. unfold rule_table in I. cbn [In] in I. repeat destruct I as [I|I]; [..|destruct I]; injection I as <- <-;
    try (eapply tokens_start; exact H). cbn [r_verbalizer Measure.rule] in H. destruct H as [H|H]; eapply tokens_start; exact H.
Qed.
Lemma table_names o : forallb (fun p : text * rule => negb (existsb (N.eqb 32) (Datatypes.fst p))) (rule_table o) = true.
Proof. vm_compute. reflexivity. Qed.
(** The characters the table of interjections does not start with. *)
Definition kept (c : N) : bool := vchar c && forallb (fun e : text * text => match Datatypes.fst e with [] => true | a :: _ => negb (a =? c)%N end) (map entry zh_itn_default_blacklist).
Lemma erase_free x y w : denote (Erase (string_file zh_itn_default_blacklist)) x y w -> w = 0%Z.
Proof. intros (_ & t & _ & ->). reflexivity. Qed.
Lemma post_free o m z w : denote (postprocessor o) m z w -> w = 0%Z.
Proof.
  unfold postprocessor. destruct (remove_interjections o).
  - intros (y & w1 & w2 & -> & S & H). apply vsigma_denote in S as (_ & -> & _). rewrite (rewrite_free _ _ _ erase_free _ _ _ _ H). reflexivity.
  - intro S. now apply vsigma_denote in S as (_ & -> & _).
Qed.
Lemma post_keeps o d z w : forallb kept d = true -> (denote (postprocessor o) d z w <-> z = d /\ w = 0%Z).
Proof.
  intro K. assert (V : forallb vchar d = true).
  { rewrite forallb_forall in *. intros c I. specialize (K c I). now apply andb_true_iff in K as (K & _). }
  assert (R : forall z w, rewritten (denote (Erase (string_file zh_itn_default_blacklist))) Anywhere Anywhere [] d z w <-> z = d /\ w = 0%Z).
  { intros z' w'. apply (rewrite_keeps _ _ _ kept); [|intros c Kc; now apply andb_true_iff in Kc|exact K].
    intros c x y v (_ & t & I & _). apply not_true_iff_false. intro Kc. apply andb_true_iff in Kc as (_ & Kc).
    rewrite forallb_forall in Kc. specialize (Kc _ I). cbn [Datatypes.fst] in Kc. now rewrite N.eqb_refl in Kc. }
  unfold postprocessor. destruct (remove_interjections o).
  - split.
    + intros (y & w1 & w2 & -> & S & H). apply vsigma_denote in S as (-> & -> & _). apply R in H as (-> & ->). auto.
    + intros (-> & ->). exists d, 0%Z, 0%Z. split; [reflexivity|]. split; [apply vsigma_denote; auto|now apply R].
  - rewrite vsigma_denote. tauto.
Qed.
Theorem value_verbalized o v name g x d : verbalizer o = Some v -> (exists r, In (name, r) (rule_table o)) ->
  (forall r, In (name, r) (rule_table o) -> r_verbalizer r = delete_tokens name (verbalize_field (u "value") (Some g) false)) ->
  ~ In 34%N x -> ~ In 92%N x -> forallb vchar x = true -> forallb kept d = true -> cheapest (denote g) x d ->
  cheapest (denote v) (value_token name x) d.
Proof.
  unfold verbalizer. destruct (verbalizer_union (rules o)) as [e|] eqn:E; [|discriminate]. intros [= <-] M One Q B V K C.
  apply (token_cheapest (rules o) (rule_table o) e (postprocessor o) name g x E (table_rules o) eq_refl (table_start o) (table_names o) M One Q B V);
    [apply post_free|intros; now apply post_keeps|exact C].
Qed.
Theorem cardinal_verbalized o v x d : verbalizer o = Some v -> ~ In 34%N x -> ~ In 92%N x -> forallb vchar x = true -> forallb kept d = true ->
  cheapest (denote (Cardinal.cardinal o)) x d -> cheapest (denote v) (value_token (u "cardinal") x) d.
Proof.
  intros E. apply (value_verbalized o v (u "cardinal") (Cardinal.cardinal o)); [exact E|exists (Cardinal.rule o); unfold rule_table; cbn [In]; tauto|].
  intros r I. unfold rule_table in I. cbn [In] in I. repeat destruct I as [I|I]; [..|destruct I]; try discriminate I. injection I as <-. reflexivity.
Qed.
