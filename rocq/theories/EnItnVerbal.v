(** The verbalizer of the English inverse normaliser on one token. *)
From Coq Require Import List NArith ZArith Bool String Lia Arith.
From Verif Require Import Text TextFacts TokenModel Fst FstFacts FstRun GrammarModel GrammarShape GrammarAccept.
From Verif Require Import EnNumberProofs EnNumberProofs5 EnSpokenProofs EnSpokenProofs4 EnSpokenProofs5.
From Verif Require Import EnItnModel.
From Verif Require EnItnAccept.
Import ListNotations.
Local Open Scope list_scope.

Definition rule_table : list (text * rule) :=
  [(Date.name, Date.rule); (Time.name, Time.rule); (Measure.name, Measure.rule); (Money.name, Money.rule); (Whitelist.name, Whitelist.rule);
   (Telephone.name, Telephone.rule); (Electronic.name, Electronic.rule); (Ordinal.name, Ordinal.rule); (Decimal.name, Decimal.rule);
   (Cardinal.name, Cardinal.rule); (Word.name, Word.rule); (Char.name, Char.rule); (Punctuation.name, Punctuation.rule)].
Lemma table_rules : map snd rule_table = map s_rule verbalizer_rules.
Proof. reflexivity. Qed.
Lemma table_names : forallb (fun e : text * rule => negb (existsb (N.eqb 32) (Datatypes.fst e))) rule_table = true.
Proof. vm_compute. reflexivity. Qed.
Lemma table_tokens name r : In (name, r) rule_table -> exists v, r_verbalizer r = delete_tokens name v.
Proof.
  intro I. unfold rule_table in I. cbn [In] in I. repeat destruct I as [I|I]; [..|destruct I]; injection I as <- <-; eexists; reflexivity.
Qed.
Lemma not_blank z : existsb (N.eqb 32) z = false -> forallb (fun c => negb (c =? 32)%N) z = true.
Proof. induction z as [|a z IH]; cbn [existsb forallb]; [auto|]. rewrite N.eqb_sym, orb_false_iff. intros (-> & F). cbn. auto. Qed.
(** A rule that reads the start of a token has the token's name. *)
Lemma only_named e x y s name f : verbalizer_union verbalizer_rules = Some e -> gives e x y -> existsb (N.eqb 32) name = false ->
  x ++ s = name ++ u " { " ++ f -> exists r, In (name, r) rule_table /\ gives (r_verbalizer r) x y.
Proof.
  intros E (w & H) Sp X. apply (verbalizers_spec _ _ E) in H as (q & I & _ & H).
  assert (J : In (s_rule q) (map snd rule_table)) by (rewrite table_rules; now apply in_map).
  apply in_map_iff in J as ((name' & r) & Er & J). cbn [snd] in Er. rewrite <- Er in H.
  destruct (table_tokens name' r J) as (v & Ev). assert (G : gives (r_verbalizer r) x y) by now exists w.
  pose proof G as G'. rewrite Ev in G'. apply gives_delete_tokens in G' as (z & c & -> & _). rewrite <- !app_assoc in X.
  assert (Sp' : existsb (N.eqb 32) name' = false).
  { pose proof table_names as T. rewrite forallb_forall in T. specialize (T _ J). cbn [Datatypes.fst] in T. now apply negb_true_iff. }
  apply (split_unique (fun c => negb (c =? 32)%N)) in X as (-> & _); [|now apply not_blank|now apply not_blank|reflexivity|reflexivity].
  eauto.
Qed.

Section Token.
Variables (name : text) (r : rule) (f out : text).
Hypothesis Nm : In (name, r) rule_table.
Hypothesis One : forall r', In (name, r') rule_table -> r' = r.
Hypothesis Inv : forall x d s, gives (r_verbalizer r) x d -> x ++ s = name ++ u " { " ++ f -> s = [] /\ d = out.
Hypothesis Int : gives (r_verbalizer r) (name ++ u " { " ++ f) out.
Hypothesis Valid : forallb vchar out = true.
(** No white space, or single spaces inside. *)
Hypothesis Spaces : forall o y w, rewritten (denote DELETE_EXTRA_SPACE) Anywhere Anywhere o (out ++ [32%N]) y w -> y = out ++ [32%N].
Theorem token_verbalized v : verbalizer = Some v -> forall z, gives v (name ++ u " { " ++ f) z <-> z = out.
Proof.
  intros Ev. unfold verbalizer in Ev. destruct (verbalizer_union verbalizer_rules) as [e|] eqn:E; [|discriminate]. injection Ev as <-.
  assert (Sp : existsb (N.eqb 32) name = false).
  { pose proof table_names as T. rewrite forallb_forall in T. specialize (T _ Nm). cbn [Datatypes.fst] in T. now apply negb_true_iff. }
  assert (Star1 : forall m, gives (Star (e + insert (u " "))) (name ++ u " { " ++ f) m <-> m = out ++ [32%N]).
  { intro m. split.
    - intro H. apply gives_star_inv in H as [(K & _)|(x1 & d1 & x2 & d2 & X & -> & H & R)]; [apply app_eq_nil in K as (_ & K); discriminate|].
      apply gives_cat in H as (x3 & d3 & x4 & d4 & -> & -> & H & I). apply gives_ins in I as (-> & ->). rewrite app_nil_r in X. symmetry in X.
      pose proof X as X'. apply (only_named e x3 d3 x2 name f E H Sp) in X' as (r' & J & H'). apply One in J as ->.
      pose proof (Inv x3 d3 x2 H' X) as (E1 & E2). rewrite E1 in R. rewrite E2. clear E1 E2 H' H.
      apply gives_star_inv in R as [(_ & ->)|(x5 & d5 & x6 & d6 & X6 & _ & R & _)]; [now rewrite app_nil_r|]. exfalso.
      symmetry in X6. apply app_eq_nil in X6 as (-> & _). apply gives_cat in R as (x7 & d7 & x8 & d8 & X8 & _ & R & _).
      symmetry in X8. apply app_eq_nil in X8 as (-> & _). pose proof (only_named e [] d7 (name ++ u " { " ++ f) name f E R Sp eq_refl) as (r' & J & R'). destruct (table_tokens name r' J) as (v' & Ev'). rewrite Ev' in R'. apply gives_delete_tokens in R' as (z & c & K & _).
      symmetry in K. apply app_eq_nil in K as (_ & K). discriminate.
    - intros ->. apply gives_star_nil, gives_cat. exists (name ++ u " { " ++ f), out, [], [32%N]. rewrite app_nil_r.
      repeat split; [|now apply gives_ins]. destruct Int as (w & H). exists w. apply (verbalizers_spec _ _ E).
      assert (J : In r (map s_rule verbalizer_rules)) by (rewrite <- table_rules; exact (in_map snd _ _ Nm)).
      apply in_map_iff in J as (q & Eq & J). exists q. split; [exact J|]. split; [|now rewrite Eq].
      assert (A : forallb s_verbalize verbalizer_rules = true) by reflexivity. rewrite forallb_forall in A. now apply A. }
  assert (Val : forallb vchar (out ++ [32%N]) = true) by (rewrite forallb_app, Valid; reflexivity).
  intro z. rewrite !gives_compose. split.
  - intros (m & H & (w' & T)). apply gives_compose in H as (m' & H & (w & R)). apply Star1 in H as ->. apply Spaces in R as ->.
    now apply (trim_space _ _ _ _ T _ eq_refl).
  - intros ->. destruct (EnItnAccept.extra_total _ Val) as (m & w & R & _). pose proof (Spaces _ _ _ R) as ->.
    destruct (total_rewrite ds Anywhere Edge eq_refl eq_refl _ Val) as (m & w' & T & _). pose proof (trim_space _ _ _ _ T _ eq_refl) as (-> & _).
    exists (out ++ [32%N]). split; [|now exists w']. apply gives_compose. exists (out ++ [32%N]). split; [now apply Star1|now exists w].
Qed.
End Token.
