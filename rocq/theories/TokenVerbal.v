(** One token with one field through a verbalizer of the form star (union @ postprocessor). *)
From Coq Require Import List NArith ZArith Bool String Lia Arith.
From Verif Require Import Text TextFacts TokenModel Fst FstFacts FstRun GrammarModel GrammarShape GrammarAccept EnglishNumeralSpec.
From Verif Require Import EnNumberProofs5.
Import ListNotations.
Local Open Scope list_scope.

Definition value_token (name x : text) : text := name ++ u " { value: """ ++ x ++ u """ }".
Lemma tokens_denote name v x d w : denote (delete_tokens name v) x d w <->
  exists z c, x = name ++ u " { " ++ z ++ u " }" ++ c /\ (c = [] \/ c = u " ") /\ denote v z d w.
Proof.
  unfold delete_tokens. split.
  - intro H. apply cat_inv in H as (x1 & y1 & w1 & c & yc & wc & -> & -> & -> & H & C).
    apply cat_inv in H as (x2 & y2 & w2 & x3 & y3 & w3 & -> & -> & -> & H & (-> & -> & ->)).
    apply cat_inv in H as (x4 & y4 & w4 & x5 & y5 & w5 & -> & -> & -> & H & B).
    apply cat_inv in H as (x6 & y6 & w6 & x7 & y7 & w7 & -> & -> & -> & (-> & -> & ->) & (-> & -> & ->)).
    exists x5, c. rewrite <- !app_assoc. split; [reflexivity|].
    assert ((c = [] \/ c = u " ") /\ yc = [] /\ wc = 0%Z) as (Ec & -> & ->) by (destruct C as [(-> & -> & ->)|(-> & -> & ->)]; auto).
    split; [exact Ec|]. cbn [app]. rewrite !app_nil_r, !Z.add_0_r, Z.add_0_l. exact B.
  - intros (z & c & -> & C & H). replace (name ++ u " { " ++ z ++ u " }" ++ c) with ((((name ++ u " { ") ++ z) ++ u " }") ++ c)
      by (rewrite <- !app_assoc; reflexivity).
    rewrite <- (app_nil_r d), <- (app_nil_r (d ++ [])). replace w with (0 + w + 0 + 0)%Z by lia.
    apply cat_i; [|destruct C as [->| ->]; [right|left]; now cbn]. apply cat_i; [|now cbn].
    apply (cat_i _ _ _ [] 0%Z); [apply (cat_i _ _ _ [] 0%Z _ [] 0%Z); now cbn|exact H].
Qed.
Lemma field_denote name g x d w : denote (verbalize_field name (Some g) false) x d w <->
  exists z, x = name ++ u ": """ ++ escape_value z ++ u """" /\ forallb vchar z = true /\ denote g z d w.
Proof.
  unfold verbalize_field. cbn [app]. split.
  - intro H. apply cat_inv in H as (x1 & y1 & w1 & x2 & y2 & w2 & -> & -> & -> & H & (-> & -> & ->)).
    apply cat_inv in H as (x3 & y3 & w3 & x4 & y4 & w4 & -> & -> & -> & (-> & -> & ->) & (m & v1 & v2 & -> & S & G)).
    apply sigma_spec in S as (V & -> & ->). exists m. rewrite <- !app_assoc. split; [reflexivity|]. split; [exact V|].
    cbn [app]. now rewrite app_nil_r, Z.add_0_r, !Z.add_0_l.
  - intros (z & -> & V & G). replace (name ++ u ": """ ++ escape_value z ++ u """") with (((name ++ u ": """) ++ escape_value z) ++ u """")
      by (rewrite <- !app_assoc; reflexivity).
    rewrite <- (app_nil_r d). replace w with (0 + (0 + w) + 0)%Z by lia. apply cat_i; [|now cbn].
    apply (cat_i _ _ _ [] 0%Z); [now cbn|]. exists z, 0%Z, w. split; [reflexivity|]. split; [|exact G]. apply sigma_spec. auto.
Qed.
Lemma escape_bsl z : ~ In 92%N (escape_value z) -> ~ In 34%N z /\ ~ In 92%N z.
Proof.
  unfold escape_value, replace_char. intro Ni. split; intro I; apply Ni; apply in_flat_map.
  - exists 34%N. split; [|now left]. apply in_flat_map. exists 34%N. split; [exact I|now left].
  - exists 92%N. split; [apply in_flat_map; exists 92%N; split; [exact I|now left]|now left].
Qed.
Lemma value_inv name g x0 d w s x : ~ In 34%N x -> ~ In 92%N x -> denote (delete_tokens name (verbalize_field (u "value") (Some g) false)) x0 d w ->
  x0 ++ s = value_token name x -> s = [] /\ denote g x d w.
Proof.
  intros Q B H E. apply tokens_denote in H as (z & c & -> & C & H). apply field_denote in H as (t & -> & V & G). unfold value_token in E.
  change (u " { value: """) with (u " { " ++ u "value" ++ u ": """) in E. rewrite <- !app_assoc in E. do 4 apply app_inv_head in E.
  change (u """ }") with (34%N :: u " }") in E. change (u """") with [34%N] in E. cbn [app] in E.
  assert (Nb : ~ In 92%N (escape_value t)).
  { intro I. assert (J : In 92%N (escape_value t ++ 34%N :: u " }" ++ c ++ s)) by (apply in_app_iff; auto). rewrite E in J.
    apply in_app_iff in J as [J|J]; [contradiction|]. vm_compute in J. intuition discriminate. }
  pose proof (escape_bsl t Nb) as (N1 & N2). rewrite (escape_plain t N1 N2) in E. apply quoted_unique in E as (-> & E); [|exact N1|exact Q].
  split; [|exact G]. rewrite <- (app_nil_r (u " }")) in E at 2. apply app_inv_head in E. now apply app_eq_nil in E.
Qed.
Lemma value_i name g x d w : ~ In 34%N x -> ~ In 92%N x -> forallb vchar x = true -> denote g x d w ->
  denote (delete_tokens name (verbalize_field (u "value") (Some g) false)) (value_token name x) d w.
Proof.
  intros Q B V G. apply tokens_denote. exists (u "value" ++ u ": """ ++ x ++ u """"), []. unfold value_token.
  split; [rewrite app_nil_r, <- !app_assoc; reflexivity|]. split; [auto|]. apply field_denote. exists x. rewrite (escape_plain x Q B). auto.
Qed.

Section Verbalizer.
(** The rules of a normaliser with the names their tokens have. *)
Variables (rules : list rule_spec) (table : list (text * rule)) (e post : fst) (name : text) (g : fst) (x : text).
Hypothesis Union : verbalizer_union rules = Some e.
Hypothesis Rules : map snd table = map s_rule rules.
Hypothesis All : forallb s_verbalize rules = true.
Hypothesis Tokens : forall m r t d w, In (m, r) table -> denote (r_verbalizer r) t d w -> exists z, t = m ++ u " { " ++ z.
Hypothesis Names : forallb (fun p : text * rule => negb (existsb (N.eqb 32) (Datatypes.fst p))) table = true.
Hypothesis Mine : exists r, In (name, r) table.
Hypothesis One : forall r, In (name, r) table -> r_verbalizer r = delete_tokens name (verbalize_field (u "value") (Some g) false).
Hypothesis Quote : ~ In 34%N x.
Hypothesis Slash : ~ In 92%N x.
Hypothesis Valid : forallb vchar x = true.
Lemma no_blank z : existsb (N.eqb 32) z = false -> forallb (fun c => negb (c =? 32)%N) z = true.
Proof. induction z as [|a z IH]; cbn [existsb forallb]; [auto|]. rewrite N.eqb_sym, orb_false_iff. intros (-> & F). cbn. auto. Qed.
Lemma name_blank m r : In (m, r) table -> existsb (N.eqb 32) m = false.
Proof. intro I. pose proof Names as T. rewrite forallb_forall in T. specialize (T _ I). cbn [Datatypes.fst] in T. now apply negb_true_iff. Qed.
Lemma named_only x0 d w s : denote e x0 d w -> x0 ++ s = value_token name x -> s = [] /\ denote g x d w.
Proof.
  intros H X. apply (verbalizers_spec _ _ Union) in H as (q & I & _ & H).
  assert (J : In (s_rule q) (map snd table)) by (rewrite Rules; now apply in_map).
  apply in_map_iff in J as ((m & r) & Er & J). cbn [snd] in Er. rewrite <- Er in H.
  assert (m = name) as ->.
  { destruct (Tokens _ _ _ _ _ J H) as (z & ->). unfold value_token in X. rewrite <- !app_assoc in X.
    pose proof Mine as (r0 & I0).
    apply (split_unique (fun c => negb (c =? 32)%N)) in X as (-> & _);
      [reflexivity|exact (no_blank _ (name_blank _ _ J))|exact (no_blank _ (name_blank _ _ I0))|reflexivity|reflexivity]. }
  rewrite (One _ J) in H. exact (value_inv _ _ _ _ _ _ _ Quote Slash H X).
Qed.
Lemma union_nonempty d w : ~ denote e [] d w.
Proof.
  intro H. apply (verbalizers_spec _ _ Union) in H as (q & I & _ & H).
  assert (J : In (s_rule q) (map snd table)) by (rewrite Rules; now apply in_map).
  apply in_map_iff in J as ((m & r) & Er & J). cbn [snd] in Er. rewrite <- Er in H. destruct (Tokens _ _ _ _ _ J H) as (z & E). symmetry in E. apply app_eq_nil in E as (_ & E). discriminate.
Qed.
Theorem token_denote z w : denote (Star (e @ post)) (value_token name x) z w <->
  exists m w1 w2, w = (w1 + w2)%Z /\ denote g x m w1 /\ denote post m z w2.
Proof.
  cbn [denote]. split.
  - intro H. remember (value_token name x) as t eqn:Et. destruct H as [|x1 d1 w1 x2 d2 w2 H S].
    + exfalso. unfold value_token in Et. symmetry in Et. apply app_eq_nil in Et as (_ & Et). discriminate.
    + destruct H as (m & v1 & v2 & -> & H & P). destruct (named_only _ _ _ _ H Et) as (-> & G).
      apply star_empty in S as (-> & ->); [|intros y v (m' & u1 & u2 & _ & H' & _); exact (union_nonempty _ _ H')|reflexivity].
      exists m, v1, v2. rewrite app_nil_r, Z.add_0_r. auto.
  - intros (m & w1 & w2 & -> & G & P). rewrite <- (app_nil_r (value_token name x)), <- (app_nil_r z), <- (Z.add_0_r (w1 + w2)). constructor; [|constructor].
    exists m, w1, w2. split; [reflexivity|]. split; [|exact P]. apply (verbalizers_spec _ _ Union). destruct Mine as (r & I).
    assert (J : In r (map s_rule rules)) by (rewrite <- Rules; exact (in_map snd _ _ I)). apply in_map_iff in J as (q & <- & J).
    exists q. split; [exact J|]. split; [rewrite forallb_forall in All; now apply All|]. rewrite (One _ I). now apply value_i.
Qed.
(** A postprocessor that costs nothing and leaves the answer alone leaves it the cheapest. *)
Theorem token_cheapest d : (forall m z w, denote post m z w -> w = 0%Z) -> (forall z w, denote post d z w <-> z = d /\ w = 0%Z) ->
  cheapest (denote g) x d -> cheapest (denote (Star (e @ post))) (value_token name x) d.
Proof.
  intros Free Same (w & H & M). exists w. split.
  - apply token_denote. exists d, w, 0%Z. split; [lia|]. split; [exact H|]. apply Same. auto.
  - intros z v H'. apply token_denote in H' as (m & w1 & w2 & -> & G & P). pose proof (Free _ _ _ P) as ->. rewrite Z.add_0_r.
    destruct (M _ _ G) as (L & U). split; [exact L|]. intro E. rewrite (U E) in P. now apply Same in P as (-> & _).
Qed.
End Verbalizer.

Lemma tokens_start name v x d w : denote (delete_tokens name v) x d w -> exists z, x = name ++ u " { " ++ z.
Proof. intro H. apply tokens_denote in H as (z & c & -> & _). eauto. Qed.
(** Rewriting with a rule that costs nothing costs nothing; text where no match starts is kept. *)
Lemma rewrite_free (tau : rel) l r : (forall x y w, tau x y w -> w = 0%Z) -> forall o x y w, rewritten tau l r o x y w -> w = 0%Z.
Proof. intros F o x y w H. induction H as [|out p q w rest y v _ T _ _ _ _ _ ->|]; [reflexivity| |assumption]. now rewrite (F _ _ _ T). Qed.
Lemma rewrite_keeps (tau : rel) l r (p : N -> bool) : (forall c x y w, tau (c :: x) y w -> p c = false) -> (forall c, p c = true -> vchar c = true) ->
  forall x o y w, forallb p x = true -> (rewritten tau l r o x y w <-> y = x /\ w = 0%Z).
Proof.
  intros F V. induction x as [|c x IH]; intros o y w P.
  - split; [|intros (-> & ->); constructor]. intro H. remember [] as e eqn:Ee. destruct H as [|out p' q w' rest y v Np|]; [auto| |discriminate].
    exfalso. apply app_eq_nil in Ee as (Ee & _). contradiction.
  - cbn [forallb] in P. apply andb_true_iff in P as (Pc & P). split.
    + intro H. remember (c :: x) as e eqn:Ee. destruct H as [|out p' q w' rest y v Np T|out c' rest y v _ _ H]; [discriminate| |].
      * exfalso. destruct p' as [|c' p']; [contradiction|]. injection Ee as -> _. apply F in T. congruence.
      * injection Ee as -> ->. apply IH in H as (-> & ->); auto.
    + intros (-> & ->). apply rw_copy; [|now apply V|now apply IH].
      intros p' q w' rest E Np T _. destruct p' as [|c' p']; [contradiction|]. injection E as <- _. apply F in T. congruence.
Qed.
Lemma vsigma_denote x y w : denote VSIGMA x y w <-> y = x /\ w = 0%Z /\ forallb vchar x = true.
Proof.
  unfold VSIGMA. cbn [denote]. split.
  - intro H. induction H as [|a b w a' b' w' H _ (-> & -> & IH)]; [auto|]. destruct H as (c & -> & -> & P & ->). cbn [app forallb]. now rewrite P, IH.
  - intros (-> & -> & V). induction x as [|c x IH]; [constructor|]. cbn [forallb] in V. apply andb_true_iff in V as (Vc & V).
    change (c :: x) with ([c] ++ x). replace 0%Z with (0 + 0)%Z by lia. constructor; [exists c; auto|auto].
Qed.
