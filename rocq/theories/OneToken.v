(** A text that becomes one token: from its cheapest tagging to the one answer, for any grammar (C65). *)
From Coq Require Import List NArith ZArith Bool String Lia Arith.
From Verif Require Import Text TextFacts TokenModel TokenSpec Fst FstFacts GrammarModel GrammarShape GrammarAccept EnglishNumeralSpec.
From Verif Require Import BoundarySpec TokenRun Boundary BoundaryRules TokenVerbal BoundaryChar.
From Verif Require Import EndToEnd.
Import ListNotations.
Local Open Scope list_scope.

(** ** The value between its quotes *)
Definition raw_field (g : fst) : fst := (delete (u "value: """) + g + delete (u """"))%fst.
Lemma raw_denote name g x d w : denote (delete_tokens name (raw_field g)) (value_token name x) d w <-> denote g x d w.
Proof.
  rewrite tokens_denote. unfold raw_field. split.
  - intros (z & c & E & C & H). apply cat_inv in H as (x1 & y1 & w1 & x2 & y2 & w2 & -> & -> & -> & H & (-> & -> & ->)).
    apply cat_inv in H as (x3 & y3 & w3 & x4 & y4 & w4 & -> & -> & -> & (-> & -> & ->) & H). cbn [app]. rewrite app_nil_r, Z.add_0_r, Z.add_0_l.
    unfold value_token in E. change (u " { value: """) with (u " { " ++ u "value: """) in E. change (u """ }") with (u """" ++ u " }") in E. rewrite <- !app_assoc in E.
    do 3 apply app_inv_head in E. destruct C as [->| ->].
    + rewrite app_nil_r in E. apply app_inv_tail in E. now subst.
    + exfalso. change (u " }" ++ u " ") with (u " } ") in E. apply (f_equal (fun t => hd 0%N (rev t))) in E. rewrite !app_assoc, !rev_app_distr in E. discriminate E.
  - intro H. exists (u "value: """ ++ x ++ u """"), []. split; [|split; [auto|]].
    + unfold value_token. change (u " { value: """) with (u " { " ++ u "value: """). change (u """ }") with (u """" ++ u " }"). now rewrite app_nil_r, <- !app_assoc.
    + rewrite app_assoc, <- (app_nil_r d). replace w with (0 + w + 0)%Z by lia. apply cat_i; [|now cbn]. apply (cat_i _ _ _ [] 0%Z); [now cbn|exact H].
Qed.
(** ** The only rule of a name *)
Definition name_only (rs : list rule_spec) (name : text) (s : rule_spec) : Prop :=
  In s rs /\ s_verbalize s = true /\ forall s', In s' rs -> s' = s \/ other_name name (r_verbalizer (s_rule s')) = true.
Lemma name_union rs name s v : one_word name = true -> name_only rs name s -> verbalizer_union rs = Some v -> forall z d w,
  denote v (name ++ u " { " ++ z) d w <-> denote (r_verbalizer (s_rule s)) (name ++ u " { " ++ z) d w.
Proof.
  intros W (I & V & O) E z d w. rewrite (verbalizers_spec _ _ E). split.
  - intros (s' & I' & _ & H). destruct (O _ I') as [-> |N]; [exact H|]. exfalso. exact (other_name_sound _ _ N W _ z _ _ eq_refl H).
  - intro H. exists s. auto.
Qed.
Lemma cheapest_only os t v x y r d : cheapest (denote t) x y -> reorder os y = Ok r -> cheapest (denote v) r d -> only_answer os t v x d.
Proof.
  intros (w & T & Mt) R (k & V & Mv) d'. split.
  - intros (y' & r' & (w' & T' & Bt) & R' & (k' & V' & Bv)). destruct (Mt _ _ T') as (L & U). pose proof (Bt _ _ T). rewrite (U ltac:(lia)) in R'.
    assert (r' = r) as -> by congruence. destruct (Mv _ _ V') as (L' & U'). pose proof (Bv _ _ V). apply U'. lia.
  - intros ->. exists y, r. split; [exists w; split; [exact T|]; intros z v' H; exact (proj1 (Mt _ _ H))|]. split; [exact R|].
    exists k. split; [exact V|]. intros z v' H. exact (proj1 (Mv _ _ H)).
Qed.
Lemma post_closed rs v post : cut_rules rs = true -> verbalizer_union rs = Some v -> forall x y w, denote (v @ post)%fst x y w -> closed (run Init x) = true.
Proof. intros C V x y w (m & w1 & w2 & _ & H & _). exact (closed_union rs v (proj2 (proj1 (andb_true_iff _ _) C)) V _ _ _ H). Qed.
Section One.
Variables (rs : list rule_spec) (name : text) (s : rule_spec) (e v post : fst) (os : orders) (x m d : text) (k : Z).
Hypothesis Name : namechars name = true.
Hypothesis Word : one_word name = true.
Hypothesis Only : name_only rs name s.
Hypothesis Checks : cut_rules rs = true.
Hypothesis Vu : verbalizer_union rs = Some v.
Hypothesis Quote : ~ In 34%N x.
Hypothesis Slash : ~ In 92%N x.
Hypothesis Verb : forall z w, denote (r_verbalizer (s_rule s)) (value_token name x) z w <-> z = m /\ w = k.
Hypothesis Post : forall z w, denote post m z w <-> z = d /\ w = 0%Z.
Lemma value_verbalized z w : denote (Star (v @ post)%fst) (value_token name x) z w <-> z = d /\ w = k.
Proof.
  assert (R : run Init (value_token name x) = Done) by (rewrite <- (escape_plain x Quote Slash); exact (escaped_run name x Name)).
  rewrite (one_denote _ _ _ _ (post_closed rs v post Checks Vu) R).
  assert (U : forall z w, denote v (value_token name x) z w <-> z = m /\ w = k).
  { intros z0 w0. rewrite <- Verb. exact (name_union rs name s v Word Only Vu (u "value: """ ++ x ++ u """ }") z0 w0). }
  split.
  - intros (m' & w1 & w2 & -> & H & K). apply U in H as (-> & ->). apply Post in K as (-> & ->). rewrite Z.add_0_r. auto.
  - intros (-> & ->). exists m, k, 0%Z. split; [lia|]. split; [now apply U|now apply Post].
Qed.
Hypothesis Dict : dict_get name os = None.
Hypothesis NameValid : forallb vchar name = true.
Hypothesis Valid : forallb vchar x = true.
Hypothesis Tag : cheapest (denote (Star e)) x (value_token name x ++ u " ").
Theorem value_sole : only_answer os (trim_end e) (Star (v @ post)%fst) x d.
Proof.
  apply (cheapest_only os _ _ x (value_token name x) (value_token name x) d).
  - apply EndToEnd.trim_cheapest; [now apply EndToEnd.value_valid|exact Tag].
  - now apply EndToEnd.value_reordered.
  - exists k. split; [now apply value_verbalized|]. intros z w H. apply value_verbalized in H as (-> & ->). split; [lia|reflexivity].
Qed.
End One.
