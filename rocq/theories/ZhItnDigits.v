(** Telephone and identity numbers of the Chinese inverse normaliser (C88). *)
From Coq Require Import List NArith ZArith Bool String Lia Arith MSetPositive.
From Verif Require Import Text TextFacts TokenModel Fst FstFacts GrammarModel GrammarSpec GrammarAccept EnglishNumeralSpec BoundarySpec WholeSpec DataZhItn ZhItnModel ZhItnPlateSpec.
From Verif Require Import BoundaryRules NbestModel NbestSpec EngineSpec PipelineModel BoundaryLaw PlainSpec TokenVerbal Apart Least OneToken Whole Fields Fields2 PropsBoundary ZhItnVerbal ZhItnSaid ZhItnPlate.
From Verif Require FstEval PlainRules EndToEnd TokenProofs2.
Import ListNotations.
Local Open Scope list_scope.

(** The characters: the names of the digits but 两, which is also a weight, and X. *)
Definition dk_set := Eval vm_compute in tree (u "零洞一幺壹二贰三叁四肆五伍六陆七柒拐八捌九玖Xx").
Definition dk : N -> bool := held dk_set.
Lemma dk_valid c : dk c = true -> vchar c = true.
Proof. apply held_all. vm_compute. reflexivity. Qed.
Lemma dk_bare c : dk c = true -> bare c = true.
Proof. apply held_all. vm_compute. reflexivity. Qed.
(** ** The costs of all rules *)
Definition dear (s : rule_spec) : bool := match s_weight s with Some k => match least dk (r_tagger (s_rule s)) with Never => true | AtLeast z => (10600 <=? k + z)%Z && ((k =? 10600)%Z || (10600 <? k + z)%Z) | Unsure => false end | None => true end.
Lemma rules_dear o : forallb dear (rules o) = true.
Proof. destruct o as [r [] [] []]; vm_compute; reflexivity. Qed.
Lemma digits_floor o : forallb (floor_on dk 10600) (rules o) = true.
Proof.
  pose proof (rules_dear o) as F. rewrite forallb_forall in F |- *. intros s I. specialize (F s I). unfold dear in F. unfold floor_on. destruct (s_weight s) as [k|]; [|reflexivity]. destruct (least dk _); [reflexivity| |discriminate F]. now apply andb_true_iff in F as (F & _).
Qed.
Definition cardinal_spec o : rule_spec := RuleSpec (Cardinal.rule o) (Some 10600%Z) true.
Lemma cardinal_weight o s : In s (rules o) -> s_weight s = Some 10600%Z -> s = cardinal_spec o.
Proof. intros I W. unfold rules in I. cbn [In] in I. repeat destruct I as [I|I]; [..|destruct I]; rewrite <- I in W |- *; cbn [s_weight] in W; try discriminate W; reflexivity. Qed.
Lemma whole_dear o s k x y w : In s (rules o) -> s_weight s = Some k -> forallb dk x = true -> denote (r_tagger (s_rule s)) x y w -> (10600 <= k + w)%Z /\ (k + w = 10600 -> s = cardinal_spec o)%Z.
Proof.
  intros I W K H. pose proof (proj1 (forallb_forall _ _) (rules_dear o) s I) as F. unfold dear in F. rewrite W in F. pose proof (least_sound dk _ _ _ _ K H) as L. destruct (least dk _); [destruct L| |discriminate F]. cbn [low_ok] in L. apply andb_true_iff in F as (F1 & F2). apply Z.leb_le in F1. split; [lia|]. intro E.
  apply orb_true_iff in F2 as [F2|F2]; [apply Z.eqb_eq in F2; subst k; exact (cardinal_weight o s I W)|apply Z.ltb_lt in F2; lia].
Qed.
(** ** What the rule of numbers reads at no cost *)
Definition runs : fst := (Cardinal.digits ** 3 ∪ Cardinal.digits ** 4 ∪ Cardinal.digits ** 5 ∪ Cardinal.digits ** 11 ∪ (Cardinal.digits ** 17 + Cardinal.idcard_last_char) ∪ Cardinal.digits ** 18)%fst.
Lemma maps_runs : maps runs.
Proof.
  assert (D : forall n, maps (Cardinal.digits ** n)%fst) by (intro n; exact (maps_power _ n maps_digits)).
  assert (L : maps Cardinal.idcard_last_char) by (apply maps_union; [apply maps_union; [exact maps_digits|]|]; intros x y w (-> & -> & ->); split; reflexivity).
  unfold runs. repeat apply maps_union; try apply D. exact (maps_cat _ _ (D 17) L).
Qed.
Lemma formats_runs m x y w : forallb dk x = true -> denote (Cardinal.formats m) x y w -> denote runs x y w.
Proof.
  intros K [[[H|H]|H]|H]; [exfalso|exfalso|exact H|exfalso]; revert H; (apply (apart_known dk); [destruct m; vm_compute; reflexivity|exact K]).
Qed.
Lemma priced e z x y w : least dk e = AtLeast z \/ least dk e = Never -> forallb dk x = true -> denote e x y w -> (z <= w)%Z.
Proof. intros L K H. pose proof (least_sound dk e x y w K H) as X. destruct L as [L|L]; rewrite L in X; [exact X|destruct X]. Qed.
Definition above0 (e : fst) : bool := match least dk e with Never => true | AtLeast z => (0 <=? z)%Z | Unsure => false end.
Lemma above0_sound e x y w : above0 e = true -> forallb dk x = true -> denote e x y w -> (0 <= w)%Z.
Proof. intros A K H. pose proof (least_sound dk e x y w K H) as X. unfold above0 in A. destruct (least dk e); [destruct X| |discriminate A]. cbn [low_ok] in X. apply Z.leb_le in A. lia. Qed.
Lemma cardinal_runs o x y w : forallb dk x = true -> denote (Cardinal.cardinal o) x y w -> (0 <= w)%Z /\ (w = 0%Z -> y = map wrote x).
Proof.
  intros K H.
  assert (One : forall e, denote (Cardinal.one o) x y w -> e = Cardinal.formats (enable_million o) -> (0 <= w)%Z /\ (w = 0%Z -> y = map wrote x)).
  { intros e H1 _. assert (Fm : denote (Cardinal.formats (enable_million o)) x y w -> (0 <= w)%Z /\ (w = 0%Z -> y = map wrote x)) by (intro F; apply formats_runs in F; [|exact K]; destruct (maps_runs _ _ _ F) as (-> & ->); split; [lia|reflexivity]).
    unfold Cardinal.one in H1. destruct (enable_standalone_number o); [destruct (enable_0_to_9 o)|exact (Fm H1)]; (destruct H1 as [H1|(v & -> & H1)]; [exact (Fm H1)|]).
    - apply above0_sound in H1; [lia|destruct (enable_million o); vm_compute; reflexivity|exact K].
    - apply above0_sound in H1; [lia|destruct (enable_million o); vm_compute; reflexivity|exact K]. }
  destruct H as [H|(v & -> & H)]; [exact (One _ H eq_refl)|]. apply above0_sound in H; [lia|destruct o as [r [] [] []]; vm_compute; reflexivity|exact K].
Qed.
Section Run.
Variables (o : options) (x d : text).
Hypothesis Reads : denote runs x d 0%Z.
Hypothesis Known : forallb dk x = true.
Hypothesis Nonempty : x <> [].
Hypothesis Kept : forallb kept d = true.
Lemma run_cardinal : denote (Cardinal.cardinal o) x d 0%Z.
Proof.
  assert (F : denote (Cardinal.formats (enable_million o)) x d 0%Z) by (left; right; exact Reads). left. unfold Cardinal.one. destruct (enable_standalone_number o); [destruct (enable_0_to_9 o)|exact F]; left; exact F.
Qed.
Lemma run_cheapest : cheapest (denote (Cardinal.cardinal o)) x d.
Proof.
  exists 0%Z. split; [exact run_cardinal|]. intros y w H. destruct (cardinal_runs o x y w Known H) as (L & E). split; [exact L|]. intro W. rewrite (E W). destruct (maps_runs _ _ _ Reads) as (-> & _). reflexivity.
Qed.
Theorem run_said : zh_itn_said o x d.
Proof.
  pose proof (all_of _ _ _ dk_valid Known) as V. pose proof (all_of _ _ _ dk_bare Known) as B.
  assert (Nq : ~ In 34%N x) by (intro I; rewrite forallb_forall in B; specialize (B _ I); discriminate B). assert (Nb : ~ In 92%N x) by (intro I; rewrite forallb_forall in B; specialize (B _ I); discriminate B).
  apply zh_itn_said_only; [now apply vtext_spec|exact Nonempty|]. intros t v Et Ev.
  apply (cheapest_only zh_itn_token_orders t v x (value_token (u "cardinal") x) (value_token (u "cardinal") x) d); [| |exact (cardinal_verbalized o v x d Ev Nq Nb V Kept run_cheapest)].
  - unfold tagger in Et. destruct (tagger_union (rules o)) as [e|] eqn:E; [|discriminate]. injection Et as <-.
    apply (whole_cheapest (zh_itn o) e (2 * 10600) (fun x => forallb dk x = false) (zh_itn_rules o) E (on_two dk (rules o) e 10600 E ltac:(lia) (digits_floor o)) x _ 10600 Nonempty).
    + rewrite Known. discriminate.
    + lia.
    + split; [apply vtext_spec, EndToEnd.value_valid; [reflexivity|exact V]|]. exists (cardinal_spec o), 10600%Z, 0%Z. split; [unfold g_rules, zh_itn, rules, cardinal_spec; cbn [In]; tauto|]. split; [reflexivity|]. split; [|lia].
      cbn [s_rule cardinal_spec r_tagger Cardinal.rule]. apply PlainRules.tokens_added. exists (piece (u "value") x). split; [unfold value_token, piece; rewrite <- !app_assoc; reflexivity|]. apply tag_field_spec. split; [exact V|]. split; [unfold piece; now rewrite (bare_escape x B)|]. exists d. exact run_cardinal.
    + intros z w (_ & s & k & w' & I & W & D & ->). destruct (whole_dear o s k x _ w' I W Known D) as (L & X). split; [exact L|]. intro Q. rewrite (X Q) in D. cbn [s_rule cardinal_spec r_tagger Cardinal.rule] in D.
      apply PlainRules.tokens_added in D as (t' & Et & D). apply tag_field_spec in D as (_ & -> & _). apply (app_inv_tail (u " ")). rewrite Et, (bare_escape x B). unfold value_token. rewrite <- !app_assoc. reflexivity.
  - apply EndToEnd.value_reordered; [reflexivity|reflexivity|exact Nq|exact Nb].
Qed.
End Run.
(** ** Names of digits *)
Lemma digit_dk c d : digit_named c d -> [c] <> u "两" -> dk c = true /\ kept d = true.
Proof.
  intros I Ne. unfold digit_named in I. assert (A : forallb (fun q => (Datatypes.fst q =? hd 0%N (u "两"))%N || (dk (Datatypes.fst q) && kept (snd q))) digit_names = true) by (vm_compute; reflexivity).
  pose proof (pairs_all _ _ A c d I) as X. cbn [Datatypes.fst snd] in X. apply orb_true_iff in X as [X|X]; [apply N.eqb_eq in X; subst c; destruct (Ne eq_refl)|]. now apply andb_true_iff in X.
Qed.
Lemma digits_dk ds Ds : Forall2 digit_named ds Ds -> ~ In (hd 0%N (u "两")) ds -> forallb dk ds = true /\ forallb kept Ds = true.
Proof.
  intros F. induction F as [|c d ds Ds D F IH]; intro Ne; [split; reflexivity|]. destruct (digit_dk c d D) as (A & B); [intro E; apply Ne; left; rewrite <- E; reflexivity|]. destruct IH as (C & G); [intro I; apply Ne; now right|]. cbn [forallb]. now rewrite A, B, C, G.
Qed.
Lemma digits_read ds Ds : Forall2 digit_named ds Ds -> denote (Cardinal.digits ** List.length ds)%fst ds Ds 0%Z.
Proof.
  intro F. induction F as [|c d cs ds P F IH]; [now cbn|]. pose proof (digit_read c d P : denote Cardinal.digits [c] [d] 0%Z) as H.
  cbn [List.length power]. destruct cs as [|c' cs]; [inversion F; exact H|]. exact (joined _ _ [c] [d] _ _ H IH).
Qed.
Theorem digits_said o ds Ds : Forall2 digit_named ds Ds -> ~ In (hd 0%N (u "两")) ds -> In (List.length ds) [3; 4; 5; 11; 18] -> zh_itn_said o ds Ds.
Proof.
  intros F Ne L. destruct (digits_dk ds Ds F Ne) as (K & Kp). apply run_said; [|exact K|intros ->; cbn in L; lia|exact Kp].
  pose proof (digits_read ds Ds F) as R. revert R. unfold runs. cbn [In] in L. destruct L as [<-|[<-|[<-|[<-|[<-|[]]]]]]; intro R; [do 5 left|do 4 left; right|do 3 left; right|do 2 left; right|right]; exact R.
Qed.
Theorem identity_said o ds Ds c : Forall2 digit_named ds Ds -> ~ In (hd 0%N (u "两")) ds -> List.length ds = 17 -> [c] = u "X" \/ [c] = u "x" -> zh_itn_said o (ds ++ [c]) (Ds ++ [c]).
Proof.
  intros F Ne L C. destruct (digits_dk ds Ds F Ne) as (K & Kp). pose proof (digits_read ds Ds F) as R. rewrite L in R.
  apply run_said; [| |intro E; now apply app_eq_nil in E as (_ & E)|].
  - left. right. apply (joined _ _ _ _ [c] [c] R). destruct C as [-> | ->]; [left; right|right]; cbn; repeat split.
  - rewrite forallb_app, K. destruct C as [C|C]; rewrite C; reflexivity.
  - rewrite forallb_app, Kp. destruct C as [C|C]; rewrite C; reflexivity.
Qed.
