(** Text of characters that only the rule of single characters reads (C64): the generic part. *)
From Coq Require Import List NArith ZArith Bool String Lia Arith.
From Verif Require Import Text TextFacts TokenModel TokenSpec TokenProofs TokenProofs2 TokenProofs3 Fst FstFacts GrammarModel GrammarShape GrammarAccept.
From Verif Require Import BoundarySpec TokenRun Boundary BoundaryRules TokenVerbal EndToEnd.
From Verif Require EnNumberProofs5.
Import ListNotations.
Local Open Scope list_scope.

(** ** The names of the tokens a verbaliser reads *)
Fixpoint named (e : fst) : option (list text) :=
  match e with
  | Union a b => match named a, named b with Some l, Some l' => Some (l ++ l') | _, _ => None end
  | Cat (Cat (Cat (Cat (Cross n _) (Cross b _)) _) _) _ => if text_eqb b (u " { ") then Some [n] else None
  | _ => None
  end.
Lemma named_sound e : forall l, named e = Some l -> forall x y w, denote e x y w -> exists n z, In n l /\ x = n ++ u " { " ++ z.
Proof.
  induction e as [x0 y0|p|l0|a IHa b IHb|a _ b _|a _|k a _|a _ b _|a _|a _|a _|t _ l0 r]; try discriminate; intros l E x y w H.
  - cbn [named] in E. destruct (named a) as [la|]; [|discriminate]. destruct (named b) as [lb|]; [|discriminate]. injection E as <-.
    destruct H as [H|H]; [destruct (IHa _ eq_refl _ _ _ H) as (n & z & I & ->)|destruct (IHb _ eq_refl _ _ _ H) as (n & z & I & ->)]; exists n, z; rewrite in_app_iff; auto.
  - destruct a as [| | | |a c| | | | | | |]; try discriminate. destruct a as [| | | |a d| | | | | | |]; try discriminate. destruct a as [| | | |a f| | | | | | |]; try discriminate.
    destruct a as [n m| | | | | | | | | | |]; try discriminate. destruct f as [b' m'| | | | | | | | | | |]; try discriminate. cbn [named] in E.
    destruct (text_eqb_spec b' (u " { ")) as [->|]; [|discriminate]. injection E as <-.
    apply cat_inv in H as (x1 & y1 & w1 & x2 & y2 & w2 & -> & _ & _ & H & _). apply cat_inv in H as (x3 & y3 & w3 & x4 & y4 & w4 & -> & _ & _ & H & _).
    apply cat_inv in H as (x5 & y5 & w5 & x6 & y6 & w6 & -> & _ & _ & H & _). apply cat_inv in H as (x7 & y7 & w7 & x8 & y8 & w8 & -> & _ & _ & (-> & _) & (-> & _)).
    exists n. exists ((x6 ++ x4) ++ x2). split; [now left|]. now rewrite <- !app_assoc.
Qed.
Definition one_word (n : text) : bool := forallb (fun c => negb (c =? 32)%N) n.
Definition other_name (name : text) (e : fst) : bool :=
  match named e with Some l => forallb (fun n => one_word n && negb (text_eqb n name)) l | None => false end.
Lemma other_name_sound name e : other_name name e = true -> one_word name = true -> forall x z y w, x = name ++ u " { " ++ z -> ~ denote e x y w.
Proof.
  unfold other_name. destruct (named e) as [l|] eqn:E; [|discriminate]. intros F W x z y w -> H.
  destruct (named_sound e l E _ _ _ H) as (n & z' & I & X). rewrite forallb_forall in F. specialize (F _ I). apply andb_true_iff in F as (Wn & Ne).
  apply (EnNumberProofs5.split_unique (fun c => negb (c =? 32)%N)) in X as (<- & _); [|exact W|exact Wn|reflexivity|reflexivity].
  destruct (text_eqb_spec name name); [discriminate|contradiction].
Qed.

(** ** A token with one value *)
Lemma escaped_text name v : namechars name = true -> token_text (value_token name (escape_value v)) name [(u "value", v)].
Proof.
  intros N. exists (u "value" ++ u ": """ ++ escape_value v ++ u """" ++ u " "). split; [|split; [now apply namechars_spec|split]].
  - unfold value_token. change (u " { value: """) with (u " { " ++ u "value" ++ u ": """). change (u """ }") with (u """" ++ u " " ++ u "}").
    now rewrite <- !app_assoc.
  - apply (ft_cons 0 (u "value") (escape_value v) v (u " ") []); [apply namechars_spec; reflexivity|apply escape_decodes|exact (ft_nil 1)].
  - cbn [map Datatypes.fst]. constructor; [intros []|constructor].
Qed.
Lemma escaped_reordered os name v : namechars name = true -> dict_get name os = None ->
  reorder os (value_token name (escape_value v)) = Ok (value_token name (escape_value v)).
Proof.
  intros N D. pose proof (escaped_text name v N) as T. set (x := value_token name (escape_value v)) in *.
  assert (S : TokenSpec.stream 0 x [SToken name (0 + 0) (0 + 0 + List.length x) [(u "value", v)]]).
  { replace x with (repeat 32%N 0 ++ x ++ repeat 32%N 0) at 1 by (cbn [repeat app]; apply app_nil_r).
    exact (stream_cons 0 0 _ name _ _ [] T (stream_nil _ 0)). }
  rewrite (reorder_join _ _ _ (parse_complete _ _ (token_text_nonempty _ _ _ T) S)). f_equal.
  cbn [map join]. unfold to_token. cbn [st_name st_from st_to st_fields map Datatypes.fst]. unfold token_string, effective_order.
  cbn [tk_name tk_members tk_order]. rewrite D.
  cbn [flat_map dict_get]. change (text_eqb (u "value") (u "value")) with true. cbn [format_field app].
  unfold x, format_field, value_token. rewrite app_nil_r. f_equal. cbn [app]. let v := eval vm_compute in (u "value") in change (u "value") with v. cbn [app].
  rewrite <- !app_assoc. reflexivity.
Qed.
Lemma escaped_run name v : namechars name = true -> run Init (value_token name (escape_value v)) = Done.
Proof.
  intro N. unfold value_token. rewrite !run_app. rewrite (key_out Init name (namechars_spec _ N) (or_introl eq_refl)).
  change (run Out (u " { value: """)) with Quo. rewrite value_quo. reflexivity.
Qed.
Lemma escaped_valid name v : forallb vchar name = true -> forallb vchar v = true -> forallb vchar (value_token name (escape_value v)) = true.
Proof.
  intros N V. apply value_valid; [exact N|]. induction v as [|c v IH]; [reflexivity|]. cbn [forallb] in V. apply andb_true_iff in V as (Vc & V).
  rewrite escape_step, forallb_app, (IH V), andb_true_r. destruct (N.eqb c 34); [reflexivity|]. destruct (N.eqb c 92); [reflexivity|]. cbn. now rewrite Vc.
Qed.
Lemma one_denote g T d w : (forall x y k, denote g x y k -> closed (run Init x) = true) -> run Init T = Done ->
  denote (Star g) T d w <-> denote g T d w.
Proof.
  intros C R. cbn [denote]. split; intro H.
  - remember T as x eqn:Ex in H. destruct H as [|p d3 w3 q d4 w4 H S2]; [rewrite <- Ex in R; discriminate|].
    assert (E : p ++ q = T ++ []) by (rewrite app_nil_r; exact Ex). destruct (closed_prefix p q T [] R (C _ _ _ H) E) as [-> | ->].
    + apply app_inv_head in E. subst q. remember [] as n eqn:En in S2. destruct S2 as [|p2 d5 w5 q2 d6 w6 H2 S3].
      * now rewrite app_nil_r, Z.add_0_r.
      * apply app_eq_nil in En as (-> & _). apply C in H2. discriminate.
    + exfalso. rewrite app_nil_r in E. apply (f_equal (@List.length N)) in E. rewrite !app_length in E. cbn in E. lia.
  - rewrite <- (app_nil_r T), <- (app_nil_r d), <- (Z.add_0_r w). constructor; [exact H|constructor].
Qed.

(** ** One character *)
Lemma plain_ordinary rules char c : plain_for rules char c -> (forall x y w, denote (r_tagger char) x y w -> exists a, x = [a]) -> ordinary rules c.
Proof.
  intros P L s x y w I H C. rewrite (P _ _ _ _ I H C) in H. destruct (L _ _ _ H) as (a & ->). destruct C as [->|[]]. reflexivity.
Qed.
Definition char_token (c : N) : text := value_token (u "char") (escape_value [c]).
Section Single.
Variables (rs : list rule_spec) (char : rule) (k : Z) (e g : fst) (os : orders) (c : N) (f : text).
Hypothesis Mine : In (RuleSpec char (Some k) true) rs.
Hypothesis Unique : forall s, In s rs -> s_rule s = char -> s_weight s = Some k.
Hypothesis Union : tagger_union rs = Some e.
Hypothesis Plain : plain_for rs char c.
Hypothesis Blank : forall x y w, denote e x y w -> ends_blank y.
Hypothesis Eats : forall y w, ~ denote e [] y w.
Hypothesis Tag1 : forall y w, denote (r_tagger char) [c] y w <-> y = char_token c ++ u " " /\ w = 0%Z.
Hypothesis Closed : forall x y w, denote g x y w -> closed (run Init x) = true.
Hypothesis Verb1 : forall d w, denote g (char_token c) d w <-> d = f /\ w = 0%Z.
Hypothesis Dict : dict_get (u "char") os = None.
Hypothesis Valid : vchar c = true.
Lemma single_union y w : denote e [c] y w <-> y = char_token c ++ u " " /\ w = k.
Proof.
  rewrite (taggers_spec _ _ Union). split.
  - intros (s & k' & I & W & H). pose proof (Plain s _ _ _ I H (or_introl eq_refl)) as E. pose proof (Unique s I E) as W'. assert (k' = k) as -> by congruence.
    rewrite E in H. apply Tag1 in H as (-> & H). split; [reflexivity|lia].
  - intros (-> & ->). exists (RuleSpec char (Some k) true), k. split; [exact Mine|]. split; [reflexivity|]. apply Tag1. split; [reflexivity|lia].
Qed.
Lemma single_star y w : denote (Star e) [c] y w <-> y = char_token c ++ u " " /\ w = k.
Proof.
  cbn [denote]. split.
  - intro H. remember [c] as x eqn:Ex. destruct H as [|p y1 w1 q y2 w2 H S]; [discriminate|].
    destruct p as [|a p]; [now apply Eats in H|]. injection Ex as -> Ep. apply app_eq_nil in Ep as (-> & ->). apply single_union in H as (-> & ->).
    remember [] as n eqn:En in S. destruct S as [|p y1 w1 q y3 w3 H S]; [rewrite app_nil_r, Z.add_0_r; auto|].
    apply app_eq_nil in En as (-> & _). now apply Eats in H.
  - intros (-> & ->). rewrite <- (app_nil_r [c]), <- (app_nil_r (_ ++ u " ")), <- (Z.add_0_r k). constructor; [now apply single_union|constructor].
Qed.
Lemma single_tag y w : denote (trim_end e) [c] y w <-> y = char_token c /\ w = k.
Proof.
  rewrite (trim_denote e Blank) by discriminate. rewrite single_star. split.
  - intros ((E & ->) & _). apply app_inj_tail in E as (-> & _). auto.
  - intros (-> & ->). split; [auto|]. apply escaped_valid; [reflexivity|]. cbn [forallb]. now rewrite Valid.
Qed.
Theorem single_answer : only_answer os (trim_end e) (Star g) [c] f.
Proof.
  assert (R : reorder os (char_token c) = Ok (char_token c)) by (apply escaped_reordered; [reflexivity|exact Dict]).
  assert (D : forall d w, denote (Star g) (char_token c) d w <-> d = f /\ w = 0%Z).
  { intros d w. rewrite <- Verb1. apply one_denote; [exact Closed|]. now apply escaped_run. }
  intro d. split.
  - intros (y & r & (w & T & _) & Ry & (v & V & _)). apply single_tag in T as (-> & ->). rewrite R in Ry. injection Ry as <-. now apply D in V as (-> & _).
  - intros ->. exists (char_token c), (char_token c). split; [exists k; split; [now apply single_tag|]|split; [exact R|exists 0%Z; split; [now apply D|]]].
    + intros z v H. apply single_tag in H as (_ & ->). lia.
    + intros z v H. apply D in H as (_ & ->). lia.
Qed.
End Single.

(** ** Texts *)
Lemma ordinary_first rs a c b : ordinary rs c -> uncrossed rs a (c :: b).
Proof.
  intros O a' p q b' s y w _ Eb Np Nq I H. destruct q as [|c' q]; [contradiction|]. injection Eb as <- _.
  specialize (O s _ y w I H). rewrite in_app_iff in O. specialize (O (or_intror (or_introl eq_refl))). destruct p as [|a0 p]; [contradiction|].
  injection O as _ O. now apply app_eq_nil in O as (_ & O).
Qed.
Lemma ordinary_last rs a c b : ordinary rs c -> uncrossed rs (a ++ [c]) b.
Proof.
  intros O a' p q b' s y w Ea _ Np Nq I H. destruct (@exists_last _ p Np) as (p' & c' & ->). rewrite app_assoc in Ea. apply app_inj_tail in Ea as (_ & <-).
  specialize (O s _ y w I H). rewrite !in_app_iff in O. specialize (O (or_introl (or_intror (or_introl eq_refl)))).
  apply (f_equal (@List.length N)) in O. rewrite !app_length in O. cbn in O. destruct q; [contradiction|cbn in O; lia].
Qed.
Section Texts.
Variables (os : orders) (rs : list rule_spec) (t v : fst).
Hypothesis Cuts : forall a b, a <> [] -> b <> [] -> uncrossed rs a b ->
  forall d, best_answer os t v (a ++ b) d <-> exists d1 d2, d = d1 ++ d2 /\ best_answer os t v a d1 /\ best_answer os t v b d2.
Lemma only_cut a b d1 d2 : a <> [] -> b <> [] -> uncrossed rs a b -> only_answer os t v a d1 -> only_answer os t v b d2 -> only_answer os t v (a ++ b) (d1 ++ d2).
Proof.
  intros Na Nb U A B d. rewrite (Cuts a b Na Nb U). split.
  - intros (e1 & e2 & -> & H1 & H2). apply A in H1 as ->. now apply B in H2 as ->.
  - intros ->. exists d1, d2. split; [reflexivity|]. split; [now apply A|now apply B].
Qed.
Variable f : N -> text.
Definition simple (c : N) : Prop := ordinary rs c /\ only_answer os t v [c] (f c).
Theorem simple_text x : x <> [] -> Forall simple x -> only_answer os t v x (flat_map f x).
Proof.
  intros N F. induction F as [|c x (O & A) F IH]; [contradiction|]. destruct x as [|c' x].
  - cbn [flat_map]. now rewrite app_nil_r.
  - change (c :: c' :: x) with ([c] ++ c' :: x). change (flat_map f ([c] ++ c' :: x)) with (f c ++ flat_map f (c' :: x)).
    apply only_cut; [discriminate|discriminate|exact (ordinary_last rs [] c _ O)|exact A|apply IH; discriminate].
Qed.
Lemma simple_before p x d : Forall simple p -> x <> [] -> only_answer os t v x d -> only_answer os t v (p ++ x) (flat_map f p ++ d).
Proof.
  intros F Nx A. induction F as [|c p (O & C) F IH]; [exact A|]. change ((c :: p) ++ x) with ([c] ++ p ++ x). cbn [flat_map]. rewrite <- app_assoc.
  apply only_cut; [discriminate|now destruct p|exact (ordinary_last rs [] c _ O)|exact C|exact IH].
Qed.
Theorem simple_around p x q d : Forall simple p -> Forall simple q -> x <> [] -> only_answer os t v x d -> only_answer os t v (p ++ x ++ q) (flat_map f p ++ d ++ flat_map f q).
Proof.
  intros P Q Nx A. apply simple_before; [exact P|now destruct x|]. destruct q as [|c q]; [cbn [flat_map]; now rewrite !app_nil_r|].
  apply only_cut; [exact Nx|discriminate|apply ordinary_first; exact (proj1 (Forall_inv Q))|exact A|apply simple_text; [discriminate|exact Q]].
Qed.
End Texts.
