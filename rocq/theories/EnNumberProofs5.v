(** A cardinal token through the English verbalizer (C58). *)
From Coq Require Import List NArith ZArith Bool String Lia Arith.
From Verif Require Import Text TextFacts Fst FstFacts FstRun GrammarModel GrammarShape GrammarAccept NumeralSpec EnglishNumeralSpec.
From Verif Require Import EnNumberProofs4.
From Verif Require Import EnTnModel.
Import EnItnModel(DELETE_SPACE).
Import ListNotations.
Local Open Scope list_scope.

Lemma split_unique (p : N -> bool) d : forall e r r', forallb p d = true -> forallb p e = true ->
  (match r with c :: _ => p c | [] => false end) = false -> (match r' with c :: _ => p c | [] => false end) = false ->
  d ++ r = e ++ r' -> d = e /\ r = r'.
Proof.
  induction d as [|c d IH]; intros [|c' e] r r' D F R R' E; cbn [app forallb] in *.
  - auto.
  - subst r. apply andb_true_iff in F as (F & _). congruence.
  - subst r'. apply andb_true_iff in D as (D & _). congruence.
  - injection E as -> E. apply andb_true_iff in D as (_ & D). apply andb_true_iff in F as (_ & F).
    destruct (IH e r r' D F R R' E) as (-> & ->). auto.
Qed.
Lemma delete_space x y w : denote DELETE_SPACE x y w -> y = [] /\ w = 0%Z /\ forallb is_space x = true.
Proof.
  unfold DELETE_SPACE. cbn [denote]. induction 1 as [|a b v a' b' v' H S (-> & -> & F)]; [auto|].
  destruct H as (-> & z & c & -> & _ & P & ->). cbn [app forallb]. rewrite P. auto.
Qed.
Lemma delete_one_space : denote DELETE_SPACE [32%N] [] 0%Z.
Proof.
  apply (star_app _ [32%N] [] 0%Z [] [] 0%Z); [|constructor]. split; [reflexivity|]. exists [32%N], 32%N. repeat split; auto.
Qed.
Lemma star_empty r x y w : star r x y w -> (forall y w, ~ r [] y w) -> x = [] -> y = [] /\ w = 0%Z.
Proof.
  induction 1 as [|a b v a' b' v' H S IH]; intros N E; [auto|]. apply app_eq_nil in E as (-> & _). now apply N in H.
Qed.

Section Token.
Variable g : fst.
Hypothesis Q : avoids 34 g.
Definition body : fst :=
  (Cardinal.optional_sign + (delete (u "integer:") + (DELETE_SPACE + delete (u """") + g + delete (u """"))))%fst.
Definition sign_of (negative : bool) (y y' : text) (w w' : Z) : Prop :=
  if negative then y = u "negative " ++ y' /\ w = (w' - 10)%Z \/
                   (y = u "minus " ++ y' \/ y = u "dash " ++ y') /\ w = w'
  else y = y' /\ w = w'.
Lemma quoted_unique (s t r r' : text) : ~ In 34%N s -> ~ In 34%N t -> s ++ 34%N :: r = t ++ 34%N :: r' -> s = t /\ r = r'.
Proof.
  intros S T E. assert (P : forall x, ~ In 34%N x -> forallb (fun c => negb (c =? 34)%N) x = true).
  { intros x H. apply forallb_forall. intros c I. destruct (N.eqb_spec c 34) as [->|]; [contradiction|reflexivity]. }
  destruct (split_unique (fun c => negb (c =? 34)%N) s t (34%N :: r) (34%N :: r') (P s S) (P t T) eq_refl eq_refl E) as (-> & F).
  now injection F.
Qed.
Lemma integer_inv x y w s t :
  denote (delete (u "integer:") + (DELETE_SPACE + delete (u """") + g + delete (u """")))%fst x y w -> ~ In 34%N t ->
  x ++ s = u "integer: """ ++ t ++ u """ }" -> s = u " }" /\ denote g t y w.
Proof.
  intros H T E. apply cat_inv in H as (x1 & y1 & w1 & x2 & y2 & w2 & -> & -> & -> & (-> & -> & ->) & H).
  apply cat_inv in H as (x3 & y3 & w3 & x4 & y4 & w4 & -> & -> & -> & H & (-> & -> & ->)).
  apply cat_inv in H as (x5 & y5 & w5 & x6 & y6 & w6 & -> & -> & -> & H & G).
  apply cat_inv in H as (x7 & y7 & w7 & x8 & y8 & w8 & -> & -> & -> & D & (-> & -> & ->)).
  apply delete_space in D as (-> & -> & Sp).
  change (u "integer: """) with (u "integer:" ++ [32%N; 34%N]) in E. rewrite <- !app_assoc in E. apply app_inv_head in E.
  change (u """ }") with (34%N :: u " }") in E. change (u """") with [34%N] in E. cbn [app] in E.
  apply (split_unique is_space x7 [32%N]) in E as (-> & E'); [|exact Sp|reflexivity|reflexivity|reflexivity].
  injection E' as E'.
  apply quoted_unique in E' as (-> & ->); [|exact (Q _ _ _ G)|exact T]. split; [reflexivity|].
  cbn [app]. rewrite app_nil_r, ?Z.add_0_l, ?Z.add_0_r. exact G.
Qed.
Lemma integer_i t y w : denote g t y w ->
  denote (delete (u "integer:") + (DELETE_SPACE + delete (u """") + g + delete (u """")))%fst (u "integer: """ ++ t ++ u """") y w.
Proof.
  intro G. change (u "integer: """) with (u "integer:" ++ ([32%N] ++ u """")). rewrite <- !app_assoc.
  replace w with (0 + (0 + w + 0))%Z by lia. rewrite <- (app_nil_r y).
  apply (cat_i _ _ _ [] 0%Z); [now cbn|].
  rewrite (app_assoc [32%N]), (app_assoc _ t). apply cat_i; [|now cbn].
  apply (cat_i _ _ _ [] 0%Z _ y w); [|exact G]. apply (cat_i _ _ [32%N] [] 0%Z _ [] 0%Z); [exact delete_one_space|now cbn].
Qed.
Lemma token_inv x y w s neg t : denote (delete_tokens Cardinal.name body) x y w -> ~ In 34%N t ->
  x ++ s = cardinal_token neg t -> s = [] /\ exists y' w', denote g t y' w' /\ sign_of neg y y' w w'.
Proof.
  unfold delete_tokens, body. intros H T E.
  apply cat_inv in H as (x1 & y1 & w1 & c & yc & wc & -> & -> & -> & H & C).
  apply cat_inv in H as (x2 & y2 & w2 & x3 & y3 & w3 & -> & -> & -> & H & (-> & -> & ->)).
  apply cat_inv in H as (x4 & y4 & w4 & x5 & y5 & w5 & -> & -> & -> & H & B).
  apply cat_inv in H as (x6 & y6 & w6 & x7 & y7 & w7 & -> & -> & -> & (-> & -> & ->) & (-> & -> & ->)).
  apply cat_inv in B as (a & ya & wa & b & yb & wb & -> & -> & -> & A & B).
  assert (Ec : yc = [] /\ wc = 0%Z) by (destruct C as [(_ & -> & ->)|(_ & -> & ->)]; auto). destruct Ec as (-> & ->).
  unfold cardinal_token in E. change (u "cardinal { ") with (Cardinal.name ++ u " { ") in E. rewrite <- !app_assoc in E.
  do 2 apply app_inv_head in E.
  assert (Fin : forall neg', a ++ b ++ u " }" ++ c ++ s = (if neg' : bool then u "negative: ""-"" " else []) ++ u "integer: """ ++ t ++ u """ }" ->
    (a = (if neg' then u "negative: ""-"" " else [])) -> s = [] /\ denote g t yb wb).
  { intros neg' E' Ea. rewrite Ea in E'. apply app_inv_head in E'.
    destruct (integer_inv b yb wb (u " }" ++ c ++ s) t B T) as (F & G); [now rewrite <- E'|].
    split; [|exact G]. rewrite <- (app_nil_r (u " }")) in F at 2. apply app_inv_head in F. now apply app_eq_nil in F. }
  destruct A as [A|(-> & -> & ->)].
  - apply cat_inv in A as (p & q & v & sp & ys & vs & -> & -> & -> & A & D). apply delete_space in D as (-> & -> & Sp).
    assert (Sg : p = u "negative: ""-""" /\ (q = u "negative " /\ v = (-10)%Z \/ (q = u "minus " \/ q = u "dash ") /\ v = 0%Z)).
    { destruct A as [[(-> & -> & ->)|(v' & -> & (-> & -> & ->))]|(-> & -> & ->)]; split; auto. }
    destruct Sg as (-> & Sg).
    destruct neg; [|exfalso; clear -E; vm_compute in E; discriminate].
    change (u "negative: ""-"" ") with (u "negative: ""-""" ++ [32%N]) in E.
    assert (Es : sp = [32%N]).
    { rewrite <- !app_assoc in E. apply app_inv_head in E.
      apply cat_inv in B as (x1 & y1 & v1 & x2 & y2 & v2 & -> & -> & -> & (-> & -> & ->) & _). rewrite <- !app_assoc in E.
      apply (split_unique is_space sp [32%N]) in E as (E & _); [exact E|exact Sp|reflexivity|reflexivity|reflexivity]. }
    subst sp. destruct (Fin true E eq_refl) as (-> & G). split; [reflexivity|]. exists yb, wb. split; [exact G|].
    cbn [sign_of]. cbn [app]. rewrite !app_nil_r.
    destruct Sg as [(-> & ->)|(Sg & ->)]; [left|right]; (split; [|lia]); [reflexivity|destruct Sg as [-> | ->]; auto].
  - destruct neg.
    + exfalso. apply cat_inv in B as (x1 & y1 & v1 & x2 & y2 & v2 & -> & -> & -> & (-> & -> & ->) & _). clear -E. vm_compute in E. discriminate.
    + destruct (Fin false E eq_refl) as (-> & G). split; [reflexivity|]. exists yb, wb. split; [exact G|].
      cbn [sign_of]. cbn [app]. rewrite !app_nil_r. split; [reflexivity|lia].
Qed.
Lemma wrap_i v (x y : text) (w : Z) : denote v x y w -> denote (delete_tokens Cardinal.name v) (u "cardinal { " ++ x ++ u " }") y w.
Proof.
  intro G. unfold delete_tokens. replace (u "cardinal { " ++ x ++ u " }") with ((((Cardinal.name ++ u " { ") ++ x) ++ u " }") ++ [])
    by (rewrite app_nil_r, <- !app_assoc; reflexivity).
  rewrite <- (app_nil_r y), <- (app_nil_r (y ++ [])). replace w with (0 + w + 0 + 0)%Z by lia.
  apply cat_i; [|right; now cbn]. apply cat_i; [|now cbn].
  apply (cat_i _ _ _ [] 0%Z); [apply (cat_i _ _ _ [] 0%Z _ [] 0%Z); now cbn|exact G].
Qed.
Lemma token_i (neg : bool) t y w : denote g t y w ->
  denote (delete_tokens Cardinal.name body) (cardinal_token neg t)
    (if neg then u "negative " ++ y else y) (if neg then (w - 10)%Z else w).
Proof.
  intro G. pose proof (integer_i t y w G) as I. unfold cardinal_token.
  replace (u "integer: """ ++ t ++ u """ }") with ((u "integer: """ ++ t ++ u """") ++ u " }") by (rewrite <- !app_assoc; reflexivity).
  rewrite (app_assoc (if neg then _ else _)). apply wrap_i. unfold body. destruct neg.
  - replace (w - 10)%Z with (-10 + w)%Z by lia. apply cat_i; [|exact I]. left.
    change (u "negative: ""-"" ") with (u "negative: ""-""" ++ [32%N]). rewrite <- (app_nil_r (u "negative ")).
    apply (cat_i _ _ _ _ (-10)%Z _ [] 0%Z); [|exact delete_one_space]. left. right. exists 0%Z. split; [reflexivity|]. now cbn.
  - apply (cat_i _ _ [] [] 0%Z _ y w); [right; now cbn|exact I].
Qed.
End Token.

(** ** Only the cardinal rule reads the token *)
Lemma other_name name v x y w s neg t : text_eqb name Cardinal.name = false -> existsb (N.eqb 32) name = false ->
  denote (delete_tokens name v) x y w -> x ++ s = cardinal_token neg t -> False.
Proof.
  intros Nm Sp H E. unfold delete_tokens in H.
  apply cat_inv in H as (x1 & y1 & w1 & c & yc & wc & -> & -> & -> & H & _).
  apply cat_inv in H as (x2 & y2 & w2 & x3 & y3 & w3 & -> & -> & -> & H & _).
  apply cat_inv in H as (x4 & y4 & w4 & x5 & y5 & w5 & -> & -> & -> & H & _).
  apply cat_inv in H as (x6 & y6 & w6 & x7 & y7 & w7 & -> & -> & -> & (-> & -> & ->) & (-> & -> & ->)).
  unfold cardinal_token in E. change (u "cardinal { ") with (Cardinal.name ++ u " { ") in E. rewrite <- !app_assoc in E.
  assert (P : forall z, existsb (N.eqb 32) z = false -> forallb (fun c => negb (c =? 32)%N) z = true).
  { induction z as [|a z IH]; cbn [existsb forallb]; [auto|]. rewrite N.eqb_sym, orb_false_iff. intros (-> & F). cbn. auto. }
  apply (split_unique (fun c => negb (c =? 32)%N)) in E as (E & _); [|now apply P|reflexivity|reflexivity|reflexivity].
  subst name. discriminate.
Qed.
Lemma other_name_sub name v g x y w s neg t : text_eqb name Cardinal.name = false -> existsb (N.eqb 32) name = false ->
  denote (delete_tokens name v ∪ Weight 10 (delete_tokens name v @ g)) x y w -> x ++ s = cardinal_token neg t -> False.
Proof.
  intros Nm Sp [H|(k & _ & m & w1 & w2 & _ & H & _)] E; exact (other_name name v _ _ _ s neg t Nm Sp H E).
Qed.
Lemma only_cardinal ys e x y w s neg t : verbalizer_union (rules ys) = Some e -> denote e x y w -> x ++ s = cardinal_token neg t ->
  denote (r_verbalizer Cardinal.rule) x y w.
Proof.
  intros E H X. apply (verbalizers_spec _ _ E) in H as (r & I & _ & H). unfold rules in I. cbn [In] in I.
  repeat destruct I as [<-|I]; try (exact (False_ind _ I)); cbn [s_rule] in H; [exact H|..]; exfalso; revert X;
    match type of H with denote (r_verbalizer ?r) _ _ _ =>
      first [ unfold r in H; cbn [r_verbalizer] in H; refine (other_name _ _ _ _ _ _ _ _ _ _ H); vm_compute; reflexivity
            | unfold Decimal.rule, Decimal.verbalizer in H; cbn [r_verbalizer] in H; refine (other_name_sub _ _ _ _ _ _ _ _ _ _ _ H); vm_compute; reflexivity
            | change r with (Rule (r_tagger r) (r_verbalizer r)) in H; unfold Date.rule, Range.rule in H; cbn [r_verbalizer] in H;
              refine (other_name _ _ _ _ _ _ _ _ _ _ H); vm_compute; reflexivity ]
    end.
Qed.

(** ** A space at the end is deleted *)
Lemma trim_space out x y w : rewritten (denote ds) Anywhere Edge out x y w -> forall z, x = z ++ [32%N] -> y = z /\ w = 0%Z.
Proof.
  induction 1 as [out|out p q w rest y v Np T Lo Ro Vp Vq R IH|out c rest y v M Vc R IH]; intros z E.
  - now destruct z.
  - cbn in Ro. subst rest. destruct T as (-> & -> & ->). destruct (rewritten_nil _ _ _ _ _ _ _ R eq_refl) as (-> & ->).
    destruct z as [|c [|d z]]; try discriminate. auto.
  - destruct z as [|d z]; injection E as -> E.
    + subst rest. exfalso. refine (M [32%N] [] 0%Z [] eq_refl _ _ _); [discriminate|now cbn|now cbn].
    + subst rest. destruct (IH z eq_refl) as (-> & ->). auto.
Qed.

(** ** The verbalizer *)
Lemma final_quote : avoids 34 Cardinal.final_graph.
Proof. apply avoidsb_sound. vm_compute. reflexivity. Qed.
Lemma final_minus : avoids 45 Cardinal.final_graph.
Proof. apply avoidsb_sound. vm_compute. reflexivity. Qed.
Lemma final_backslash : avoids 92 Cardinal.final_graph.
Proof. apply avoidsb_sound. vm_compute. reflexivity. Qed.
Lemma final_valid : writes_valid Cardinal.final_graph = true.
Proof. vm_compute. reflexivity. Qed.
Lemma cardinal_body : r_verbalizer Cardinal.rule = delete_tokens Cardinal.name (body Cardinal.final_graph).
Proof. reflexivity. Qed.
Lemma card_inv x y w s neg t : denote (r_verbalizer Cardinal.rule) x y w -> ~ In 34%N t -> x ++ s = cardinal_token neg t ->
  s = [] /\ exists y' w', denote Cardinal.final_graph t y' w' /\ sign_of neg y y' w w'.
Proof. rewrite cardinal_body. exact (token_inv _ final_quote x y w s neg t). Qed.
Lemma card_i (neg : bool) t y w : denote Cardinal.final_graph t y w ->
  denote (r_verbalizer Cardinal.rule) (cardinal_token neg t) (if neg then u "negative " ++ y else y) (if neg then (w - 10)%Z else w).
Proof. rewrite cardinal_body. apply token_i. Qed.
Lemma punct_nonempty y w : ~ denote (r_verbalizer Punctuation.rule) [] y w.
Proof.
  change (r_verbalizer Punctuation.rule) with (delete_tokens Punctuation.name
    (delete (u "v: """) + Punctuation.spaces
           + plus (Punctuation.punct ∪ Punctuation.emphasis ∪ Cross [92; 92]%N [92%N] ∪ Cross [92; 34]%N [34%N]) + Punctuation.spaces
           + delete (u """"))%fst). generalize (delete (u "v: """) + Punctuation.spaces
           + plus (Punctuation.punct ∪ Punctuation.emphasis ∪ Cross [92; 92]%N [92%N] ∪ Cross [92; 34]%N [34%N]) + Punctuation.spaces
           + delete (u """"))%fst. intros v H.
  unfold delete_tokens in H.
  apply cat_inv in H as (x1 & y1 & w1 & c & yc & wc & E & _ & _ & H & _). symmetry in E. apply app_eq_nil in E as (-> & _).
  apply cat_inv in H as (x2 & y2 & w2 & x3 & y3 & w3 & E & _ & _ & H & _). symmetry in E. apply app_eq_nil in E as (-> & _).
  apply cat_inv in H as (x4 & y4 & w4 & x5 & y5 & w5 & E & _ & _ & H & _). symmetry in E. apply app_eq_nil in E as (-> & _).
  apply cat_inv in H as (x6 & y6 & w6 & x7 & y7 & w7 & E & _ & _ & (-> & _) & _). symmetry in E. apply app_eq_nil in E as (E & _). discriminate.
Qed.
Lemma names_nonempty name v y w : name <> [] -> ~ denote (delete_tokens name v) [] y w.
Proof.
  intros Nn H. unfold delete_tokens in H.
  apply cat_inv in H as (x1 & y1 & w1 & c & yc & wc & E & _ & _ & H & _). symmetry in E. apply app_eq_nil in E as (-> & _).
  apply cat_inv in H as (x2 & y2 & w2 & x3 & y3 & w3 & E & _ & _ & H & _). symmetry in E. apply app_eq_nil in E as (-> & _).
  apply cat_inv in H as (x4 & y4 & w4 & x5 & y5 & w5 & E & _ & _ & H & _). symmetry in E. apply app_eq_nil in E as (-> & _).
  apply cat_inv in H as (x6 & y6 & w6 & x7 & y7 & w7 & E & _ & _ & (-> & _) & _). symmetry in E. apply app_eq_nil in E as (E & _). contradiction.
Qed.
Section Whole.
Variables (e : fst) (neg : bool) (t : text).
Hypothesis (T : ~ In 34%N t).
Hypothesis (Only : forall x y w s, denote e x y w -> x ++ s = cardinal_token neg t -> denote (r_verbalizer Cardinal.rule) x y w).
Hypothesis (Sub : forall x y w, denote (r_verbalizer Cardinal.rule) x y w -> denote e x y w).
Definition token : fst :=
  (e + (plus (r_verbalizer Punctuation.rule) ∪ Weight 10 INSERT_SPACE)
   ∪ r_verbalizer Punctuation.rule + (plus (r_verbalizer Punctuation.rule) ∪ DELETE_SPACE))%fst.
Lemma e_nonempty y w : ~ denote e [] y w.
Proof. intro H. apply (Only _ _ _ (cardinal_token neg t)) in H; [|reflexivity]. rewrite cardinal_body in H. now apply names_nonempty in H. Qed.
Lemma token_nonempty y w : ~ denote token [] y w.
Proof.
  intros [H|H]; apply cat_inv in H as (x1 & y1 & w1 & x2 & y2 & w2 & E & _ & _ & H & _); symmetry in E; apply app_eq_nil in E as (-> & _).
  - now apply e_nonempty in H.
  - now apply punct_nonempty in H.
Qed.
Lemma punct_not x y w s : denote (r_verbalizer Punctuation.rule) x y w -> x ++ s = cardinal_token neg t -> False.
Proof. intros H E. unfold Punctuation.rule in H. cbn [r_verbalizer] in H. refine (other_name _ _ _ _ _ _ _ _ _ _ H E); vm_compute; reflexivity. Qed.
Lemma tokens_inv X m w : denote (Star token) X m w -> X = cardinal_token neg t ->
  exists z y' w', m = z ++ [32%N] /\ denote Cardinal.final_graph t y' w' /\ sign_of neg z y' (w - 10) w'.
Proof.
  intros H EX. cbn [denote] in H. destruct H as [|x y v x' y' v' H S]; [discriminate EX|].
  destruct H as [H|H].
  - apply cat_inv in H as (x1 & y1 & w1 & x2 & y2 & w2 & -> & -> & -> & H & P). rewrite <- app_assoc in EX.
    apply (Only _ _ _ (x2 ++ x')) in H; [|exact EX]. apply (card_inv _ _ _ (x2 ++ x') neg t) in H as (En & y'' & w'' & G & Sg); [|exact T|exact EX].
    apply app_eq_nil in En as (-> & ->). apply star_empty in S as (-> & ->); [|exact token_nonempty|reflexivity].
    destruct P as [P|(k & -> & (_ & -> & ->))].
    + apply cat_inv in P as (x3 & y3 & w3 & x4 & y4 & w4 & E & _ & _ & P & _). symmetry in E. apply app_eq_nil in E as (-> & _).
      now apply punct_nonempty in P.
    + exists y1, y'', w''. rewrite app_nil_r. split; [reflexivity|]. split; [exact G|].
      replace (w1 + (0 + 10) + 0 - 10)%Z with w1 by lia. exact Sg.
  - exfalso. apply cat_inv in H as (x1 & y1 & w1 & x2 & y2 & w2 & -> & -> & -> & H & P). rewrite <- app_assoc in EX. exact (punct_not _ _ _ _ H EX).
Qed.
Lemma tokens_i y w : denote Cardinal.final_graph t y w ->
  denote (Star token) (cardinal_token neg t) ((if neg then u "negative " ++ y else y) ++ [32%N]) ((if neg then w - 10 else w) + 10)%Z.
Proof.
  intro G. rewrite <- (app_nil_r (cardinal_token neg t)), <- (app_nil_r (_ ++ [32%N])), <- (Z.add_0_r (_ + 10)).
  apply star_app; [|constructor]. pose proof (Sub _ _ _ (card_i neg t y w G)) as H.
  assert (P : denote (plus (r_verbalizer Punctuation.rule) ∪ Weight 10 INSERT_SPACE)%fst [] [32%N] 10%Z).
  { right. exists 0%Z. split; [reflexivity|]. now cbn. }
  pose proof (cat_i _ _ _ _ _ _ _ _ H P) as C. rewrite app_nil_r in C. exact (or_introl C).
Qed.
Lemma whole_cheapest y : forallb vchar t = true -> cheapest (denote Cardinal.final_graph) t y ->
  cheapest (denote (Star token @ build_rule ds Anywhere Edge)) (cardinal_token neg t) (if neg then u "negative " ++ y else y).
Proof.
  intros Vt (w & G & Lo). pose proof (writes_valid_sound _ final_valid _ _ _ G Vt) as Vy.
  assert (V : forallb vchar ((if neg then u "negative " ++ y else y) ++ [32%N]) = true).
  { rewrite forallb_app. replace (forallb vchar [32%N]) with true by reflexivity. rewrite andb_true_r.
    destruct neg; [rewrite forallb_app; replace (forallb vchar (u "negative ")) with true by reflexivity; exact Vy|exact Vy]. }
  destruct (total_rewrite ds Anywhere Edge eq_refl eq_refl _ V) as (z & k & R & _).
  pose proof (trim_space _ _ _ _ R _ eq_refl) as (-> & ->).
  exists ((if neg then w - 10 else w) + 10 + 0)%Z. split; [apply compose_i with (1 := tokens_i y w G); exact R|].
  intros z v (m & w1 & w2 & -> & S & R'). apply tokens_inv in S as (z' & y' & w' & -> & G' & Sg); [|reflexivity].
  pose proof (trim_space _ _ _ _ R' _ eq_refl) as (-> & ->). destruct (Lo _ _ G') as (L1 & L2).
  unfold sign_of in Sg. destruct neg.
  - destruct Sg as [(-> & Ew)|(_ & Ew)]; split; try lia. intro Ev. rewrite L2 by lia. reflexivity.
  - destruct Sg as (-> & Ew). split; [lia|]. intro Ev. rewrite L2 by lia. reflexivity.
Qed.
End Whole.

Lemma written_chars t n : written t n -> Forall (fun c => (44 <= c <= 57)%N /\ c <> 45%N) t.
Proof.
  assert (D : forall x, Forall digit_char x -> Forall (fun c => (44 <= c <= 57)%N /\ c <> 45%N) x).
  { intros x F. eapply Forall_impl; [|exact F]. unfold digit_char. cbn. intros a A. split; lia. }
  intros [(_ & F & _)|(first & groups & -> & _ & _ & (_ & F & _))]; [now apply D|]. apply Forall_app in F as (F1 & F2).
  apply Forall_app. split; [now apply D|]. clear -D F2. induction groups as [|g gs IH]; [constructor|].
  cbn [List.concat map app] in *. apply Forall_app in F2 as (A & B). constructor; [split; lia|]. apply Forall_app. auto.
Qed.
Lemma written_valid t n : written t n -> forallb vchar t = true.
Proof.
  intro W. apply written_chars in W. apply forallb_forall. intros c I. rewrite Forall_forall in W. apply W in I as (I & _).
  unfold vchar. apply orb_true_iff. left. apply andb_true_iff. split; [apply N.leb_le|apply N.ltb_lt]; lia.
Qed.
Theorem verbalized ys neg t n : written t n -> (n < 10 ^ 11)%N -> forall v, verbalizer ys = Some v ->
  exists y, english_value y = Some n /\
    cheapest (denote v) (cardinal_token neg t) (if neg then u "negative " ++ y else y).
Proof.
  intros W L v Ev. destruct (cheapest_written t n W L) as (y & V & C). exists y. split; [exact V|].
  unfold verbalizer in Ev. destruct (verbalizer_union (rules ys)) as [e|] eqn:E; [|discriminate]. injection Ev as <-.
  unfold verbalizer_of. apply (whole_cheapest e neg t); try assumption.
  - intro I. apply written_chars in W. rewrite Forall_forall in W. apply W in I as (I & _). lia.
  - intros x z w s H X. exact (only_cardinal ys e x z w s neg t E H X).
  - intros x z w H. apply (verbalizers_spec _ _ E). exists (RuleSpec Cardinal.rule (Some 100000%Z) true).
    split; [unfold rules; cbn [In]; tauto|]. split; [reflexivity|exact H].
  - now apply (written_valid t n).
Qed.
