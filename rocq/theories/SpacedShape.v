(** Taggers that write one token for each piece of the text, with white space between. *)
From Coq Require Import List NArith ZArith Bool String Lia.
From Verif Require Import Text TextFacts TokenModel TokenSpec TokenProofs TokenProofs2 TokenProofs3.
From Verif Require Import Fst GrammarModel GrammarSpec FstFacts ShapeSpec GrammarShape.
Import ListNotations.
Local Open Scope list_scope.

Definition content (t : stoken) : text * list (text * text) := (st_name t, st_fields t).
Definition shaped (A : list token_shape) (t : stoken) : Prop := exists s, In s A /\ token_match s t.
Lemma token_of name y kv : is_name name -> fields_text y kv -> NoDup (map Datatypes.fst kv) ->
  forall o, stream o (((name ++ u " { ") ++ y) ++ u " } ") [SToken name (o + 0) (o + 0 + List.length (name ++ u " { " ++ (y ++ [32%N]) ++ u "}")) kv].
Proof.
  intros N T D o. set (t := name ++ u " { " ++ (y ++ [32%N]) ++ u "}").
  assert (Tt : token_text t name kv).
  { exists (y ++ [32%N]). split; [reflexivity|]. split; [exact N|]. split; [|exact D].
    rewrite <- (app_nil_r kv). apply fields_text_app; [exact T|apply (ft_nil 1)]. }
  pose proof (stream_cons o 0 t name kv [32%N] [] Tt (stream_nil _ 1)) as S. cbn [repeat app] in S.
  replace (((name ++ u " { ") ++ y) ++ u " } ") with (t ++ [32%N]); [exact S|].
  unfold t. change (u " } ") with ([32%N] ++ u "}" ++ [32%N]). now rewrite <- !app_assoc.
Qed.

Section Layout.
(** The texts considered, closed under taking parts, and what a rule may read a character as. *)
Variable D : text -> Prop.
Variable alike : N -> N -> Prop.
Hypothesis D_app : forall x y, D (x ++ y) -> D x /\ D y.
Hypothesis alike_refl : forall c, alike c c.
Lemma alike_same x : Forall2 alike x x.
Proof using alike_refl. induction x; constructor; auto. Qed.

(** One token. *)
Definition tokens1 (e : fst) (A : list token_shape) : Prop :=
  forall x y w, D x -> denote e x y w -> forall o, exists t, stream o y [t] /\ shaped A t /\
    (exists x', Forall2 alike x x' /\ within (from_input (st_fields t)) x') /\
    (forall key, In (st_name t, key) verbatim -> st_fields t = [(key, x)]).
(** Any number of tokens; at least one if [b]. *)
Definition lays (A : list token_shape) (b : bool) (e : fst) : Prop :=
  forall x y w, D x -> denote e x y w -> forall o, exists ts, stream o y ts /\ Forall (shaped A) ts /\
    spaced alike x (map content ts) /\ (b = true -> ts <> []).

Definition not_verbatim (name : text) : Prop := forall key, ~ In (name, key) verbatim.
Lemma tokens1_i name e l : is_name name -> not_verbatim name -> fields e l ->
  Forall (fun fs => NoDup (map (@Datatypes.fst text fst) fs)) l -> tokens1 (add_tokens name e) (named name l).
Proof using alike_refl.
  intros N V F Nd x y w _ (x1 & y1 & w1 & x2 & y2 & w2 & -> & -> & -> &
    (x3 & y3 & w3 & x4 & y4 & w4 & -> & -> & -> & (-> & -> & ->) & H) & (-> & -> & ->)) o.
  destruct (F _ _ _ H) as (fs & kv & I & T & M & W).
  assert (Dk : NoDup (map Datatypes.fst kv)).
  { rewrite <- (fields_keys _ _ M). rewrite Forall_forall in Nd. now apply Nd. }
  eexists. split; [exact (token_of name y4 kv N T Dk o)|]. split; [|split].
  - exists (name, fs). split; [now apply in_map|]. split; [reflexivity|exact M].
  - cbn [st_fields app]. rewrite app_nil_r. exists x4. split; [apply alike_same|exact W].
  - cbn. intros key I'. now apply V in I'.
Qed.
(** [e'] reads what [e] reads with other characters in place of some. *)
Lemma tokens1_reading name e e' l : is_name name -> not_verbatim name ->
  (forall x y w, denote e x y w -> exists x' w', Forall2 alike x x' /\ denote e' x' y w') -> fields e' l ->
  Forall (fun fs => NoDup (map (@Datatypes.fst text fst) fs)) l -> tokens1 (add_tokens name e) (named name l).
Proof.
  intros N V R F Nd x y w _ (x1 & y1 & w1 & x2 & y2 & w2 & -> & -> & -> &
    (x3 & y3 & w3 & x4 & y4 & w4 & -> & -> & -> & (-> & -> & ->) & H) & (-> & -> & ->)) o.
  destruct (R _ _ _ H) as (x' & w' & Al & H').
  destruct (F _ _ _ H') as (fs & kv & I & T & M & W).
  assert (Dk : NoDup (map Datatypes.fst kv)).
  { rewrite <- (fields_keys _ _ M). rewrite Forall_forall in Nd. now apply Nd. }
  eexists. split; [exact (token_of name y4 kv N T Dk o)|]. split; [|split].
  - exists (name, fs). split; [now apply in_map|]. split; [reflexivity|exact M].
  - cbn [st_fields app]. rewrite app_nil_r. exists x'. auto.
  - cbn. intros key I'. now apply V in I'.
Qed.
(** A token with its piece as the value: [chars] copies the piece, with the quotes escaped. *)
Lemma tokens1_verbatim name key g chars : is_name name -> is_name key -> (forall k, In (name, k) verbatim -> k = key) ->
  (forall x y w, D x -> denote chars x y w -> forallb vchar x = true /\ y = escape_value x /\ exists z v, denote g x z v) ->
  tokens1 (add_tokens name (insert (key ++ u ": """) + chars + insert (u """"))%fst) (named name [[(key, g)]]).
Proof using alike_refl.
  intros N Nk Uk C x y w Dx (x1 & y1 & w1 & x2 & y2 & w2 & -> & -> & -> &
    (x3 & y3 & w3 & x4 & y4 & w4 & -> & -> & -> & (-> & -> & ->) &
     (x5 & y5 & w5 & x6 & y6 & w6 & -> & -> & -> & (x7 & y7 & w7 & x8 & y8 & w8 & -> & -> & -> & (-> & -> & ->) & H) &
      (-> & -> & ->))) & (-> & -> & ->)) o.
  cbn [app] in Dx. rewrite !app_nil_r in Dx. destruct (C _ _ _ Dx H) as (V & -> & G).
  assert (T : fields_text (((key ++ u ": """) ++ escape_value x8) ++ u """") [(key, x8)]).
  { pose proof (ft_cons 0 key _ x8 [] [] Nk (escape_decodes x8) (ft_nil 0)) as T. cbn [repeat app] in T. rewrite app_nil_r in T.
    now rewrite <- !app_assoc. }
  cbn [app]. rewrite !app_nil_r.
  eexists. split; [refine (token_of name _ _ N T _ o); constructor; [intros []|constructor]|].
  split; [|split].
  - exists (name, [(key, g)]). split; [cbn; auto|]. split; [reflexivity|]. constructor; [|constructor].
    split; [reflexivity|]. split; [now apply vtext_spec|exact G].
  - exists x8. split; [apply alike_same|apply within_one].
  - cbn. intros k I. now rewrite (Uk k I).
Qed.
Lemma tokens1_more e A B : incl A B -> tokens1 e A -> tokens1 e B.
Proof.
  intros I E x y w Dx H o. destruct (E _ _ _ Dx H o) as (t & S & (s & Is & M) & R). exists t. split; [exact S|].
  split; [|exact R]. exists s. auto.
Qed.
Lemma tokens1_weight k e A : tokens1 e A -> tokens1 (Weight k e) A.
Proof. intros E x y w Dx (v & _ & H). exact (E _ _ _ Dx H). Qed.
Lemma tokens1_union l A : Forall (fun e => tokens1 e A) l -> forall e, union_of l = Some e -> tokens1 e A.
Proof.
  intros F e E x y w Dx H. apply (union_of_spec _ _ E) in H as (a & I & H).
  rewrite Forall_forall in F. exact (F a I _ _ _ Dx H).
Qed.

Lemma spaced_gap g x ts : Forall white g -> spaced alike x ts -> spaced alike (g ++ x) ts.
Proof.
  intros G [gap H|gap part as_read name fs rest ts' H Al W V S].
  - constructor. now apply Forall_app.
  - rewrite app_assoc. apply spaced_cons with (as_read := as_read); auto. now apply Forall_app.
Qed.
Lemma spaced_app x ts : spaced alike x ts -> forall x' ts', spaced alike x' ts' -> spaced alike (x ++ x') (ts ++ ts').
Proof.
  induction 1 as [gap H|gap part as_read name fs rest ts H Al W V S IH]; intros x' ts' S'.
  - now apply spaced_gap.
  - cbn [app]. rewrite <- !app_assoc. apply spaced_cons with (as_read := as_read); auto.
Qed.
Lemma lays_one A e : tokens1 e A -> lays A true e.
Proof.
  intros E x y w Dx H o. destruct (E _ _ _ Dx H o) as (t & S & Sh & (x' & Al & W) & V). exists [t]. split; [exact S|].
  split; [auto|]. split; [|discriminate]. cbn [map content].
  pose proof (spaced_cons alike [] x x' (st_name t) (st_fields t) [] [] (Forall_nil _) Al W V (spaced_end alike [] (Forall_nil _))) as P.
  now rewrite app_nil_r in P.
Qed.
Lemma lays_cat A a b p q : lays A p a -> lays A q b -> lays A (p || q) (a + b)%fst.
Proof using D_app.
  intros Ea Eb x y w Dx (x1 & y1 & w1 & x2 & y2 & w2 & -> & -> & -> & H1 & H2) o. apply D_app in Dx as (D1 & D2).
  destruct (Ea _ _ _ D1 H1 o) as (t1 & S1 & F1 & P1 & N1).
  destruct (Eb _ _ _ D2 H2 (o + List.length y1)) as (t2 & S2 & F2 & P2 & N2).
  exists (t1 ++ t2). split; [now apply stream_app|]. split; [now apply Forall_app|]. split.
  - rewrite map_app. now apply spaced_app.
  - rewrite orb_true_iff. intros [E|E] E'; apply app_eq_nil in E' as (E1 & E2); [now apply N1|now apply N2].
Qed.
Lemma lays_union A a b p : lays A p a -> lays A p b -> lays A p (a ∪ b)%fst.
Proof. intros Ea Eb x y w Dx [H|H]; [exact (Ea _ _ _ Dx H)|exact (Eb _ _ _ Dx H)]. Qed.
Lemma lays_weak A a p : lays A p a -> lays A false a.
Proof.
  intros E x y w Dx H o. destruct (E _ _ _ Dx H o) as (ts & S & F & P & _). exists ts.
  split; [exact S|]. split; [exact F|]. split; [exact P|]. discriminate.
Qed.
Lemma lays_star A a p : lays A p a -> lays A false (Star a).
Proof using D_app.
  intros E x y w Dx H. cbn [denote] in H. induction H as [|x y w x' y' w' H S IH]; intro o.
  - exists []. split; [apply (stream_nil o 0)|]. split; [constructor|]. split; [repeat constructor|discriminate].
  - apply D_app in Dx as (D1 & D2).
    destruct (E _ _ _ D1 H o) as (t1 & S1 & F1 & P1 & _). destruct (IH D2 (o + List.length y)) as (t2 & S2 & F2 & P2 & _).
    exists (t1 ++ t2). split; [now apply stream_app|]. split; [now apply Forall_app|]. split; [|discriminate].
    rewrite map_app. now apply spaced_app.
Qed.
Lemma lays_gap A e : (forall x y w, denote e x y w -> Forall white x /\ exists n, y = repeat 32%N n) -> lays A false e.
Proof.
  intros G x y w _ H o. destruct (G _ _ _ H) as (W & n & ->). exists []. split; [constructor|].
  split; [constructor|]. split; [now constructor|discriminate].
Qed.
Lemma lays_compose_trim A b e : lays A b e -> lays A b (e @ Rewrite (delete (u " ")) Anywhere Edge)%fst.
Proof.
  intros E x y w Dx (m & w1 & w2 & -> & H & R) o. destruct (E _ _ _ Dx H o) as (ts & S & Rest). exists ts. split; [|exact Rest].
  apply trim_spec in R as [(-> & _)|(-> & _)]; [exact S|now apply stream_trim].
Qed.
Lemma spaced_within x ts : spaced alike x ts ->
  exists x', Forall2 alike x x' /\ within (flat_map (fun t => from_input (snd t)) ts) x'.
Proof using alike_refl.
  induction 1 as [gap H|gap part as_read name fs rest ts H Al W V S (r & Ar & IH)].
  - exists gap. split; [apply alike_same|constructor].
  - exists (gap ++ as_read ++ r). split; [apply Forall2_app; [apply alike_same|now apply Forall2_app]|].
    cbn [flat_map snd]. apply within_prefix. now apply within_app.
Qed.
Lemma lays_writes A e x y w : lays A true e -> D x -> denote e x y w -> forall o,
  exists ts, stream o y ts /\ ts <> [] /\ Forall (shaped A) ts /\ exists x', Forall2 alike x x' /\ within (st_values ts) x'.
Proof using alike_refl.
  intros E Dx H o. destruct (E _ _ _ Dx H o) as (ts & S & F & P & N). exists ts. split; [exact S|]. split; [now apply N|].
  split; [exact F|]. apply spaced_within in P.
  replace (st_values ts) with (flat_map (fun t => from_input (snd t)) (map content ts)); [exact P|].
  unfold st_values. clear. induction ts as [|t ts IH]; [reflexivity|]. cbn. now rewrite IH.
Qed.
(** The pieces of a text and the tokens parsed from a tagging of it. *)
Lemma lays_spaced A b e x y w toks : lays A b e -> D x -> denote e x y w -> parse y = Ok toks ->
  spaced alike x (map token_content toks).
Proof.
  intros E Dx H P. destruct (E _ _ _ Dx H 0) as (ts & S & F & Sp & _).
  assert (P' : parse y = Ok (map to_token ts)).
  { apply parse_exact. apply parse_exact in P as (Ny & _). split; [exact Ny|].
    exists ts. split; [exact S|]. clear. induction ts; constructor; auto. repeat split. }
  rewrite P in P'. injection P' as ->. rewrite map_map. exact Sp.
Qed.
End Layout.
Lemma white_space c : is_space c = true <-> white c.
Proof. unfold is_space, in_range, white. rewrite !orb_true_iff, andb_true_iff, !N.leb_le, !N.eqb_eq. lia. Qed.
Lemma ds_gap x y w : denote (delete (u " ")) x y w -> Forall white x /\ exists n, y = repeat 32%N n.
Proof. intros (-> & -> & _). split; [repeat constructor; right; left; reflexivity|now exists 0]. Qed.
Lemma ques_gap e : (forall x y w, denote e x y w -> Forall white x /\ exists n, y = repeat 32%N n) ->
  forall x y w, denote (ques e) x y w -> Forall white x /\ exists n, y = repeat 32%N n.
Proof. intros G x y w [H|(-> & -> & _)]; [exact (G _ _ _ H)|]. split; [constructor|now exists 0]. Qed.
Lemma spaces_white x y w : denote (Star SPACE) x y w -> Forall white x.
Proof.
  cbn [denote]. induction 1 as [|x y w x' y' w' (c & -> & _ & C & _) S IH]; [constructor|].
  constructor; [now apply white_space|exact IH].
Qed.
Lemma plus_white x y w : denote (plus SPACE) x y w -> Forall white x.
Proof.
  intros (x1 & y1 & w1 & x2 & y2 & w2 & -> & _ & _ & (c & -> & _ & C & _) & S). constructor; [now apply white_space|].
  exact (spaces_white _ _ _ S).
Qed.
