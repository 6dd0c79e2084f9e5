(** What taggers write: fields and tokens with the graphs their values come from. *)
From Coq Require Import List NArith ZArith Bool String Lia.
From Verif Require Import Text TextFacts TokenModel TokenSpec TokenProofs TokenProofs2 TokenProofs3.
From Verif Require Import Fst GrammarModel GrammarSpec FstFacts ShapeSpec.
Import ListNotations.
Local Open Scope list_scope.

(** A value the graph [g] reads. *)
Definition reads (g : fst) (v : text) : Prop := valid_text v /\ exists z w, denote g v z w.
Definition field_shape := (text * fst)%type.
Definition token_shape := (text * list field_shape)%type.
Definition field_match (f : field_shape) (kv : text * text) : Prop :=
  Datatypes.fst f = Datatypes.fst kv /\ reads (snd f) (snd kv).
Definition fields_match : list field_shape -> list (text * text) -> Prop := Forall2 field_match.

(** Every output of [e] is the text of fields of one of these shapes, whose values are
    parts of the input. *)
Definition fields (e : fst) (l : list (list field_shape)) : Prop :=
  forall x y w, denote e x y w -> exists fs kv, In fs l /\ fields_text y kv /\ fields_match fs kv /\
    within (from_input kv) x.

Lemma within_prefix g vs x : within vs x -> within vs (g ++ x).
Proof. intros [y|gap v vs' rest H]; [constructor|]. rewrite app_assoc. now constructor. Qed.
Lemma within_app vs x : within vs x -> forall vs' x', within vs' x' -> within (vs ++ vs') (x ++ x').
Proof.
  induction 1 as [x|gap v vs rest H IH]; intros vs' x' H'; [now apply within_prefix|].
  cbn [app]. rewrite <- !app_assoc. constructor. auto.
Qed.
Lemma within_self v : within [v] v.
Proof. pose proof (within_cons [] v [] [] (within_nil [])) as H. now rewrite app_nil_r in H. Qed.
Lemma within_one key v : within (from_input [(key, v)]) v.
Proof. unfold from_input. cbn [filter]. destruct negb; [apply within_self|constructor]. Qed.
Lemma added_mark key v : existsb (text_eqb key) marks = true -> added (key, v) = true.
Proof. intro K. unfold added. cbn [Datatypes.fst]. now rewrite K. Qed.
Lemma from_input_app a b : from_input (a ++ b) = from_input a ++ from_input b.
Proof. unfold from_input. now rewrite filter_app, map_app. Qed.

Lemma fields_spaces n y kv : fields_text y kv -> fields_text (repeat 32%N n ++ y) kv.
Proof.
  intros [m|m key b v rest fs N D F].
  - rewrite <- repeat_app. constructor.
  - rewrite app_assoc, <- repeat_app. now constructor.
Qed.
Lemma fields_text_app y1 kv1 : fields_text y1 kv1 -> forall y2 kv2, fields_text y2 kv2 -> fields_text (y1 ++ y2) (kv1 ++ kv2).
Proof.
  induction 1 as [n|n key b v rest fs N D F IH]; intros y2 kv2 F2; [now apply fields_spaces|].
  cbn [app]. rewrite <- !app_assoc. constructor; auto.
Qed.
Definition product {A} (l m : list (list A)) : list (list A) := flat_map (fun a => map (fun b => a ++ b) m) l.
Lemma fields_cat a b la lb : fields a la -> fields b lb -> fields (a + b)%fst (product la lb).
Proof.
  intros A B x y w (x1 & y1 & w1 & x2 & y2 & w2 & -> & -> & -> & H1 & H2).
  destruct (A _ _ _ H1) as (f1 & k1 & I1 & T1 & M1 & W1). destruct (B _ _ _ H2) as (f2 & k2 & I2 & T2 & M2 & W2).
  exists (f1 ++ f2), (k1 ++ k2). split; [|split; [|split]].
  - apply in_flat_map. exists f1. split; [exact I1|]. apply in_map_iff. eauto.
  - now apply fields_text_app.
  - now apply Forall2_app.
  - rewrite from_input_app. now apply within_app.
Qed.
Lemma fields_union a b la lb : fields a la -> fields b lb -> fields (a ∪ b)%fst (la ++ lb).
Proof.
  intros A B x y w [H|H]; [apply A in H|apply B in H]; destruct H as (f & k & I & T);
    exists f, k; (split; [apply in_app_iff; auto|exact T]).
Qed.
Lemma fields_weight k a la : fields a la -> fields (Weight k a) la.
Proof. intros A x y w (v & _ & H). exact (A _ _ _ H). Qed.
Lemma fields_delete t : fields (delete t) [[]].
Proof. intros x y w (_ & -> & _). exists [], []. split; [cbn; auto|]. split; [apply (ft_nil 0)|split; constructor]. Qed.
Lemma fields_space : fields (insert (u " ")) [[]].
Proof. intros x y w (_ & -> & _). exists [], []. split; [cbn; auto|]. split; [apply (ft_nil 1)|split; constructor]. Qed.
Lemma fields_ques a la : fields a la -> fields (ques a) (la ++ [[]]).
Proof. intro A. apply fields_union; [exact A|]. apply (fields_delete []). Qed.
Lemma fields_compose a b l : fields b l -> incl l [[]] -> fields (a @ b)%fst [[]].
Proof.
  intros B L x y w (m & w1 & w2 & _ & _ & H). destruct (B _ _ _ H) as (fs & kv & I & T & M & _).
  apply L in I as [<-|[]].
  inversion M; subst. exists [], []. split; [cbn; auto|]. split; [exact T|]. split; constructor.
Qed.
Lemma fields_tag key g : is_name key -> fields (tag_field key g) [[(key, g)]].
Proof.
  intros N x y w H. apply tag_field_spec in H as (V & -> & z & G).
  exists [(key, g)], [(key, x)]. split; [cbn; auto|]. split.
  - pose proof (ft_cons 0 key _ x [] [] N (escape_decodes x) (ft_nil 0)) as T. now rewrite app_nil_r in T.
  - split; [|apply within_one]. constructor; [|constructor]. split; [reflexivity|]. split; [now apply vtext_spec|eauto].
Qed.
(** A field with a fixed value. *)
Lemma fields_literal key v : is_name key -> valid_text v ->
  (forall c, In c v -> c <> 34%N /\ c <> 92%N) ->
  fields (insert (key ++ u ": """) + accep v + insert (u """"))%fst [[(key, accep v)]].
Proof.
  intros N V P x y w (x1 & y1 & w1 & x2 & y2 & w2 & -> & -> & -> &
    (x3 & y3 & w3 & x4 & y4 & w4 & -> & -> & -> & (-> & -> & ->) & (-> & -> & ->)) & (-> & -> & ->)).
  exists [(key, accep v)], [(key, v)]. split; [cbn; auto|]. split.
  - rewrite <- !app_assoc.
    assert (D : decodes v v). { clear V. induction v as [|c v IH]; [constructor|]. destruct (P c); [cbn; auto|].
      constructor; auto. apply IH. intros c' I. apply P. cbn. auto. }
    pose proof (ft_cons 0 key _ v [] [] N D (ft_nil 0)) as T. now rewrite app_nil_r in T.
  - split; [|cbn [app]; rewrite app_nil_r; apply within_one].
    constructor; [|constructor]. split; [reflexivity|]. split; [exact V|]. exists v, 0%Z. apply accep_i.
Qed.
(** One character as a value. *)
Lemma fields_char key : is_name key -> fields (insert (key ++ u ": """) + CHAR + insert (u """"))%fst [[(key, VCHAR)]].
Proof.
  intros N x y w (x1 & y1 & w1 & x2 & y2 & w2 & -> & -> & -> &
    (x3 & y3 & w3 & x4 & y4 & w4 & -> & -> & -> & (-> & -> & ->) & C) & (-> & -> & ->)).
  apply char_inv in C as (c & -> & V & -> & E). exists [(key, VCHAR)], [(key, [c])]. split; [cbn; auto|]. split.
  - rewrite <- !app_assoc.
    assert (D : decodes y4 [c]).
    { pose proof (escape_decodes [c]) as D. rewrite escape_step, app_nil_r in D. now rewrite E. }
    pose proof (ft_cons 0 key _ [c] [] [] N D (ft_nil 0)) as T. now rewrite app_nil_r in T.
  - split; [|cbn [app]; apply within_one]. constructor; [|constructor]. split; [reflexivity|]. split.
    + constructor; [now apply vchar_spec|constructor].
    + exists [c], 0%Z, c. auto.
Qed.

(** ** Tokens *)
Definition token_match (s : token_shape) (t : stoken) : Prop :=
  Datatypes.fst s = st_name t /\ fields_match (snd s) (st_fields t).
Definition st_values (ts : list stoken) : list text := flat_map (fun t => from_input (st_fields t)) ts.
(** For [x], at least one token is written, each of an allowed shape, with values from [x]. *)
Definition writes (allowed : list token_shape) (x y : text) : Prop :=
  forall o, exists ts, stream o y ts /\ ts <> [] /\ Forall (fun t => exists s, In s allowed /\ token_match s t) ts /\
    within (st_values ts) x.
Definition emits (e : fst) (allowed : list token_shape) : Prop :=
  forall x y w, denote e x y w -> writes allowed x y.

Lemma stream_spaces o n y ts : stream (o + n) y ts -> stream o (repeat 32%N n ++ y) ts.
Proof.
  intro H. inversion H as [o' m|o' m t name fs rest ts' T S]; subst.
  - rewrite <- repeat_app. constructor.
  - rewrite app_assoc, <- repeat_app.
    replace (SToken name (o + n + m) (o + n + m + List.length t) fs)
      with (SToken name (o + (n + m)) (o + (n + m) + List.length t) fs) by (f_equal; lia).
    constructor; [exact T|]. now replace (o + (n + m) + List.length t) with (o + n + m + List.length t) by lia.
Qed.
Lemma stream_app o y1 ts1 : stream o y1 ts1 -> forall y2 ts2, stream (o + List.length y1) y2 ts2 -> stream o (y1 ++ y2) (ts1 ++ ts2).
Proof.
  induction 1 as [o n|o n t name fs rest ts T S IH]; intros y2 ts2 S2.
  - apply stream_spaces. now rewrite repeat_length in S2.
  - cbn [app]. rewrite <- !app_assoc. constructor; [exact T|]. apply IH.
    rewrite !app_length, repeat_length in S2.
    now replace (o + n + List.length t + List.length rest) with (o + (n + (List.length t + List.length rest))) by lia.
Qed.
Lemma writes_app A x1 y1 x2 y2 : writes A x1 y1 -> writes A x2 y2 -> writes A (x1 ++ x2) (y1 ++ y2).
Proof.
  intros H1 H2 o. destruct (H1 o) as (t1 & S1 & N1 & F1 & W1).
  destruct (H2 (o + List.length y1)) as (t2 & S2 & N2 & F2 & W2).
  exists (t1 ++ t2). split; [now apply stream_app|]. split; [now destruct t1|]. split; [now apply Forall_app|].
  unfold st_values. rewrite flat_map_app. now apply within_app.
Qed.
Lemma writes_more A B x y : incl A B -> writes A x y -> writes B x y.
Proof.
  intros I H o. destruct (H o) as (ts & S & N & F & W). exists ts. split; [exact S|]. split; [exact N|].
  split; [|exact W]. eapply Forall_impl; [|exact F]. intros t (s & Is & M). exists s. auto.
Qed.
Lemma emits_more e A B : incl A B -> emits e A -> emits e B.
Proof. intros I E x y w H. apply (writes_more A B x y I), (E _ _ _ H). Qed.
Lemma emits_union a b A : emits a A -> emits b A -> emits (a ∪ b)%fst A.
Proof. intros Ea Eb x y w [H|H]; [exact (Ea _ _ _ H)|exact (Eb _ _ _ H)]. Qed.
Lemma emits_weight k a A : emits a A -> emits (Weight k a) A.
Proof. intros E x y w (v & _ & H). exact (E _ _ _ H). Qed.
Lemma emits_cat a b A : emits a A -> emits b A -> emits (a + b)%fst A.
Proof.
  intros Ea Eb x y w (x1 & y1 & w1 & x2 & y2 & w2 & -> & -> & -> & H1 & H2).
  apply writes_app; [exact (Ea _ _ _ H1)|exact (Eb _ _ _ H2)].
Qed.
Lemma emits_cat_ques a b A : emits a A -> emits b A -> emits (a + ques b)%fst A.
Proof.
  intros Ea Eb x y w (x1 & y1 & w1 & x2 & y2 & w2 & -> & -> & -> & H1 & H2). destruct H2 as [H2|(-> & -> & ->)].
  - apply writes_app; [exact (Ea _ _ _ H1)|exact (Eb _ _ _ H2)].
  - rewrite !app_nil_r. exact (Ea _ _ _ H1).
Qed.
Definition named (name : text) (l : list (list field_shape)) : list token_shape := map (pair name) l.
Lemma fields_keys fs kv : fields_match fs kv -> map (@Datatypes.fst text fst) fs = map Datatypes.fst kv.
Proof. induction 1 as [|f k fs kv (E & _) F IH]; [reflexivity|]. cbn. now rewrite E, IH. Qed.
Lemma emits_tokens name e l : is_name name -> fields e l ->
  Forall (fun fs => NoDup (map (@Datatypes.fst text fst) fs)) l -> emits (add_tokens name e) (named name l).
Proof.
  intros N F D x y w (x1 & y1 & w1 & x2 & y2 & w2 & -> & -> & -> &
    (x3 & y3 & w3 & x4 & y4 & w4 & -> & -> & -> & (-> & -> & ->) & H) & (-> & -> & ->)) o.
  destruct (F _ _ _ H) as (fs & kv & I & T & M & W).
  set (t := name ++ u " { " ++ (y4 ++ [32%N]) ++ u "}").
  assert (Tt : token_text t name kv).
  { exists (y4 ++ [32%N]). split; [reflexivity|]. split; [exact N|]. split.
    - rewrite <- (app_nil_r kv). apply fields_text_app; [exact T|apply (ft_nil 1)].
    - rewrite <- (fields_keys _ _ M). rewrite Forall_forall in D. now apply D. }
  exists [SToken name (o + 0) (o + 0 + List.length t) kv]. split; [|split; [|split]].
  - pose proof (stream_cons o 0 t name kv [32%N] [] Tt (stream_nil _ 1)) as S. cbn [repeat app] in S.
    replace (((name ++ u " { ") ++ y4) ++ u " } ") with (t ++ [32%N]); [exact S|].
    unfold t. change (u " } ") with ([32%N] ++ u "}" ++ [32%N]). now rewrite <- !app_assoc.
  - discriminate.
  - constructor; [|constructor]. exists (name, fs). split; [now apply in_map|]. split; [reflexivity|exact M].
  - cbn [st_values flat_map st_fields app]. now rewrite !app_nil_r.
Qed.

(** ** The whole tagger *)
Lemma emits_star e A : emits e A -> forall x y w, denote (Star e) x y w -> (x = [] /\ y = []) \/ writes A x y.
Proof.
  intros E x y w H. cbn [denote] in H. induction H as [|x y w x' y' w' H S [(-> & ->)|IH]]; [auto| |].
  - right. rewrite !app_nil_r. exact (E _ _ _ H).
  - right. apply writes_app; [exact (E _ _ _ H)|exact IH].
Qed.
(** Deleting a space at the end. *)
Lemma rewritten_nil tau l r out x y w : rewritten tau l r out x y w -> x = [] -> y = [] /\ w = 0%Z.
Proof.
  intros [o|o p q w' rest y' v Np _ _ _ _ _ _|o c rest y' v _ _ _] E; [auto| |discriminate].
  apply app_eq_nil in E as (E & _). contradiction.
Qed.
Lemma trim_spec out x y w : rewritten (denote (delete (u " "))) Anywhere Edge out x y w ->
  y = x /\ w = 0%Z \/ x = y ++ [32%N] /\ w = 0%Z.
Proof.
  intro H.
  induction H as [out|out p q w rest y v Np T Lo Ro Vp Vq R IH|out c rest y v M Vc R IH].
  - auto.
  - cbn in Ro. subst rest. destruct T as (-> & -> & ->). destruct (rewritten_nil _ _ _ _ _ _ _ R eq_refl) as (-> & ->). right. split; reflexivity.
  - destruct IH as [(-> & ->)|(-> & ->)]; auto.
Qed.
Lemma stream_trim o y ts : stream o (y ++ [32%N]) ts -> stream o y ts.
Proof.
  intro H. remember (y ++ [32%N]) as z eqn:E. revert y E.
  induction H as [o n|o n t name fs rest ts T S IH]; intros y E.
  - destruct n as [|n]; [now destruct y|]. change (repeat 32%N (S n)) with (repeat 32%N 1 ++ repeat 32%N n) in E.
    assert (E' : repeat 32%N n ++ [32%N] = y ++ [32%N]).
    { rewrite <- E. cbn. clear. induction n as [|n IH]; [reflexivity|]. cbn. now rewrite IH. }
    apply app_inj_tail in E' as (<- & _). constructor.
  - destruct (@exists_last _ rest) as (r & c & Er).
    + intros ->. rewrite app_nil_r in E. destruct T as (body & -> & _). rewrite !app_assoc in E.
      apply app_inj_tail in E as (_ & E). discriminate.
    + subst rest. rewrite !app_assoc in E. apply app_inj_tail in E as (<- & ->). rewrite <- app_assoc.
      constructor; [exact T|]. now apply IH.
Qed.
Lemma emits_trim e A x y w : emits e A -> denote (trim_end e) x y w -> (x = [] /\ y = []) \/ writes A x y.
Proof.
  intros E (m & w1 & w2 & -> & H & R). destruct (emits_star e A E _ _ _ H) as [(-> & ->)|W].
  - left. split; [reflexivity|]. now destruct (rewritten_nil _ _ _ _ _ _ _ R eq_refl) as (-> & _).
  - right. apply trim_spec in R as [(-> & _)|(-> & _)]; [exact W|].
    intro o. destruct (W o) as (ts & S & Nt & F). exists ts. split; [now apply stream_trim|]. auto.
Qed.

(** Unions of rules. *)
Lemma union_of_emits l A : Forall (fun e => emits e A) l -> forall e, union_of l = Some e -> emits e A.
Proof.
  intros F e E x y w H. apply (union_of_spec _ _ E) in H as (a & I & H).
  rewrite Forall_forall in F. exact (F a I _ _ _ H).
Qed.

(** Checks by computation. *)
Definition name_okb (t : text) : bool := negb (text_eqb t []) && forallb key_char t.
Lemma name_ok t : name_okb t = true -> is_name t.
Proof.
  unfold name_okb. rewrite andb_true_iff. intros (N & F). split.
  - intros ->. discriminate.
  - rewrite forallb_forall in F. apply Forall_forall. intros c I. apply F in I. unfold key_char in I.
    rewrite !orb_true_iff, !andb_true_iff, !N.leb_le, N.eqb_eq in I. unfold letter. lia.
Qed.
Fixpoint nodupb (l : list text) : bool :=
  match l with [] => true | a :: r => negb (text_mem a r) && nodupb r end.
Lemma nodup_ok l : nodupb l = true -> NoDup l.
Proof.
  induction l as [|a r IH]; [constructor|]. cbn. rewrite andb_true_iff. intros (M & H). constructor; [|auto].
  intro I. destruct (text_mem_spec a r); [discriminate|contradiction].
Qed.
Lemma fields_more e l m : incl l m -> fields e l -> fields e m.
Proof. intros I F x y w H. destruct (F _ _ _ H) as (fs & kv & If & T). exists fs, kv. split; [apply I, If|exact T]. Qed.

(** What is parsed. *)
Definition keys_of (s : token_shape) : text * list text := (Datatypes.fst s, map Datatypes.fst (snd s)).
Definition shape_token (A : list token_shape) (t : token) : Prop :=
  exists s, In s A /\ tk_name t = Datatypes.fst s /\ fields_match (snd s) (tk_members t) /\
    tk_order t = map Datatypes.fst (snd s).
Lemma writes_parse A x y : writes A x y -> exists toks, parse y = Ok toks /\ toks <> [] /\ Forall (shape_token A) toks.
Proof.
  intro W. destruct (W 0) as (ts & S & N & F & _). exists (map to_token ts). split; [|split].
  - apply parse_exact. split.
    + intros ->. inversion S as [o n E|o n t name fs rest ts' T S' E E2]; subst; [now destruct N|].
      destruct T as (body & -> & (Nn & _) & _). apply app_eq_nil in E2 as (_ & E2). apply app_eq_nil in E2 as (E2 & _).
      apply app_eq_nil in E2 as (E2 & _). contradiction.
    + exists ts. split; [exact S|]. clear. induction ts; constructor; auto. repeat split.
  - now destruct ts.
  - clear -F. induction F as [|t ts (s & I & E & M) F IH]; constructor; [|exact IH].
    exists s. cbn. split; [exact I|]. split; [auto|]. split; [exact M|]. now rewrite (fields_keys _ _ M).
Qed.

(** A mark, written out in full. *)
Lemma fields_added n key v : is_name key -> added (key, v) = true -> valid_text v ->
  (forall c, In c v -> c <> 34%N /\ c <> 92%N) ->
  fields (insert (repeat 32%N n ++ key ++ u ": """ ++ v ++ u """")) [[(key, accep v)]].
Proof.
  intros N K V P x y w (-> & -> & ->). exists [(key, accep v)], [(key, v)].
  split; [cbn; auto|]. split.
  - assert (D : decodes v v). { clear V K. induction v as [|c v IH]; [constructor|]. destruct (P c); [cbn; auto|].
      constructor; auto. apply IH. intros c' I. apply P. cbn. auto. }
    pose proof (ft_cons n _ _ v [] [] N D (ft_nil 0)) as T. cbn [repeat] in T. now rewrite app_nil_r in T.
  - split; [|unfold from_input; cbn [filter]; rewrite K; apply within_nil].
    constructor; [|constructor]. split; [reflexivity|]. split; [exact V|]. exists v, 0%Z. apply accep_i.
Qed.
Lemma fields_mark n key v : is_name key -> existsb (text_eqb key) marks = true -> valid_text v ->
  (forall c, In c v -> c <> 34%N /\ c <> 92%N) ->
  fields (insert (repeat 32%N n ++ key ++ u ": """ ++ v ++ u """")) [[(key, accep v)]].
Proof. intros N K. apply fields_added; [exact N|now apply added_mark]. Qed.
Lemma fields_inserted n v : valid_text v -> (forall c, In c v -> c <> 34%N /\ c <> 92%N) ->
  fields (insert (repeat 32%N n ++ u "preserve_order" ++ u ": """ ++ v ++ u """")) [[(u "preserve_order", accep v)]].
Proof. apply fields_mark; [apply name_ok; vm_compute; reflexivity|reflexivity]. Qed.
(** An empty value, written out in full. *)
Lemma fields_blank n key : is_name key ->
  fields (insert (repeat 32%N n ++ key ++ u ": """"")) [[(key, accep [])]].
Proof.
  intros N x y w (-> & -> & ->). exists [(key, accep [])], [(key, [])]. split; [cbn; auto|]. split.
  - pose proof (ft_cons n _ _ [] [] [] N dec_nil (ft_nil 0)) as T. cbn [repeat] in T. rewrite app_nil_r in T. exact T.
  - split; [|apply within_one]. constructor; [|constructor]. split; [reflexivity|]. split; [constructor|].
    exists [], 0%Z. apply accep_i.
Qed.

(** ** Character tokens *)
Definition lone (x : text) (ts : list stoken) : Prop := forall t, In t ts -> st_name t = u "char" ->
  exists c, x = [c] /\ ts = [t] /\ st_fields t = [(u "value", [c])].
(** One rule: what it writes, and that a character token stands for one character. *)
Definition spells (e : fst) : Prop := forall x y w, denote e x y w -> forall o,
  exists ts, stream o y ts /\ ts <> [] /\ within (st_values ts) x /\ lone x ts.
Definition quiet (A : list token_shape) : bool :=
  forallb (fun s => negb (text_eqb (Datatypes.fst s) (u "char"))) A.
Lemma spells_quiet e A : emits e A -> quiet A = true -> spells e.
Proof.
  intros E Q x y w H o. destruct (E _ _ _ H o) as (ts & S & N & F & W). exists ts.
  split; [exact S|]. split; [exact N|]. split; [exact W|].
  intros t I C. rewrite Forall_forall in F. destruct (F t I) as (s & Is & M & _).
  unfold quiet in Q. rewrite forallb_forall in Q. apply Q in Is. rewrite M, C in Is.
  destruct (text_eqb_spec (u "char") (u "char")) as [_|D]; [discriminate|now destruct D].
Qed.
Lemma spells_weight k e : spells e -> spells (Weight k e).
Proof. intros E x y w (v & _ & H). exact (E _ _ _ H). Qed.
Definition one_char (e : fst) : Prop := forall x y w, denote e x y w -> exists c, x = [c] /\ fields_text y [(u "value", [c])].
Lemma one_char_plain : one_char (insert (u "value: """) + CHAR + insert (u """"))%fst.
Proof.
  intros x y w H. pose proof H as (x1 & y1 & w1 & x2 & y2 & w2 & -> & -> & -> &
    (x3 & y3 & w3 & x4 & y4 & w4 & -> & -> & -> & (-> & -> & ->) & C) & (-> & -> & ->)).
  apply char_inv in C as (c & -> & V & -> & E). exists c. split; [reflexivity|].
  rewrite <- !app_assoc. change (u "value: """) with (u "value" ++ u ": """). rewrite <- app_assoc.
  assert (D : decodes y4 [c]).
  { pose proof (escape_decodes [c]) as D. rewrite escape_step, app_nil_r in D. now rewrite E. }
  assert (N : is_name (u "value")) by (apply name_ok; vm_compute; reflexivity).
  pose proof (ft_cons 0 _ _ [c] [] [] N D (ft_nil 0)) as T. now rewrite app_nil_r in T.
Qed.
Lemma one_char_tag g : (forall x z w, denote g x z w -> exists c, x = [c]) -> one_char (tag_field (u "value") g).
Proof.
  intros G x y w H. apply tag_field_spec in H as (V & -> & z & D). destruct (G _ _ _ D) as (c & ->).
  exists c. split; [reflexivity|].
  assert (N : is_name (u "value")) by (apply name_ok; vm_compute; reflexivity).
  pose proof (ft_cons 0 _ _ [c] [] [] N (escape_decodes [c]) (ft_nil 0)) as T. now rewrite app_nil_r in T.
Qed.
Lemma spells_char e : one_char e -> spells (add_tokens (u "char") e).
Proof.
  intros F x y w (x1 & y1 & w1 & x2 & y2 & w2 & -> & -> & -> &
    (x3 & y3 & w3 & x4 & y4 & w4 & -> & -> & -> & (-> & -> & ->) & H) & (-> & -> & ->)) o.
  destruct (F _ _ _ H) as (c & -> & T).
  set (t := u "char" ++ u " { " ++ (y4 ++ [32%N]) ++ u "}").
  assert (N : is_name (u "char")) by (apply name_ok; vm_compute; reflexivity).
  assert (Tt : token_text t (u "char") [(u "value", [c])]).
  { exists (y4 ++ [32%N]). split; [reflexivity|]. split; [exact N|]. split.
    - rewrite <- (app_nil_r [(u "value", [c])]). apply fields_text_app; [exact T|apply (ft_nil 1)].
    - constructor; [intros []|constructor]. }
  exists [SToken (u "char") (o + 0) (o + 0 + List.length t) [(u "value", [c])]]. split; [|split; [|split]].
  - pose proof (stream_cons o 0 t _ _ [32%N] [] Tt (stream_nil _ 1)) as S. cbn [repeat app] in S.
    replace (((u "char" ++ u " { ") ++ y4) ++ u " } ") with (t ++ [32%N]); [exact S|].
    unfold t. change (u " } ") with ([32%N] ++ u "}" ++ [32%N]). now rewrite <- !app_assoc.
  - discriminate.
  - cbn [st_values flat_map st_fields app]. rewrite !app_nil_r. apply within_one.
  - intros t0 [<-|[]] _. exists c. cbn. auto.
Qed.
(** The rules together. *)
Definition spiece (p : text * list stoken) : Prop :=
  snd p <> [] /\ within (st_values (snd p)) (Datatypes.fst p) /\ lone (Datatypes.fst p) (snd p).
Lemma spells_star e x y w : spells e -> denote (Star e) x y w -> forall o,
  exists ps, Forall spiece ps /\ x = List.concat (map Datatypes.fst ps) /\ stream o y (List.concat (map snd ps)).
Proof.
  intros E H. cbn [denote] in H. induction H as [|x y w x' y' w' H S IH]; intro o.
  - exists []. split; [constructor|]. split; [reflexivity|]. apply (stream_nil o 0).
  - destruct (E _ _ _ H o) as (ts & Sts & N & W & L). destruct (IH (o + List.length y)) as (ps & F & -> & Sp).
    exists ((x, ts) :: ps). split; [constructor; [|exact F]; split; auto|]. split; [reflexivity|].
    cbn [map List.concat snd]. now apply stream_app.
Qed.
Lemma concat_map_map {A B} (f : A -> B) (l : list (list A)) : List.concat (map (map f) l) = map f (List.concat l).
Proof. induction l as [|a l IH]; [reflexivity|]. cbn. now rewrite map_app, IH. Qed.
Lemma spells_pieces e x y w toks : spells e -> denote (trim_end e) x y w -> parse y = Ok toks -> pieces x toks.
Proof.
  intros E (m & w1 & w2 & -> & H & R) P. destruct (spells_star _ _ _ _ E H 0) as (ps & F & -> & S).
  assert (Sy : stream 0 y (List.concat (map snd ps))).
  { apply trim_spec in R as [(-> & _)|(-> & _)]; [exact S|now apply stream_trim]. }
  assert (P' : parse y = Ok (map to_token (List.concat (map snd ps)))).
  { apply parse_exact. apply parse_exact in P as (Ny & _). split; [exact Ny|].
    exists (List.concat (map snd ps)). split; [exact Sy|]. generalize (List.concat (map snd ps)). clear.
    intro l. induction l; constructor; auto. repeat split. }
  rewrite P in P'. injection P' as ->.
  exists (map (fun p => (Datatypes.fst p, map to_token (snd p))) ps). split; [|split].
  - apply Forall_forall. intros q I. apply in_map_iff in I as (p & <- & I). rewrite Forall_forall in F.
    destruct (F p I) as (N & W & L). unfold piece. cbn [Datatypes.fst snd]. split; [|split].
    + now destruct (snd p).
    + replace (flat_map (fun t => from_input (tk_members t)) (map to_token (snd p))) with (st_values (snd p)); [exact W|].
      unfold st_values. clear. induction (snd p) as [|t l IH]; [reflexivity|]. cbn. now rewrite IH.
    + intros t It C. apply in_map_iff in It as (t' & <- & It). destruct (L t' It C) as (c & Ex & Et & Ef).
      exists c. split; [exact Ex|]. split; [now rewrite Et|exact Ef].
  - now rewrite map_map.
  - rewrite map_map. rewrite <- concat_map_map. now rewrite map_map.
Qed.
Lemma union_of_spells l : Forall spells l -> forall e, union_of l = Some e -> spells e.
Proof.
  intros F e E x y w H. apply (union_of_spec _ _ E) in H as (a & I & H).
  rewrite Forall_forall in F. exact (F a I _ _ _ H).
Qed.

(** Rewriting that keeps the length. *)
Lemma rewritten_length (tau : rel) l r out x y w : (forall p q v, tau p q v -> List.length p = List.length q) ->
  rewritten tau l r out x y w -> List.length x = List.length y.
Proof.
  intros T. induction 1 as [out|out p q w rest y v Np H Lo Ro Vp Vq R IH|out c rest y v M Vc R IH].
  - reflexivity.
  - now rewrite !app_length, IH, (T _ _ _ H).
  - cbn. now rewrite IH.
Qed.
Definition same_length (l : list (text * text)) : bool :=
  forallb (fun e => Nat.eqb (List.length (Datatypes.fst e)) (List.length (snd e))) l.
Lemma same_length_spec l p q w : same_length l = true -> denote (Table l) p q w -> List.length p = List.length q.
Proof. intros S (I & _). unfold same_length in S. rewrite forallb_forall in S. apply S in I. now apply Nat.eqb_eq. Qed.

(** Proof steps for a grammar. *)
Ltac name_tac := apply name_ok; vm_compute; reflexivity.
Ltac nodup_tac := repeat (apply Forall_cons; [apply nodup_ok; lazy; reflexivity|]); apply Forall_nil.
Ltac incl_tac := intros ? I; cbn [product flat_map map app In named] in *; intuition.
Ltac field_tac :=
  repeat first
    [ eassumption | apply fields_delete | apply fields_space
    | apply fields_tag; name_tac
    | apply fields_ques | apply fields_cat | apply fields_union | apply fields_weight ].
Ltac emit_tac :=
  eapply emits_more; [|apply emits_tokens; [name_tac|field_tac|cbn [product flat_map map app]; nodup_tac]]; incl_tac.
Tactic Notation "quiet_tac" uconstr(E) := eapply spells_quiet; [eapply E|lazy; reflexivity].
