(** Texts a graph accepts: tokens and their verbalisation. *)
From Coq Require Import List NArith ZArith Bool String Lia Arith.
From Verif Require Import Text TextFacts TokenModel TokenSpec TokenProofs TokenProofs2 TokenProofs3.
From Verif Require Import Fst GrammarModel GrammarSpec FstFacts FstRun ShapeSpec GrammarShape.
Import ListNotations.
Local Open Scope list_scope.

Definition accepts (e : fst) (t : text) : Prop := exists z w, denote e t z w.
Lemma acc_cat a b x y : accepts a x -> accepts b y -> accepts (a + b)%fst (x ++ y).
Proof. intros (z & w & A) (z' & w' & B). exists (z ++ z'), (w + w')%Z. now apply cat_i. Qed.
Lemma acc_delete t : accepts (delete t) t.
Proof. exists [], 0%Z. apply delete_i. Qed.
Lemma acc_insert t : accepts (insert t) [].
Proof. exists t, 0%Z. apply insert_i. Qed.
Lemma acc_some a x : accepts a x -> accepts (ques a) x.
Proof. intros (z & w & A). exists z, w. now left. Qed.
Lemma acc_none a : accepts (ques a) [].
Proof. exists [], 0%Z. apply ques_none. Qed.
Lemma acc_left a b x : accepts a x -> accepts (a ∪ b)%fst x.
Proof. intros (z & w & A). exists z, w. now left. Qed.
Lemma acc_right a b x : accepts b x -> accepts (a ∪ b)%fst x.
Proof. intros (z & w & A). exists z, w. now right. Qed.
Lemma acc_weight k a x : accepts a x -> accepts (Weight k a) x.
Proof. intros (z & w & A). exists z, (w + k)%Z, w. auto. Qed.
Lemma acc_vfield key g (sp : bool) v : reads g v ->
  accepts (verbalize_field key (Some g) sp) ((if sp then u " " else []) ++ key ++ u ": """ ++ escape_value v ++ u """").
Proof.
  intros (V & z & w & G). exists z, w. apply verbalize_field_spec. exists v. split; [now apply vtext_spec|]. auto.
Qed.
Lemma acc_vvalue key (sp : bool) v : valid_text v ->
  accepts (verbalize_field key None sp) ((if sp then u " " else []) ++ key ++ u ": """ ++ escape_value v ++ u """").
Proof.
  intros V. exists v, 0%Z. apply verbalize_value_spec. split; [now apply vtext_spec|]. auto.
Qed.
(** A token, last or followed by another. *)
Definition tok_accepts (e : fst) (t : text) : Prop := accepts e t /\ accepts e (t ++ u " ").
Lemma tok_tokens name body b s : accepts body b -> name ++ u " { " ++ b ++ u " }" = s ->
  tok_accepts (delete_tokens name body) s.
Proof.
  intros B <-. unfold delete_tokens. assert (H : accepts (delete name + delete (u " { ") + body + delete (u " }"))%fst
    (((name ++ u " { ") ++ b) ++ u " }")).
  { apply acc_cat; [apply acc_cat; [apply acc_cat; apply acc_delete|exact B]|apply acc_delete]. }
  replace (name ++ u " { " ++ b ++ u " }") with (((name ++ u " { ") ++ b) ++ u " }") by now rewrite <- !app_assoc.
  split.
  - rewrite <- (app_nil_r (_ ++ u " }")). apply acc_cat; [exact H|apply acc_none].
  - apply acc_cat; [exact H|]. apply acc_some, acc_delete.
Qed.
Lemma tok_left a b x : tok_accepts a x -> tok_accepts (a ∪ b)%fst x.
Proof. intros (H & K). split; now apply acc_left. Qed.
Lemma tok_right a b x : tok_accepts b x -> tok_accepts (a ∪ b)%fst x.
Proof. intros (H & K). split; now apply acc_right. Qed.
Lemma tok_union rules e r s : verbalizer_union rules = Some e -> In r rules -> s_verbalize r = true ->
  tok_accepts (r_verbalizer (s_rule r)) s -> tok_accepts e s.
Proof.
  intros E I V ((z & w & A) & (z' & w' & B)). split; [exists z, w|exists z', w']; apply (verbalizers_spec _ _ E); exists r; auto.
Qed.

(** ** Serialised tokens *)
Fixpoint index_of (key : text) (keys : list text) : option nat :=
  match keys with
  | [] => None
  | k :: r => if text_eqb key k then Some 0 else option_map S (index_of key r)
  end.
Lemma dict_get_index {A} key (kv : list (text * A)) :
  dict_get key kv = match index_of key (map Datatypes.fst kv) with
                    | Some i => option_map snd (nth_error kv i)
                    | None => None
                    end.
Proof.
  induction kv as [|(k & v) r IH]; [reflexivity|]. cbn. destruct (text_eqb key k); [reflexivity|].
  rewrite IH. destruct (index_of key (map Datatypes.fst r)); reflexivity.
Qed.
Lemma index_of_key {A} key (kv : list (text * A)) i : index_of key (map Datatypes.fst kv) = Some i ->
  exists v, nth_error kv i = Some (key, v).
Proof.
  revert i. induction kv as [|(k & v) r IH]; intros i; cbn; [discriminate|].
  destruct (text_eqb_spec key k) as [->|D]; [intros [= <-]; cbn; eauto|].
  destruct (index_of key (map Datatypes.fst r)) as [j|]; [|discriminate]. intros [= <-]. cbn. auto.
Qed.
(** The fields of a token by position, in the order they are written out. *)
Definition marked (kv : list (text * text)) : bool :=
  match dict_get (u "preserve_order") kv with Some v => text_eqb v (u "true") | None => false end.
Definition layout (os : orders) (name : text) (keys : list text) (mark : bool) : list nat :=
  let order := match dict_get name os with
               | None => keys
               | Some c => if mark then keys else c ++ filter (fun k => negb (text_mem k c)) keys
               end in
  flat_map (fun k => match index_of k keys with Some i => [i] | None => [] end) order.
Definition field_at (kv : list (text * text)) (i : nat) : text :=
  match nth_error kv i with Some (k, v) => format_field k v | None => [] end.
Lemma token_layout t os : tk_order t = map Datatypes.fst (tk_members t) ->
  token_string t os = tk_name t ++ u " {" ++
    flat_map (field_at (tk_members t)) (layout os (tk_name t) (map Datatypes.fst (tk_members t)) (marked (tk_members t)))
    ++ u " }".
Proof.
  intro E. unfold token_string. do 2 f_equal. f_equal.
  assert (Ef : effective_order t os = match dict_get (tk_name t) os with
               | None => map Datatypes.fst (tk_members t)
               | Some c => if marked (tk_members t) then map Datatypes.fst (tk_members t)
                           else c ++ filter (fun k => negb (text_mem k c)) (map Datatypes.fst (tk_members t))
               end).
  { unfold effective_order, marked. rewrite E. destruct (dict_get (tk_name t) os) as [c|]; [|reflexivity].
    destruct (dict_get (u "preserve_order") (tk_members t)) as [v|]; [|reflexivity].
    destruct (text_eqb v (u "true")); reflexivity. }
  rewrite Ef. unfold layout. clear. generalize (match dict_get (tk_name t) os with
               | None => map Datatypes.fst (tk_members t)
               | Some c => if marked (tk_members t) then map Datatypes.fst (tk_members t)
                           else c ++ filter (fun k => negb (text_mem k c)) (map Datatypes.fst (tk_members t))
               end) as l.
  generalize (tk_members t) as kv. intros kv l. induction l as [|k l IH]; [reflexivity|]. cbn [flat_map].
  rewrite flat_map_app, IH. f_equal. rewrite dict_get_index.
  destruct (index_of k (map Datatypes.fst kv)) as [i|] eqn:Ei; [|reflexivity].
  destruct (index_of_key _ _ _ Ei) as (v & N). cbn [flat_map]. unfold field_at. rewrite N. cbn. now rewrite app_nil_r.
Qed.
Lemma match_cons k g fs kv : fields_match ((k, g) :: fs) kv ->
  exists v kv', kv = (k, v) :: kv' /\ reads g v /\ fields_match fs kv'.
Proof. intro H. inversion H as [|a (k' & v) b kv' (E & R) F]; subst. cbn in E. subst k'. eauto. Qed.
Lemma match_nil kv : fields_match [] kv -> kv = [].
Proof. intro H. now inversion H. Qed.
(** A token of shape [s] is verbalised by [v]. *)
Definition shape_ok (os : orders) (v : fst) (s : token_shape) : Prop := forall t,
  tk_name t = Datatypes.fst s -> fields_match (snd s) (tk_members t) -> tk_order t = map Datatypes.fst (snd s) ->
  tok_accepts v (token_string t os).
Lemma shape_ok_union rules e r os s : verbalizer_union rules = Some e -> In r rules -> s_verbalize r = true ->
  shape_ok os (r_verbalizer (s_rule r)) s -> shape_ok os e s.
Proof. intros E I V H t N M O. eapply tok_union; eauto. Qed.

(** ** The input never contains a character *)
Definition avoids (n : N) (e : fst) : Prop := forall x y w, denote e x y w -> ~ In n x.
Definition absent (n : N) (t : text) : bool := forallb (fun c => negb (c =? n)%N) t.
Lemma absent_spec n t : absent n t = true <-> ~ In n t.
Proof.
  unfold absent. rewrite forallb_forall. split.
  - intros H I. apply H in I. now rewrite N.eqb_refl in I.
  - intros H c I. destruct (N.eqb_spec c n) as [->|]; [contradiction|reflexivity].
Qed.
(** First: [n] is in no input.  Second: an [n] in the input is in the output too. *)
Fixpoint avoidsb (n : N) (e : fst) : bool * bool :=
  match e with
  | Cross x _ => (absent n x, false)
  | Class p => (negb (p n), true)
  | Table l => (forallb (fun e => absent n (Datatypes.fst e)) l, false)
  | Union a b | Cat a b =>
      let ra := avoidsb n a in let rb := avoidsb n b in (Datatypes.fst ra && Datatypes.fst rb, snd ra && snd rb)
  | Star a | Weight _ a => avoidsb n a
  | Input a => (Datatypes.fst (avoidsb n a), true)
  | Erase a => (Datatypes.fst (avoidsb n a), false)
  | Except _ => (false, true)
  | Compose a b =>
      let ra := avoidsb n a in let rb := avoidsb n b in
      (Datatypes.fst ra || snd ra && Datatypes.fst rb, snd ra && snd rb)
  | Rewrite tau _ _ => (false, Datatypes.fst (avoidsb n tau))
  end.
Lemma rewritten_passes (tau : rel) n l r out x y w : (forall p q v, tau p q v -> ~ In n p) ->
  rewritten tau l r out x y w -> In n x -> In n y.
Proof.
  intros T. induction 1 as [out|out p q w rest y v Np H Lo Ro Vp Vq R IH|out c rest y v M Vc R IH]; intro I.
  - exact I.
  - apply in_app_iff. apply in_app_iff in I as [I|I]; [now apply T in H|auto].
  - destruct I as [->|I]; cbn; auto.
Qed.
Lemma avoidsb_sound n e :
  (Datatypes.fst (avoidsb n e) = true -> avoids n e) /\
  (snd (avoidsb n e) = true -> forall x y w, denote e x y w -> In n x -> In n y).
Proof.
  induction e as [x0 y0|p|l|a IHa b IHb|a IHa b IHb|a IHa|k a IHa|a IHa b IHb|a IHa|a IHa|a IHa|tau IHt l r0];
    cbn [avoidsb Datatypes.fst snd]; (split; [|intro Es; try discriminate Es]).
  - intros H x y w (-> & _). now apply absent_spec.
  - intros H x y w (c & -> & _ & P & _) [->|[]]. now rewrite P in H.
  - now intros x y w (c & -> & -> & _).
  - intros H x y w (I & _). rewrite forallb_forall in H. apply absent_spec. exact (H _ I).
  - rewrite andb_true_iff. intros (A & B) x y w [H|H]; [exact (proj1 IHa A _ _ _ H)|exact (proj1 IHb B _ _ _ H)].
  - apply andb_true_iff in Es as (A & B). intros x y w [H|H] I; [exact (proj2 IHa A _ _ _ H I)|exact (proj2 IHb B _ _ _ H I)].
  - rewrite andb_true_iff. intros (A & B) x y w (x1 & y1 & w1 & x2 & y2 & w2 & -> & _ & _ & H1 & H2) I.
    apply in_app_iff in I as [I|I]; [exact (proj1 IHa A _ _ _ H1 I)|exact (proj1 IHb B _ _ _ H2 I)].
  - apply andb_true_iff in Es as (A & B). intros x y w (x1 & y1 & w1 & x2 & y2 & w2 & -> & -> & _ & H1 & H2) I.
    apply in_app_iff. apply in_app_iff in I as [I|I]; [left; exact (proj2 IHa A _ _ _ H1 I)|right; exact (proj2 IHb B _ _ _ H2 I)].
  - intros A x y w H. cbn [denote] in H. induction H as [|x y w x' y' w' H S IH]; intro I; [exact I|].
    apply in_app_iff in I as [I|I]; [exact (proj1 IHa A _ _ _ H I)|contradiction].
  - intros x y w H. cbn [denote] in H. induction H as [|x y w x' y' w' H S IH]; intro I; [exact I|].
    apply in_app_iff. apply in_app_iff in I as [I|I]; [left; exact (proj2 IHa Es _ _ _ H I)|right; auto].
  - intros A x y w (v & _ & H). exact (proj1 IHa A _ _ _ H).
  - intros x y w (v & _ & H). exact (proj2 IHa Es _ _ _ H).
  - rewrite orb_true_iff, andb_true_iff. intros [A|(A & B)] x z w (y & w1 & w2 & _ & H1 & H2) I.
    + exact (proj1 IHa A _ _ _ H1 I).
    + apply (proj2 IHa A _ _ _ H1) in I. exact (proj1 IHb B _ _ _ H2 I).
  - apply andb_true_iff in Es as (A & B). intros x z w (y & w1 & w2 & _ & H1 & H2) I.
    apply (proj2 IHb B _ _ _ H2), (proj2 IHa A _ _ _ H1), I.
  - intros A x y w (_ & z & H). exact (proj1 IHa A _ _ _ H).
  - now intros x y w (-> & _).
  - intros A x y w (_ & z & H). exact (proj1 IHa A _ _ _ H).
  - discriminate.
  - now intros x y w (-> & _).
  - discriminate.
  - intros x y w H. refine (rewritten_passes _ n _ _ _ _ _ _ _ H). intros p q v. apply (proj1 IHt Es).
Qed.
(** The value of a field whose graph has neither quotes nor backslashes on its input side
    is written as it is. *)
Definition unescaped (e : fst) : bool := Datatypes.fst (avoidsb 34 e) && Datatypes.fst (avoidsb 92 e).
Lemma escape_plain v : ~ In 34%N v -> ~ In 92%N v -> escape_value v = v.
Proof.
  induction v as [|c v IH]; intros A B; [reflexivity|]. rewrite escape_step, IH; [|cbn in *; tauto..].
  destruct (N.eqb_spec c 34) as [->|]; [cbn in A; tauto|]. destruct (N.eqb_spec c 92) as [->|]; [cbn in B; tauto|]. reflexivity.
Qed.
Lemma unescaped_spec e v : unescaped e = true -> reads e v -> escape_value v = v.
Proof.
  unfold unescaped. rewrite andb_true_iff. intros (A & B) (_ & z & w & H).
  apply escape_plain; [exact (proj1 (avoidsb_sound _ _) A _ _ _ H)|exact (proj1 (avoidsb_sound _ _) B _ _ _ H)].
Qed.

(** ** Rewriting is total *)
Definition right_okb (r : context) (rest : text) : bool :=
  match r, rest with
  | Anywhere, _ => true
  | Edge, [] => true
  | Next p, c :: _ => p c
  | _, _ => false
  end.
Definition left_okb (l : context) (out : text) : bool := right_okb l (rev out).
Lemma right_okb_spec r rest : right_okb r rest = true <-> right_ok r rest.
Proof.
  destruct r as [| |p], rest as [|c o]; cbn; try tauto; try (split; [discriminate|]).
  - discriminate.
  - intros (c & o & E & _). discriminate.
  - split; [eauto|]. intros (c' & o' & [= -> ->] & P). exact P.
Qed.
Lemma left_okb_spec l out : left_okb l out = true <-> left_ok l out.
Proof.
  unfold left_okb. rewrite right_okb_spec. destruct l as [| |p]; cbn; [tauto| |].
  - split; [|now intros ->]. intro E. rewrite <- (rev_involutive out), E. reflexivity.
  - split.
    + intros (c & o & E & P). exists (rev o), c. split; [|exact P]. rewrite <- (rev_involutive out), E. reflexivity.
    + intros (o & c & -> & P). exists c, (rev o). split; [|exact P]. now rewrite rev_app_distr.
Qed.
Lemma rewrite_total tau l r : simple tau = true -> writes_valid tau = true ->
  forall n x out, List.length x <= n -> forallb vchar x = true -> exists y w, rewritten (denote tau) l r out x y w.
Proof.
  intros Si Va. induction n as [|n IH]; intros x out L V.
  - destruct x; [|cbn in L; lia]. exists [], 0%Z. constructor.
  - destruct x as [|c rest]; [exists [], 0%Z; constructor|].
    set (hits := filter (fun i : item => let '(q, r', w) := i in
      Nat.ltb (List.length r') (List.length (c :: rest)) && (left_okb l out && right_okb r r')) (outs tau (c :: rest))).
    destruct hits as [|((q & r') & w) more] eqn:E.
    + destruct (IH rest (out ++ [c])) as (y & w & H).
      * cbn in L. lia.
      * cbn [forallb] in V. now apply andb_true_iff in V as (_ & V).
      * exists (c :: y), w. constructor; [|cbn [forallb] in V; now apply andb_true_iff in V as (V & _)|exact H].
        intros p q v rest' Ep Np T (Lo & Ro).
        assert (I : In (q, rest', v) hits); [|rewrite E in I; destruct I].
        apply filter_In. split; [apply (outs_spec tau Si); eauto|].
        rewrite (proj2 (left_okb_spec _ _) Lo), (proj2 (right_okb_spec _ _) Ro), !andb_true_r.
        apply Nat.ltb_lt. rewrite Ep, app_length. destruct p; [now destruct Np|cbn; lia].
    + assert (I : In (q, r', w) hits) by (rewrite E; cbn; auto).
      apply filter_In in I as (I & C). rewrite !andb_true_iff in C. destruct C as (Cl & Clo & Cro).
      apply Nat.ltb_lt in Cl. apply left_okb_spec in Clo. apply right_okb_spec in Cro.
      apply (outs_spec tau Si) in I as (p & Ep & T). rewrite Ep in V. rewrite forallb_app in V.
      apply andb_true_iff in V as (Vp & Vr).
      destruct (IH r' (out ++ q)) as (y & v & H); [lia|exact Vr|].
      exists (q ++ y), (w + v)%Z. rewrite Ep. constructor; auto.
      * intros ->. cbn in Ep. rewrite <- Ep in Cl. lia.
      * exact (writes_valid_sound _ Va _ _ _ T Vp).
Qed.
(** A graph that takes every valid text to a valid text. *)
Definition total (e : fst) : Prop := forall x, forallb vchar x = true -> exists y w, denote e x y w /\ forallb vchar y = true.
Lemma total_rewrite tau l r : simple tau = true -> writes_valid tau = true -> total (Rewrite tau l r).
Proof.
  intros Si Va x V. destruct (rewrite_total tau l r Si Va (List.length x) x [] (le_n _) V) as (y & w & H).
  exists y, w. split; [exact H|]. now apply rewritten_valid in H as (_ & H).
Qed.
Lemma total_compose a b : total a -> total b -> total (a @ b)%fst.
Proof.
  intros A B x V. destruct (A x V) as (y & w & H & Vy). destruct (B y Vy) as (z & v & K & Vz).
  exists z, (w + v)%Z. split; [now apply compose_i with y|exact Vz].
Qed.
Lemma total_when b p s : total p -> total s -> total (when b p s).
Proof. intros P S. destruct b; [now apply total_compose|exact P]. Qed.
Lemma total_vsigma : total VSIGMA.
Proof.
  intros x V. exists x, 0%Z. split; [|exact V]. induction x as [|c x IH]; [constructor|].
  cbn [forallb] in V. apply andb_true_iff in V as (Vc & V).
  apply (star_app _ [c] [c] 0%Z x x 0%Z); [exists c; auto|exact (IH V)].
Qed.

(** ** The whole output *)
Definition valid_shape (s : token_shape) : bool :=
  forallb vchar (Datatypes.fst s) && forallb (fun f : field_shape => forallb vchar (Datatypes.fst f)) (snd s).
Lemma escape_valid v : forallb vchar v = true -> forallb vchar (escape_value v) = true.
Proof.
  induction v as [|c v IH]; [reflexivity|]. cbn [forallb]. rewrite andb_true_iff. intros (C & V).
  rewrite escape_step, forallb_app, (IH V), andb_true_r.
  destruct (N.eqb c 34); [reflexivity|]. destruct (N.eqb c 92); [reflexivity|]. cbn. now rewrite C.
Qed.
Lemma token_valid A os t : forallb valid_shape A = true -> shape_token A t -> forallb vchar (token_string t os) = true.
Proof.
  intros F (s & I & En & M & Eo). rewrite forallb_forall in F. specialize (F s I). unfold valid_shape in F.
  apply andb_true_iff in F as (Fn & Fk). rewrite token_layout by now rewrite Eo, (fields_keys _ _ M).
  rewrite !forallb_app, En, Fn. change (forallb vchar (u " {")) with true. change (forallb vchar (u " }")) with true.
  rewrite !andb_true_r. cbn [andb]. generalize (layout os (Datatypes.fst s) (map Datatypes.fst (tk_members t)) (marked (tk_members t))).
  intro l. induction l as [|i l IH]; [reflexivity|]. cbn [flat_map]. rewrite forallb_app, IH, andb_true_r.
  unfold field_at. destruct (nth_error (tk_members t) i) as [(k & v)|] eqn:E; [|reflexivity].
  apply nth_error_In in E. clear -E M Fk. induction M as [|f kv fs kvs (Ek & (V & _)) M IH]; [destruct E|].
  cbn [forallb] in Fk. apply andb_true_iff in Fk as (Ff & Fk). destruct E as [->|E]; [|auto].
  cbn in Ek, V. subst k. unfold format_field. rewrite !forallb_app, Ff.
  rewrite escape_valid by now apply vtext_spec. reflexivity.
Qed.
Lemma join_accepted v (ss : list text) : Forall (tok_accepts v) ss -> accepts (Star v) (join [SP] ss).
Proof.
  induction 1 as [|s ss (A & B) F IH]; [exists [], 0%Z; constructor|].
  destruct ss as [|s' ss].
  - destruct A as (z & w & A). exists z, w. now apply star_one.
  - cbn [join] in *. destruct IH as (z & w & S). destruct B as (z' & w' & B).
    exists (z' ++ z), (w' + w)%Z. rewrite app_assoc. constructor; [exact B|exact S].
Qed.
Lemma tok_compose v post s : tok_accepts v s -> writes_valid v = true -> total post -> forallb vchar s = true ->
  tok_accepts (v @ post)%fst s.
Proof.
  intros ((z & w & A) & (z' & w' & B)) W T V. split.
  - destruct (T z) as (y & k & H & _); [exact (writes_valid_sound _ W _ _ _ A V)|]. exists y, (w + k)%Z. now apply compose_i with z.
  - destruct (T z') as (y & k & H & _).
    { refine (writes_valid_sound _ W _ _ _ B _). now rewrite forallb_app, V. }
    exists y, (w' + k)%Z. now apply compose_i with z'.
Qed.
Lemma serialize_strings os toks : forall ser spans off,
  Datatypes.fst (serialize_loop os toks ser spans off) = ser ++ map (fun t => token_string t os) toks.
Proof.
  induction toks as [|t r IH]; intros ser spans off; cbn [serialize_loop map]; [now rewrite app_nil_r|].
  rewrite IH, <- app_assoc. reflexivity.
Qed.
Lemma reorder_join os y toks : parse y = Ok toks -> reorder os y = Ok (join [SP] (map (fun t => token_string t os) toks)).
Proof.
  intro P. unfold reorder, reorder_with_spans. rewrite P. cbn [bind].
  pose proof (serialize_strings os toks [] [] 0) as S. destruct (serialize_loop os toks [] [] 0) as (ser & spans).
  cbn in *. now rewrite S.
Qed.
(** What is read back: every shape is verbalised. *)
Lemma reads_back A os v y : Forall (shape_ok os v) A -> (exists x, writes A x y) ->
  exists out, reorder os y = Ok out /\ accepts (Star v) out.
Proof.
  intros F (x & W). apply writes_parse in W as (toks & P & _ & Sh). rewrite (reorder_join os y toks P).
  eexists. split; [reflexivity|]. apply join_accepted. apply Forall_forall. intros s I.
  apply in_map_iff in I as (t & <- & I). rewrite Forall_forall in Sh. destruct (Sh t I) as (sh & Ish & En & M & Eo).
  rewrite Forall_forall in F. exact (F sh Ish t En M Eo).
Qed.
Lemma reads_back_post A os v post y : Forall (shape_ok os v) A -> (exists x, writes A x y) ->
  writes_valid v = true -> total post -> forallb valid_shape A = true ->
  exists out, reorder os y = Ok out /\ accepts (Star (v @ post)%fst) out.
Proof.
  intros F (x & W) Va T Vs. apply writes_parse in W as (toks & P & _ & Sh). rewrite (reorder_join os y toks P).
  eexists. split; [reflexivity|]. apply join_accepted. apply Forall_forall. intros s I.
  apply in_map_iff in I as (t & <- & I). rewrite Forall_forall in Sh. pose proof (Sh t I) as S.
  apply tok_compose; auto; [|now apply (token_valid A)]. destruct S as (sh & Ish & En & M & Eo).
  rewrite Forall_forall in F. exact (F sh Ish t En M Eo).
Qed.

(** ** The tagger accepts every valid text *)
Lemma tagger_accepts e x : (forall c, vchar c = true -> exists y w, denote e [c] y w /\ forallb vchar y = true) ->
  forallb vchar x = true -> accepts (trim_end e) x.
Proof.
  intros E V. assert (H : exists m w, denote (Star e) x m w /\ forallb vchar m = true).
  { induction x as [|c x IH]; [exists [], 0%Z; split; [constructor|reflexivity]|].
    cbn [forallb] in V. apply andb_true_iff in V as (Vc & V). destruct (IH V) as (m & w & S & Vm).
    destruct (E c Vc) as (y & k & D & Vy). exists (y ++ m), (k + w)%Z. split.
    - apply (star_app _ [c] y k x m w); assumption.
    - now rewrite forallb_app, Vy, Vm. }
  destruct H as (m & w & S & Vm).
  destruct (rewrite_total (delete (u " ")) Anywhere Edge eq_refl eq_refl (List.length m) m [] (le_n _) Vm) as (y & k & R).
  exists y, (w + k)%Z. apply compose_i with m; [exact S|exact R].
Qed.
Lemma char_tagged c : vchar c = true -> exists y w,
  denote (add_tokens (u "char") (insert (u "value: """) + CHAR + insert (u """"))%fst) [c] y w /\ forallb vchar y = true.
Proof.
  intro V. eexists. eexists. split.
  - change [c] with (([] ++ (([] ++ [c]) ++ [])) ++ @nil N).
    apply cat_i; [apply cat_i; [apply insert_i|apply cat_i; [apply cat_i; [apply insert_i|apply char_i, V]|apply insert_i]]|apply insert_i].
  - rewrite !forallb_app. cbn [forallb andb]. destruct (N.eqb c 34); [reflexivity|]. destruct (N.eqb c 92); [reflexivity|].
    cbn [forallb]. rewrite V. reflexivity.
Qed.
Lemma union_accepts l e x : union_of l = Some e -> forall a, In a l -> forall y w, denote a x y w -> denote e x y w.
Proof. intros E a I y w H. apply (union_of_spec _ _ E). eauto. Qed.

(** Proof steps for a verbalizer. *)
Ltac st :=
  multimatch goal with
  | H : reads ?g _ |- accepts ?g _ => exact (proj2 H)
  | H : reads ?g _ |- accepts (verbalize_field _ (Some ?g) _) _ => exact (acc_vfield _ _ _ _ H)
  | H : reads VCHAR _ |- accepts (verbalize_field _ None _) _ => exact (acc_vvalue _ _ _ (proj1 H))
  | |- accepts (Cat _ _) _ => eapply acc_cat; [st|st]
  | |- accepts (delete _) _ => apply acc_delete
  | |- accepts (insert _) _ => apply acc_insert
  | |- accepts (ques _) _ => apply acc_some; st
  | |- accepts (ques _) _ => apply acc_none
  | |- accepts (Union _ _) _ => apply acc_left; st
  | |- accepts (Union _ _) _ => apply acc_right; st
  end.
Lemma reads_left a b v : reads a v -> reads (a ∪ b)%fst v.
Proof. intros (V & z & w & H). split; [exact V|]. exists z, w. now left. Qed.
Lemma reads_right a b v : reads b v -> reads (a ∪ b)%fst v.
Proof. intros (V & z & w & H). split; [exact V|]. exists z, w. now right. Qed.
Lemma reads_accep s v : reads (accep s) v -> v = s.
Proof. now intros (_ & z & w & -> & _). Qed.
Lemma shape_members fs kv : fields_match fs kv -> map (@Datatypes.fst text fst) fs = map Datatypes.fst kv.
Proof. apply fields_keys. Qed.
(** The members of a token, one hypothesis [reads] for each field. *)
Ltac members :=
  let t := fresh "t" in let En := fresh "En" in let M := fresh "M" in let Eo := fresh "Eo" in
  intros t En M Eo; cbn [Datatypes.fst snd] in En, M, Eo;
  rewrite token_layout by (rewrite Eo; exact (fields_keys _ _ M));
  clear Eo; destruct t as [tn to tm]; cbn [tk_name tk_order tk_members] in *; subst tn;
  repeat (let v := fresh "v" in let kv := fresh "kv" in let R := fresh "R" in
          apply match_cons in M as (v & kv & -> & R & M));
  apply match_nil in M as ->.
Ltac fixed := repeat match goal with R : reads (accep _) _ |- _ => apply reads_accep in R as -> end.
(** The token is laid out. *)
Ltac lay os :=
  match goal with |- tok_accepts _ (_ ++ _ ++ flat_map (field_at ?kv) ?l ++ _) =>
    let l' := eval lazy in l in change l with l'; cbn [flat_map field_at nth_error app]; unfold format_field end.
Ltac same_text :=
  rewrite <- ?app_assoc;
  repeat match goal with |- context [escape_value (u ?s)] =>
    let r := eval vm_compute in (escape_value (u s)) in change (escape_value (u s)) with r end; repeat match goal with |- context [escape_value ?v] => generalize (escape_value v); intro end;
  lazy; reflexivity.
Lemma shapes_union rules e v os A : verbalizer_union rules = Some e -> In v (verbalizers rules) ->
  Forall (shape_ok os v) A -> Forall (shape_ok os e) A.
Proof.
  intros E I. apply Forall_impl. intros s H t N M O. destruct (H t N M O) as ((z & w & D) & (z' & w' & D')).
  split; [exists z, w; exact (union_accepts _ _ _ E v I _ _ D)|exists z', w'; exact (union_accepts _ _ _ E v I _ _ D')].
Qed.
Lemma union_valid l e : union_of l = Some e -> forallb writes_valid l = true -> writes_valid e = true.
Proof.
  revert e. induction l as [|a l IH]; intros e; cbn [union_of]; [discriminate|]. cbn [forallb]. rewrite andb_true_iff.
  destruct (union_of l) as [b|]; intros [= <-] (A & L); [|exact A]. cbn [writes_valid]. now rewrite A, (IH b).
Qed.
Lemma trim_accepts rules e x r k : tagger_union rules = Some e -> In (Weight k r) (taggers rules) ->
  (forall c, vchar c = true -> exists y w, denote r [c] y w /\ forallb vchar y = true) ->
  forallb vchar x = true -> accepts (trim_end e) x.
Proof.
  intros E I C V. apply tagger_accepts; [|exact V]. intros c Vc. destruct (C c Vc) as (y & w & D & Vy).
  exists y, (w + k)%Z. split; [|exact Vy]. refine (union_accepts _ _ _ E _ I _ _ _). exists w. auto.
Qed.
Lemma tag_accepts key g x name : reads g x -> forallb vchar name = true -> forallb vchar key = true ->
  exists y w, denote (add_tokens name (tag_field key g)) x y w /\ forallb vchar y = true.
Proof.
  intros (V & z & w & G) Nn K. apply vtext_spec in V. exists (((name ++ u " { ") ++ key ++ u ": """ ++ escape_value x ++ u """") ++ u " } "), w. split.
  - rewrite <- (app_nil_r x) at 1. change (x ++ []) with (([] ++ x) ++ []). replace w with (0 + w + 0)%Z by lia.
    apply cat_i; [apply cat_i; [apply insert_i|]|apply insert_i].
    apply tag_field_spec. split; [exact V|]. split; [reflexivity|eauto].
  - rewrite !forallb_app, Nn, K, (escape_valid _ V). reflexivity.
Qed.
