(** Running any graph whose closures consume input: all its outputs, as a list. *)
From Coq Require Import List NArith ZArith Bool String Lia Arith.
From Verif Require Import Text TextFacts Fst FstFacts FstRun GrammarModel GrammarAccept.
Import ListNotations.
Local Open Scope list_scope.

(** First: no pair with an empty input.  Second: the empty input gives the empty output only. *)
Definition nil_b (t : text) : bool := match t with [] => true | _ => false end.
Fixpoint eats (e : fst) : bool * bool :=
  match e with
  | Cross x y => (negb (nil_b x), negb (nil_b x) || nil_b y)
  | Class _ => (true, true)
  | Table l => (forallb (fun r => negb (nil_b (Datatypes.fst r))) l,
                forallb (fun r => negb (nil_b (Datatypes.fst r)) || nil_b (snd r)) l)
  | Union a b => let ra := eats a in let rb := eats b in
                 (Datatypes.fst ra && Datatypes.fst rb, snd ra && snd rb)
  | Cat a b => let ra := eats a in let rb := eats b in
               (Datatypes.fst ra || Datatypes.fst rb, Datatypes.fst ra || Datatypes.fst rb || snd ra && snd rb)
  | Star a => (false, snd (eats a))
  | Weight _ a => eats a
  | Compose a b => let ra := eats a in let rb := eats b in
                   (Datatypes.fst ra || snd ra && Datatypes.fst rb, Datatypes.fst ra || snd ra && snd rb)
  | Input a | Erase a => (Datatypes.fst (eats a), true)
  | Except _ | Rewrite _ _ _ => (false, true)
  end.
Lemma nil_b_spec t : nil_b t = true <-> t = [].
Proof. destruct t; cbn; split; congruence. Qed.
Lemma app_nil {A} (a b : list A) : [] = a ++ b -> a = [] /\ b = [].
Proof. intro E. symmetry in E. now apply app_eq_nil in E. Qed.
Lemma rewritten_nil tau l r out y w : rewritten tau l r out [] y w -> y = [] /\ w = 0%Z.
Proof.
  intro H. remember [] as x eqn:E in H. destruct H as [|? p q ? rest ? ? N|]; [auto| |discriminate].
  apply app_eq_nil in E as (-> & _). now destruct N.
Qed.
Lemma eats_sound e : (Datatypes.fst (eats e) = true -> forall y w, ~ denote e [] y w) /\
  (snd (eats e) = true -> forall y w, denote e [] y w -> y = []).
Proof.
  induction e as [x0 y0|p|l|a (Ea & Fa) b (Eb & Fb)|a (Ea & Fa) b (Eb & Fb)|a (Ea & Fa)|k a (Ea & Fa)|a (Ea & Fa) b (Eb & Fb)|a (Ea & Fa)|a (Ea & Fa)|a (Ea & Fa)|tau IHt l r0];
    cbn [eats Datatypes.fst snd denote]; (split; [intros H y w|intros H y w]).
  - intros (<- & _). discriminate.
  - intros (<- & -> & _). cbn in H. now apply nil_b_spec.
  - intros (c & E & _). discriminate.
  - intros (c & E & _). discriminate.
  - intros (I & _). rewrite forallb_forall in H. now apply H in I.
  - intros (I & _). rewrite forallb_forall in H. apply H in I. cbn in I. now apply nil_b_spec.
  - apply andb_true_iff in H as (A & B). intros [D|D]; [now apply (Ea A) in D|now apply (Eb B) in D].
  - apply andb_true_iff in H as (A & B). intros [D|D]; [now apply (Fa A) in D|now apply (Fb B) in D].
  - intros (x1 & y1 & w1 & x2 & y2 & w2 & E & _ & _ & D1 & D2). apply app_nil in E as (-> & ->).
    apply orb_true_iff in H as [A|B]; [now apply (Ea A) in D1|now apply (Eb B) in D2].
  - intros (x1 & y1 & w1 & x2 & y2 & w2 & E & -> & _ & D1 & D2). apply app_nil in E as (-> & ->).
    rewrite !orb_true_iff, andb_true_iff in H. destruct H as [[A|B]|(A & B)];
      [now apply (Ea A) in D1|now apply (Eb B) in D2|].
    now rewrite (Fa A _ _ D1), (Fb B _ _ D2).
  - discriminate.
  - intro D. assert (G : forall x y w, star (denote a) x y w -> x = [] -> y = []); [|exact (G _ _ _ D eq_refl)].
    clear - Fa H. induction 1 as [|x y w x' y' w' D S IH]; [auto|]. intro E. apply app_eq_nil in E as (-> & ->).
    now rewrite (Fa H _ _ D), IH.
  - intros (v & _ & D). now apply (Ea H) in D.
  - intros (v & _ & D). exact (Fa H _ _ D).
  - intros (m & w1 & w2 & _ & D1 & D2). apply orb_true_iff in H as [A|H]; [now apply (Ea A) in D1|].
    apply andb_true_iff in H as (A & B). apply (Fa A) in D1 as ->. now apply (Eb B) in D2.
  - intros (m & w1 & w2 & _ & D1 & D2). apply orb_true_iff in H as [A|H]; [now apply (Ea A) in D1|].
    apply andb_true_iff in H as (A & B). apply (Fa A) in D1 as ->. now apply (Fb B) in D2.
  - intros (_ & z & D). now apply (Ea H) in D.
  - now intros (<- & _).
  - intros (_ & z & D). now apply (Ea H) in D.
  - now intros (-> & _).
  - discriminate.
  - now intros (-> & _).
  - discriminate.
  - intro D. now apply rewritten_nil in D as (-> & _).
Qed.
(** Every closure consumes input. *)
Fixpoint loopfree (e : fst) : bool :=
  match e with
  | Cross _ _ | Class _ | Table _ => true
  | Union a b | Cat a b | Compose a b => loopfree a && loopfree b
  | Star a => Datatypes.fst (eats a) && loopfree a
  | Weight _ a | Input a | Erase a | Except a => loopfree a
  | Rewrite tau _ _ => loopfree tau
  end.

(** Outputs with the rest of the input. *)
Definition then_item (y : text) (w : Z) (i : item) : item := let '(y', r, w') := i in (y ++ y', r, (w + w')%Z).
Fixpoint star_run (f : text -> list item) (n : nat) (t : text) : list item :=
  ([], t, 0%Z) ::
  match n with
  | O => []
  | S n => flat_map (fun i : item => let '(y, r, w) := i in
             if Nat.ltb (List.length r) (List.length t) then map (then_item y w) (star_run f n r) else []) (f t)
  end.
Fixpoint rw_run (f : text -> list item) (l r : context) (n : nat) (out x : text) : list (text * Z) :=
  match x, n with
  | [], _ => [([], 0%Z)]
  | _ :: _, O => []
  | c :: rest, S n =>
      let hits := filter (fun i : item => let '(_, rest', _) := i in
        Nat.ltb (List.length rest') (List.length x) && (left_okb l out && right_okb r rest')) (f x) in
      match hits with
      | [] => if vchar c then map (fun i => (c :: Datatypes.fst i, snd i)) (rw_run f l r n (out ++ [c]) rest) else []
      | _ :: _ => flat_map (fun i : item => let '(q, rest', w) := i in
                    if forallb vchar (firstn (List.length x - List.length rest') x) && forallb vchar q
                    then map (fun j => (q ++ Datatypes.fst j, (w + snd j)%Z)) (rw_run f l r n (out ++ q) rest')
                    else []) hits
      end
  end.
Definition ended (i : item) : bool := let '(_, r, _) := i in nil_b r.
Fixpoint run (e : fst) (t : text) : list item :=
  match e with
  | Cross x y => out_item x y t
  | Class p => match t with c :: r => if p c then [([c], r, 0%Z)] else [] | [] => [] end
  | Table l => flat_map (fun e => out_item (Datatypes.fst e) (snd e) t) l
  | Union a b => run a t ++ run b t
  | Cat a b => flat_map (fun i : item => let '(y, r, w) := i in map (then_item y w) (run b r)) (run a t)
  | Star a => star_run (run a) (List.length t) t
  | Weight k a => map (fun i : item => let '(y, r, w) := i in (y, r, (w + k)%Z)) (run a t)
  | Compose a b => flat_map (fun i : item => let '(y, r, w) := i in
      map (fun j : item => let '(z, _, v) := j in (z, r, (w + v)%Z)) (filter ended (run b y))) (run a t)
  | Input a => map (fun i : item => let '(_, r, w) := i in (firstn (List.length t - List.length r) t, r, w)) (run a t)
  | Erase a => map (fun i : item => let '(_, r, w) := i in ([], r, w)) (run a t)
  | Except a => flat_map (fun k => if forallb vchar (firstn k t) && negb (existsb ended (run a (firstn k t)))
                                   then [(firstn k t, skipn k t, 0%Z)] else []) (seq 0 (S (List.length t)))
  | Rewrite tau l r => flat_map (fun k => map (fun j : text * Z => (Datatypes.fst j, skipn k t, snd j))
      (rw_run (run tau) l r (List.length t) [] (firstn k t))) (seq 0 (S (List.length t)))
  end.

Definition lists (f : text -> list item) (R : rel) : Prop :=
  forall t y r w, In (y, r, w) (f t) <-> exists x, t = x ++ r /\ R x y w.
Lemma star_run_spec f R : lists f R -> (forall y w, ~ R [] y w) -> forall n t, List.length t <= n ->
  forall y r w, In (y, r, w) (star_run f n t) <-> exists x, t = x ++ r /\ star R x y w.
Proof.
  intros F C. induction n as [|n IH]; intros t L y r w; cbn [star_run].
  - destruct t; [|cbn in L; lia]. split.
    + intros [[= <- <- <-]|[]]. exists []. split; [reflexivity|constructor].
    + intros (x & E & S). apply app_nil in E as (-> & ->). left.
      inversion S as [|x1 y1 w1 x2 y2 w2 D S2 E]; subst; [reflexivity|].
      apply app_eq_nil in E as (-> & _). now apply C in D.
  - split.
    + intros [[= <- <- <-]|I]; [exists []; split; [reflexivity|constructor]|].
      apply in_flat_map in I as (((y1 & r1) & w1) & I1 & I). apply F in I1 as (x1 & E1 & D1).
      destruct (Nat.ltb_spec (List.length r1) (List.length t)) as [Lt|]; [|destruct I].
      apply in_map_iff in I as (((y2 & r2) & w2) & [= <- <- <-] & I). apply IH in I as (x2 & E2 & S2); [|lia].
      exists (x1 ++ x2). split; [now rewrite E1, E2, app_assoc|now constructor].
    + intros (x & E & S). inversion S as [|x1 y1 w1 x2 y2 w2 D S2]; subst; [now left|right].
      apply in_flat_map. exists (y1, x2 ++ r, w1). split; [apply F; exists x1; split; [now rewrite app_assoc|exact D]|].
      assert (x1 <> []) by (intros ->; now apply C in D).
      assert (Lx : 0 < List.length x1) by (destruct x1; [contradiction|cbn; lia]).
      rewrite !app_length in *. rewrite (proj2 (Nat.ltb_lt _ _)) by lia.
      apply in_map_iff. exists (y2, r, w2). split; [reflexivity|]. apply IH; [rewrite app_length; lia|]. eauto.
Qed.
Lemma firstn_before {A} (x r : list A) : firstn (List.length (x ++ r) - List.length r) (x ++ r) = x.
Proof.
  rewrite app_length, Nat.add_sub. rewrite firstn_app, Nat.sub_diag, firstn_all. cbn. apply app_nil_r.
Qed.
Lemma rw_run_spec f (R : rel) l r : lists f R -> forall n x out, List.length x <= n ->
  forall y w, In (y, w) (rw_run f l r n out x) <-> rewritten R l r out x y w.
Proof.
  intros F. induction n as [|n IH]; intros x out L y w.
  - destruct x; [|cbn in L; lia]. cbn. split.
    + intros [[= <- <-]|[]]. constructor.
    + intro H. apply rewritten_nil in H as (-> & ->). now left.
  - destruct x as [|c rest].
    + cbn. split.
      * intros [[= <- <-]|[]]. constructor.
      * intro H. apply rewritten_nil in H as (-> & ->). now left.
    + set (hits := filter (fun i : item => let '(_, rest', _) := i in
        Nat.ltb (List.length rest') (List.length (c :: rest)) && (left_okb l out && right_okb r rest')) (f (c :: rest))).
      assert (Hits : forall q rest' v, In (q, rest', v) hits <->
        exists p, c :: rest = p ++ rest' /\ p <> [] /\ R p q v /\ left_ok l out /\ right_ok r rest').
      { intros q rest' v. unfold hits. rewrite filter_In, !andb_true_iff, Nat.ltb_lt, left_okb_spec, right_okb_spec, (F (c :: rest) q rest' v).
        split.
        - intros ((p & E & D) & Lt & Lo & Ro). exists p. split; [exact E|]. split; [|auto]. intros ->. cbn in E. rewrite E in Lt. lia.
        - intros (p & E & N & D & Lo & Ro). split; [eauto|]. split; [|auto]. rewrite E, app_length.
          destruct p; [contradiction|cbn; lia]. }
      change (rw_run f l r (S n) out (c :: rest)) with
        (match hits with
         | [] => if vchar c then map (fun i => (c :: Datatypes.fst i, snd i)) (rw_run f l r n (out ++ [c]) rest) else []
         | _ :: _ => flat_map (fun i : item => let '(q, rest', w) := i in
                       if forallb vchar (firstn (List.length (c :: rest) - List.length rest') (c :: rest)) && forallb vchar q
                       then map (fun j => (q ++ Datatypes.fst j, (w + snd j)%Z)) (rw_run f l r n (out ++ q) rest')
                       else []) hits
         end).
      assert (Cases : (hits = [] /\ In (y, w) (if vchar c then map (fun i => (c :: Datatypes.fst i, snd i)) (rw_run f l r n (out ++ [c]) rest) else [])) \/
        In (y, w) (flat_map (fun i : item => let '(q, rest', w) := i in
                       if forallb vchar (firstn (List.length (c :: rest) - List.length rest') (c :: rest)) && forallb vchar q
                       then map (fun j => (q ++ Datatypes.fst j, (w + snd j)%Z)) (rw_run f l r n (out ++ q) rest')
                       else []) hits) <-> rewritten R l r out (c :: rest) y w).
      { split.
        - intros [(E & I)|I].
          + destruct (vchar c) eqn:Vc; [|destruct I]. apply in_map_iff in I as ((y' & w') & [= <- <-] & I).
            apply IH in I; [|cbn in L; lia]. cbn [Datatypes.fst snd]. constructor; auto.
            intros p q v rest' Ep Np D (Lo & Ro). assert (I' : In (q, rest', v) hits) by (apply Hits; eauto 8).
            rewrite E in I'. destruct I'.
          + apply in_flat_map in I as (((q & rest') & v) & Ih & I). apply Hits in Ih as (p & E & N & D & Lo & Ro).
            rewrite E in I at 1 2. rewrite firstn_before in I. destruct (forallb vchar p) eqn:Vp; [|destruct I].
            destruct (forallb vchar q) eqn:Vq; [|destruct I]. cbn [andb] in I.
            apply in_map_iff in I as ((y' & w') & [= <- <-] & I). cbn [Datatypes.fst snd].
            assert (Ll : List.length rest' <= n).
            { assert (List.length (c :: rest) = List.length (p ++ rest')) by now rewrite E.
              rewrite app_length in H. destruct p; [contradiction|cbn in H, L; lia]. }
            apply IH in I; [|exact Ll]. rewrite E. constructor; auto.
        - intro H. inversion H as [|? p q v rest' y' v' N D Lo Ro Vp Vq Rw Eo Ex Ey|? c' rest' y' v' M Vc Rw]; subst.
          + right. apply in_flat_map. exists (q, rest', v). split; [apply Hits; exists p; auto 8|].
            cbn beta iota. rewrite firstn_before, Vp, Vq. cbn [andb]. apply in_map_iff. exists (y', v').
            split; [reflexivity|]. apply IH; [|exact Rw].
            assert (List.length (c :: rest) = List.length (p ++ rest')) by now rewrite Ex.
            rewrite app_length in H0. destruct p; [contradiction|cbn in H0, L; lia].
          + left. split.
            * destruct hits as [|((q & r') & v) more] eqn:Eh; [reflexivity|exfalso].
              assert (I : In (q, r', v) ((q, r', v) :: more)) by now left.
              apply Hits in I as (p & E & N & D & Lo & Ro). exact (M p q v r' E N D (conj Lo Ro)).
            * rewrite Vc. apply in_map_iff. exists (y', w). split; [reflexivity|]. apply IH; [cbn in L; lia|exact Rw]. }
      rewrite <- Cases. destruct hits as [|h more] eqn:Eh.
      * split; [intro I; now left|]. intros [(_ & I)|[]]. exact I.
      * split; [intro I; now right|]. intros [(E & _)|I]; [discriminate|exact I].
Qed.
Theorem run_spec e : loopfree e = true -> lists (run e) (denote e).
Proof.
  induction e as [x0 y0|p|l|a IHa b IHb|a IHa b IHb|a IHa|k a IHa|a IHa b IHb|a IHa|a IHa|a IHa|tau IHt l r0];
    cbn [loopfree]; intros Lf t y r w; cbn [run denote].
  - rewrite out_item_spec. split.
    + intros (-> & -> & ->). eauto.
    + intros (x & -> & -> & -> & ->). auto.
  - split.
    + destruct t as [|c t]; [intros []|]. destruct (p c) eqn:P; [|intros []].
      intros [[= <- <- <-]|[]]. exists [c]. split; [reflexivity|]. exists c. auto.
    + intros (x & -> & c & -> & -> & P & ->). cbn. rewrite P. now left.
  - split.
    + intro I. apply in_flat_map in I as ((p & q) & I & O). apply out_item_spec in O as (-> & -> & ->). eauto.
    + intros (x & -> & I & ->). apply in_flat_map. exists (x, y). split; [exact I|]. now apply out_item_spec.
  - apply andb_true_iff in Lf as (La & Lb). rewrite in_app_iff, (IHa La t y r w), (IHb Lb t y r w). split.
    + intros [(x & E & D)|(x & E & D)]; eauto.
    + intros (x & E & [D|D]); eauto.
  - apply andb_true_iff in Lf as (La & Lb). split.
    + intro I. apply in_flat_map in I as (((y1 & r1) & w1) & I1 & I). apply (IHa La) in I1 as (x1 & -> & D1).
      apply in_map_iff in I as (((y2 & r2) & w2) & [= <- <- <-] & I2). apply (IHb Lb) in I2 as (x2 & -> & D2).
      exists (x1 ++ x2). split; [now rewrite app_assoc|]. exists x1, y1, w1, x2, y2, w2. auto 8.
    + intros (x & -> & x1 & y1 & w1 & x2 & y2 & w2 & -> & -> & -> & D1 & D2). apply in_flat_map.
      exists (y1, x2 ++ r, w1). split; [apply (IHa La); exists x1; split; [now rewrite app_assoc|exact D1]|].
      apply in_map_iff. exists (y2, r, w2). split; [reflexivity|]. apply (IHb Lb). eauto.
  - apply andb_true_iff in Lf as (Ea & La).
    apply (star_run_spec (run a) (denote a) (IHa La) (proj1 (eats_sound a) Ea) _ t (le_n _)).
  - split.
    + intro I. apply in_map_iff in I as (((y1 & r1) & w1) & [= <- <- <-] & I). apply (IHa Lf) in I as (x & -> & D).
      exists x. split; [reflexivity|]. exists w1. auto.
    + intros (x & -> & v & -> & D). apply in_map_iff. exists (y, r, v). split; [reflexivity|]. apply (IHa Lf). eauto.
  - apply andb_true_iff in Lf as (La & Lb). split.
    + intro I. apply in_flat_map in I as (((y1 & r1) & w1) & I1 & I). apply (IHa La) in I1 as (x1 & -> & D1).
      apply in_map_iff in I as (((z & r2) & w2) & [= <- <- <-] & I). apply filter_In in I as (I & E).
      apply nil_b_spec in E as ->. apply (IHb Lb) in I as (x2 & -> & D2). rewrite app_nil_r in *.
      exists x1. split; [reflexivity|]. exists x2, w1, w2. auto.
    + intros (x & -> & m & w1 & w2 & -> & D1 & D2). apply in_flat_map. exists (m, r, w1).
      split; [apply (IHa La); eauto|]. apply in_map_iff. exists (y, [], w2). split; [reflexivity|].
      apply filter_In. split; [|reflexivity]. apply (IHb Lb). exists m. now rewrite app_nil_r.
  - split.
    + intro I. apply in_map_iff in I as (((y1 & r1) & w1) & [= <- <- <-] & I). apply (IHa Lf) in I as (x & -> & D).
      exists x. split; [reflexivity|]. rewrite firstn_before. split; [reflexivity|eauto].
    + intros (x & -> & <- & z & D). apply in_map_iff. exists (z, r, w). rewrite firstn_before.
      split; [reflexivity|]. apply (IHa Lf). eauto.
  - split.
    + intro I. apply in_map_iff in I as (((y1 & r1) & w1) & [= <- <- <-] & I). apply (IHa Lf) in I as (x & -> & D). eauto.
    + intros (x & -> & -> & z & D). apply in_map_iff. exists (z, r, w). split; [reflexivity|]. apply (IHa Lf). eauto.
  - assert (B : forall x, existsb ended (run a x) = true <-> exists z v, denote a x z v).
    { intro x. rewrite existsb_exists. split.
      - intros (((z & q) & v) & I & E). apply nil_b_spec in E as ->. apply (IHa Lf) in I as (x' & -> & D).
        rewrite app_nil_r. eauto.
      - intros (z & v & D). exists (z, [], v). split; [|reflexivity]. apply (IHa Lf). exists x. now rewrite app_nil_r. }
    rewrite in_flat_map. split.
    + intros (k & Ik & I). destruct (forallb vchar (firstn k t)) eqn:V; [|destruct I].
      destruct (existsb ended (run a (firstn k t))) eqn:E; [destruct I|]. destruct I as [[= <- <- <-]|[]].
      exists (firstn k t). split; [now rewrite firstn_skipn|]. repeat split; [exact V|]. intros z v D.
      rewrite (proj2 (B (firstn k t))) in E; [discriminate|eauto].
    + intros (x & -> & -> & -> & V & A). exists (List.length x). split; [apply in_seq; rewrite app_length; lia|].
      rewrite skipn_app, skipn_all, firstn_app, firstn_all, Nat.sub_diag. cbn [app skipn firstn]. rewrite app_nil_r, V.
      destruct (existsb ended (run a x)) eqn:E; [|now left]. apply B in E as (z & v & D). destruct (A _ _ D).
  - split.
    + intro I. apply in_flat_map in I as (k & Ik & I). apply in_seq in Ik.
      apply in_map_iff in I as ((y1 & w1) & [= <- <- <-] & I). exists (firstn k t). split; [now rewrite firstn_skipn|].
      apply (rw_run_spec (run tau) (denote tau) l r0 (IHt Lf)) in I; [exact I|]. rewrite firstn_length. lia.
    + intros (x & -> & D). apply in_flat_map. exists (List.length x). split; [apply in_seq; rewrite app_length; lia|].
      apply in_map_iff. exists (y, w). rewrite skipn_app, skipn_all, Nat.sub_diag. cbn [app skipn Datatypes.fst snd].
      split; [reflexivity|]. rewrite firstn_app, firstn_all, Nat.sub_diag. cbn [firstn]. rewrite app_nil_r.
      apply (rw_run_spec (run tau) (denote tau) l r0 (IHt Lf)); [rewrite app_length; lia|exact D].
Qed.
(** All outputs for a text. *)
Definition outputs_of (e : fst) (x : text) : list (text * Z) :=
  flat_map (fun i : item => let '(y, r, w) := i in if nil_b r then [(y, w)] else []) (run e x).
Lemma outputs_of_spec e x y w : loopfree e = true -> (In (y, w) (outputs_of e x) <-> denote e x y w).
Proof.
  intro Lf. unfold outputs_of. rewrite in_flat_map. split.
  - intros (((y' & r) & w') & I & H). destruct (nil_b r) eqn:E; [|destruct H]. apply nil_b_spec in E as ->.
    destruct H as [[= -> ->]|[]]. apply (run_spec e Lf) in I as (x' & -> & D). now rewrite app_nil_r.
  - intro D. exists (y, [], w). split; [|now left]. apply (run_spec e Lf). exists x. now rewrite app_nil_r.
Qed.
