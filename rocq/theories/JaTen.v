(** Graphs that never write 一十 (C76). *)
From Coq Require Import List NArith ZArith Bool String Lia Arith.
From Verif Require Import Text TextFacts Fst FstFacts ZhNumberProofs JaSpoken3.
From Verif Require JaTnModel.
Import ListNotations.
Local Open Scope list_scope.

(** Whether nothing it writes has 一十, whether something may begin with 十, end with 一, be empty. *)
Record ends := Ends { e_ok : bool; e_head : bool; e_tail : bool; e_none : bool }.
Definition headed (y : text) : bool := match y with c :: _ => (c =? TEN)%N | [] => false end.
Definition tailed (y : text) : bool := headed (map (fun c => if (c =? dw 49)%N then TEN else 0%N) (rev y)).
Fixpoint free (y : text) : bool := match y with c :: r => (if (c =? dw 49)%N then negb (headed r) else true) && free r | [] => true end.
Definition empty (y : text) : bool := match y with [] => true | _ => false end.
Definition ends_of (y : text) : ends := Ends (free y) (headed y) (tailed y) (empty y).
Definition join2 (a b : ends) : ends := Ends (e_ok a && e_ok b) (e_head a || e_head b) (e_tail a || e_tail b) (e_none a || e_none b).
Fixpoint may (e : fst) : ends :=
  match e with
  | Cross _ y => ends_of y
  | Table l => fold_right (fun p a => join2 (ends_of (snd p)) a) (Ends true false false false) l
  | Union a b => join2 (may a) (may b)
  | Cat a b => let A := may a in let B := may b in
      Ends (e_ok A && e_ok B && negb (e_tail A && e_head B)) (e_head A || (e_none A && e_head B)) (e_tail B || (e_none B && e_tail A)) (e_none A && e_none B)
  | Star a => let A := may a in Ends (e_ok A && negb (e_tail A && e_head A)) (e_head A) (e_tail A) true
  | Weight _ a => may a
  | _ => Ends false true true true
  end.
Definition within (y : text) (i : ends) : Prop :=
  e_ok i = true -> free y = true /\ (headed y = true -> e_head i = true) /\ (tailed y = true -> e_tail i = true) /\ (y = [] -> e_none i = true).
Lemma free_app a b : free (a ++ b) = free a && free b && negb (tailed a && headed b).
Proof.
  induction a as [|c a IH]; [now rewrite andb_true_r|]. cbn [app free]. rewrite IH. destruct a as [|c' a].
  - cbn [app free]. unfold tailed. cbn [rev app map headed]. destruct (c =? dw 49)%N; cbn [headed negb andb]; [rewrite N.eqb_refl; destruct (headed b), (free b); reflexivity|]. change (0 =? TEN)%N with false. destruct (free b); reflexivity.
  - assert (T : tailed (c :: c' :: a) = tailed (c' :: a)).
    { unfold tailed. cbn [rev]. destruct (rev a ++ [c']) as [|z l] eqn:E; [destruct (rev a); discriminate E|]. reflexivity. }
    rewrite T. cbn [app headed]. destruct (c =? dw 49)%N; rewrite ?andb_true_l, ?andb_assoc; reflexivity.
Qed.
Lemma tailed_app a b : tailed (a ++ b) = if empty b then tailed a else tailed b.
Proof.
  unfold tailed. rewrite rev_app_distr, map_app. destruct b as [|c b]; [reflexivity|]. cbn [empty]. destruct (rev (c :: b)) as [|z l] eqn:E; [|reflexivity]. apply (f_equal (@List.length N)) in E. rewrite rev_length in E. discriminate E.
Qed.
Lemma headed_app a b : headed (a ++ b) = if empty a then headed b else headed a.
Proof. destruct a; reflexivity. Qed.
Lemma within_cat a b A B : within a A -> within b B ->
  within (a ++ b) (Ends (e_ok A && e_ok B && negb (e_tail A && e_head B)) (e_head A || (e_none A && e_head B)) (e_tail B || (e_none B && e_tail A)) (e_none A && e_none B)).
Proof.
  intros HA HB. unfold within. cbn [e_ok e_head e_tail e_none]. rewrite !andb_true_iff, negb_true_iff. intros ((OA & OB) & X). destruct (HA OA) as (Fa & Ha & Ta & Na). destruct (HB OB) as (Fb & Hb & Tb & Nb).
  split; [|split; [|split]].
  - rewrite free_app, Fa, Fb. cbn [andb]. destruct (tailed a); [|reflexivity]. destruct (headed b); [|reflexivity]. rewrite (Ta eq_refl), (Hb eq_refl) in X. discriminate X.
  - rewrite headed_app. destruct a as [|c a]; cbn [empty].
    + intro H. rewrite (Hb H), (Na eq_refl). apply orb_true_r.
    + intro H. now rewrite (Ha H).
  - rewrite tailed_app. destruct b as [|c b]; cbn [empty].
    + intro H. rewrite (Ta H), (Nb eq_refl). apply orb_true_r.
    + intro H. now rewrite (Tb H).
  - intro H. apply app_eq_nil in H as (-> & ->). now rewrite (Na eq_refl), (Nb eq_refl).
Qed.
Lemma within_l y A B : within y A -> within y (join2 A B).
Proof. intros H. unfold within, join2. cbn [e_ok e_head e_tail e_none]. rewrite andb_true_iff. intros (O & _). destruct (H O) as (F & Hd & T & N). split; [exact F|]. split; [intro X; now rewrite Hd|]. split; [intro X; now rewrite T|intro X; now rewrite N]. Qed.
Lemma within_r y A B : within y B -> within y (join2 A B).
Proof. intros H. unfold within, join2. cbn [e_ok e_head e_tail e_none]. rewrite andb_true_iff. intros (_ & O). destruct (H O) as (F & Hd & T & N). split; [exact F|]. split; [intro X; rewrite Hd; auto using orb_true_r|]. split; [intro X; rewrite T; auto using orb_true_r|intro X; rewrite N; auto using orb_true_r]. Qed.
Lemma within_self y : within y (ends_of y).
Proof. unfold within, ends_of. cbn [e_ok e_head e_tail e_none]. intro F. split; [exact F|]. split; [auto|]. split; [auto|]. intros ->. reflexivity. Qed.
Lemma may_sound e : forall x y w, denote e x y w -> within y (may e).
Proof.
  induction e as [x y|q|l|a IHa b IHb|a IHa b IHb|a IHa|k a IHa|a IHa b IHb|a IHa|a IHa|a IHa|t IHt l r]; cbn [may]; intros x0 y0 w0 H; try (intro O; discriminate O).
  - destruct H as (_ & -> & _). apply within_self.
  - destruct H as (I & _). induction l as [|p l IH]; [destruct I|]. cbn [fold_right]. destruct I as [->|I]; [apply within_l; apply within_self|apply within_r; exact (IH I)].
  - destruct H as [H|H]; [apply within_l; exact (IHa _ _ _ H)|apply within_r; exact (IHb _ _ _ H)].
  - apply cat_inv in H as (x1 & y1 & w1 & x2 & y2 & w2 & -> & -> & -> & H1 & H2). exact (within_cat _ _ _ _ (IHa _ _ _ H1) (IHb _ _ _ H2)).
  - cbn [denote] in H. induction H as [|x1 y1 w1 x2 y2 w2 H _ IH]; [intros _; repeat split; discriminate|]. specialize (IHa _ _ _ H). pose proof (within_cat _ _ _ _ IHa IH) as C. unfold within in C |- *. cbn [e_ok e_head e_tail e_none] in *.
    intro O. pose proof O as O'. apply andb_true_iff in O' as (OA & X). assert (C' := C). destruct C as (F & Hd & T & N); [rewrite OA, X; now rewrite !andb_true_r|]. split; [exact F|]. split; [|split; [|reflexivity]].
    + intro K. specialize (Hd K). destruct (e_head (may a)); [reflexivity|]. now rewrite andb_false_r in Hd.
    + intro K. specialize (T K). destruct (e_tail (may a)); reflexivity || discriminate T.
  - destruct H as (v & _ & H). exact (IHa _ _ _ H).
Qed.
Lemma free_one_ten y : free y = true -> ~ one_ten y.
Proof.
  intros F (p & q & ->). rewrite free_app in F. apply andb_true_iff in F as (F & _). apply andb_true_iff in F as (_ & F). cbn [app free] in F. rewrite N.eqb_refl in F. cbn [headed] in F. rewrite N.eqb_refl in F. discriminate F.
Qed.
(** The normaliser never says 一十. *)
Lemma integer_never x y w : denote JaTnModel.Cardinal.integer x y w -> ~ one_ten y.
Proof. intro H. apply free_one_ten. apply (may_sound _ _ _ _ H). vm_compute. reflexivity. Qed.
