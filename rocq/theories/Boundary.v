(** Cutting a text where no rule reads across (C63): the generic part. *)
From Coq Require Import List NArith ZArith Bool String Lia Arith.
From Verif Require Import Text TextFacts TokenModel TokenSpec TokenProofs TokenProofs2 Fst FstFacts GrammarModel GrammarShape GrammarAccept.
From Verif Require Import BoundarySpec TokenRun.
From Verif Require EnNumberProofs5.
Import ListNotations.
Local Open Scope list_scope.

(** ** Texts a graph writes that end in a space *)
Definition last_space (y : text) : bool := match rev y with c :: _ => (c =? 32)%N | [] => false end.
Lemma last_space_spec y : last_space y = true -> exists z, y = z ++ [32%N].
Proof.
  unfold last_space. destruct (rev y) as [|c r] eqn:E; [discriminate|]. intro H. apply N.eqb_eq in H as ->. exists (rev r).
  rewrite <- (rev_involutive y), E. reflexivity.
Qed.
(** First: always.  Second: or nothing is written. *)
Fixpoint spaced (e : fst) : bool * bool :=
  match e with
  | Cross _ y => (last_space y, last_space y || text_eqb y [])
  | Union a b => let ra := spaced a in let rb := spaced b in (Datatypes.fst ra && Datatypes.fst rb, snd ra && snd rb)
  | Cat a b => let ra := spaced a in let rb := spaced b in
      (Datatypes.fst rb || Datatypes.fst ra && snd rb, Datatypes.fst rb || Datatypes.fst ra && snd rb || snd ra && snd rb)
  | Weight _ a => spaced a
  | _ => (false, false)
  end.
Definition ends_blank (y : text) : Prop := exists z, y = z ++ [32%N].
Lemma blank_app a b : ends_blank b -> ends_blank (a ++ b).
Proof. intros (z & ->). exists (a ++ z). apply app_assoc. Qed.
Lemma spaced_sound e : forall x y w, denote e x y w ->
  (Datatypes.fst (spaced e) = true -> ends_blank y) /\ (snd (spaced e) = true -> ends_blank y \/ y = []).
Proof.
  induction e as [x0 y0|p|l|a IHa b IHb|a IHa b IHb|a IHa|k a IHa|a IHa b IHb|a IHa|a IHa|a IHa|t IHt l r]; intros x y w H; cbn [spaced Datatypes.fst snd];
    try (split; discriminate).
  - destruct H as (_ & -> & _). split; [apply last_space_spec|]. rewrite orb_true_iff. intros [E|E]; [left; now apply last_space_spec|].
    right. destruct (text_eqb_spec y0 []); [assumption|discriminate].
  - rewrite !andb_true_iff. destruct H as [H|H]; [apply IHa in H|apply IHb in H]; tauto.
  - apply cat_inv in H as (x1 & y1 & w1 & x2 & y2 & w2 & -> & -> & -> & H1 & H2). apply IHa in H1. apply IHb in H2.
    assert (G : Datatypes.fst (spaced b) || Datatypes.fst (spaced a) && snd (spaced b) = true -> ends_blank (y1 ++ y2)).
    { rewrite orb_true_iff, andb_true_iff. intros [E|(E & F)]; [now apply blank_app, H2|].
      destruct (proj2 H2 F) as [X| ->]; [now apply blank_app|rewrite app_nil_r; now apply H1]. }
    split; [exact G|]. rewrite orb_true_iff. intros [E|E]; [left; now apply G|]. apply andb_true_iff in E as (E & F).
    destruct (proj2 H2 F) as [X| ->]; [left; now apply blank_app|]. rewrite app_nil_r. now apply H1.
  - destruct H as (v & _ & H). now apply IHa in H.
Qed.

(** ** Verbalisers that take the space after a token or leave it *)
Fixpoint trailing (e : fst) : bool :=
  match e with
  | Union a b => trailing a && trailing b
  | Cat (Cat _ (Cross x _)) (Union (Cross p q) (Cross r s)) =>
      negb (last_space x) && negb (text_eqb x []) && text_eqb p [32%N] && text_eqb q [] && text_eqb r [] && text_eqb s []
  | _ => false
  end.
Lemma not_blank z x : last_space x = false -> x <> [] -> ends_blank (z ++ x) -> False.
Proof.
  intros L N (y & E). destruct (@exists_last _ x N) as (x' & c & ->). rewrite app_assoc in E. apply app_inj_tail in E as (_ & ->).
  unfold last_space in L. rewrite rev_unit in L. discriminate.
Qed.
Lemma trailing_sound e : trailing e = true -> forall x y w, ~ ends_blank x -> denote e (x ++ [32%N]) y w <-> denote e x y w.
Proof.
  induction e as [x0 y0|p|l|a IHa b IHb|a _ b _|a _|k a _|a _ b _|a _|a _|a _|t _ l r]; try discriminate.
  - cbn [trailing]. rewrite andb_true_iff. intros (Ta & Tb) x y w N. cbn [denote]. now rewrite (IHa Ta _ _ _ N), (IHb Tb _ _ _ N).
  - destruct a as [| | | |a c| | | | | | |]; try discriminate. destruct c as [xe ye| | | | | | | | | | |]; try discriminate.
    destruct b as [| | |b1 b2| | | | | | | |]; try discriminate. destruct b1 as [p q| | | | | | | | | | |]; try discriminate. destruct b2 as [r s| | | | | | | | | | |]; try discriminate.
    cbn [trailing]. rewrite !andb_true_iff, !negb_true_iff. intros (((((L & Nx) & Ep) & Eq) & Er) & Es) x y w N.
    destruct (text_eqb_spec xe []) as [|Nx']; [discriminate|]. destruct (text_eqb_spec p [32%N]) as [->|]; [|discriminate].
    destruct (text_eqb_spec q []) as [->|]; [|discriminate]. destruct (text_eqb_spec r []) as [->|]; [|discriminate]. destruct (text_eqb_spec s []) as [->|]; [|discriminate].
    assert (Core : forall x y w, denote (a + Cross xe ye)%fst x y w -> ~ ends_blank x).
    { intros x' y' w' H B. apply cat_inv in H as (x1 & y1 & w1 & x2 & y2 & w2 & -> & _ & _ & _ & (-> & _)). exact (not_blank _ _ L Nx' B). }
    split; intro H; apply cat_inv in H as (x1 & y1 & w1 & x2 & y2 & w2 & E & -> & -> & H1 & [(-> & -> & ->)|(-> & -> & ->)]).
    + apply app_inj_tail in E as (-> & _). rewrite <- (app_nil_r x1). apply cat_i; [exact H1|right; now cbn].
    + rewrite app_nil_r in E. subst x1. exfalso. apply (Core _ _ _ H1). now exists x.
    + exfalso. apply N. rewrite E. now exists x1.
    + rewrite app_nil_r in E. subst x1. apply cat_i; [exact H1|left; now cbn].
Qed.

(** ** Cutting what is tagged *)
Lemma union_spec rules e : tagger_union rules = Some e -> forall x y w, denote e x y w -> exists s k, In s rules /\ denote (r_tagger (s_rule s)) x y k.
Proof. intros E x y w H. apply (taggers_spec _ _ E) in H as (s & k & I & _ & H). eauto. Qed.
Lemma star_apart (r : rel) x y w : star r x y w -> forall a b, x = a ++ b ->
  (forall a' p q b' y w, a = a' ++ p -> b = q ++ b' -> p <> [] -> q <> [] -> ~ r (p ++ q) y w) ->
  exists y1 w1 y2 w2, y = y1 ++ y2 /\ w = (w1 + w2)%Z /\ star r a y1 w1 /\ star r b y2 w2.
Proof.
  induction 1 as [|p t k q t' k' H S IH]; intros a b E U.
  - symmetry in E. apply app_eq_nil in E as (-> & ->). exists [], 0%Z, [], 0%Z. repeat split; constructor.
  - apply app_eq_app in E as (l & [(-> & ->)|(-> & ->)]).
    + destruct l as [|c l].
      { rewrite app_nil_r in H. cbn [app] in *. exists t, k, t', k'. split; [reflexivity|]. split; [reflexivity|]. split; [|exact S].
        rewrite <- (app_nil_r a), <- (app_nil_r t), <- (Z.add_0_r k). constructor; [exact H|constructor]. }
      destruct a as [|d a].
      { exists [], 0%Z, (t ++ t'), (k + k')%Z. split; [reflexivity|]. split; [lia|]. split; [constructor|]. cbn [app] in *. change (c :: l ++ q) with ((c :: l) ++ q). now constructor. }
      exfalso. exact (U [] (d :: a) (c :: l) q t k eq_refl eq_refl ltac:(discriminate) ltac:(discriminate) H).
    + destruct (IH l b eq_refl) as (y1 & w1 & y2 & w2 & -> & -> & S1 & S2).
      { intros a' p' q' b' y w -> Eb. exact (U (p ++ a') p' q' b' y w (app_assoc _ _ _) Eb). }
      exists (t ++ y1), (k + w1)%Z, y2, w2. split; [apply app_assoc|]. split; [lia|]. split; [now constructor|exact S2].
Qed.
Lemma star_join (r : rel) a y1 w1 : star r a y1 w1 -> forall b y2 w2, star r b y2 w2 -> star r (a ++ b) (y1 ++ y2) (w1 + w2)%Z.
Proof.
  induction 1 as [|p t k q t' k' H S IH]; intros b y2 w2 S2; [exact S2|]. rewrite <- !app_assoc, <- Z.add_assoc. constructor; auto.
Qed.
Lemma rewritten_valid (tau : rel) l r o x y w : rewritten tau l r o x y w -> forallb vchar x = true.
Proof.
  induction 1 as [|o p q w rest y v Np T Lo Ro Vp Vq R IH|o c rest y v M Vc R IH]; [reflexivity|now rewrite forallb_app, Vp|cbn; now rewrite Vc].
Qed.
Lemma trimmed z : forallb vchar z = true -> rewritten (denote (delete (u " "))) Anywhere Edge [] (z ++ [32%N]) z 0%Z.
Proof.
  intro V. destruct (total_rewrite (delete (u " ")) Anywhere Edge eq_refl eq_refl (z ++ [32%N])) as (y & k & R & _); [now rewrite forallb_app, V|].
  destruct (EnNumberProofs5.trim_space _ _ _ _ R z eq_refl) as (-> & ->). exact R.
Qed.

Section Trim.
Variable e : fst.
Hypothesis Blank : forall x y w, denote e x y w -> ends_blank y.
Lemma star_blank x y w : denote (Star e) x y w -> x <> [] -> ends_blank y.
Proof.
  cbn [denote]. induction 1 as [|p t k q t' k' H S IH]; intro N; [contradiction|]. destruct S as [|p2 t2 k2 q2 t3 k3 H2 S2].
  - rewrite app_nil_r. exact (Blank _ _ _ H).
  - apply blank_app. destruct p2 as [|c p2].
    + cbn [app] in *. destruct q2 as [|c q2]; [|apply IH; discriminate]. clear IH N.
      apply (star_app (denote e) _ _ _ _ _ _ H2) in S2. clear -S2 H2 Blank.
      remember (t2 ++ t3) as y eqn:Ey. remember ([] ++ []) as x eqn:Ex. assert (Ny : y <> []).
      { rewrite Ey. destruct (Blank _ _ _ H2) as (z & ->). now destruct z. }
      clear H2 Ey Ex. induction S2 as [|p t k q t' k' H S IH]; [contradiction|].
      destruct t' as [|c t']; [rewrite app_nil_r; exact (Blank _ _ _ H)|]. apply blank_app, IH. discriminate.
    + apply IH. discriminate.
Qed.
Lemma trim_denote x y w : x <> [] -> denote (trim_end e) x y w <-> denote (Star e) x (y ++ [32%N]) w /\ forallb vchar y = true.
Proof.
  intro N. split.
  - intros (m & w1 & w2 & -> & S & R). destruct (star_blank _ _ _ S N) as (z & ->).
    pose proof (rewritten_valid _ _ _ _ _ _ _ R) as V. rewrite forallb_app in V. apply andb_true_iff in V as (V & _).
    destruct (EnNumberProofs5.trim_space _ _ _ _ R z eq_refl) as (-> & ->). rewrite Z.add_0_r. auto.
  - intros (S & V). exists (y ++ [32%N]), w, 0%Z. split; [lia|]. split; [exact S|]. now apply trimmed.
Qed.
End Trim.

Section Cut.
Variables (e g : fst) (A : list token_shape) (os : orders).
Hypothesis Emits : emits e A.
Hypothesis Blank : forall x y w, denote e x y w -> ends_blank y.
Hypothesis Closed : forall x y w, denote g x y w -> closed (run Init x) = true.
Hypothesis Trailing : forall x y w, ~ ends_blank x -> denote g (x ++ [32%N]) y w <-> denote g x y w.
Local Notation t := (trim_end e).
Local Notation v := (Star g).

Section Place.
Variables a b : text.
Hypothesis Na : a <> [].
Hypothesis Nb : b <> [].
Hypothesis Uncrossed : forall a' p q b' y w, a = a' ++ p -> b = q ++ b' -> p <> [] -> q <> [] -> ~ denote e (p ++ q) y w.
Lemma tag_cut y w : denote t (a ++ b) y w <->
  exists y1 w1 y2 w2, y = y1 ++ u " " ++ y2 /\ w = (w1 + w2)%Z /\ denote t a y1 w1 /\ denote t b y2 w2.
Proof.
  rewrite (trim_denote e Blank) by now destruct a. split.
  - intros (S & V). destruct (star_apart _ _ _ _ S a b eq_refl Uncrossed) as (y1 & w1 & y2 & w2 & E & -> & S1 & S2).
    destruct (star_blank e Blank _ _ _ S1 Na) as (z1 & ->). destruct (star_blank e Blank _ _ _ S2 Nb) as (z2 & ->).
    rewrite app_assoc in E. apply app_inj_tail in E as (-> & _). rewrite forallb_app, andb_true_iff in V. destruct V as (V1 & V2).
    rewrite forallb_app, andb_true_iff in V1. exists z1, w1, z2, w2. split; [now rewrite <- app_assoc|]. split; [reflexivity|].
    rewrite !(trim_denote e Blank) by assumption. tauto.
  - intros (y1 & w1 & y2 & w2 & -> & -> & T1 & T2). apply (trim_denote e Blank) in T1 as (T1 & V1); [|assumption]. apply (trim_denote e Blank) in T2 as (T2 & V2); [|assumption]. split.
    + pose proof (star_join _ _ _ _ T1 _ _ _ T2) as S. cbn [denote]. replace ((y1 ++ u " " ++ y2) ++ [32%N]) with ((y1 ++ [32%N]) ++ y2 ++ [32%N]); [exact S|].
      rewrite <- !app_assoc. reflexivity.
    + rewrite !forallb_app, V1, V2. reflexivity.
Qed.
End Place.

(** ** Cutting what is put in order *)
Lemma tagged_tokens x y w : x <> [] -> denote t x y w -> exists ts, stream 0 y ts /\ ts <> [] /\ y <> [].
Proof.
  intros N H. destruct (emits_trim e A x y w Emits H) as [(-> & _)|W]; [contradiction|].
  destruct (W 0) as (ts & S & Nt & _). exists ts. split; [exact S|]. split; [exact Nt|]. intros ->. inversion S as [o n E|o n t' name fs rest ts' T S' E E2]; subst; [now apply Nt|].
  destruct T as (body & -> & (Nn & _) & _). apply app_eq_nil in E2 as (_ & E2). apply app_eq_nil in E2 as (E2 & _).
  apply app_eq_nil in E2 as (E2 & _). contradiction.
Qed.
Definition strings (ts : list stoken) : list text := map (fun s => token_string (to_token s) os) ts.
Lemma reorder_stream y ts : y <> [] -> stream 0 y ts -> reorder os y = Ok (join [SP] (strings ts)).
Proof. intros N S. rewrite (reorder_join os y _ (parse_complete y ts N S)), map_map. reflexivity. Qed.
Lemma join_app (a b : list text) : a <> [] -> b <> [] -> join [SP] (a ++ b) = join [SP] a ++ u " " ++ join [SP] b.
Proof.
  intros Na Nb. induction a as [|s a IH]; [contradiction|]. destruct a as [|s' a].
  - destruct b as [|s' b]; [contradiction|]. reflexivity.
  - change (join [SP] ((s :: s' :: a) ++ b)) with (s ++ [SP] ++ join [SP] ((s' :: a) ++ b)). rewrite IH by discriminate.
    change (join [SP] (s :: s' :: a)) with (s ++ [SP] ++ join [SP] (s' :: a)). now rewrite <- !app_assoc.
Qed.
Lemma reorder_cut y1 y2 ts1 ts2 : y1 <> [] -> y2 <> [] -> ts1 <> [] -> ts2 <> [] -> stream 0 y1 ts1 -> stream 0 y2 ts2 ->
  reorder os (y1 ++ u " " ++ y2) = Ok (join [SP] (strings ts1) ++ u " " ++ join [SP] (strings ts2)).
Proof.
  intros N1 N2 M1 M2 S1 S2. pose proof (stream_shift _ _ _ S2 (S (List.length y1))) as S3. cbn [Nat.add] in S3. apply stream_space in S3.
  pose proof (stream_app _ _ _ S1 _ _ S3) as S. erewrite reorder_stream; [|now destruct y1|exact S].
  unfold strings. rewrite map_app, map_map, join_app.
  - do 4 f_equal.
  - now destruct ts1.
  - now destruct ts2.
Qed.
Lemma strings_done y ts : stream 0 y ts -> Forall (fun s => run Init s = Done) (strings ts).
Proof.
  intro S. apply stream_facts in S. unfold strings. apply Forall_forall. intros s I. apply in_map_iff in I as (k & <- & I).
  rewrite Forall_forall in S. destruct (S _ I) as (Nm & Fs & _). now apply token_run.
Qed.

(** ** Cutting what is verbalised *)
Lemma done_blank s : run Init s = Done -> ~ ends_blank s.
Proof. intros R (z & ->). rewrite run_app in R. destruct (run Init z); discriminate. Qed.
Lemma verb_first s rest d w : run Init s = Done -> star (denote g) (s ++ u " " ++ rest) d w ->
  exists d1 w1 d2 w2, d = d1 ++ d2 /\ w = (w1 + w2)%Z /\ denote g s d1 w1 /\ star (denote g) rest d2 w2.
Proof.
  intros R H. remember (s ++ u " " ++ rest) as x eqn:E. destruct H as [|p d1 w1 q d2 w2 H S].
  - exfalso. symmetry in E. apply app_eq_nil in E as (-> & _). discriminate.
  - exists d1, w1, d2, w2. split; [reflexivity|]. split; [reflexivity|]. destruct (closed_prefix p q s _ R (Closed _ _ _ H) E) as [-> | ->].
    + exfalso. apply app_inv_head in E. subst q. remember (u " " ++ rest) as x eqn:Ex. destruct S as [|p2 d3 w3 q2 d4 w4 H2 S2]; [discriminate|].
      pose proof (Closed _ _ _ H2) as C. destruct p2 as [|c p2]; [discriminate|]. injection Ex as -> _. unfold run in C. cbn [fold_left step] in C.
      change (closed (run Dead p2) = true) in C. rewrite run_dead in C. discriminate.
    + rewrite <- app_assoc in E. apply app_inv_head in E. injection E as ->. split; [|exact S]. now apply Trailing; [apply done_blank|].
Qed.
Lemma verb_cut ss rest d w : Forall (fun s => run Init s = Done) ss -> ss <> [] ->
  (denote v (join [SP] ss ++ u " " ++ rest) d w <->
   exists d1 w1 d2 w2, d = d1 ++ d2 /\ w = (w1 + w2)%Z /\ denote v (join [SP] ss) d1 w1 /\ denote v rest d2 w2).
Proof.
  intros F N. cbn [denote]. revert d w. induction F as [|s ss R F IH]; intros d w; [contradiction|]. clear N. destruct ss as [|s' ss].
  - cbn [join]. split.
    + intro H. apply verb_first in H as (d1 & w1 & d2 & w2 & -> & -> & H & S); [|exact R]. exists d1, w1, d2, w2. split; [reflexivity|]. split; [reflexivity|].
      split; [|exact S]. rewrite <- (app_nil_r s), <- (app_nil_r d1), <- (Z.add_0_r w1). constructor; [exact H|constructor].
    + intros (d1 & w1 & d2 & w2 & -> & -> & H & S). remember s as x eqn:Ex in H. destruct H as [|p d3 w3 q d4 w4 H S2]; [rewrite <- Ex in R; discriminate|].
      assert (E : p ++ q = s ++ []) by (rewrite app_nil_r; exact Ex). destruct (closed_prefix p q s [] R (Closed _ _ _ H) E) as [-> | ->].
      * apply app_inv_head in E. subst q. remember [] as n eqn:En in S2. destruct S2 as [|p2 d5 w5 q2 d6 w6 H2 S3].
        -- rewrite !app_nil_r, Z.add_0_r. rewrite app_assoc. constructor; [|exact S]. now apply Trailing; [apply done_blank|].
        -- apply app_eq_nil in En as (-> & _). apply Closed in H2. discriminate.
      * exfalso. rewrite app_nil_r in E. apply (f_equal (@List.length N)) in E. rewrite !app_length in E. cbn in E. lia.
  - specialize (IH ltac:(discriminate)). change (join [SP] (s :: s' :: ss)) with (s ++ [SP] ++ join [SP] (s' :: ss)). rewrite <- !app_assoc. split.
    + intro H. apply verb_first in H as (d1 & w1 & d2 & w2 & -> & -> & H & S); [|exact R].
      apply IH in S as (d3 & w3 & d4 & w4 & -> & -> & S3 & S4). exists (d1 ++ d3), (w1 + w3)%Z, d4, w4. split; [apply app_assoc|]. split; [lia|]. split; [|exact S4].
      rewrite app_assoc. constructor; [|exact S3]. now apply Trailing; [apply done_blank|].
    + intros (d1 & w1 & d2 & w2 & -> & -> & H & S). apply verb_first in H as (d3 & w3 & d4 & w4 & -> & -> & H & S3); [|exact R].
      rewrite <- app_assoc, <- Z.add_assoc. rewrite app_assoc. constructor; [now apply Trailing; [apply done_blank|]|]. apply IH. exists d4, w4, d2, w2. auto.
Qed.

(** ** Cutting the answers *)
Lemma outputs_cut (r1 r2 r3 : rel) x1 x2 x3 (f : text -> text -> text) :
  (forall y w, r3 x3 y w <-> exists y1 w1 y2 w2, y = f y1 y2 /\ w = (w1 + w2)%Z /\ r1 x1 y1 w1 /\ r2 x2 y2 w2) ->
  forall y, best_output r3 x3 y <-> exists y1 y2, y = f y1 y2 /\ best_output r1 x1 y1 /\ best_output r2 x2 y2.
Proof.
  intros J y. split.
  - intros (w & H & M). apply J in H as (y1 & w1 & y2 & w2 & -> & -> & H1 & H2). exists y1, y2. split; [reflexivity|]. split.
    + exists w1. split; [exact H1|]. intros z k K. specialize (M (f z y2) (k + w2)%Z). enough (w1 + w2 <= k + w2)%Z by lia. apply M, J. eauto 10.
    + exists w2. split; [exact H2|]. intros z k K. specialize (M (f y1 z) (w1 + k)%Z). enough (w1 + w2 <= w1 + k)%Z by lia. apply M, J. eauto 10.
  - intros (y1 & y2 & -> & (w1 & H1 & M1) & (w2 & H2 & M2)). exists (w1 + w2)%Z. split; [apply J; eauto 10|]. intros z k K.
    apply J in K as (z1 & k1 & z2 & k2 & -> & -> & K1 & K2). specialize (M1 _ _ K1). specialize (M2 _ _ K2). lia.
Qed.
Theorem answers_cut a b : a <> [] -> b <> [] ->
  (forall a' p q b' y w, a = a' ++ p -> b = q ++ b' -> p <> [] -> q <> [] -> ~ denote e (p ++ q) y w) ->
  forall d, best_answer os t v (a ++ b) d <-> exists d1 d2, d = d1 ++ d2 /\ best_answer os t v a d1 /\ best_answer os t v b d2.
Proof.
  intros Na Nb U d. pose proof (outputs_cut _ _ _ _ _ _ (fun y1 y2 => y1 ++ u " " ++ y2) (tag_cut a b Na Nb U)) as Ot. split.
  - intros (y & r & T & R & V). apply Ot in T as (y1 & y2 & -> & T1 & T2).
    assert (S1 : exists ts, stream 0 y1 ts /\ ts <> [] /\ y1 <> []) by (destruct T1 as (w & T1 & _); exact (tagged_tokens _ _ _ Na T1)).
    assert (S2 : exists ts, stream 0 y2 ts /\ ts <> [] /\ y2 <> []) by (destruct T2 as (w & T2 & _); exact (tagged_tokens _ _ _ Nb T2)).
    destruct S1 as (ts1 & S1 & M1 & N1). destruct S2 as (ts2 & S2 & M2 & N2). rewrite (reorder_cut y1 y2 ts1 ts2) in R by assumption. injection R as <-.
    assert (M1' : strings ts1 <> []) by (unfold strings; now destruct ts1).
    apply (outputs_cut _ _ _ _ _ _ (@app N) (fun d w => verb_cut (strings ts1) (join [SP] (strings ts2)) d w (strings_done _ _ S1) M1')) in V.
    destruct V as (d1 & d2 & -> & V1 & V2). exists d1, d2. split; [reflexivity|]. split.
    + exists y1, (join [SP] (strings ts1)). split; [exact T1|]. split; [now apply reorder_stream|exact V1].
    + exists y2, (join [SP] (strings ts2)). split; [exact T2|]. split; [now apply reorder_stream|exact V2].
  - intros (d1 & d2 & -> & (y1 & r1 & T1 & R1 & V1) & (y2 & r2 & T2 & R2 & V2)).
    assert (S1 : exists ts, stream 0 y1 ts /\ ts <> [] /\ y1 <> []) by (destruct T1 as (w & T1 & _); exact (tagged_tokens _ _ _ Na T1)).
    assert (S2 : exists ts, stream 0 y2 ts /\ ts <> [] /\ y2 <> []) by (destruct T2 as (w & T2 & _); exact (tagged_tokens _ _ _ Nb T2)).
    destruct S1 as (ts1 & S1 & M1 & N1). destruct S2 as (ts2 & S2 & M2 & N2).
    rewrite (reorder_stream y1 ts1) in R1 by assumption. injection R1 as <-. rewrite (reorder_stream y2 ts2) in R2 by assumption. injection R2 as <-.
    exists (y1 ++ u " " ++ y2), (join [SP] (strings ts1) ++ u " " ++ join [SP] (strings ts2)). split; [apply Ot; eauto|].
    split; [now apply reorder_cut|].
    assert (M1' : strings ts1 <> []) by (unfold strings; now destruct ts1).
    apply (outputs_cut _ _ _ _ _ _ (@app N) (fun d w => verb_cut (strings ts1) (join [SP] (strings ts2)) d w (strings_done _ _ S1) M1')). eauto.
Qed.
End Cut.
