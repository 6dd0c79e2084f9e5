(** Reading along a token: where it closes, and graphs that read exactly one (C63). *)
From Coq Require Import List NArith ZArith Bool String Lia Arith.
From Verif Require Import Text TextFacts TokenModel TokenSpec TokenProofs TokenProofs2 Fst FstFacts GrammarModel GrammarAccept.
Import ListNotations.
Local Open Scope list_scope.

Inductive place := Init | Out | Quo | Esc | Done | Trail | Dead.
Definition step (s : place) (c : N) : place :=
  match s with
  | Init => if (c =? 34)%N || (c =? 125)%N || (c =? 32)%N then Dead else Out
  | Out => if (c =? 34)%N then Quo else if (c =? 125)%N then Done else Out
  | Quo => if (c =? 34)%N then Out else if (c =? 92)%N then Esc else Quo
  | Esc => Quo
  | Done => if (c =? 32)%N then Trail else Dead
  | Trail | Dead => Dead
  end.
Definition run (s : place) (x : text) : place := fold_left step x s.
Lemma run_app s x y : run s (x ++ y) = run (run s x) y.
Proof. apply fold_left_app. Qed.
Lemma run_dead x : run Dead x = Dead.
Proof. induction x as [|c x IH]; [reflexivity|exact IH]. Qed.
Definition closed (s : place) : bool := match s with Done | Trail => true | _ => false end.
Lemma run_closed s x : closed s = true -> closed (run s x) = true -> x = [] \/ s = Done /\ x = [32%N].
Proof.
  destruct s; try discriminate; intros _; destruct x as [|c x]; auto; intro R; right; unfold run in R; cbn [fold_left step] in R.
  - destruct (N.eqb_spec c 32) as [->|]; [|change (closed (run Dead x) = true) in R; rewrite run_dead in R; discriminate].
    split; [reflexivity|]. destruct x as [|d x]; [reflexivity|]. cbn [fold_left step] in R. change (closed (run Dead x) = true) in R.
    rewrite run_dead in R. discriminate.
  - change (closed (run Dead x) = true) in R. rewrite run_dead in R. discriminate.
Qed.
(** A text that closes at its end is not the beginning of another one, but for the space. *)
Lemma closed_prefix x s t r : run Init t = Done -> closed (run Init x) = true -> x ++ s = t ++ r -> x = t \/ x = t ++ [32%N].
Proof.
  intros T C E. apply app_eq_app in E as (l & [(-> & _)|(-> & _)]).
  - rewrite run_app, T in C. apply run_closed in C as [->|(_ & ->)]; [left; now rewrite app_nil_r|auto|reflexivity].
  - rewrite run_app in T. assert (C' : closed (run (run Init x) l) = true) by now rewrite T.
    apply run_closed in C' as [->|(E & ->)]; [left; now rewrite app_nil_r| |exact C].
    rewrite E in T. discriminate.
Qed.

(** ** The tokens a parser writes *)
Lemma key_out s k : is_name k -> s = Init \/ s = Out -> run s k = Out.
Proof.
  intros (N & F) S. destruct k as [|c k]; [congruence|]. inversion F as [|c' k' L F' E]; subst c' k'. clear N F.
  assert (O : run Out k = Out).
  { clear -F'. induction F' as [|c k L F IH]; [reflexivity|]. unfold run in *. cbn [fold_left step].
    destruct (N.eqb_spec c 34) as [->|]; [unfold letter in L; lia|]. destruct (N.eqb_spec c 125) as [->|]; [unfold letter in L; lia|]. exact IH. }
  unfold run in *. cbn [fold_left]. replace (step s c) with Out; [exact O|].
  destruct S as [-> | ->]; cbn [step]; destruct (N.eqb_spec c 34) as [->|]; try (unfold letter in L; lia);
    destruct (N.eqb_spec c 125) as [->|]; try (unfold letter in L; lia); cbn [orb]; [|reflexivity].
  destruct (N.eqb_spec c 32) as [->|]; [unfold letter in L; lia|reflexivity].
Qed.
Lemma replace_app c t a b : replace_char c t (a ++ b) = replace_char c t a ++ replace_char c t b.
Proof. unfold replace_char. apply flat_map_app. Qed.
Lemma value_quo v : run Quo (escape_value v) = Quo.
Proof.
  induction v as [|c v IH]; [reflexivity|]. unfold escape_value in *. change (c :: v) with ([c] ++ v). rewrite !replace_app, run_app.
  replace (run Quo (replace_char QUOTE [BSL; QUOTE] (replace_char BSL [BSL; BSL] [c]))) with Quo; [exact IH|].
  unfold replace_char, QUOTE, BSL. cbn [flat_map app].
  destruct (N.eqb_spec c 92) as [->|B]; [reflexivity|]. cbn [flat_map app]. destruct (N.eqb_spec c 34) as [->|Q]; [reflexivity|].
  cbn [run fold_left step app]. unfold run. cbn [fold_left step].
  destruct (N.eqb_spec c 34); [contradiction|]. destruct (N.eqb_spec c 92); [contradiction|reflexivity].
Qed.
Lemma field_out k v : is_name k -> run Out (format_field k v) = Out.
Proof.
  intro N. unfold format_field. rewrite !run_app. change (run Out [SP]) with Out. rewrite (key_out Out k N (or_intror eq_refl)).
  change (run Out [COLON; SP; QUOTE]) with Quo. rewrite value_quo. reflexivity.
Qed.
Lemma token_run os t : is_name (st_name t) -> Forall (fun kv => is_name (Datatypes.fst kv)) (st_fields t) ->
  run Init (token_string (to_token t) os) = Done.
Proof.
  intros N F. unfold token_string. cbn [to_token tk_name tk_members]. rewrite !run_app, (key_out Init _ N (or_introl eq_refl)).
  change (run Out [SP; LBRACE]) with Out.
  replace (run Out (flat_map _ _)) with Out; [reflexivity|]. symmetry.
  induction (effective_order (to_token t) os) as [|k l IH]; [reflexivity|]. cbn [flat_map]. rewrite run_app.
  destruct (dict_get k (st_fields t)) as [v|] eqn:E; [|exact IH]. rewrite field_out; [exact IH|].
  apply dict_get_In in E. rewrite Forall_forall in F. exact (F _ E).
Qed.

(** ** Graphs that read exactly one token: a forward analysis of what is read *)
Definition same (a b : place) : bool :=
  match a, b with
  | Init, Init | Out, Out | Quo, Quo | Esc, Esc | Done, Done | Trail, Trail | Dead, Dead => true
  | _, _ => false
  end.
Lemma same_spec a b : same a b = true <-> a = b.
Proof. destruct a, b; split; (reflexivity || discriminate). Qed.
Definition mem (s : place) (l : list place) : bool := existsb (same s) l.
Lemma mem_spec s l : mem s l = true <-> In s l.
Proof.
  unfold mem. rewrite existsb_exists. split; [intros (a & I & E); apply same_spec in E as ->; exact I|].
  intro I. exists s. split; [exact I|now apply same_spec].
Qed.
Fixpoint dedup (l : list place) : list place :=
  match l with [] => [] | s :: r => let r' := dedup r in if mem s r' then r' else s :: r' end.
Lemma dedup_spec s l : In s l -> In s (dedup l).
Proof.
  induction l as [|a l IH]; [auto|]. cbn [dedup]. destruct (mem a (dedup l)) eqn:M.
  - apply mem_spec in M. intros [<-|I]; auto.
  - intros [->|I]; [now left|right; auto].
Qed.
Definition everywhere : list place := [Init; Out; Quo; Esc; Done; Trail; Dead].
Lemma everywhere_all s : In s everywhere.
Proof. destruct s; cbn; tauto. Qed.
Definition subset (a b : list place) : bool := forallb (fun s => mem s b) a.
Lemma subset_spec a b s : subset a b = true -> In s a -> In s b.
Proof. unfold subset. rewrite forallb_forall. intros F I. now apply mem_spec, F. Qed.
(** Text without quotes and backslashes stays between quotes. *)
Definition quietly (l : list place) : list place := if subset l [Quo] then [Quo] else everywhere.
Definition onechar (p : N -> bool) (s : place) : list place :=
  step s 0 :: flat_map (fun c => if p c then [step s c] else []) [34; 92; 125; 32]%N.
Fixpoint iterate (n : nat) (f : list place -> list place) (l : list place) : list place :=
  match n with O => l | S m => iterate m f (dedup (l ++ f l)) end.
Fixpoint post (e : fst) (l : list place) : list place :=
  match e with
  | Cross x _ => dedup (map (fun s => run s x) l)
  | Class p => dedup (flat_map (onechar p) l)
  | Table t => fold_left (fun acc x => dedup (map (fun s => run s (Datatypes.fst x)) l ++ acc)) t []
  | Union a b => dedup (post a l ++ post b l)
  | Cat a b => post b (post a l)
  | Star a => let i := iterate 7 (post a) l in if subset (post a i) i && subset l i then i else everywhere
  | Weight _ a | Input a | Erase a => post a l
  | Compose a b => if unescaped (Compose a b) then quietly l else post a l
  | Except _ | Rewrite _ _ _ => everywhere
  end.
Lemma quiet_run x : ~ In 34%N x -> ~ In 92%N x -> run Quo x = Quo.
Proof.
  induction x as [|c x IH]; intros Q B; [reflexivity|]. unfold run in *. cbn [fold_left step].
  destruct (N.eqb_spec c 34) as [->|]; [cbn in Q; tauto|]. destruct (N.eqb_spec c 92) as [->|]; [cbn in B; tauto|].
  apply IH; cbn in *; tauto.
Qed.
Lemma table_post (t : list (text * text)) l : forall acc, let f := fold_left (fun acc x => dedup (map (fun s => run s (Datatypes.fst x)) l ++ acc)) t acc in
  (forall s, In s acc -> In s f) /\ (forall e s, In e t -> In s l -> In (run s (Datatypes.fst e)) f).
Proof.
  induction t as [|e t IH]; intro acc; cbn [fold_left]; [split; [auto|intros ? ? []]|].
  destruct (IH (dedup (map (fun s => run s (Datatypes.fst e)) l ++ acc))) as (A & B). split.
  - intros s I. apply A, dedup_spec, in_app_iff. auto.
  - intros e' s [<-|I] J; [|now apply B]. apply A, dedup_spec, in_app_iff. left. now apply (in_map (fun s => run s (Datatypes.fst e))).
Qed.
Lemma onechar_step p s c : p c = true -> In (step s c) (onechar p s).
Proof.
  intro P. unfold onechar. destruct (in_dec N.eq_dec c [34; 92; 125; 32]%N) as [I|I].
  - right. apply in_flat_map. exists c. split; [exact I|]. rewrite P. now left.
  - left. cbn [In] in I. assert (c <> 34 /\ c <> 92 /\ c <> 125 /\ c <> 32)%N as (A & B & C & D) by (repeat split; intro X; apply I; rewrite X; tauto).
    apply N.eqb_neq in A, B, C, D. destruct s; cbn [step]; rewrite ?A, ?B, ?C, ?D; reflexivity.
Qed.
Theorem post_sound e : forall x y w, denote e x y w -> forall s l, In s l -> In (run s x) (post e l).
Proof.
  induction e as [x0 y0|p|t|a IHa b IHb|a IHa b IHb|a IHa|k a IHa|a IHa b IHb|a IHa|a IHa|a IHa|tau IHt l0 r0]; intros x y w H s l I; cbn [post].
  - destruct H as (-> & _). now apply dedup_spec, (in_map (fun s => run s x0)).
  - destruct H as (c & -> & _ & P & _). apply dedup_spec, in_flat_map. exists s. split; [exact I|]. exact (onechar_step p s c P).
  - destruct H as (J & _). exact (proj2 (table_post t l []) _ _ J I).
  - apply dedup_spec, in_app_iff. destruct H as [H|H]; eauto.
  - apply cat_inv in H as (x1 & y1 & w1 & x2 & y2 & w2 & -> & -> & -> & H1 & H2). rewrite run_app. eauto.
  - set (i := iterate 7 (post a) l). destruct (subset (post a i) i && subset l i) eqn:E; [|apply everywhere_all].
    apply andb_true_iff in E as (E1 & E2). apply (subset_spec _ _ _ E2) in I. clearbody i. clear E2.
    cbn [denote] in H. revert s I. induction H as [|x1 y1 w1 x2 y2 w2 H1 _ IH]; intros s I; [exact I|].
    rewrite run_app. apply IH. apply (subset_spec _ _ _ E1). exact (IHa _ _ _ H1 _ _ I).
  - destruct H as (v & _ & H). eauto.
  - destruct (unescaped (a @ b)%fst) eqn:U.
    + unfold quietly. destruct (subset l [Quo]) eqn:E; [|apply everywhere_all]. apply (subset_spec _ _ _ E) in I. destruct I as [<-|[]]. left.
      unfold unescaped in U. apply andb_true_iff in U as (U1 & U2). symmetry. apply quiet_run.
      * exact (proj1 (avoidsb_sound 34 (a @ b)%fst) U1 _ _ _ H).
      * exact (proj1 (avoidsb_sound 92 (a @ b)%fst) U2 _ _ _ H).
    + destruct H as (m & w1 & w2 & _ & H & _). eauto.
  - destruct H as (_ & z & H). eauto.
  - destruct H as (_ & z & H). eauto.
  - apply everywhere_all.
  - apply everywhere_all.
Qed.
(** The graph reads texts that close at their end. *)
Definition one_token (e : fst) : bool := forallb closed (post e [Init]).
Lemma one_token_spec e x y w : one_token e = true -> denote e x y w -> closed (run Init x) = true.
Proof. intros C H. unfold one_token in C. rewrite forallb_forall in C. apply C. exact (post_sound e x y w H Init [Init] (or_introl eq_refl)). Qed.
