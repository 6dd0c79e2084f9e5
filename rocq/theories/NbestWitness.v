(** A concrete finite engine meeting every assumption, used for the examples of
    PropsNbest.v.  The taggings and verbalisations of a few texts are listed in
    tables; shortest paths are prefixes of the tables. *)
From Coq Require Import List NArith ZArith Bool Arith Lia Sorted String.
From Verif Require Import Text TextFacts TokenModel AlignModel AlignSpec NbestModel NbestSpec NbestStream.
Import ListNotations.
Local Open Scope list_scope.

Definition table := list (text * list (text * Z * list arc)).
Fixpoint rows (tb : table) (x : text) : list (text * Z * list arc) :=
  match tb with [] => [] | (k, l) :: r => if text_eqb k x then l else rows r x end.
Definition weights (tb : table) (x : text) : list weighted := map fst (rows tb x).
Definition table_set (tb : table) : text -> wset := fun x t w => In (t, w) (weights tb x).
(** A straight machine: state i has the single arc i. *)
Fixpoint renumber (i : nat) (l : list arc) : list arc :=
  match l with [] => [] | a :: r => Arc (ilabel a) (olabel a) (S i) :: renumber (S i) r end.
Definition line (l : list arc) : machine := Machine (Some 0) (map (fun a => [a]) (renumber 0 l) ++ [[]]).
Definition no_machine : machine := Machine None [].
Definition path_machine (tb : table) (x t : text) : machine :=
  match find (fun r => text_eqb (fst (fst r)) t) (rows tb x) with Some r => line (snd r) | None => no_machine end.
Definition best_machine (tb : table) (x : text) : machine :=
  match rows tb x with r :: _ => line (snd r) | [] => no_machine end.
Definition best_text (tb : table) (x : text) : option text :=
  match rows tb x with r :: _ => Some (fst (fst r)) | [] => None end.
Definition table_engine (os : orders) (tt vt : table) : engine := Engine
  (fun x k => firstn k (weights tt x)) (fun r k => firstn k (weights vt r)) (best_text tt)
  (path_machine tt)
  (fun r o => match o with Some o => path_machine vt r o | None => best_machine vt r end)
  (fun r o => match o with Some o => o | None => match best_text vt r with Some o => o | None => [] end end)
  os.

(** Checks on a table, decided by computation. *)
Fixpoint sortedb (l : list weighted) : bool :=
  match l with
  | a :: (b :: _) as r => (snd a <=? snd b)%Z && sortedb r
  | _ => true
  end.
Fixpoint nodupb (l : list text) : bool :=
  match l with [] => true | a :: r => negb (text_mem a r) && nodupb r end.
Definition spellsb (x t : text) (arcs : list arc) : bool :=
  match encode x, encode t with
  | Some a, Some b => text_eqb a (reads arcs) && text_eqb b (writes arcs)
  | _, _ => false
  end.
Definition line_ok (x t : text) (arcs : list arc) : bool :=
  match linear_arcs (line arcs) with
  | Some (AOk l) => spellsb x t l
  | _ => false
  end.
Definition table_ok (tb : table) : bool :=
  forallb (fun k => let l := rows tb (fst k) in
    sortedb (map fst l) && nodupb (map fst (map fst l)) &&
    forallb (fun r => line_ok (fst k) (fst (fst r)) (snd r)) l) tb.

Lemma sortedb_ok : forall l, sortedb l = true -> StronglySorted lighter l.
Proof.
  intros l H. apply Sorted_StronglySorted; [unfold Relations_1.Transitive, lighter; intros a b c; lia|].
  induction l as [|a l IH]; [constructor|]. destruct l as [|b l]; [repeat constructor|].
  cbn [sortedb] in H. apply andb_true_iff in H. destruct H as (H1 & H2). constructor; [apply IH, H2|].
  constructor. unfold lighter. apply Z.leb_le, H1.
Qed.
Lemma nodupb_ok : forall l, nodupb l = true -> NoDup l.
Proof.
  induction l as [|a l IH]; cbn [nodupb]; intros H; [constructor|]. apply andb_true_iff in H. destruct H as (H1 & H2).
  constructor; [|apply IH, H2]. apply text_mem_false. destruct (text_mem a l); [discriminate|reflexivity].
Qed.
Lemma table_kbest : forall l k, StronglySorted lighter l -> NoDup (map fst l) -> kbest (fun t w => In (t, w) l) k (firstn k l).
Proof.
  intros l k Hs Hd.
  assert (E : l = firstn k l ++ skipn k l) by (symmetry; apply firstn_skipn).
  assert (Sub : forall x, In x (firstn k l) -> In x l) by (intros x H; rewrite E; apply in_or_app; left; exact H).
  split; [intros t w H; apply Sub, H|]. split; [|split; [|split; [|split]]].
  - rewrite E, map_app in Hd. clear - Hd. induction (firstn k l) as [|a r IH]; [constructor|]. cbn [map List.app] in *.
    inversion Hd; subst. constructor; [|apply IH; assumption]. intros C. apply H1, in_or_app. left; exact C.
  - rewrite E in Hs. clear - Hs. induction (firstn k l) as [|a r IH]; [constructor|]. cbn [List.app] in Hs. inversion Hs; subst.
    constructor; [apply IH; assumption|]. apply Forall_app in H2. apply H2.
  - intros t w x H N I. rewrite E in H. apply in_app_or in H. destruct H as [H|H]; [contradiction|].
    rewrite E in Hs. exact (sorted_split _ _ _ x (t, w) Hs I H).
  - rewrite firstn_length. lia.
  - rewrite firstn_length. intros L t w H. rewrite firstn_all2 by lia. exact H.
Qed.

Lemma rows_cases : forall tb x, rows tb x = [] \/ exists k, In k tb /\ fst k = x.
Proof.
  induction tb as [|[k l] tb IH]; intros x; [left; reflexivity|]. cbn [rows]. destruct (text_eqb_spec k x) as [->|_].
  - right. exists (x, l). split; [left; reflexivity|reflexivity].
  - destruct (IH x) as [E|(k' & I & E)]; [left; exact E|right; exists k'; split; [right; exact I|exact E]].
Qed.
Lemma table_rows : forall tb, table_ok tb = true -> forall x,
  StronglySorted lighter (weights tb x) /\ NoDup (map fst (weights tb x)) /\
  forall r, In r (rows tb x) -> line_ok x (fst (fst r)) (snd r) = true.
Proof.
  intros tb H x. unfold weights. destruct (rows_cases tb x) as [->|(k & I & <-)].
  - split; [constructor|]. split; [constructor|]. intros r [].
  - unfold table_ok in H. rewrite forallb_forall in H. specialize (H k I). cbv zeta in H.
    apply andb_true_iff in H. destruct H as (H & H3). apply andb_true_iff in H. destruct H as (H1 & H2).
    split; [apply sortedb_ok, H1|]. split; [apply nodupb_ok, H2|]. apply forallb_forall. exact H3.
Qed.
Lemma fst_unique : forall (l : list weighted) t w w', NoDup (map fst l) -> In (t, w) l -> In (t, w') l -> w = w'.
Proof.
  intros l t w w' H I I'. induction l as [|[a b] l IH]; [destruct I|]. cbn [map] in H. inversion H; subst.
  destruct I as [E|I], I' as [E'|I']; [congruence| | |apply IH; assumption].
  - injection E as -> ->. exfalso. apply H2. change t with (fst (t, w')). apply in_map, I'.
  - injection E' as -> ->. exfalso. apply H2. change t with (fst (t, w)). apply in_map, I.
Qed.
Lemma spellsb_ok : forall x t arcs, spellsb x t arcs = true -> spells x t arcs.
Proof.
  intros x t arcs. unfold spellsb, spells. destruct (encode x), (encode t); try discriminate.
  rewrite andb_true_iff. intros (A & B). destruct (text_eqb_spec l (reads arcs)); [|discriminate].
  destruct (text_eqb_spec l0 (writes arcs)); [|discriminate]. split; f_equal; assumption.
Qed.
Lemma line_spells : forall x t arcs, line_ok x t arcs = true ->
  exists l, start_state (line arcs) <> None /\ linear_arcs (line arcs) = Some (AOk l) /\ spells x t l.
Proof.
  intros x t arcs H. unfold line_ok in H. destruct (linear_arcs (line arcs)) as [[l|]|]; try discriminate.
  exists l. split; [discriminate|]. split; [reflexivity|apply spellsb_ok, H].
Qed.

Theorem table_search_oracle : forall os tt vt, table_ok tt = true -> table_ok vt = true ->
  search_oracle (table_engine os tt vt) (table_set tt) (table_set vt).
Proof.
  intros os tt vt Ht Hv. split; [|split; [|split]].
  - intros x t w w'. apply fst_unique, (table_rows tt Ht x).
  - intros x t w w'. apply fst_unique, (table_rows vt Hv x).
  - intros x k. apply table_kbest; apply (table_rows tt Ht x).
  - intros x k. apply table_kbest; apply (table_rows vt Hv x).
Qed.
Lemma path_machine_ok : forall tb, table_ok tb = true -> forall x t w, table_set tb x t w ->
  exists l, start_state (path_machine tb x t) <> None /\ linear_arcs (path_machine tb x t) = Some (AOk l) /\ spells x t l.
Proof.
  intros tb H x t w I. unfold table_set, weights in I. apply in_map_iff in I. destruct I as ([[t' w'] arcs] & E & I).
  cbn [fst] in E. injection E as -> ->. unfold path_machine.
  destruct (find _ (rows tb x)) as [r|] eqn:Ef.
  - apply find_some in Ef. destruct Ef as (Ir & Er). destruct (text_eqb_spec (fst (fst r)) t) as [<-|]; [|discriminate].
    apply line_spells, (table_rows tb H x), Ir.
  - pose proof (find_none _ _ Ef _ I) as C. cbn [fst] in C. destruct (text_eqb_spec t t); congruence.
Qed.
Theorem table_path_oracle : forall os tt vt, table_ok tt = true -> table_ok vt = true ->
  path_oracle (table_engine os tt vt) (table_set tt) (table_set vt).
Proof.
  intros os tt vt Ht Hv. split.
  - intros x t w I. exact (path_machine_ok tt Ht x t w I).
  - intros r o w I. destruct (path_machine_ok vt Hv r o w I) as (l & A & B & C). exists l. repeat split; try assumption. exact (proj1 C). exact (proj2 C).
Qed.
Theorem table_best_oracle : forall os tt vt, table_ok tt = true -> table_ok vt = true ->
  best_oracle (table_engine os tt vt) (table_set tt) (table_set vt).
Proof.
  assert (Hl : forall l t (w : Z) rest, l = (t, w) :: rest -> StronglySorted lighter l -> least (fun t w => In (t, w) l) w).
  { intros l t w rest -> Hs. split; [exists t; left; reflexivity|]. intros t' w' [E|I]; [injection E as _ ->; lia|].
    inversion Hs; subst. rewrite Forall_forall in H2. exact (H2 _ I). }
  intros os tt vt Ht Hv. split.
  - intros x. cbn [tag_string table_engine]. unfold best_text. destruct (table_rows tt Ht x) as (Hs & _).
    unfold table_set, weights in *. destruct (rows tt x) as [|[[t w] arcs] l]; [intros t w []|].
    exists w. split; [left; reflexivity|]. eapply Hl; [reflexivity|exact Hs].
  - intros r. cbn [verb_machine verb_string table_engine]. unfold best_machine, best_text. destruct (table_rows vt Hv r) as (Hs & _ & Hr).
    unfold table_set, weights in *. destruct (rows vt r) as [|[[t w] arcs] l].
    + left. split; [reflexivity|]. split; [reflexivity|]. intros o w [].
    + right. destruct (line_spells r t arcs (Hr _ (or_introl eq_refl))) as (p & A & B & C).
      exists t, w, p. split; [left; reflexivity|]. split; [eapply Hl; [reflexivity|exact Hs]|].
      split; [reflexivity|]. split; [exact A|]. split; [exact B|exact C].
Qed.
Lemma table_finite : forall tb x, finite (table_set tb x).
Proof.
  intros tb x. exists (map fst (weights tb x)). intros t w I. change t with (fst (t, w)). apply in_map, I.
Qed.

(** Paths: insert a prefix, turn [a] into [b], insert a suffix; and the reverse. *)
Fixpoint zip_arcs (a b : list N) : list arc :=
  match a with
  | [] => map (fun y => Arc 0%N y 0) b
  | x :: a' => match b with
               | y :: b' => Arc x y 0 :: zip_arcs a' b'
               | [] => Arc x 0%N 0 :: zip_arcs a' []
               end
  end.
Definition bytes (t : text) : list N := match encode t with Some b => b | None => [] end.
Definition tag_path (pre a b suf : text) : list arc :=
  map (fun y => Arc 0%N y 0) (bytes pre) ++ zip_arcs (bytes a) (bytes b) ++ map (fun y => Arc 0%N y 0) (bytes suf).
Definition verb_path (pre a b suf : text) : list arc :=
  map (fun y => Arc y 0%N 0) (bytes pre) ++ zip_arcs (bytes a) (bytes b) ++ map (fun y => Arc y 0%N 0) (bytes suf).

(** "3": the cheapest tagging has no verbalisation, the others share an output and
    tie; "4": one tagging, one verbalisation; "5": nothing can be verbalised. *)
Local Open Scope string_scope.
Definition tok (name val : string) : text := (u (name ++ " { value: """ ++ val ++ """ }"))%string.
Definition t_row (name x val : string) (w : Z) : text * Z * list arc :=
  (tok name val, w, tag_path (u (name ++ " { value: """)%string) (u x) (u val) (u """ }")).
Definition v_row (name val out : string) (w : Z) : text * Z * list arc :=
  (u out, w, verb_path (u (name ++ " { value: """)%string) (u val) (u out) (u """ }")).
Definition tags_w : table :=
  [ (u "3", [t_row "bad" "3" "x" 0; t_row "cardinal" "3" "三" 1; t_row "char" "3" "3" 2; t_row "digit" "3" "三" 2]);
    (u "4", [t_row "cardinal" "4" "四" 1]);
    (u "5", [t_row "bad" "5" "y" 0]) ].
Definition verbs_w : table :=
  [ (tok "cardinal" "三", [v_row "cardinal" "三" "三" 7; v_row "cardinal" "三" "叁" 8]);
    (tok "char" "3", [v_row "char" "3" "3" 0; v_row "char" "3" "三" 0]);
    (tok "digit" "三", [v_row "digit" "三" "三" 3; v_row "digit" "三" "三三" 9]);
    (tok "cardinal" "四", [v_row "cardinal" "四" "四" 0]) ].
Definition engine_w : engine := table_engine TN_ORDERS tags_w verbs_w.
Definition T_w : text -> wset := table_set tags_w.
Definition V_w : text -> wset := table_set verbs_w.
Lemma tags_w_ok : table_ok tags_w = true.
Proof. vm_compute; reflexivity. Qed.
Lemma verbs_w_ok : table_ok verbs_w = true.
Proof. vm_compute; reflexivity. Qed.
