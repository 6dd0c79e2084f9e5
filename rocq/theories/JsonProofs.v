(** Proofs about JsonModel.v: what is written is read back; the canonical form decides
    sameness. *)
From Coq Require Import List NArith ZArith Bool Arith Lia String Permutation Sorted Decimal DecimalFacts DecimalPos ZifyBool ZifyNat ZifyN.
From Verif Require Import Text TextFacts AlignModel AlignSpec AlignBytes CacheModel JsonModel JsonSpec.
Import ListNotations.
Local Open Scope list_scope.

Section Ind.
Variable P : json -> Prop.
Hypothesis Hnull : P JNull.
Hypothesis Hbool : forall b, P (JBool b).
Hypothesis Hint : forall z, P (JInt z).
Hypothesis Hstr : forall t, P (JStr t).
Hypothesis Harr : forall l, Forall P l -> P (JArr l).
Hypothesis Hobj : forall l, Forall P (map snd l) -> P (JObj l).
Fixpoint json_ind' (v : json) : P v :=
  match v with
  | JNull => Hnull
  | JBool b => Hbool b
  | JInt z => Hint z
  | JStr t => Hstr t
  | JArr l => Harr l ((fix go l := match l return Forall P l with
                                   | [] => Forall_nil _
                                   | x :: r => Forall_cons _ (json_ind' x) (go r)
                                   end) l)
  | JObj l => Hobj l ((fix go (l : list (text * json)) := match l return Forall P (map snd l) with
                                   | [] => Forall_nil _
                                   | kv :: r => Forall_cons _ (json_ind' (snd kv)) (go r)
                                   end) l)
  end.
End Ind.

(** ** The order of keys. *)
Lemma text_ltb_irrefl a : text_ltb a a = false.
Proof. induction a as [|x a IH]; [reflexivity|]. cbn [text_ltb]. rewrite IH, N.ltb_irrefl, N.eqb_refl. reflexivity. Qed.
Lemma text_ltb_trans a b c : text_ltb a b = true -> text_ltb b c = true -> text_ltb a c = true.
Proof.
  revert b c; induction a as [|x a IH]; intros [|y b] [|z c]; cbn [text_ltb]; try congruence; try reflexivity.
  rewrite !orb_true_iff, !andb_true_iff, !N.ltb_lt, !N.eqb_eq.
  intros [H|[-> H]] [H'|[-> H']]; try (left; lia). right. split; [reflexivity|]. eauto.
Qed.
Lemma text_ltb_total a b : text_ltb a b = true \/ a = b \/ text_ltb b a = true.
Proof.
  revert b; induction a as [|x a IH]; intros [|y b]; cbn [text_ltb]; auto.
  rewrite !orb_true_iff, !andb_true_iff, !N.ltb_lt, !N.eqb_eq.
  destruct (N.lt_trichotomy x y) as [H|[->|H]]; [auto| |auto].
  destruct (IH b) as [H|[->|H]]; auto.
Qed.
Definition key_lt {A} (a b : text * A) : Prop := text_ltb (fst a) (fst b) = true.
Lemma insert_key_perm {A} (kv : text * A) l : Permutation (insert_key kv l) (kv :: l).
Proof.
  induction l as [|kv' r IH]; cbn [insert_key]; [reflexivity|].
  destruct (text_ltb _ _); [|reflexivity]. rewrite IH. apply perm_swap.
Qed.
Lemma sort_keys_perm {A} (l : list (text * A)) : Permutation (sort_keys l) l.
Proof. induction l as [|kv r IH]; [reflexivity|]. cbn [sort_keys]. rewrite insert_key_perm. now constructor. Qed.
Lemma insert_key_sorted {A} (kv : text * A) l : StronglySorted key_lt l -> ~ In (fst kv) (map fst l) -> StronglySorted key_lt (insert_key kv l).
Proof.
  induction 1 as [|kv' r S IH H]; intros N; cbn [insert_key].
  - repeat constructor.
  - cbn [map In] in N. destruct (text_ltb (fst kv') (fst kv)) eqn:E.
    + constructor; [apply IH; tauto|]. rewrite Forall_forall in *. intros x I.
      apply (Permutation_in _ (insert_key_perm kv r)) in I. destruct I as [<-|I]; [exact E|auto].
    + assert (L : key_lt kv kv'). { unfold key_lt. destruct (text_ltb_total (fst kv) (fst kv')) as [H'|[H'|H']]; [assumption| |congruence]. symmetry in H'. tauto. }
      constructor; [constructor; assumption|]. constructor; [assumption|]. rewrite Forall_forall in *. intros x I.
      unfold key_lt in *. eauto using text_ltb_trans.
Qed.
Lemma sort_keys_sorted {A} (l : list (text * A)) : NoDup (map fst l) -> StronglySorted key_lt (sort_keys l).
Proof.
  induction l as [|kv r IH]; intros N; cbn [sort_keys]; [constructor|]. inversion N; subst.
  apply insert_key_sorted; [auto|]. intros I. apply H1. revert I. apply Permutation_in. apply Permutation_map, sort_keys_perm.
Qed.
Lemma sorted_unique {A} (l m : list (text * A)) : StronglySorted key_lt l -> StronglySorted key_lt m -> Permutation l m -> l = m.
Proof.
  intros Sl; revert m; induction Sl as [|a l Sl IH H]; intros m Sm P.
  - now apply Permutation_nil in P.
  - destruct Sm as [|b m Sm H']; [apply Permutation_sym, Permutation_nil in P; discriminate|].
    assert (a = b) as <-.
    { rewrite Forall_forall in H, H'.
      assert (I : In a (b :: m)) by (eapply Permutation_in; [exact P|now left]).
      assert (I' : In b (a :: l)) by (eapply Permutation_in; [symmetry; exact P|now left]).
      destruct I as [->|I]; [reflexivity|]. destruct I' as [->|I']; [reflexivity|].
      specialize (H _ I'). specialize (H' _ I). unfold key_lt in *.
      pose proof (text_ltb_trans _ _ _ H H') as X. rewrite text_ltb_irrefl in X. discriminate. }
    f_equal. apply IH; [assumption|]. eapply Permutation_cons_inv; exact P.
Qed.
Lemma insert_key_map {A B} (f : A -> B) kv l :
  insert_key (fst kv, f (snd kv)) (map (fun kv => (fst kv, f (snd kv))) l) = map (fun kv => (fst kv, f (snd kv))) (insert_key kv l).
Proof.
  induction l as [|kv' r IH]; cbn [insert_key map]; [reflexivity|]. cbn [fst snd]. destruct (text_ltb _ _); cbn [map]; [now rewrite IH|reflexivity].
Qed.
Lemma sort_keys_map {A B} (f : A -> B) l :
  sort_keys (map (fun kv => (fst kv, f (snd kv))) l) = map (fun kv => (fst kv, f (snd kv))) (sort_keys l).
Proof. induction l as [|kv r IH]; [reflexivity|]. cbn [map sort_keys]. rewrite IH. apply insert_key_map. Qed.
Lemma map_fst_values {A B} (f : A -> B) (l : list (text * A)) : map fst (map (fun kv => (fst kv, f (snd kv))) l) = map fst l.
Proof. rewrite map_map. reflexivity. Qed.
Lemma map_snd_values {A B} (f : A -> B) (l : list (text * A)) : map snd (map (fun kv => (fst kv, f (snd kv))) l) = map f (map snd l).
Proof. rewrite !map_map. reflexivity. Qed.

Lemma sorted_wf v : json_wf v -> json_wf (sorted v).
Proof.
  induction v as [| | | |l IH|l IH] using json_ind'; cbn [sorted]; auto; intros W; inversion W; subst.
  - constructor. rewrite Forall_forall in *. intros x I. apply in_map_iff in I as (y & <- & I). auto.
  - constructor.
    + rewrite (Permutation_map fst (sort_keys_perm _)). now rewrite map_fst_values.
    + rewrite Forall_forall in *. intros x I.
      apply (Permutation_in _ (Permutation_map snd (sort_keys_perm _))) in I.
      rewrite map_snd_values in I. apply in_map_iff in I as (y & <- & I). auto.
Qed.

(** ** Sameness. *)
Lemma same_refl v : json_same v v.
Proof.
  induction v as [| | | |l IH|l IH] using json_ind'; try constructor.
  - induction IH; constructor; auto.
  - apply same_obj with (m' := l); [reflexivity|]. induction l as [|kv r IHl]; [constructor|]. inversion IH; subst. constructor; auto.
Qed.
Lemma Forall2_perm_l {A B} (R : A -> B -> Prop) l l' m : Permutation l l' -> Forall2 R l m -> exists m', Permutation m m' /\ Forall2 R l' m'.
Proof.
  intros P; revert m; induction P as [|x l l' P IH|x y l|l l' l'' P IH P' IH']; intros m F.
  - inversion F; subst. exists []. auto.
  - inversion F as [|? b ? m0 Rb F0]; subst. destruct (IH _ F0) as (m' & Pm & F'). exists (b :: m'). split; [now constructor|now constructor].
  - inversion F as [|? b ? m0 Rb F0]; subst. inversion F0 as [|? b' ? m1 Rb' F1]; subst. exists (b' :: b :: m1). split; [constructor|]. repeat constructor; auto.
  - destruct (IH _ F) as (m1 & P1 & F1). destruct (IH' _ F1) as (m2 & P2 & F2). exists m2. split; [now transitivity m1|assumption].
Qed.
Lemma Forall2_flip' {A B} (R : A -> B -> Prop) l m : Forall2 R l m -> Forall2 (fun b a => R a b) m l.
Proof. induction 1; constructor; auto. Qed.
Lemma sorted_same v : json_same (sorted v) v.
Proof.
  induction v as [| | | |l IH|l IH] using json_ind'; cbn [sorted]; try apply same_refl.
  - constructor. induction IH; constructor; auto.
  - destruct (Forall2_perm_l (fun a b : text * json => fst a = fst b /\ json_same (snd a) (snd b))
                 (map (fun kv => (fst kv, sorted (snd kv))) l) (sort_keys (map (fun kv => (fst kv, sorted (snd kv))) l)) l) as (m' & P & F).
    + symmetry. apply sort_keys_perm.
    + induction l as [|kv r IHl]; [constructor|]. inversion IH; subst. constructor; [split; [reflexivity|assumption]|auto].
    + now apply same_obj with (m' := m').
Qed.
Lemma same_sorted a : forall b, json_wf a -> json_wf b -> json_same a b -> sorted a = sorted b.
Proof.
  induction a as [|b0|z0|t0|l IH|l IH] using json_ind'; intros b Wa Wb S; inversion S; subst; try reflexivity.
  - cbn [sorted]. f_equal. inversion Wa as [| | | |? Fl|]; inversion Wb as [| | | |? Fm|]; subst.
    match goal with H : Forall2 _ l m |- _ => rename H into F end. clear S Wa Wb. revert m F IH Fl Fm.
    induction l as [|x l IHl]; intros m F IH Fl Fm; inversion F; subst; [reflexivity|].
    inversion IH; inversion Fl; inversion Fm; subst. cbn [map]. f_equal; auto.
  - inversion Wa as [| | | | |? Na Fa]; inversion Wb as [| | | | |? Nb Fb]; subst. cbn [sorted].
    match goal with H : Forall2 _ l m' |- _ => rename H into H3 end. match goal with H : Permutation m m' |- _ => rename H into H1 end.
    assert (E : map (fun kv => (fst kv, sorted (snd kv))) l = map (fun kv => (fst kv, sorted (snd kv))) m').
    { assert (Fm : Forall json_wf (map snd m')).
      { rewrite Forall_forall in *. intros x I. apply Fb. revert I. apply Permutation_in. symmetry. now apply Permutation_map. }
      clear - H3 IH Fa Fm. induction H3 as [|x y l m' [K S] F IHF]; [reflexivity|].
      cbn [map] in *. inversion IH; inversion Fa; inversion Fm; subst. f_equal; [|auto]. rewrite K. f_equal. auto. }
    rewrite E. f_equal. rewrite !sort_keys_map. f_equal.
    apply sorted_unique.
    + apply sort_keys_sorted. erewrite <- (Permutation_map fst H1). assumption.
    + now apply sort_keys_sorted.
    + rewrite !sort_keys_perm. now symmetry.
Qed.
Lemma same_sym a : forall b, json_same a b -> json_same b a.
Proof.
  induction a as [|b0|z0|t0|l IH|l IH] using json_ind'; intros b S; inversion S; subst; try constructor.
  - match goal with H : Forall2 _ l m |- _ => rename H into F end. clear S. revert IH. induction F; intros IH; inversion IH; subst; constructor; auto.
  - match goal with H : Forall2 _ l m' |- _ => rename H into F end. match goal with H : Permutation m m' |- _ => rename H into P end. clear S.
    assert (F' : Forall2 (fun a b : text * json => fst a = fst b /\ json_same (snd a) (snd b)) m' l).
    { clear P. induction F as [|x y l m' [K Sx] F IHF]; [constructor|]. cbn [map] in IH. inversion IH; subst. constructor; [split; auto|auto]. }
    destruct (Forall2_perm_l _ _ _ _ (Permutation_sym P) F') as (l' & P' & F''). now apply same_obj with (m' := l').
Qed.
Lemma same_trans a : forall b c, json_same a b -> json_same b c -> json_same a c.
Proof.
  induction a as [|b0|z0|t0|l IH|l IH] using json_ind'; intros b c S S'; inversion S; subst; inversion S'; subst; try constructor.
  - match goal with H : Forall2 _ l m |- _ => rename H into F end. match goal with H : Forall2 _ m _ |- _ => rename H into F' end. clear S S'.
    revert m0 F' IH. induction F; intros m0 F' IH; inversion IH; inversion F'; subst; constructor; eauto.
  - match goal with H : Forall2 _ l m' |- _ => rename H into F end. match goal with H : Permutation m m' |- _ => rename H into P end.
    match goal with H : Forall2 _ m m'0 |- _ => rename H into F0 end. clear S S'.
    destruct (Forall2_perm_l _ _ _ _ P F0) as (n & P' & F1). apply same_obj with (m' := n); [now transitivity m'0|].
    clear - F F1 IH. revert n F1. induction F as [|x y l m' [K Sx] F IHF]; intros n F1; inversion F1 as [|? z ? n0 [K' S'] F2]; subst; [constructor|].
    cbn [map] in IH. inversion IH; subst. constructor; [split; [congruence|eauto]|auto].
Qed.
Lemma sorted_iff a b : json_wf a -> json_wf b -> sorted a = sorted b <-> json_same a b.
Proof.
  intros Wa Wb. split; [|now apply same_sorted]. intros E.
  apply same_trans with (b := sorted a); [apply same_sym, sorted_same|]. rewrite E. apply sorted_same.
Qed.

(** ** Reading what was written. *)
Lemma low_unescape c r : (c < 32)%N -> exists q, escape_char c = 92%N :: q /\ unescape (q ++ r) = Some (c, r).
Proof.
  intros H. assert (I : In (N.to_nat c) (seq 0 32)) by (apply in_seq; lia).
  rewrite <- (N2Nat.id c). revert I. generalize (N.to_nat c) as n. cbn [seq In]. intros n I.
  repeat (destruct I as [<-|I]; [eexists; split; [vm_compute; reflexivity|]; cbn; reflexivity|]). destruct I.
Qed.
Lemma escape_read c fuel r : read_string (S fuel) (escape_char c ++ r) =
  match read_string fuel r with Some (s, q) => Some (c :: s, q) | None => None end.
Proof.
  destruct (N.ltb_spec c 32) as [L|L].
  - destruct (low_unescape c r L) as (q & -> & E). change ((92%N :: q) ++ r) with (92%N :: (q ++ r)). cbn [read_string]. change (92 =? 34)%N with false. change (92 =? 92)%N with true. cbv iota. now rewrite E.
  - unfold escape_char. destruct (N.eqb_spec c 34) as [->|]; [reflexivity|]. destruct (N.eqb_spec c 92) as [->|]; [reflexivity|].
    destruct (N.eqb_spec c 10); [lia|]. destruct (N.eqb_spec c 13); [lia|]. destruct (N.eqb_spec c 9); [lia|].
    destruct (N.eqb_spec c 12); [lia|]. destruct (N.eqb_spec c 8); [lia|]. destruct (N.ltb_spec c 32); [lia|].
    cbn [List.app read_string]. destruct (N.eqb_spec c 34); [lia|]. destruct (N.eqb_spec c 92); [lia|]. destruct (N.ltb_spec c 32); [lia|]. reflexivity.
Qed.
Lemma string_read t r fuel : List.length t < fuel -> read_string fuel (flat_map escape_char t ++ 34%N :: r) = Some (t, r).
Proof.
  revert fuel; induction t as [|c t IH]; intros [|fuel] L; cbn [List.length] in L; try lia; [reflexivity|].
  cbn [flat_map]. rewrite <- app_assoc, escape_read, IH by lia. reflexivity.
Qed.
Lemma escape_len t : List.length t <= List.length (flat_map escape_char t).
Proof.
  induction t as [|c t IH]; [reflexivity|]. cbn [flat_map]. rewrite app_length. cbn [List.length].
  enough (1 <= List.length (escape_char c)) by lia. unfold escape_char. repeat destruct (_ =? _)%N; try destruct (_ <? _)%N; cbn; lia.
Qed.
Lemma string_value t r fuel : read_value (S fuel) (write_string t ++ r) = Some (JStr t, r).
Proof.
  unfold write_string. cbn [List.app read_value]. change (34 =? 34)%N with true. cbv iota.
  rewrite <- app_assoc. cbn [List.app]. rewrite string_read; [reflexivity|]. cbn [List.length]. rewrite app_length. pose proof (escape_len t). lia.
Qed.
Lemma take_app l r : take l (l ++ r) = Some r.
Proof. induction l as [|a l IH]; [reflexivity|]. cbn [List.app take]. now rewrite N.eqb_refl. Qed.

(** What may follow a number. *)
Definition stop (r : text) : Prop := match r with [] => True | c :: _ => digit c = None /\ c <> 46%N /\ c <> 101%N /\ c <> 69%N end.
Lemma digits_read d r : stop r -> read_digits (uint_text d ++ r) = (d, r).
Proof.
  intros S. induction d as [|d IH|d IH|d IH|d IH|d IH|d IH|d IH|d IH|d IH|d IH]; cbn [uint_text List.app read_digits];
    try (cbn [digit N.eqb Pos.eqb]; rewrite IH; reflexivity).
  destruct r as [|c r]; [reflexivity|]. cbn [read_digits]. destruct S as [-> _]. reflexivity.
Qed.
Lemma pos_no_zero p d : Pos.to_uint p <> D0 d.
Proof.
  intros E. pose proof (DecimalPos.Unsigned.to_of (Pos.to_uint p)) as H. rewrite DecimalPos.Unsigned.of_to in H. cbn [N.to_uint] in H.
  rewrite E in H at 2. assert (X : Pos.to_uint p = Decimal.unorm d) by exact H. rewrite E in X.
  unfold Decimal.unorm in X. destruct (Decimal.nzhead d) eqn:Z; try discriminate.
  - injection X as ->. pose proof (DecimalPos.Unsigned.to_uint_nonzero p). congruence.
  - now apply DecimalFacts.nzhead_nonzero in Z.
Qed.
Lemma nat_read p r : stop r -> read_nat (uint_text (Pos.to_uint p) ++ r) = Some (N.pos p, r).
Proof.
  intros S. unfold read_nat.
  pose proof (digits_read (Pos.to_uint p) r S) as D. pose proof (pos_no_zero p) as Z. pose proof (DecimalPos.Unsigned.of_to p) as O.
  pose proof (DecimalPos.Unsigned.to_uint_nonnil p) as NN.
  destruct (Pos.to_uint p) eqn:E; try congruence; cbn [uint_text List.app] in *; rewrite D; unfold N.of_uint; rewrite O; reflexivity.
Qed.
Lemma stop_float r : stop r -> float_tail r = false.
Proof. destruct r as [|c r]; [reflexivity|]. cbn. intros (_ & ? & ? & ?). destruct (N.eqb_spec c 46), (N.eqb_spec c 101), (N.eqb_spec c 69); tauto. Qed.
Lemma int_read z r : stop r -> read_int (write_int z ++ r) = Some (JInt z, r).
Proof.
  intros S. pose proof (stop_float r S) as F. destruct z as [|p|p]; cbn [write_int].
  - cbn [List.app]. unfold read_int. cbn [read_nat]. rewrite F. reflexivity.
  - pose proof (nat_read p r S) as R. pose proof (DecimalPos.Unsigned.to_uint_nonnil p).
    destruct (Pos.to_uint p); try congruence; cbn [uint_text List.app] in *; unfold read_int; rewrite R, F; reflexivity.
  - cbn [List.app]. unfold read_int. rewrite nat_read by assumption. rewrite F. reflexivity.
Qed.
Lemma int_head z : exists c r, write_int z = c :: r /\ (c = 45%N \/ exists f, digit c = Some f).
Proof.
  destruct z as [|p|p]; cbn [write_int]; [|  |]; [exists 48%N, []; split; [reflexivity|right; eexists; reflexivity]| |exists 45%N; eexists; split; [reflexivity|now left]].
  pose proof (DecimalPos.Unsigned.to_uint_nonnil p). destruct (Pos.to_uint p); try congruence; cbn [uint_text]; do 2 eexists; (split; [reflexivity|]); right; eexists; reflexivity.
Qed.
Lemma int_value z r fuel : stop r -> read_value (S fuel) (write_int z ++ r) = Some (JInt z, r).
Proof.
  intros S. rewrite <- (int_read z r S). destruct (int_head z) as (c & q & E & H). rewrite E. cbn [List.app read_value].
  assert (X : forall n, In n [34; 123; 91; 110; 116; 102]%N -> (c =? n)%N = false).
  { intros n I. destruct (N.eqb_spec c n) as [->|]; [|reflexivity]. exfalso. destruct H as [->|[f H]]; cbn [In] in I; [intuition discriminate|].
    repeat (destruct I as [<-|I]; [discriminate|]). destruct I. }
  rewrite !X by (cbn; tauto). reflexivity.
Qed.
Lemma ws_skip w r : forallb ws w = true -> skip (w ++ r) = skip r.
Proof. induction w as [|c w IH]; [reflexivity|]. cbn [forallb]. intros H. apply andb_true_iff in H as [H1 H2]. cbn [List.app skip]. rewrite H1. auto. Qed.
Lemma skip_head c r : ws c = false -> skip (c :: r) = c :: r.
Proof. cbn [skip]. now intros ->. Qed.
Lemma dict_set_new k v l : ~ In k (map fst l) -> dict_set k v l = l ++ [(k, v)].
Proof.
  induction l as [|[k' v'] r IH]; [reflexivity|]. cbn [map fst In dict_set List.app]. intros H. rewrite text_eqb_neq by (intros ->; tauto). rewrite IH by tauto. reflexivity.
Qed.
Lemma dict_of_self l : NoDup (map fst l) -> dict_of l = l.
Proof.
  unfold dict_of. enough (G : forall d, NoDup (map fst (d ++ l)) -> fold_left (fun d kv => dict_set (fst kv) (snd kv) d) l d = d ++ l) by apply (G []).
  induction l as [|[k v] r IH]; intros d N; cbn [fold_left]; [now rewrite List.app_nil_r|]. cbn [fst snd].
  rewrite dict_set_new.
  - rewrite IH by now rewrite <- app_assoc. now rewrite <- app_assoc.
  - rewrite map_app in N. cbn [map] in N. apply NoDup_remove_2 in N. intros I. apply N. apply in_or_app. now left.
Qed.

Section Emit.
Variables comma colon w1 w2 : text.
Hypothesis Hcomma : comma = 44%N :: w1.
Hypothesis Hcolon : colon = 58%N :: w2.
Hypothesis Hw1 : forallb ws w1 = true.
Hypothesis Hw2 : forallb ws w2 = true.
Local Notation em := (emit comma colon).
Definition member (kv : text * json) : text := write_string (fst kv) ++ colon ++ em (snd kv).

Lemma emit_head v : exists c r, em v = c :: r /\ ws c = false /\ c <> 93%N /\ c <> 125%N.
Proof.
  destruct v as [|[]|z|t|l|l]; cbn [emit]; try (do 2 eexists; split; [reflexivity|]; repeat split; discriminate).
  destruct (int_head z) as (c & r & -> & H). exists c, r. split; [reflexivity|].
  destruct H as [->|[f H]]; [repeat split; discriminate|].
  assert (X : forall n, digit n = None -> c <> n) by (intros n N ->; congruence).
  unfold ws. destruct (N.eqb_spec c 32); [now apply X in e|]. destruct (N.eqb_spec c 9); [now apply X in e|].
  destruct (N.eqb_spec c 10); [now apply X in e|]. destruct (N.eqb_spec c 13); [now apply X in e|]. split; [reflexivity|]. split; apply X; reflexivity.
Qed.
Lemma join_cons sep (x : text) y r : join sep (x :: y :: r) = x ++ sep ++ join sep (y :: r).
Proof. reflexivity. Qed.
Lemma stop_comma r : stop (comma ++ r).
Proof. rewrite Hcomma. cbn. repeat split; discriminate. Qed.

Lemma comma_next r : skip (comma ++ r) = 44%N :: (w1 ++ r).
Proof. rewrite Hcomma. reflexivity. Qed.
Lemma colon_next r : skip (colon ++ r) = 58%N :: (w2 ++ r).
Proof. rewrite Hcolon. reflexivity. Qed.
Lemma comma_len : List.length comma = S (List.length w1).
Proof. now rewrite Hcomma. Qed.
Lemma colon_len : List.length colon = S (List.length w2).
Proof. now rewrite Hcolon. Qed.

Definition value_ok (v : json) : Prop := forall fuel r, List.length (em v) <= fuel -> stop r -> read_value fuel (em v ++ r) = Some (v, r).
Lemma items_ok x l : Forall value_ok (x :: l) -> forall fuel r, List.length (join comma (map em (x :: l))) < fuel ->
  read_items fuel (join comma (map em (x :: l)) ++ 93%N :: r) = Some (x :: l, r).
Proof.
  revert x; induction l as [|y l IH]; intros x F [|fuel] r L; try lia; inversion F as [|? ? Hx Fl]; subst; cbn [read_items].
  - cbn [map join] in *. rewrite Hx by (cbn; try lia; repeat split; discriminate). reflexivity.
  - cbn [map] in *. rewrite join_cons in *. rewrite !app_length in L. pose proof comma_len as LC.
    rewrite <- !app_assoc. rewrite Hx by (first [lia | apply stop_comma]). rewrite comma_next. cbv iota. rewrite ws_skip by assumption.
    assert (E : skip (join comma (em y :: map em l) ++ 93%N :: r) = join comma (em y :: map em l) ++ 93%N :: r).
    { destruct (emit_head y) as (c & q & E & W & _). rewrite E. destruct (map em l); [cbn [join]|rewrite join_cons]; cbn [List.app]; now apply skip_head. }
    rewrite E. rewrite (IH y) by (try assumption; cbn [map] in *; lia). reflexivity.
Qed.
Lemma member_read kv fuel r : value_ok (snd kv) -> List.length (member kv) <= S fuel -> stop r ->
  exists t0, member kv ++ r = 34%N :: t0 /\
  forall (K : text -> json -> text -> option (list (text * json) * text)),
  match read_string (List.length (34%N :: t0)) t0 with
  | None => None
  | Some (k, q) => match skip q with
                   | 58%N :: q1 => match read_value fuel (skip q1) with None => None | Some (v, q2) => K k v q2 end
                   | _ => None end
  end = K (fst kv) (snd kv) r.
Proof.
  intros V L S. unfold member, write_string. rewrite <- !app_assoc. cbn [List.app]. eexists. split; [reflexivity|]. intros K.
  rewrite <- !app_assoc. cbn [List.app]. rewrite string_read.
  2:{ cbn [List.length]. rewrite app_length. pose proof (escape_len (fst kv)). lia. }
  rewrite colon_next. cbv iota. rewrite ws_skip by assumption. pose proof colon_len as LC.
  destruct (emit_head (snd kv)) as (c & q & E & W & _).
  assert (SK : skip (em (snd kv) ++ r) = em (snd kv) ++ r) by (rewrite E; now apply skip_head). rewrite SK.
  rewrite V; [reflexivity| |assumption]. unfold member, write_string in L. rewrite !app_length in L. cbn [List.length] in L. rewrite !app_length in L. lia.
Qed.
Lemma members_ok x l : Forall value_ok (map snd (x :: l)) -> forall fuel r, List.length (join comma (map member (x :: l))) < fuel ->
  read_members fuel (join comma (map member (x :: l)) ++ 125%N :: r) = Some (x :: l, r).
Proof.
  revert x; induction l as [|y l IH]; intros x F [|fuel] r L; try lia; cbn [map] in F; inversion F as [|? ? Hx Fl]; subst.
  - cbn [map join] in *. destruct (member_read x fuel (125%N :: r) Hx) as (t0 & E & K); [lia|cbn; repeat split; discriminate|].
    rewrite E. cbn [read_members]. rewrite (K (fun k v q2 => match skip q2 with 125%N :: q3 => Some ([(k, v)], q3) | 44%N :: q3 => match read_members fuel (skip q3) with Some (l0, q4) => Some ((k, v) :: l0, q4) | None => None end | _ => None end)).
    cbn [skip]. destruct x; reflexivity.
  - cbn [map] in *. rewrite join_cons in *. rewrite !app_length in L. pose proof comma_len as LC.
    rewrite <- !app_assoc.
    destruct (member_read x fuel (comma ++ join comma (member y :: map member l) ++ 125%N :: r) Hx) as (t0 & E & K); [lia|apply stop_comma|].
    rewrite E. cbn [read_members]. rewrite (K (fun k v q2 => match skip q2 with 125%N :: q3 => Some ([(k, v)], q3) | 44%N :: q3 => match read_members fuel (skip q3) with Some (l0, q4) => Some ((k, v) :: l0, q4) | None => None end | _ => None end)).
    rewrite comma_next. cbv iota. rewrite ws_skip by assumption.
    assert (SK : skip (join comma (member y :: map member l) ++ 125%N :: r) = join comma (member y :: map member l) ++ 125%N :: r).
    { destruct (map member l); [cbn [join]|rewrite join_cons]; unfold member, write_string; cbn [List.app]; now apply skip_head. }
    rewrite SK. rewrite (IH y) by (try assumption; cbn [map] in *; lia). destruct x; reflexivity.
Qed.
Lemma value_read v : json_wf v -> value_ok v.
Proof.
  induction v as [|b0|z0|t0|l IH|l IH] using json_ind'; intros W [|fuel] r L S; try (exfalso; cbn in L; lia).
  - reflexivity.
  - exfalso. destruct b0; cbn in L; lia.
  - destruct b0; reflexivity.
  - exfalso. destruct (int_head z0) as (c & q & E & _). cbn [emit] in L. rewrite E in L. cbn in L. lia.
  - now apply int_value.
  - cbn [emit]. apply string_value.
  - cbn [emit] in *. cbn [List.length] in L. rewrite app_length in L. cbn [List.length] in L. cbn [List.app]. rewrite <- app_assoc. cbn [List.app read_value].
    change (91 =? 34)%N with false. change (91 =? 123)%N with false. change (91 =? 91)%N with true. cbv iota.
    inversion W as [| | | |? F|]; subst. destruct l as [|x l]; [reflexivity|].
    assert (FV : Forall value_ok (x :: l)). { rewrite Forall_forall in *. auto. }
    destruct (emit_head x) as (c & q & E & Wc & N93 & _).
    assert (HD : exists q', join comma (map em (x :: l)) = c :: q').
    { cbn [map]. rewrite E. destruct (map em l); [cbn [join]; eauto|rewrite join_cons; cbn [List.app]; eauto]. }
    destruct HD as [q' HD]. pose proof (items_ok x l FV fuel r ltac:(lia)) as R. rewrite HD in *. cbn [List.app] in *. rewrite (skip_head c) by assumption.
    clear - R N93. destruct c as [|p]; [cbv iota; rewrite R; reflexivity|].
    repeat (destruct p as [p|p|]; try (cbv iota; rewrite R; reflexivity)). contradiction N93; reflexivity.
  - cbn [emit] in *. fold member in *. cbn [List.length] in L. rewrite app_length in L. cbn [List.length] in L. cbn [List.app]. rewrite <- app_assoc. cbn [List.app read_value].
    change (123 =? 34)%N with false. change (123 =? 123)%N with true. cbv iota.
    inversion W as [| | | | |? Nd F]; subst. destruct l as [|x l]; [reflexivity|].
    assert (FV : Forall value_ok (map snd (x :: l))). { rewrite Forall_forall in *. auto. }
    assert (HD : exists q', join comma (map member (x :: l)) = 34%N :: q').
    { cbn [map]. destruct (map member l); [cbn [join]|rewrite join_cons]; unfold member, write_string; cbn [List.app]; eauto. }
    change (fun kv : text * json => write_string (fst kv) ++ colon ++ em (snd kv)) with member in *.
    change (@map (text * json) (list N) member) with (@map (text * json) text member) in *.
    destruct HD as [q' HD]. rewrite Nat.add_1_r in L. pose proof (members_ok x l FV fuel r (le_S_n _ _ L)) as R. rewrite HD in *. cbn [List.app] in *. rewrite (skip_head 34%N) by reflexivity.
    rewrite R, dict_of_self by assumption. reflexivity.
Qed.
Lemma text_read v tail : json_wf v -> forallb ws tail = true -> read_text (em v ++ tail) = Some v.
Proof.
  intros W T. unfold read_text.
  assert (ST : stop tail).
  { destruct tail as [|c tail]; [exact I|]. cbn [forallb] in T. apply andb_true_iff in T as [T _]. unfold ws in T. cbn.
    destruct (N.eqb_spec c 32) as [->|]; [repeat split; discriminate|]. destruct (N.eqb_spec c 9) as [->|]; [repeat split; discriminate|].
    destruct (N.eqb_spec c 10) as [->|]; [repeat split; discriminate|]. destruct (N.eqb_spec c 13) as [->|]; [repeat split; discriminate|]. discriminate. }
  destruct (emit_head v) as (c & q & E & Wc & _).
  assert (B : c <> 65279%N).
  { intros ->. destruct v as [|[]|z|t|l|l]; cbn [emit] in E; try discriminate.
    destruct (int_head z) as (c & r & E' & H). rewrite E' in E. injection E as -> ->. destruct H as [H|[f H]]; discriminate. }
  assert (SK : skip (em v ++ tail) = em v ++ tail) by (rewrite E; now apply skip_head). rewrite SK.
  assert (R' : read_value (S (List.length (em v ++ tail))) (em v ++ tail) = Some (v, tail)).
  { apply value_read; [assumption| |assumption]. rewrite app_length. lia. }
  assert (SN : skip tail = []). { rewrite <- (List.app_nil_r tail), ws_skip by assumption. reflexivity. }
  rewrite R'. rewrite SN.
  rewrite E. cbn [List.app]. clear - B. destruct c as [|p]; [reflexivity|]. repeat (destruct p as [p|p|]; try reflexivity). contradiction B; reflexivity.
Qed.
End Emit.

(** ** Bytes. *)
Lemma decode_strict_encode t b : encode t = Some b -> decode_strict b = Some t.
Proof. intros E. unfold decode_strict. rewrite (encode_decode t b E), E. cbv zeta. now rewrite text_eqb_refl. Qed.
Lemma decode_strict_sound b t : decode_strict b = Some t -> encode t = Some b.
Proof.
  unfold decode_strict. cbv zeta. destruct (encode (utf8_decode b)) as [b'|] eqn:E; [|discriminate].
  destruct (text_eqb_spec b b') as [->|]; [|discriminate]. intros [= <-]. assumption.
Qed.
Lemma canonical_loads v b : json_wf v -> canonical_json v = Some b -> json_loads b = Some (sorted v).
Proof.
  intros W E. unfold json_loads. rewrite (decode_strict_encode _ _ E). rewrite <- (List.app_nil_r (emit _ _ _)).
  apply text_read with (w1 := []) (w2 := []); try reflexivity. now apply sorted_wf.
Qed.
Lemma manifest_loads v b : json_wf v -> manifest_bytes v = Some b -> json_loads b = Some (sorted v).
Proof.
  intros W E. unfold json_loads. rewrite (decode_strict_encode _ _ E).
  apply text_read with (w1 := [32%N]) (w2 := [32%N]); try reflexivity. now apply sorted_wf.
Qed.
Lemma canonical_inj v v' b : json_wf v -> json_wf v' -> canonical_json v = Some b -> canonical_json v' = Some b -> json_same v v'.
Proof.
  intros W W' E E'. apply sorted_iff; try assumption.
  apply canonical_loads in E; [|assumption]. apply canonical_loads in E'; [|assumption]. congruence.
Qed.
Lemma canonical_same v v' : json_wf v -> json_wf v' -> json_same v v' -> canonical_json v = canonical_json v'.
Proof. intros W W' S. unfold canonical_json. now rewrite (same_sorted v v' W W' S). Qed.

Lemma ascii_encodable t : forallb (fun c => (c <? 128)%N) t = true -> encodable t.
Proof.
  induction t as [|c t IH]; [discriminate|]. cbn [forallb]. intros H. apply andb_true_iff in H as [H1 H2]. apply encodable_cons. split; [|auto].
  unfold utf8_char. rewrite H1. discriminate.
Qed.
Lemma escape_ascii c : (c < 128)%N -> forallb (fun x => (x <? 128)%N) (escape_char c) = true.
Proof.
  intros H. destruct (N.ltb_spec c 32) as [L|L].
  - assert (I : In (N.to_nat c) (seq 0 32)) by (apply in_seq; lia). rewrite <- (N2Nat.id c). revert I. generalize (N.to_nat c) as n. cbn [seq In]. intros n I.
    repeat (destruct I as [<-|I]; [vm_compute; reflexivity|]). destruct I.
  - unfold escape_char. repeat (destruct (_ =? _)%N; [reflexivity|]). destruct (N.ltb_spec c 32); [lia|]. cbn [forallb]. rewrite (proj2 (N.ltb_lt c 128) H). reflexivity.
Qed.
Lemma escape_encodable c : utf8_char c <> None -> encodable (escape_char c).
Proof.
  intros H. destruct (N.ltb_spec c 128) as [L|L]; [now apply ascii_encodable, escape_ascii|].
  unfold escape_char. assert (X : forall n, (n < 128)%N -> (c =? n)%N = false) by (intros n Hn; apply N.eqb_neq; lia).
  rewrite !X by reflexivity. destruct (N.ltb_spec c 32); [lia|]. apply encodable_cons. split; [assumption|discriminate].
Qed.
Lemma string_encodable t : encodable t -> encodable (write_string t).
Proof.
  intros H. unfold write_string. apply encodable_cons. split; [discriminate|]. apply encodable_app. split; [|apply ascii_encodable; reflexivity].
  induction t as [|c t IH]; [discriminate|]. apply encodable_cons in H as [H1 H2]. cbn [flat_map]. apply encodable_app. split; [now apply escape_encodable|auto].
Qed.
Lemma uint_ascii d : forallb (fun c => (c <? 128)%N) (uint_text d) = true.
Proof. induction d; cbn; auto. Qed.
Lemma join_encodable sep l : encodable sep -> Forall encodable l -> encodable (join sep l).
Proof.
  intros S F. induction F as [|x l X F IH]; [discriminate|]. destruct l as [|y l]; [assumption|]. rewrite join_cons. rewrite !encodable_app. auto.
Qed.
Lemma emit_encodable comma colon v : encodable comma -> encodable colon -> json_encodable v -> encodable (emit comma colon v).
Proof.
  intros Hc Hk. induction v as [|b0|z0|t0|l IH|l IH] using json_ind'; intros E; cbn [emit].
  - now apply ascii_encodable.
  - destruct b0; now apply ascii_encodable.
  - apply ascii_encodable. destruct z0; cbn [write_int forallb]; [reflexivity|apply uint_ascii|apply uint_ascii].
  - inversion E; subst. now apply string_encodable.
  - inversion E; subst. apply encodable_cons. split; [discriminate|]. apply encodable_app. split; [|now apply ascii_encodable].
    apply join_encodable; [assumption|]. rewrite Forall_forall in *. intros x I. apply in_map_iff in I as (y & <- & I). auto.
  - inversion E as [| | | | |? Ek Ev]; subst. apply encodable_cons. split; [discriminate|]. apply encodable_app. split; [|now apply ascii_encodable].
    apply join_encodable; [assumption|]. rewrite Forall_forall in *. intros x I. apply in_map_iff in I as (y & <- & I).
    rewrite !encodable_app. split; [apply string_encodable, Ek; now apply in_map|]. split; [assumption|]. pose proof (in_map snd _ _ I). auto.
Qed.
Lemma sorted_encodable v : json_encodable v -> json_encodable (sorted v).
Proof.
  induction v as [|b0|z0|t0|l IH|l IH] using json_ind'; cbn [sorted]; auto; intros E; inversion E; subst; constructor.
  - rewrite Forall_forall in *. intros x I. apply in_map_iff in I as (y & <- & I). auto.
  - rewrite Forall_forall in *. intros x I. apply (Permutation_in _ (Permutation_map fst (sort_keys_perm _))) in I. rewrite map_fst_values in I. auto.
  - rewrite Forall_forall in *. intros x I. apply (Permutation_in _ (Permutation_map snd (sort_keys_perm _))) in I. rewrite map_snd_values in I.
    apply in_map_iff in I as (y & <- & I). auto.
Qed.
Lemma canonical_total v : json_encodable v -> exists b, canonical_json v = Some b.
Proof.
  intros E. unfold canonical_json. assert (X : encodable (emit [44%N] [58%N] (sorted v))) by (apply emit_encodable; [now apply ascii_encodable|now apply ascii_encodable|now apply sorted_encodable]).
  unfold encodable in X. destruct (encode _); [eauto|congruence].
Qed.
Lemma manifest_total v : json_encodable v -> exists b, manifest_bytes v = Some b.
Proof.
  intros E. unfold manifest_bytes.
  assert (X : encodable (emit [44; 32]%N [58; 32]%N (sorted v) ++ [10%N])).
  { apply encodable_app. split; [|now apply ascii_encodable]. apply emit_encodable; [now apply ascii_encodable|now apply ascii_encodable|now apply sorted_encodable]. }
  unfold encodable in X. destruct (encode _); [eauto|congruence].
Qed.
