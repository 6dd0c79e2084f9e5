(** Facts about UTF-8 lengths, byte positions and the boundary tables. *)
From Coq Require Import List NArith Bool Arith Lia ZArith.
From Verif Require Import Text TextFacts AlignModel AlignSpec.
Import ListNotations.
Local Open Scope list_scope.

Definition clen (c : N) : nat := match utf8_char c with Some b => length b | None => 0 end.
Fixpoint positions (off : nat) (t : text) : list nat :=
  match t with [] => [] | c :: r => (off + clen c) :: positions (off + clen c) r end.
Fixpoint flags (t : text) : list bool :=
  match t with [] => [] | c :: r => repeat (py_isspace c) (clen c) ++ flags r end.
Fixpoint blen (t : text) : nat := match t with [] => 0 | c :: r => clen c + blen r end.

Lemma encode_cons c r bs : encode (c :: r) = Some bs ->
  exists b bs', utf8_char c = Some b /\ encode r = Some bs' /\ bs = b ++ bs'.
Proof.
  cbn [encode]. destruct (utf8_char c) as [b|] eqn:E; [|discriminate].
  destruct (encode r) as [bs'|]; [|discriminate]. intros H; injection H as <-. eauto.
Qed.

Lemma utf8_char_pos c b : utf8_char c = Some b -> 1 <= length b <= 4.
Proof.
  unfold utf8_char.
  repeat match goal with |- context [if ?x then _ else _] => destruct x end; intros H;
    try discriminate; injection H as <-; cbn [length]; lia.
Qed.

Lemma clen_pos c : utf8_char c <> None -> 1 <= clen c <= 4.
Proof. unfold clen. destruct (utf8_char c) eqn:E; [|congruence]. intros _. eauto using utf8_char_pos. Qed.

Lemma encodable_cons c r : encodable (c :: r) <-> utf8_char c <> None /\ encodable r.
Proof.
  unfold encodable. cbn [encode]. destruct (utf8_char c), (encode r); split; intuition congruence.
Qed.

Lemma encodable_app a b : encodable (a ++ b) <-> encodable a /\ encodable b.
Proof.
  induction a as [|c a IH]; cbn [app]; [unfold encodable; cbn; intuition congruence|].
  rewrite !encodable_cons, IH. tauto.
Qed.

Lemma encode_app a b x y : encode a = Some x -> encode b = Some y -> encode (a ++ b) = Some (x ++ y).
Proof.
  revert x; induction a as [|c a IH]; cbn [app]; intros x Ha Hb.
  - injection Ha as <-. exact Hb.
  - apply encode_cons in Ha as (b1 & x' & E1 & E2 & ->). cbn [encode]. rewrite E1, (IH _ E2 Hb).
    now rewrite app_assoc.
Qed.

Lemma encode_length t bs : encode t = Some bs -> length bs = blen t.
Proof.
  revert bs; induction t as [|c t IH]; intros bs H.
  - injection H as <-. reflexivity.
  - apply encode_cons in H as (b & x & E1 & E2 & ->). rewrite app_length, (IH _ E2). cbn [blen]. unfold clen. now rewrite E1.
Qed.

Lemma encodable_some t : encodable t -> exists bs, encode t = Some bs.
Proof. unfold encodable. destruct (encode t); eauto; congruence. Qed.

Lemma byte_pos_blen t i : encodable t -> byte_pos t i = blen (firstn i t).
Proof.
  intros H. unfold byte_pos. rewrite <- (firstn_skipn i t) in H. apply encodable_app in H as [H _].
  apply encodable_some in H as [bs E]. rewrite E. now apply encode_length.
Qed.

Lemma blen_app a b : blen (a ++ b) = blen a + blen b.
Proof. induction a; cbn [app blen]; lia. Qed.

Lemma byte_pos_0 t : byte_pos t 0 = 0.
Proof. reflexivity. Qed.

Lemma byte_pos_S t i c : encodable t -> nth_error t i = Some c -> byte_pos t (S i) = byte_pos t i + clen c.
Proof.
  intros H E. rewrite !byte_pos_blen by assumption. clear H.
  revert i E; induction t as [|x t IH]; intros [|i] E; cbn in E; try discriminate.
  - injection E as <-. cbn. lia.
  - cbn [firstn blen]. rewrite <- (Nat.add_assoc). f_equal. now apply IH.
Qed.

Lemma encodable_nth t i c : encodable t -> nth_error t i = Some c -> utf8_char c <> None.
Proof.
  revert i; induction t as [|x t IH]; intros [|i] H E; cbn in E; try discriminate;
    apply encodable_cons in H as [H1 H2]; [congruence|eauto].
Qed.

Lemma byte_pos_step t i : encodable t -> i < length t ->
  byte_pos t i + 1 <= byte_pos t (S i) <= byte_pos t i + 4.
Proof.
  intros H L. destruct (nth_error t i) as [c|] eqn:E; [|apply nth_error_None in E; lia].
  rewrite (byte_pos_S t i c) by assumption. assert (P := clen_pos c (encodable_nth _ _ _ H E)). lia.
Qed.

Lemma byte_pos_mono t i j : encodable t -> i < j -> j <= length t -> byte_pos t i < byte_pos t j.
Proof.
  intros H L. induction L as [|j L IH]; intros B.
  - assert (X := byte_pos_step t i H). lia.
  - assert (X := byte_pos_step t j H). lia.
Qed.
Lemma byte_pos_mono_le t i j : encodable t -> i <= j -> j <= length t -> byte_pos t i <= byte_pos t j.
Proof.
  intros H L B. destruct (Nat.eq_dec i j) as [->|N]; [lia|]. apply Nat.lt_le_incl, byte_pos_mono; auto; lia.
Qed.
Lemma byte_pos_lt_inv t i j : encodable t -> i <= length t -> j <= length t -> byte_pos t i < byte_pos t j -> i < j.
Proof.
  intros H I J L. destruct (le_lt_dec j i) as [X|X]; [|exact X].
  assert (Y := byte_pos_mono_le t j i H X I). lia.
Qed.
Lemma byte_pos_le_inv t i j : encodable t -> i <= length t -> j <= length t -> byte_pos t i <= byte_pos t j -> i <= j.
Proof.
  intros H I J L. destruct (le_lt_dec i j) as [X|X]; [exact X|].
  assert (Y := byte_pos_mono t j i H X I). lia.
Qed.
Lemma byte_pos_inj t i j : encodable t -> i <= length t -> j <= length t -> byte_pos t i = byte_pos t j -> i = j.
Proof.
  intros H I J E. apply Nat.le_antisymm; apply (byte_pos_le_inv t); auto; lia.
Qed.
Lemma byte_len_encode t bs : encode t = Some bs -> byte_len t = length bs.
Proof. unfold byte_len, byte_pos. rewrite firstn_all. now intros ->. Qed.

Lemma loop_spec t : forall idx c2b b2c bws off, encodable t ->
  text_boundaries_loop t idx c2b b2c bws off =
  AOk (c2b ++ positions off t, b2c ++ combine (positions off t) (seq idx (length t)), bws ++ flags t).
Proof.
  induction t as [|c t IH]; intros idx c2b b2c bws off H; cbn [text_boundaries_loop].
  - cbn. now rewrite !app_nil_r.
  - apply encodable_cons in H as [H1 H2]. destruct (utf8_char c) as [b|] eqn:E; [|congruence].
    rewrite IH by assumption. cbn [positions flags length seq combine].
    assert (C : clen c = length b) by (unfold clen; now rewrite E). rewrite C, <- !app_assoc. reflexivity.
Qed.

Lemma loop_err t : forall idx c2b b2c bws off, ~ encodable t ->
  text_boundaries_loop t idx c2b b2c bws off = AErr UnicodeEncodeError.
Proof.
  induction t as [|c t IH]; intros idx c2b b2c bws off H; cbn [text_boundaries_loop].
  - exfalso; apply H. discriminate.
  - rewrite encodable_cons in H. destruct (utf8_char c) as [b|] eqn:E; [|reflexivity].
    apply IH. intros X. apply H. split; [congruence|exact X].
Qed.

Lemma positions_length off t : length (positions off t) = length t.
Proof. revert off; induction t; intros; cbn; auto. Qed.

Lemma positions_nth t : forall off i, i < length t -> nth_error (positions off t) i = Some (off + blen (firstn (S i) t)).
Proof.
  induction t as [|c t IH]; intros off i L; cbn in L; [lia|].
  destruct i as [|i]; cbn [positions nth_error].
  - cbn [firstn blen]. f_equal; lia.
  - rewrite IH by lia. change (firstn (S (S i)) (c :: t)) with (c :: firstn (S i) t). cbn [blen]. f_equal. lia.
Qed.

Definition c2b_of (t : text) := map (byte_pos t) (seq 0 (S (length t))).
Definition b2c_of (t : text) := map (fun i => (byte_pos t i, i)) (seq 0 (S (length t))).

Lemma nth_error_ext {A} (a b : list A) : (forall i, nth_error a i = nth_error b i) -> a = b.
Proof.
  revert b; induction a as [|x a IH]; intros [|y b] H; auto.
  - specialize (H 0); discriminate.
  - specialize (H 0); discriminate.
  - f_equal; [specialize (H 0); cbn in H; congruence|]. apply IH. intros i. exact (H (S i)).
Qed.

Lemma nth_error_seq a n i : nth_error (seq a n) i = if i <? n then Some (a + i) else None.
Proof.
  revert a i; induction n as [|n IH]; intros a [|i]; try reflexivity; cbn [seq nth_error].
  - change (0 <? S n) with true. cbn iota. f_equal; lia.
  - rewrite IH. change (S i <? S n) with (i <? n). destruct (i <? n); [f_equal; lia|reflexivity].
Qed.

Lemma positions_eq t : encodable t -> 0 :: positions 0 t = c2b_of t.
Proof.
  intros H. unfold c2b_of. cbn [seq map]. rewrite byte_pos_0. f_equal.
  apply nth_error_ext. intros i. rewrite nth_error_map, nth_error_seq. destruct (i <? length t) eqn:E.
  - apply Nat.ltb_lt in E. rewrite positions_nth by assumption. cbn. f_equal. now rewrite byte_pos_blen.
  - apply Nat.ltb_ge in E. apply nth_error_None. now rewrite positions_length.
Qed.

Lemma combine_map_id {B} (f : nat -> B) l : combine (map f l) l = map (fun i => (f i, i)) l.
Proof. induction l; cbn; congruence. Qed.

Lemma text_boundaries_ok t : encodable t -> text_boundaries t = AOk (c2b_of t, b2c_of t, flags t).
Proof.
  intros H. unfold text_boundaries. rewrite loop_spec by assumption. cbn [app].
  rewrite (positions_eq t H). f_equal. f_equal. f_equal.
  unfold b2c_of. rewrite <- combine_map_id. change (map (byte_pos t) (seq 0 (S (length t)))) with (c2b_of t).
  rewrite <- (positions_eq t H). reflexivity.
Qed.
Lemma text_boundaries_err t : ~ encodable t -> text_boundaries t = AErr UnicodeEncodeError.
Proof. apply loop_err. Qed.

Lemma c2b_nth t i : nth_error (c2b_of t) i = if i <=? length t then Some (byte_pos t i) else None.
Proof.
  unfold c2b_of. rewrite nth_error_map, nth_error_seq.
  destruct (Nat.leb_spec i (length t)); destruct (Nat.ltb_spec i (S (length t))); cbn; auto; lia.
Qed.
Lemma c2b_last t : last (c2b_of t) 0 = byte_len t.
Proof.
  unfold c2b_of. rewrite seq_S, map_app. cbn [map]. rewrite last_last. reflexivity.
Qed.

Lemma nat_get_app k a b : nat_get k (a ++ b) = match nat_get k b with Some v => Some v | None => nat_get k a end.
Proof.
  induction a as [|[k' v] a IH]; cbn; [destruct (nat_get k b); reflexivity|].
  rewrite IH. destruct (nat_get k b); reflexivity.
Qed.
Lemma nat_get_In k d v : nat_get k d = Some v -> In (k, v) d.
Proof.
  induction d as [|[k' w] d IH]; cbn; [discriminate|].
  destruct (nat_get k d); [right; auto|]. destruct (Nat.eqb_spec k k'); [|discriminate].
  intros E; left; congruence.
Qed.
Lemma nat_get_None k d : nat_get k d = None <-> ~ In k (map fst d).
Proof.
  induction d as [|[k' w] d IH]; cbn; [tauto|].
  destruct (nat_get k d) eqn:E.
  - split; [discriminate|]. intros N. exfalso. apply nat_get_In in E. apply N. right. apply in_map_iff. exists (k, n); auto.
  - destruct (Nat.eqb_spec k k'); split; try discriminate; intuition congruence.
Qed.

Lemma b2c_get t b i : encodable t ->
  nat_get b (b2c_of t) = Some i <-> i <= length t /\ byte_pos t i = b.
Proof.
  intros H. split.
  - intros E. apply nat_get_In in E. unfold b2c_of in E. apply in_map_iff in E as (j & E & I).
    apply in_seq in I. injection E as <- <-. lia.
  - intros [L <-]. destruct (nat_get (byte_pos t i) (b2c_of t)) as [j|] eqn:E.
    + apply nat_get_In in E. unfold b2c_of in E. apply in_map_iff in E as (j' & E & I). apply in_seq in I.
      injection E as E <-. f_equal. apply (byte_pos_inj t); auto; lia.
    + apply nat_get_None in E. exfalso; apply E. unfold b2c_of. rewrite map_map. cbn [fst].
      apply in_map_iff. exists i. split; auto. apply in_seq. lia.
Qed.

(** ** Whitespace flags *)
Lemma flags_length t : encodable t -> length (flags t) = byte_len t.
Proof.
  intros H. unfold byte_len. rewrite byte_pos_blen, firstn_all by assumption. clear H.
  induction t; cbn [flags blen]; [reflexivity|]. rewrite app_length, repeat_length. lia.
Qed.

Lemma flags_nth t : forall b w, encodable t -> nth_error (flags t) b = Some w ->
  exists i c, nth_error t i = Some c /\ byte_pos t i <= b < byte_pos t (S i) /\ w = py_isspace c.
Proof.
  induction t as [|c t IH]; intros b w H E; [destruct b; discriminate|].
  assert (H' := H). apply encodable_cons in H' as [H1 H2]. cbn [flags] in E.
  destruct (Nat.lt_ge_cases b (clen c)) as [L|L].
  - rewrite nth_error_app1 in E by (rewrite repeat_length; lia).
    apply nth_error_In, repeat_spec in E. exists 0, c. rewrite (byte_pos_S (c :: t) 0 c), byte_pos_0 by auto. repeat split; auto; lia.
  - rewrite nth_error_app2 in E by (rewrite repeat_length; lia). rewrite repeat_length in E.
    destruct (IH _ _ H2 E) as (i & x & E1 & E2 & E3). exists (S i), x. split; [exact E1|].
    rewrite !byte_pos_blen in * by assumption. cbn [firstn blen] in *. split; [lia|exact E3].
Qed.

Lemma char_at_unique t i j b : encodable t -> i < length t -> j < length t ->
  byte_pos t i <= b < byte_pos t (S i) -> byte_pos t j <= b < byte_pos t (S j) -> i = j.
Proof.
  intros H I J A B. assert (i < S j) by (apply (byte_pos_lt_inv t); auto; lia).
  assert (j < S i) by (apply (byte_pos_lt_inv t); auto; lia). lia.
Qed.

Lemma flags_spec t b w : encodable t -> nth_error (flags t) b = Some w -> (w = true <-> byte_is_space t b).
Proof.
  intros H E. destruct (flags_nth t b w H E) as (i & c & E1 & E2 & ->). split.
  - intros W. exists i, c. auto.
  - intros (j & d & F1 & F2 & F3). assert (i = j); [|subst; congruence].
    apply (char_at_unique t i j b); auto; apply nth_error_Some; congruence.
Qed.
Lemma space_dec t b : encodable t -> {byte_is_space t b} + {~ byte_is_space t b}.
Proof.
  intros H. destruct (nth_error (flags t) b) as [w|] eqn:E.
  - destruct w; [left|right]; apply flags_spec in E; auto; [now apply E|]. intros X. apply E in X. discriminate.
  - right. intros (i & c & E1 & E2 & _). apply nth_error_None in E. rewrite flags_length in E by assumption.
    assert (L : i < length t) by (apply nth_error_Some; congruence).
    assert (X := byte_pos_mono_le t (S i) (length t) H). unfold byte_len in E. lia.
Qed.

(** ** A byte offset is a character boundary iff no continuation byte is there. *)
Definition continuation (b : N) : Prop := (128 <= b < 192)%N.

Ltac Nify := rewrite ?N.ltb_lt, ?N.ltb_ge, ?N.leb_le, ?N.leb_gt, ?andb_true_iff, ?andb_false_iff in *.

Lemma mod64 x : (x mod 64 < 64)%N.
Proof. apply N.mod_lt. discriminate. Qed.

Lemma some_inj {A} (x y : A) : Some x = Some y -> x = y.
Proof. congruence. Qed.

Lemma utf8_char_shape c b : utf8_char c = Some b ->
  exists h r, b = h :: r /\ ~ continuation h /\ Forall continuation r.
Proof.
  unfold utf8_char, continuation.
  destruct (c <? 128)%N eqn:E1.
  { intros H; apply some_inj in H; subst b. exists c, []. apply N.ltb_lt in E1. split; [reflexivity|]. split; [lia|constructor]. }
  destruct (c <? 2048)%N eqn:E2.
  { intros H; apply some_inj in H; subst b. eexists _, _. split; [reflexivity|]. split; [lia|].
    repeat constructor; assert (X := mod64 c); lia. }
  destruct ((55296 <=? c) && (c <? 57344))%N eqn:E3; [discriminate|].
  destruct (c <? 65536)%N eqn:E4.
  { intros H; apply some_inj in H; subst b. eexists _, _. split; [reflexivity|]. split; [lia|].
    repeat constructor; assert (X := mod64 c); assert (Y := mod64 (c/64)%N); lia. }
  destruct (c <? 1114112)%N eqn:E5; [|discriminate].
  intros H; apply some_inj in H; subst b. eexists _, _. split; [reflexivity|]. split; [lia|].
  repeat constructor; assert (X := mod64 c); assert (Y := mod64 (c/64)%N); assert (Z := mod64 (c/4096)%N); lia.
Qed.

Lemma boundary_bytes t : forall bs b, encode t = Some bs ->
  (exists i, i <= length t /\ byte_pos t i = b) <->
  (b = length bs \/ exists x, nth_error bs b = Some x /\ ~ continuation x).
Proof.
  induction t as [|c t IH]; intros bs b E.
  - injection E as <-. cbn [length]. split.
    + intros (i & L & <-). left. assert (i = 0) by lia. subst. reflexivity.
    + intros [->|(x & E & _)]; [exists 0; auto|]. destruct b; discriminate.
  - assert (Enc : encodable (c :: t)) by (unfold encodable; congruence).
    apply encode_cons in E as (bc & bs' & E1 & E2 & ->).
    assert (Enc' : encodable t) by (unfold encodable; congruence).
    assert (C : clen c = length bc) by (unfold clen; now rewrite E1).
    destruct (utf8_char_shape c bc E1) as (h & r & -> & Hh & Hr).
    assert (PS : forall i, byte_pos (c :: t) (S i) = length (h :: r) + byte_pos t i).
    { intros i. rewrite !byte_pos_blen by assumption. cbn [firstn blen]. lia. }
    split.
    + intros (i & L & <-). destruct i as [|i].
      * rewrite byte_pos_0. right. exists h. split; auto.
      * rewrite PS. cbn [length] in L. assert (P : exists j, j <= length t /\ byte_pos t j = byte_pos t i) by (exists i; split; auto; lia).
        apply (IH bs' _ E2) in P. destruct P as [P|(x & P & Q)].
        -- left. rewrite app_length. lia.
        -- right. exists x. split; auto. rewrite nth_error_app2 by lia. rewrite <- P. f_equal. lia.
    + intros [->|(x & P & Q)].
      * exists (S (length t)). split; [cbn; lia|]. rewrite PS, app_length. f_equal.
        change (byte_pos t (length t)) with (byte_len t). now apply byte_len_encode.
      * destruct (Nat.lt_ge_cases b (length (h :: r))) as [L|L].
        -- rewrite nth_error_app1 in P by assumption. destruct b as [|b].
           ++ exists 0. split; auto. lia.
           ++ cbn in P. apply nth_error_In in P. rewrite Forall_forall in Hr. contradiction (Q (Hr _ P)).
        -- rewrite nth_error_app2 in P by assumption.
           assert (R : exists i, i <= length t /\ byte_pos t i = b - length (h :: r)).
           { apply (IH bs' _ E2). right. eauto. }
           destruct R as (i & I1 & I2). exists (S i). split; [cbn; lia|]. rewrite PS, I2. lia.
Qed.

Lemma char_roundtrip c b r : utf8_char c = Some b -> utf8_decode (b ++ r) = c :: utf8_decode r.
Proof.
  unfold utf8_char.
  assert (D0 : (c = 64 * (c / 64) + c mod 64)%N) by (apply N.div_mod; discriminate).
  assert (D1 : (c / 64 = 64 * (c / 64 / 64) + (c / 64) mod 64)%N) by (apply N.div_mod; discriminate).
  assert (D2 : (c / 64 / 64 = 64 * (c / 64 / 64 / 64) + (c / 64 / 64) mod 64)%N) by (apply N.div_mod; discriminate).
  assert (M0 := mod64 c). assert (M1 := mod64 (c/64)%N). assert (M2 := mod64 (c/64/64)%N).
  replace (c / 4096)%N with (c / 64 / 64)%N by (rewrite N.div_div by discriminate; reflexivity).
  replace (c / 262144)%N with (c / 64 / 64 / 64)%N by (rewrite !N.div_div by discriminate; reflexivity).
  set (q := (c/64)%N) in *. set (q2 := (q/64)%N) in *. set (q3 := (q2/64)%N) in *.
  set (m0 := (c mod 64)%N) in *. set (m1 := (q mod 64)%N) in *. set (m2 := (q2 mod 64)%N) in *.
  clearbody q q2 q3 m0 m1 m2.
  destruct (c <? 128)%N eqn:E1.
  { intros H; apply some_inj in H; subst b. cbn [app utf8_decode]. now rewrite E1. }
  apply N.ltb_ge in E1.
  destruct (c <? 2048)%N eqn:E2.
  { intros H; apply some_inj in H; subst b. apply N.ltb_lt in E2. cbn [app utf8_decode].
    replace (192 + q <? 128)%N with false by (symmetry; apply N.ltb_ge; lia).
    replace (192 + q <? 224)%N with true by (symmetry; apply N.ltb_lt; lia). f_equal. lia. }
  apply N.ltb_ge in E2.
  destruct ((55296 <=? c) && (c <? 57344))%N; [discriminate|].
  destruct (c <? 65536)%N eqn:E4.
  { intros H; apply some_inj in H; subst b. apply N.ltb_lt in E4. cbn [app utf8_decode].
    replace (224 + q2 <? 128)%N with false by (symmetry; apply N.ltb_ge; lia).
    replace (224 + q2 <? 224)%N with false by (symmetry; apply N.ltb_ge; lia).
    replace (224 + q2 <? 240)%N with true by (symmetry; apply N.ltb_lt; lia). f_equal. lia. }
  apply N.ltb_ge in E4.
  destruct (c <? 1114112)%N; [|discriminate].
  intros H; apply some_inj in H; subst b. cbn [app utf8_decode].
  replace (240 + q3 <? 128)%N with false by (symmetry; apply N.ltb_ge; lia).
  replace (240 + q3 <? 224)%N with false by (symmetry; apply N.ltb_ge; lia).
  replace (240 + q3 <? 240)%N with false by (symmetry; apply N.ltb_ge; lia). f_equal. lia.
Qed.

Lemma encode_decode t bs : encode t = Some bs -> utf8_decode bs = t.
Proof.
  revert bs; induction t as [|c t IH]; intros bs E.
  - injection E as <-. reflexivity.
  - apply encode_cons in E as (b & bs' & E1 & E2 & ->). now rewrite (char_roundtrip c b bs' E1), (IH _ E2).
Qed.

Lemma isspace_table : forall c, py_isspace c = true <-> In c unicode_spaces.
Proof.
  intros c. unfold py_isspace.
  rewrite !orb_true_iff, !andb_true_iff, !N.leb_le, !N.eqb_eq. cbn [unicode_spaces In]. split; intros; lia.
Qed.
