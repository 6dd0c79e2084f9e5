(** The C++ string helpers, and the token parser on byte strings. *)
From Coq Require Import List NArith Bool Lia Arith ZifyBool ZifyNat ZifyN String.
From Verif Require Import Text TextFacts AlignModel AlignSpec AlignBytes TokenModel TokenSpec TokenProofs.
From Verif Require Import CppModel CppSpec CppProofs.
Import ListNotations.
Local Open Scope list_scope.

Definition byte (b : N) : Prop := (b < 256)%N.

(** * UTF8CharLength *)
Definition len_table (b : N) : cres nat :=
  if (b <? 192)%N then Ret 1 else if (b <? 224)%N then Ret 2 else if (b <? 240)%N then Ret 3
  else if (b <? 248)%N then Ret 4 else Fatal.
Definition cres_eqb (a b : cres nat) : bool :=
  match a, b with Ret x, Ret y => x =? y | Fatal, Fatal => true | _, _ => false end.
Lemma len_spec b : byte b -> utf8_char_length b = len_table b.
Proof.
  intros H. assert (A : forallb (fun n => cres_eqb (utf8_char_length (N.of_nat n)) (len_table (N.of_nat n))) (seq 0 256) = true)
    by (vm_compute; reflexivity).
  rewrite forallb_forall in A. specialize (A (N.to_nat b)). rewrite N2Nat.id in A.
  assert (I : In (N.to_nat b) (seq 0 256)).
  { apply in_seq. unfold byte in H. split; [lia|]. change (0 + 256) with (N.to_nat 256). lia. }
  specialize (A I). unfold cres_eqb in A.
  destruct (utf8_char_length b), (len_table b); try discriminate; [|reflexivity].
  apply Nat.eqb_eq in A. now subst.
Qed.
Lemma len_cases b : byte b ->
  (exists n, utf8_char_length b = Ret n /\ 1 <= n <= 4) \/ (utf8_char_length b = Fatal /\ (248 <= b)%N).
Proof.
  intros H. rewrite (len_spec b H). unfold len_table.
  destruct (b <? 192)%N; [left; eexists; split; [reflexivity|lia]|].
  destruct (b <? 224)%N; [left; eexists; split; [reflexivity|lia]|].
  destruct (b <? 240)%N; [left; eexists; split; [reflexivity|lia]|].
  destruct (N.ltb_spec b 248); [left; eexists; split; [reflexivity|lia]|]. right. auto.
Qed.

(** * Splitting *)
Lemma Forall_skipn' {A} (P : A -> Prop) n l : Forall P l -> Forall P (skipn n l).
Proof. revert l. induction n as [|n IH]; intros [|x l] H; auto. inversion H; subst. cbn. auto. Qed.

Lemma split_loop_cases fuel : forall rest acc, Forall byte rest -> List.length rest < fuel ->
  (exists ps, split_chars_loop fuel rest acc = Ret (acc ++ ps) /\ List.concat ps = rest /\
     Forall (fun p => 1 <= List.length p <= 4) ps) \/
  (split_chars_loop fuel rest acc = Fatal /\ Exists (fun b => 248 <= b)%N rest).
Proof.
  induction fuel as [|fuel IH]; intros rest acc Hb Hf; [lia|]. cbn [split_chars_loop].
  destruct rest as [|c r]; [left; exists []; rewrite app_nil_r; auto|].
  assert (Hc : byte c) by now inversion Hb.
  destruct (len_cases c Hc) as [(n & E & L)|(E & L)]; rewrite E; cbn [cbind].
  2:{ right. split; [reflexivity|]. now constructor. }
  destruct (IH (skipn n (c :: r)) (acc ++ [firstn n (c :: r)])) as [(ps & E1 & E2 & E3)|(E1 & E2)].
  - now apply Forall_skipn'.
  - rewrite skipn_length. cbn [List.length] in *. lia.
  - left. exists (firstn n (c :: r) :: ps). rewrite E1, <- app_assoc. split; [reflexivity|]. cbn [List.concat].
    rewrite E2, firstn_skipn. split; [reflexivity|]. constructor; [|assumption].
    rewrite firstn_length. cbn [List.length]. lia.
  - right. split; [assumption|]. rewrite <- (firstn_skipn n (c :: r)). apply Exists_app. now right.
Qed.
Theorem split_total bs : Forall byte bs ->
  (exists ps, split_chars bs = Ret ps /\ List.concat ps = bs /\ Forall (fun p => 1 <= List.length p <= 4) ps) \/
  (split_chars bs = Fatal /\ Exists (fun b => 248 <= b)%N bs).
Proof. intros H. unfold split_chars. apply (split_loop_cases _ bs [] H). lia. Qed.

(** The bytes of a character; empty for one that has none. *)
Definition enc8 (c : N) : list N := match utf8_char c with Some b => b | None => [] end.

Lemma char_first c b : utf8_char c = Some b -> exists h r, b = h :: r /\ Forall byte b /\
  utf8_char_length h = Ret (List.length b) /\ ((c < 128)%N -> b = [c]) /\ ((128 <= c)%N -> 2 <= List.length b).
Proof.
  unfold utf8_char. intros H.
  assert (M0 := mod64 c). assert (M1 := mod64 (c/64)%N). assert (M2 := mod64 (c/4096)%N).
  destruct (c <? 128)%N eqn:E1.
  { apply some_inj in H. subst b. exists c, []. rewrite len_spec by (unfold byte; lia). unfold len_table.
    replace (c <? 192)%N with true by lia. repeat split; auto; [repeat constructor; unfold byte; lia|lia]. }
  apply N.ltb_ge in E1.
  destruct (c <? 2048)%N eqn:E2.
  { apply some_inj in H. subst b. apply N.ltb_lt in E2. eexists _, _. split; [reflexivity|].
    assert (c / 64 < 32)%N by (apply N.div_lt_upper_bound; lia).
    assert (2 <= c / 64)%N by (apply N.div_le_lower_bound; lia).
    rewrite len_spec by (unfold byte; lia). unfold len_table.
    replace (192 + c / 64 <? 192)%N with false by lia. replace (192 + c / 64 <? 224)%N with true by lia.
    split; [repeat constructor; unfold byte; lia|]. split; [reflexivity|]. split; [intros; lia|cbn; lia]. }
  apply N.ltb_ge in E2.
  destruct ((55296 <=? c) && (c <? 57344))%N; [discriminate|].
  destruct (c <? 65536)%N eqn:E4.
  { apply some_inj in H. subst b. apply N.ltb_lt in E4. eexists _, _. split; [reflexivity|].
    assert (c / 4096 < 16)%N by (apply N.div_lt_upper_bound; lia).
    rewrite len_spec by (unfold byte; lia). unfold len_table.
    replace (224 + c / 4096 <? 192)%N with false by lia. replace (224 + c / 4096 <? 224)%N with false by lia.
    replace (224 + c / 4096 <? 240)%N with true by lia.
    split; [repeat constructor; unfold byte; lia|]. split; [reflexivity|]. split; [intros; lia|cbn; lia]. }
  apply N.ltb_ge in E4.
  destruct (c <? 1114112)%N eqn:E5; [|discriminate].
  apply some_inj in H. subst b. apply N.ltb_lt in E5. eexists _, _. split; [reflexivity|].
  assert (c / 262144 < 5)%N by (apply N.div_lt_upper_bound; lia).
  rewrite len_spec by (unfold byte; lia). unfold len_table.
  replace (240 + c / 262144 <? 192)%N with false by lia. replace (240 + c / 262144 <? 224)%N with false by lia.
  replace (240 + c / 262144 <? 240)%N with false by lia. replace (240 + c / 262144 <? 248)%N with true by lia.
  split; [repeat constructor; unfold byte; lia|]. split; [reflexivity|]. split; [intros; lia|cbn; lia].
Qed.

Lemma skipn_app_len {A} (a b : list A) : skipn (List.length a) (a ++ b) = b.
Proof. rewrite skipn_app, skipn_all, Nat.sub_diag. reflexivity. Qed.
Lemma firstn_app_len {A} (a b : list A) : firstn (List.length a) (a ++ b) = a.
Proof. rewrite firstn_app, firstn_all, Nat.sub_diag. cbn. apply app_nil_r. Qed.

Lemma split_loop_chars t : forall fuel bs acc, encode t = Some bs -> List.length t < fuel ->
  split_chars_loop fuel bs acc = Ret (acc ++ map enc8 t).
Proof.
  induction t as [|c t IH]; intros [|fuel] bs acc E Hf; try (cbn in Hf; lia); cbn [split_chars_loop].
  - injection E as <-. cbn. now rewrite app_nil_r.
  - apply encode_cons in E as (b & bs' & E1 & E2 & ->).
    destruct (char_first c b E1) as (h & r & -> & _ & L & _). cbn [app]. rewrite L. cbn [cbind].
    change (h :: r ++ bs') with ((h :: r) ++ bs'). rewrite skipn_app_len, firstn_app_len.
    rewrite (IH fuel bs' _ E2) by (cbn in Hf; lia). rewrite <- app_assoc. cbn [map app].
    unfold enc8 at 2. now rewrite E1.
Qed.
Lemma encode_length_le t : forall bs, encode t = Some bs -> List.length t <= List.length bs.
Proof.
  induction t as [|c t IH]; intros bs E; [cbn; lia|].
  apply encode_cons in E as (b & bs' & E1 & E2 & ->). apply IH in E2.
  destruct (char_first c b E1) as (h & r & -> & _). rewrite app_length. cbn. lia.
Qed.
Theorem split_utf8 t bs : encode t = Some bs -> split_chars bs = Ret (map enc8 t).
Proof.
  intros E. unfold split_chars. rewrite (split_loop_chars t _ bs [] E); [reflexivity|].
  apply encode_length_le in E. lia.
Qed.
Lemma enc8_chars t bs : encode t = Some bs -> Forall2 (fun c p => utf8_char c = Some p) t (map enc8 t).
Proof.
  revert bs. induction t as [|c t IH]; intros bs E; [constructor|].
  apply encode_cons in E as (b & bs' & E1 & E2 & ->). cbn [map]. constructor; eauto.
  unfold enc8. now rewrite E1.
Qed.
Theorem split_chars_utf8 t bs : encode t = Some bs ->
  exists ps, split_chars bs = Ret ps /\ Forall2 (fun c p => utf8_char c = Some p) t ps.
Proof. intros E. exists (map enc8 t). split; [now apply split_utf8|now apply (enc8_chars t bs)]. Qed.

Lemma length_split fuel : forall rest len acc,
  utf8_length_loop fuel rest len
  = match split_chars_loop fuel rest acc with
    | Ret ps => Ret (len + (List.length ps - List.length acc)) | Throw => Throw | Fatal => Fatal
    | Undefined => Undefined | Stuck => Stuck end /\
  match split_chars_loop fuel rest acc with Ret ps => List.length acc <= List.length ps | _ => True end.
Proof.
  induction fuel as [|fuel IH]; intros rest len acc; [split; [reflexivity|exact I]|].
  cbn [utf8_length_loop split_chars_loop]. destruct rest as [|c r].
  - split; [f_equal; lia|lia].
  - destruct (utf8_char_length c) as [n| | | |]; cbn [cbind]; try (split; [reflexivity|exact I]).
    destruct (IH (skipn n (c :: r)) (S len) (acc ++ [firstn n (c :: r)])) as [H1 H2]. rewrite H1.
    destruct (split_chars_loop fuel _ _) as [ps| | | |]; try (split; [reflexivity|exact I]).
    rewrite app_length in *. cbn [List.length] in *. split; [f_equal; lia|lia].
Qed.
Theorem string_length_split bs ps : split_chars bs = Ret ps -> utf8_string_length bs = Ret (List.length ps).
Proof.
  intros E. unfold utf8_string_length, split_chars in *.
  destruct (length_split (S (List.length bs)) bs 0 []) as [H _]. rewrite H, E. cbn. f_equal. lia.
Qed.

(** * Trim *)
Lemma white_blank c : white c = true <-> blank c.
Proof. unfold white, blank. cbn. lia. Qed.
Lemma first_not_of s : forall i,
  (Forall blank s /\ find_first_not_of s i = None) \/
  (exists a c r, s = a ++ c :: r /\ Forall blank a /\ ~ blank c /\ find_first_not_of s i = Some (i + List.length a)).
Proof.
  induction s as [|c s IH]; intros i; cbn [find_first_not_of]; [left; auto|].
  destruct (white c) eqn:W.
  - apply white_blank in W. destruct (IH (S i)) as [[H1 H2]|(a & d & r & -> & Ha & Hd & E)].
    + left. auto.
    + right. exists (c :: a), d, r. rewrite E. repeat split; auto. f_equal. cbn. lia.
  - right. exists [], c, s. rewrite Nat.add_0_r. split; [reflexivity|]. split; [constructor|].
    split; [|reflexivity]. rewrite <- white_blank. congruence.
Qed.
Lemma last_not_of s : forall i,
  (Forall blank s /\ find_last_not_of s i = None) \/
  (exists a c r, s = a ++ c :: r /\ Forall blank r /\ ~ blank c /\ find_last_not_of s i = Some (i + List.length a)).
Proof.
  induction s as [|c s IH]; intros i; cbn [find_last_not_of]; [left; auto|].
  destruct (IH (S i)) as [[H1 H2]|(a & d & r & -> & Hr & Hd & E)].
  - rewrite H2. destruct (white c) eqn:W.
    + left. apply white_blank in W. auto.
    + right. exists [], c, s. rewrite Nat.add_0_r. split; [reflexivity|]. split; [assumption|].
      split; [|reflexivity]. rewrite <- white_blank. congruence.
  - right. exists (c :: a), d, r. rewrite E. repeat split; auto. f_equal. cbn. lia.
Qed.
Theorem trim_spec s : exists a b, s = a ++ trim s ++ b /\ Forall blank a /\ Forall blank b /\
  ~ begins_blank (trim s) /\ ~ ends_blank (trim s).
Proof.
  unfold trim, ltrim.
  destruct (first_not_of s 0) as [[H1 ->]|(a & c & r & -> & Ha & Hc & ->)].
  - exists s, []. cbn. rewrite app_nil_r. repeat split; auto.
    + intros (c & r & E & _). discriminate.
    + intros (r & c & E & _). destruct r; discriminate.
  - cbn [Nat.add]. rewrite skipn_app_len. unfold rtrim.
    destruct (last_not_of (c :: r) 0) as [[H1 _]|(a2 & d & r2 & E & Hr & Hd & ->)].
    { inversion H1. tauto. }
    cbn [Nat.add]. rewrite E.
    replace (a2 ++ d :: r2) with ((a2 ++ [d]) ++ r2) by now rewrite <- app_assoc.
    replace (List.length a2 + 1) with (List.length (a2 ++ [d])) by (rewrite app_length; reflexivity).
    rewrite firstn_app_len. exists a, r2. repeat split; auto.
    + intros (x & y & Ex & Bx). destruct a2 as [|z a2].
      * cbn in Ex. injection Ex as -> _. tauto.
      * cbn in Ex, E. injection Ex as -> _. injection E as -> _. tauto.
    + intros (x & y & Ex & Bx). apply app_inj_tail in Ex as [_ ->]. tauto.
Qed.
Lemma strip_head a t a' t' : a ++ t = a' ++ t' -> Forall blank a -> Forall blank a' ->
  ~ begins_blank t -> ~ begins_blank t' -> t = t'.
Proof.
  revert a'. induction a as [|c a IH]; intros a' E Ha Ha' Ht Ht'.
  - destruct a' as [|c' a']; [exact E|]. cbn in E. exfalso. apply Ht. exists c', (a' ++ t'). split; auto. now inversion Ha'.
  - destruct a' as [|c' a'].
    + cbn in E. exfalso. apply Ht'. exists c, (a ++ t). split; auto. now inversion Ha.
    + cbn in E. injection E as -> E. inversion Ha; inversion Ha'; subst. eauto.
Qed.
Lemma trim_unique a t b a' t' b' : a ++ t ++ b = a' ++ t' ++ b' ->
  Forall blank a -> Forall blank b -> Forall blank a' -> Forall blank b' ->
  ~ begins_blank t -> ~ begins_blank t' -> ~ ends_blank t -> ~ ends_blank t' -> t <> [] -> t' <> [] -> t = t'.
Proof.
  intros E Ha Hb Ha' Hb' H1 H2 H3 H4 N1 N2.
  assert (E1 : t ++ b = t' ++ b').
  { apply (strip_head a _ a' _ E); auto; intros (c & r & X & Y).
    - destruct t as [|z t]; [congruence|]. cbn in X. injection X as -> _. apply H1. now exists c, t.
    - destruct t' as [|z t']; [congruence|]. cbn in X. injection X as -> _. apply H2. now exists c, t'. }
  apply (f_equal (@rev N)) in E1. rewrite !rev_app_distr in E1.
  apply strip_head in E1; try (apply Forall_rev; assumption).
  - apply (f_equal (@rev N)) in E1. now rewrite !rev_involutive in E1.
  - intros (c & r & X & Y). apply H3. exists (rev r), c. split; auto.
    apply (f_equal (@rev N)) in X. now rewrite rev_involutive in X.
  - intros (c & r & X & Y). apply H4. exists (rev r), c. split; auto.
    apply (f_equal (@rev N)) in X. now rewrite rev_involutive in X.
Qed.
Lemma trim_is s a t b : s = a ++ t ++ b -> Forall blank a -> Forall blank b ->
  ~ begins_blank t -> ~ ends_blank t -> t <> [] -> trim s = t.
Proof.
  intros E Ha Hb H1 H2 N. destruct (trim_spec s) as (a' & b' & E' & Ha' & Hb' & H1' & H2').
  apply (trim_unique a' (trim s) b' a t b); auto; [congruence|].
  intros X. rewrite X in E'. cbn in E'. rewrite E in E'.
  assert (B : Forall blank (a' ++ b')) by (apply Forall_app; auto). rewrite <- E' in B.
  apply Forall_app in B as [_ B]. apply Forall_app in B as [B _].
  destruct t as [|c t]; [congruence|]. apply H1. exists c, t. inversion B; auto.
Qed.

(** * Split *)
Lemma is_prefix_spec p s : is_prefix p s = true <-> exists r, s = p ++ r.
Proof.
  revert s. induction p as [|x p IH]; intros s; cbn.
  - split; eauto.
  - destruct s as [|y s]; [split; [discriminate|intros (r & E); discriminate]|].
    rewrite andb_true_iff, N.eqb_eq, IH. split.
    + intros (-> & r & ->). eauto.
    + intros (r & [= -> ->]). eauto.
Qed.
Lemma find_spec p s : forall i,
  (exists a b, s = a ++ p ++ b /\ find s p i = Some (i + List.length a) /\
     forall a' b', s = a' ++ p ++ b' -> List.length a <= List.length a') \/
  (find s p i = None /\ ~ occurs p s).
Proof.
  induction s as [|c s IH]; intros i; cbn [find].
  - destruct (is_prefix p []) eqn:P.
    + apply is_prefix_spec in P as (r & E). left. exists [], r. split; [assumption|]. cbn [List.length]. rewrite Nat.add_0_r. split; [reflexivity|lia].
    + right. split; auto. intros (a & b & E). destruct a; [|discriminate]. cbn in E.
      assert (P' : is_prefix p [] = true) by (apply is_prefix_spec; eauto). congruence.
  - destruct (is_prefix p (c :: s)) eqn:P.
    + apply is_prefix_spec in P as (r & E). left. exists [], r. split; [assumption|]. cbn [List.length]. rewrite Nat.add_0_r. split; [reflexivity|lia].
    + assert (NP : forall r, c :: s <> p ++ r).
      { intros r E. assert (P' : is_prefix p (c :: s) = true) by (apply is_prefix_spec; eauto). congruence. }
      destruct (IH (S i)) as [(a & b & E & F & M)|(F & M)]; rewrite F.
      * left. exists (c :: a), b. repeat split; [now rewrite E|f_equal; cbn; lia|].
        intros [|x a'] b' E'; [now elim (NP b')|]. cbn in E'. injection E' as -> E'. apply M in E'. cbn. lia.
      * right. split; auto. intros ([|x a] & b & E); [now elim (NP b)|]. cbn in E. injection E as -> E.
        apply M. now exists a, b.
Qed.

Lemma split_delim_cases delim : delim <> [] -> forall fuel s out, List.length s < fuel ->
  exists ps, split_loop fuel s delim out = Ret (out ++ ps) /\ ps <> [] /\ join delim ps = s /\
    Forall (fun p => ~ occurs delim p) ps.
Proof.
  intros Hd. induction fuel as [|fuel IH]; intros s out Hf; [lia|]. cbn [split_loop].
  destruct (find_spec delim s 0) as [(a & b & E & F & M)|(F & M)]; rewrite F.
  - cbn [Nat.add].
    assert (L : 0 < List.length delim) by (destruct delim; [congruence|cbn; lia]).
    replace (skipn (List.length a + List.length delim) s) with b.
    2:{ rewrite E, <- app_length, app_assoc. now rewrite skipn_app_len. }
    replace (firstn (List.length a) s) with a by (rewrite E; now rewrite firstn_app_len).
    destruct (IH b (out ++ [a])) as (ps & P1 & P2 & P3 & P4).
    { rewrite E, !app_length in Hf. lia. }
    exists (a :: ps). rewrite P1, <- app_assoc. split; [reflexivity|]. split; [discriminate|]. split.
    + destruct ps as [|p ps]; [congruence|]. cbn [join] in *. rewrite E, <- P3. reflexivity.
    + constructor; auto. intros (x & y & X).
      specialize (M x (y ++ delim ++ b)). rewrite E, X, !app_length, <- !app_assoc in M. specialize (M eq_refl). lia.
  - exists [s]. repeat split; auto; discriminate.
Qed.
Theorem split_delim s delim : delim <> [] ->
  exists ps, split_loop (S (List.length s)) s delim [] = Ret ps /\ join delim ps = s /\
    Forall (fun p => ~ occurs delim p) ps.
Proof.
  intros H. destruct (split_delim_cases delim H (S (List.length s)) s []) as (ps & E1 & _ & E2 & E3); [lia|].
  exists ps. auto.
Qed.
Theorem split_empty_delim_stuck fuel s out : split_loop fuel s [] out = Stuck.
Proof.
  revert s out. induction fuel as [|fuel IH]; intros s out; [reflexivity|]. cbn [split_loop].
  destruct s; cbn [find is_prefix]; apply IH.
Qed.

(** * The parser on bytes *)
Lemma good_enc8 c : utf8_char c <> None -> good enc8 c.
Proof.
  intros H. unfold good, enc8. destruct (utf8_char c) as [b|] eqn:E; [|congruence].
  destruct (char_first c b E) as (h & r & Eb & _ & _ & H1 & H2). pose proof (utf8_char_pos c b E) as L.
  split; [auto|]. intros G. apply H2 in G. split.
  - intros ->. cbn in L. lia.
  - intros a _ ->. cbn in G. lia.
Qed.
Lemma good_all t bs : encode t = Some bs -> Forall (good enc8) t.
Proof.
  revert bs. induction t as [|c t IH]; intros bs E; [constructor|].
  apply encode_cons in E as (b & bs' & E1 & E2 & ->). constructor; eauto. apply good_enc8. congruence.
Qed.

Theorem parse_cpp_utf8 t bs : encode t = Some bs ->
  (forall ts, t <> [] -> stream_raw t ts -> parse_cpp bs = Ret (map (ctok enc8) ts)) /\
  ((exists ts, t <> [] /\ stream_raw t ts /\ parse_cpp bs = Ret (map (ctok enc8) ts)) \/ parse_cpp bs = Throw).
Proof.
  intros E. pose proof (good_all t bs E) as Gd. unfold parse_cpp. rewrite (split_utf8 t bs E). cbn [cbind]. split.
  - intros ts Hn Hs. now apply cparse_hit.
  - now apply cparse_cases.
Qed.

(** Any pieces at all: number the ones that are not ASCII. *)
Definition code (i : nat) (p : list N) : N :=
  match p with
  | [b] => if (b <? 128)%N then b else (128 + N.of_nat i)%N
  | _ => (128 + N.of_nat i)%N
  end.
Fixpoint codes (i : nat) (ps : list (list N)) : text :=
  match ps with [] => [] | p :: r => code i p :: codes (S i) r end.
Definition uncode (ps : list (list N)) (c : N) : list N :=
  if (c <? 128)%N then [c] else nth (N.to_nat (c - 128)) ps [].
Lemma codes_ok ps : Forall (fun p => 1 <= List.length p <= 4) ps -> forall pre,
  map (uncode (pre ++ ps)) (codes (List.length pre) ps) = ps /\
  Forall (good (uncode (pre ++ ps))) (codes (List.length pre) ps).
Proof.
  induction 1 as [|p ps Hp Hps IH]; intros pre; [split; [reflexivity|constructor]|].
  cbn [codes map].
  specialize (IH (pre ++ [p])). rewrite <- app_assoc, app_length in IH. cbn [app List.length] in IH.
  replace (List.length pre + 1) with (S (List.length pre)) in IH by lia. destruct IH as [IH1 IH2].
  assert (Big : (exists b, p = [b] /\ (b < 128)%N /\ code (List.length pre) p = b) \/
    ((forall a, (a < 128)%N -> p <> [a]) /\ code (List.length pre) p = (128 + N.of_nat (List.length pre))%N)).
  { unfold code. destruct p as [|b [|b2 p]].
    - right. split; auto. discriminate.
    - destruct (N.ltb_spec b 128).
      + left. eauto.
      + right. split; auto. intros a La [= ->]. lia.
    - right. split; auto. discriminate. }
  assert (U : uncode (pre ++ p :: ps) (code (List.length pre) p) = p).
  { destruct Big as [(b & -> & L & ->)|(_ & ->)]; unfold uncode.
    - now replace (b <? 128)%N with true by lia.
    - replace (128 + N.of_nat (List.length pre) <? 128)%N with false by lia.
      replace (N.to_nat (128 + N.of_nat (List.length pre) - 128)) with (List.length pre) by lia.
      rewrite app_nth2, Nat.sub_diag by lia. reflexivity. }
  rewrite U. split; [f_equal; exact IH1|]. constructor; [|exact IH2].
  unfold good. rewrite U. destruct Big as [(b & -> & L & ->)|(Nx & ->)].
  - split; [auto|lia].
  - split; [lia|]. intros _. split; [|exact Nx]. intros ->. cbn in Hp. lia.
Qed.
Theorem parse_cpp_total bs : Forall byte bs ->
  (exists ts, parse_cpp bs = Ret ts) \/ parse_cpp bs = Throw \/
  (parse_cpp bs = Fatal /\ split_chars bs = Fatal /\ Exists (fun b => 248 <= b)%N bs).
Proof.
  intros H. unfold parse_cpp. destruct (split_total bs H) as [(ps & -> & _ & L)|(-> & X)]; cbn [cbind]; [|auto].
  destruct (codes_ok ps L []) as [M Gd]. cbn [app List.length] in M, Gd.
  destruct (cparse_cases (uncode ps) (codes 0 ps) Gd) as [(ts & _ & _ & P)|P]; rewrite M in P; eauto.
Qed.
Theorem reorder_cpp_total os bs : Forall byte bs ->
  (exists out, reorder_cpp os bs = Ret out) \/ reorder_cpp os bs = Throw \/
  (reorder_cpp os bs = Fatal /\ Exists (fun b => 248 <= b)%N bs).
Proof.
  intros H. unfold reorder_cpp.
  destruct (parse_cpp_total bs H) as [(ts & ->)|[->|(-> & _ & X)]]; cbn [cbind]; eauto.
Qed.
