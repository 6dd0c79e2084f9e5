(** Proofs about TokenModel.v against TokenSpec.v. *)
From Coq Require Import List NArith Bool Lia Arith ZifyBool ZifyNat ZifyN String Permutation.
From Verif Require Import Text TextFacts TokenModel TokenSpec.
Import ListNotations.
Local Open Scope list_scope.

(** * The parser state as a split of the text *)
Definition st_of (pre rest : text) : pstate :=
  match rest with
  | [] => PState (List.length pre - 1) None
  | c :: _ => PState (List.length pre) (Some c)
  end.

Lemma read_st_of pre c r :
  read (pre ++ c :: r) (st_of pre (c :: r))
  = Ok (match r with [] => false | _ => true end, st_of (pre ++ [c]) r).
Proof.
  unfold read, st_of; cbn [ix ch]. rewrite app_length; cbn [List.length].
  destruct r as [|d r'].
  - cbn [List.length]. replace (List.length pre <? List.length pre + 1 - 1) with false by lia.
    rewrite app_length; cbn [List.length]. do 3 f_equal. lia.
  - cbn [List.length]. replace (List.length pre <? List.length pre + S (S (List.length r')) - 1) with true by lia.
    rewrite nth_error_app2 by lia. replace (S (List.length pre) - List.length pre) with 1 by lia.
    cbn. rewrite app_length; cbn. do 3 f_equal. lia.
Qed.

Lemma not_eos_st_of pre r : not_eos (st_of pre r) = match r with [] => false | _ => true end.
Proof. destruct r; reflexivity. Qed.
Lemma char_is_st_of pre r c :
  char_is (st_of pre r) c = match r with [] => false | x :: _ => (x =? c)%N end.
Proof. destruct r; reflexivity. Qed.

(** Faults that are genuine [TokenParseError]s. *)
Definition good_err (e : err) : Prop := exists f, e = TokenParseError f.
Lemma good_tpe f : good_err (TokenParseError f).
Proof. now exists f. Qed.
#[export] Hint Resolve good_tpe : core.

Definition starts_not (c : N) (r : text) : Prop := match r with [] => True | x :: _ => x <> c end.

(** Maximal run of spaces. *)
Lemma split_spaces (r : text) : exists n r', r = repeat SP n ++ r' /\ starts_not SP r'.
Proof.
  induction r as [|c r IH].
  - now exists 0, [].
  - destruct (N.eq_dec c SP) as [->|E].
    + destruct IH as (n & r' & -> & H). now exists (S n), r'.
    + now exists 0, (c :: r).
Qed.

Lemma parse_ws_loop_ok fuel n : forall pre r,
  starts_not SP r -> n < fuel ->
  parse_ws_loop fuel (pre ++ repeat SP n ++ r) (match repeat SP n ++ r with [] => false | _ => true end)
    (st_of pre (repeat SP n ++ r))
  = Ok (match r with [] => false | _ => true end, st_of (pre ++ repeat SP n) r).
Proof.
  revert n; induction fuel as [|f IH]; intros n pre r Hs Hlt; [lia|].
  cbn [parse_ws_loop]. rewrite char_is_st_of. destruct n as [|n].
  - cbn [repeat app]. rewrite app_nil_r. destruct r as [|c r']; [reflexivity|].
    cbn in Hs. replace (c =? SP)%N with false by lia. reflexivity.
  - cbn [repeat app]. rewrite N.eqb_refl. cbn [andb].
    rewrite read_st_of. cbn [bind].
    change (SP :: repeat SP n ++ r) with ([SP] ++ (repeat SP n ++ r)).
    rewrite app_assoc. rewrite IH by (auto; lia).
    now rewrite <- app_assoc.
Qed.

Lemma parse_ws_ok pre n r :
  starts_not SP r ->
  parse_ws (pre ++ repeat SP n ++ r) (st_of pre (repeat SP n ++ r))
  = Ok (match r with [] => false | _ => true end, st_of (pre ++ repeat SP n) r).
Proof.
  intros Hs. unfold parse_ws. rewrite not_eos_st_of. apply parse_ws_loop_ok; auto.
  unfold loop_fuel. rewrite !app_length, repeat_length. lia.
Qed.

Lemma parse_char_hit pre c r :
  parse_char (pre ++ c :: r) c (st_of pre (c :: r)) = Ok (true, st_of (pre ++ [c]) r).
Proof.
  unfold parse_char. rewrite char_is_st_of, N.eqb_refl, read_st_of. reflexivity.
Qed.
Lemma parse_char_miss txt pre c r : starts_not c r ->
  parse_char txt c (st_of pre r) = Ok (false, st_of pre r).
Proof.
  intros H. unfold parse_char. rewrite char_is_st_of.
  destruct r as [|x r]; [reflexivity|]. cbn in H. now replace (x =? c)%N with false by lia.
Qed.

Lemma parse_chars_from_hit exp : forall start pre r,
  parse_chars_from (pre ++ exp ++ r) start exp (st_of pre (exp ++ r))
  = Ok (true, st_of (pre ++ exp) r).
Proof.
  induction exp as [|x exp IH]; intros start pre r; cbn [parse_chars_from app].
  - now rewrite app_nil_r.
  - rewrite parse_char_hit. cbn [bind].
    change (x :: exp ++ r) with ([x] ++ (exp ++ r)). rewrite app_assoc, IH.
    now rewrite <- app_assoc.
Qed.

Lemma expect_chars_hit exp pre r :
  expect_chars (pre ++ exp ++ r) exp (st_of pre (exp ++ r)) = Ok (st_of (pre ++ exp) r).
Proof.
  unfold expect_chars, parse_chars. now rewrite parse_chars_from_hit.
Qed.

Lemma parse_chars_from_cases exp : forall start pre r,
  start < List.length (pre ++ r) ->
  (exists r', r = exp ++ r' ) \/
  (exists s, parse_chars_from (pre ++ r) start exp (st_of pre r) = Ok (false, s)).
Proof.
  induction exp as [|x exp IH]; intros start pre r Hlt; [left; now exists r|].
  destruct r as [|c r].
  - right. cbn [parse_chars_from]. rewrite parse_char_miss by exact I. cbn [bind].
    destruct (nth_error (pre ++ []) start) eqn:E; [eauto|].
    apply nth_error_None in E. lia.
  - destruct (N.eq_dec c x) as [->|Hne].
    + destruct (IH start (pre ++ [x]) r) as [(r' & ->)|(s & Hs)].
      { rewrite <- app_assoc; cbn; exact Hlt. }
      * left. now exists r'.
      * right. exists s. cbn [parse_chars_from]. rewrite parse_char_hit. cbn [bind].
        now rewrite <- app_assoc in Hs.
    + right. cbn [parse_chars_from]. rewrite parse_char_miss by exact Hne. cbn [bind].
      destruct (nth_error (pre ++ c :: r) start) eqn:E; [eauto|].
      apply nth_error_None in E. lia.
Qed.

Lemma ix_st_of_lt pre r : pre ++ r <> [] -> ix (st_of pre r) < List.length (pre ++ r).
Proof.
  intros H. destruct r as [|c r]; cbn [st_of ix]; rewrite app_length; cbn [List.length]; [|lia].
  destruct pre; [now elim H|cbn; lia].
Qed.

Lemma expect_chars_cases exp pre r : pre ++ r <> [] ->
  (exists r', r = exp ++ r' /\ expect_chars (pre ++ r) exp (st_of pre r) = Ok (st_of (pre ++ exp) r')) \/
  expect_chars (pre ++ r) exp (st_of pre r) = Err (TokenParseError ExpectedChars).
Proof.
  intros Hne. destruct (parse_chars_from_cases exp (ix (st_of pre r)) pre r (ix_st_of_lt _ _ Hne))
    as [(r' & ->)|(s & Hs)].
  - left. exists r'. split; [reflexivity|]. apply expect_chars_hit.
  - right. unfold expect_chars, parse_chars. rewrite Hs. reflexivity.
Qed.

(** * Keys *)
Lemma key_char_spec c : key_char c = true <-> letter c.
Proof. unfold key_char, letter. lia. Qed.
Definition starts_nonkey (r : text) : Prop := match r with [] => True | c :: _ => ~ letter c end.

Lemma split_key (r : text) : exists k r', r = k ++ r' /\ Forall letter k /\ starts_nonkey r'.
Proof.
  induction r as [|c r IH].
  - now exists [], [].
  - destruct (key_char c) eqn:E.
    + destruct IH as (k & r' & -> & Hk & Hr). exists (c :: k), r'. repeat split; auto.
      constructor; auto. now apply key_char_spec.
    + exists [], (c :: r). repeat split; auto. cbn. rewrite <- key_char_spec. congruence.
Qed.

Lemma key_loop_ok k : forall fuel acc pre r,
  Forall letter k -> starts_nonkey r -> List.length k < fuel ->
  key_loop fuel (pre ++ k ++ r) acc (st_of pre (k ++ r)) = Ok (acc ++ k, st_of (pre ++ k) r).
Proof.
  induction k as [|c k IH]; intros fuel acc pre r Hk Hr Hf; (destruct fuel as [|fuel]; [cbn in Hf; lia|]).
  - cbn [key_loop app]. rewrite !app_nil_r. destruct r as [|c r]; [reflexivity|].
    cbn [st_of ch]. destruct (key_char c) eqn:E; [|reflexivity].
    apply key_char_spec in E. cbn in Hr. tauto.
  - inversion Hk; subst. cbn [key_loop app]. cbn [st_of ch].
    replace (key_char c) with true by (symmetry; now apply key_char_spec).
    change (PState (List.length pre) (Some c)) with (st_of pre (c :: k ++ r)).
    rewrite read_st_of. cbn [bind].
    change (c :: k ++ r) with ([c] ++ (k ++ r)). rewrite app_assoc, IH by (auto; cbn in Hf; lia).
    now rewrite <- !app_assoc.
Qed.

Lemma letter_not_ws c : letter c -> py_whitespace c = false.
Proof. unfold letter, py_whitespace. cbn [existsb]. lia. Qed.

Lemma parse_key_hit pre k r : is_name k -> starts_nonkey r ->
  parse_key (pre ++ k ++ r) (st_of pre (k ++ r)) = Ok (k, st_of (pre ++ k) r).
Proof.
  intros [Hne Hk] Hr. destruct k as [|c k]; [congruence|].
  unfold parse_key. cbn [app]. cbn [st_of ch]. inversion Hk; subst.
  rewrite letter_not_ws by assumption.
  change (PState (List.length pre) (Some c)) with (st_of pre ((c :: k) ++ r)).
  change (c :: k ++ r) with ((c :: k) ++ r).
  rewrite key_loop_ok; auto.
  unfold loop_fuel. rewrite !app_length. lia.
Qed.

Lemma parse_key_cases pre r :
  (exists k r', r = k ++ r' /\ is_name k /\ starts_nonkey r' /\
     parse_key (pre ++ r) (st_of pre r) = Ok (k, st_of (pre ++ k) r')) \/
  (exists e, parse_key (pre ++ r) (st_of pre r) = Err e /\ good_err e).
Proof.
  destruct (split_key r) as (k & r' & -> & Hk & Hr).
  destruct k as [|c k].
  - right. cbn [app]. destruct r' as [|c r']; [eexists; split; [reflexivity|auto]|].
    unfold parse_key. cbn [st_of ch]. destruct (py_whitespace c); [eexists; split; [reflexivity|auto]|].
    pose proof (key_loop_ok [] (loop_fuel (pre ++ c :: r')) [] pre (c :: r') Hk Hr) as K.
    cbn [app st_of] in K. rewrite K by (unfold loop_fuel; cbn; lia).
    cbn. eexists; split; [reflexivity|auto].
  - left. exists (c :: k), r'. repeat split; auto; [congruence|].
    apply parse_key_hit; auto. split; [congruence|auto].
Qed.

(** * Values *)
Definition BSL_neq_QUOTE : BSL <> QUOTE. Proof. discriminate. Qed.

Lemma decodes_length b v : decodes b v -> List.length v <= List.length b.
Proof. induction 1; cbn; lia. Qed.

Lemma value_loop_ok b v : decodes b v -> forall fuel acc pre r,
  List.length b < fuel ->
  value_loop fuel (pre ++ b ++ QUOTE :: r) acc (st_of pre (b ++ QUOTE :: r))
  = Ok (acc ++ v, st_of (pre ++ b) (QUOTE :: r)).
Proof.
  induction 1 as [|c b v Hq Hb Hd IH|c b v Hc Hd IH|c b v Hq Hb Hd IH]; intros fuel acc pre r Hf;
    (destruct fuel as [|fuel]; [cbn in Hf; lia|]); cbn [value_loop app].
  - cbn [st_of ch]. rewrite N.eqb_refl, !app_nil_r. reflexivity.
  - cbn [st_of ch]. replace (c =? QUOTE)%N with false by (unfold QUOTE; lia).
    replace (c =? BSL)%N with false by (unfold BSL; lia).
    change (PState (List.length pre) (Some c)) with (st_of pre (c :: b ++ QUOTE :: r)).
    rewrite read_st_of. cbn [bind].
    change (c :: b ++ QUOTE :: r) with ([c] ++ (b ++ QUOTE :: r)). rewrite app_assoc, IH by (cbn in Hf; lia).
    now rewrite <- !app_assoc.
  - change 92%N with BSL. cbn [st_of ch]. change (BSL =? QUOTE)%N with false. rewrite N.eqb_refl.
    change (PState (List.length pre) (Some BSL)) with (st_of pre (BSL :: c :: b ++ QUOTE :: r)).
    cbv zeta iota. rewrite read_st_of. cbn [bind]. cbn [st_of ch].
    replace ((c =? QUOTE) || (c =? BSL))%N%bool with true by (unfold QUOTE, BSL; lia).
    change (PState (List.length (pre ++ [BSL])) (Some c)) with (st_of (pre ++ [BSL]) (c :: b ++ QUOTE :: r)).
    replace (pre ++ BSL :: c :: b ++ QUOTE :: r) with ((pre ++ [BSL]) ++ c :: b ++ QUOTE :: r)
      by (now rewrite <- app_assoc).
    rewrite read_st_of. cbn [bind].
    replace ((pre ++ [BSL]) ++ c :: b ++ QUOTE :: r) with (((pre ++ [BSL]) ++ [c]) ++ b ++ QUOTE :: r)
      by (now rewrite <- !app_assoc).
    rewrite IH by (cbn in Hf; lia). now rewrite <- !app_assoc.
  - change 92%N with BSL. cbn [st_of ch]. change (BSL =? QUOTE)%N with false. rewrite N.eqb_refl.
    change (PState (List.length pre) (Some BSL)) with (st_of pre (BSL :: c :: b ++ QUOTE :: r)).
    cbv zeta iota. rewrite read_st_of. cbn [bind]. cbn [st_of ch].
    replace ((c =? QUOTE) || (c =? BSL))%N%bool with false by (unfold QUOTE, BSL; lia).
    change (PState (List.length (pre ++ [BSL])) (Some c)) with (st_of (pre ++ [BSL]) (c :: b ++ QUOTE :: r)).
    replace (pre ++ BSL :: c :: b ++ QUOTE :: r) with ((pre ++ [BSL]) ++ c :: b ++ QUOTE :: r)
      by (now rewrite <- app_assoc).
    rewrite read_st_of. cbn [bind].
    replace ((pre ++ [BSL]) ++ c :: b ++ QUOTE :: r) with (((pre ++ [BSL]) ++ [c]) ++ b ++ QUOTE :: r)
      by (now rewrite <- !app_assoc).
    rewrite IH by (cbn in Hf; lia). now rewrite <- !app_assoc.
Qed.

Lemma value_loop_cases fuel : forall acc pre r, List.length r < fuel ->
  (exists b v r', r = b ++ QUOTE :: r' /\ decodes b v) \/
  (exists e, value_loop fuel (pre ++ r) acc (st_of pre r) = Err e /\ good_err e).
Proof.
  induction fuel as [|fuel IH]; intros acc pre r Hf; [lia|].
  destruct r as [|c r]; [right; cbn; eexists; split; [reflexivity|auto]|].
  destruct (N.eq_dec c QUOTE) as [->|Hq].
  { left. exists [], [], r. split; [reflexivity|constructor]. }
  destruct (N.eq_dec c BSL) as [->|Hb].
  - destruct r as [|d r].
    + right. cbn [value_loop st_of ch]. change (BSL =? QUOTE)%N with false. rewrite N.eqb_refl.
      change (PState (List.length pre) (Some BSL)) with (st_of pre [BSL]).
      cbv zeta iota. rewrite read_st_of. cbn. eexists; split; [reflexivity|auto].
    + destruct (IH (if ((d =? QUOTE) || (d =? BSL))%N%bool then acc ++ [d] else acc ++ [BSL; d])
                   ((pre ++ [BSL]) ++ [d]) r) as [(b & v & r' & -> & Hd)|(e & He & Hg)].
      { cbn in Hf; lia. }
      * left. destruct (N.eq_dec d QUOTE) as [->|Hq'].
        { exists (BSL :: QUOTE :: b), (QUOTE :: v), r'. split; [reflexivity|]. apply dec_escape; auto. }
        destruct (N.eq_dec d BSL) as [->|Hb'].
        { exists (BSL :: BSL :: b), (BSL :: v), r'. split; [reflexivity|]. apply dec_escape; auto. }
        exists (BSL :: d :: b), (BSL :: d :: v), r'. split; [reflexivity|]. apply dec_other; auto.
      * right. exists e. split; [|auto]. rewrite <- He.
        cbn [value_loop]. cbn [st_of ch]. change (BSL =? QUOTE)%N with false. rewrite N.eqb_refl.
        change (PState (List.length pre) (Some BSL)) with (st_of pre (BSL :: d :: r)).
        cbv zeta iota. rewrite read_st_of. cbn [bind]. cbn [st_of ch].
        change (PState (List.length (pre ++ [BSL])) (Some d)) with (st_of (pre ++ [BSL]) (d :: r)).
        replace (pre ++ BSL :: d :: r) with ((pre ++ [BSL]) ++ d :: r) by (now rewrite <- app_assoc).
        rewrite read_st_of. cbn [bind]. now rewrite <- !app_assoc.
  - destruct (IH (acc ++ [c]) (pre ++ [c]) r) as [(b & v & r' & -> & Hd)|(e & He & Hg)].
    { cbn in Hf; lia. }
    + left. exists (c :: b), (c :: v), r'. split; [reflexivity|]. constructor; auto.
    + right. exists e. split; [|auto]. rewrite <- He. cbn [value_loop]. cbn [st_of ch].
      replace (c =? QUOTE)%N with false by lia. replace (c =? BSL)%N with false by lia.
      change (PState (List.length pre) (Some c)) with (st_of pre (c :: r)).
      rewrite read_st_of. cbn [bind]. now rewrite <- app_assoc.
Qed.

Lemma parse_value_hit pre b v r : decodes b v ->
  parse_value (pre ++ b ++ QUOTE :: r) (st_of pre (b ++ QUOTE :: r)) = Ok (v, st_of (pre ++ b) (QUOTE :: r)).
Proof.
  intros Hd. unfold parse_value.
  destruct (b ++ QUOTE :: r) as [|x y] eqn:E; [destruct b; discriminate|].
  cbn [st_of ch]. change (PState (List.length pre) (Some x)) with (st_of pre (x :: y)).
  rewrite <- E. rewrite (value_loop_ok b v Hd); [reflexivity|].
  unfold loop_fuel. rewrite !app_length. lia.
Qed.

Lemma parse_value_cases pre r :
  (exists b v r', r = b ++ QUOTE :: r' /\ decodes b v /\
     parse_value (pre ++ r) (st_of pre r) = Ok (v, st_of (pre ++ b) (QUOTE :: r'))) \/
  (exists e, parse_value (pre ++ r) (st_of pre r) = Err e /\ good_err e).
Proof.
  destruct (value_loop_cases (loop_fuel (pre ++ r)) [] pre r) as [(b & v & r' & -> & Hd)|(e & He & Hg)].
  { unfold loop_fuel. rewrite app_length. lia. }
  - left. exists b, v, r'. repeat split; auto. now apply parse_value_hit.
  - right. destruct r as [|c r]; [eexists; split; [reflexivity|auto]|].
    exists e. split; auto.
Qed.

(** * Fields *)
Lemma token_append_ok order members key value :
  ~ In key (map fst members) ->
  token_append order members key value = Ok (order ++ [key], members ++ [(key, value)]).
Proof. intros H. unfold token_append. apply dict_get_None in H. now rewrite H. Qed.
Lemma token_append_dup order members key value :
  In key (map fst members) ->
  token_append order members key value = Err (TokenParseError DuplicateField).
Proof.
  intros H. unfold token_append. destruct (dict_get key members) eqn:E; [reflexivity|].
  apply dict_get_None in E. tauto.
Qed.

Lemma name_not_space k : is_name k -> forall r, starts_not SP (k ++ r).
Proof.
  intros [Hne Hk] r. destruct k as [|c k]; [congruence|]. cbn. inversion Hk; subst.
  unfold letter, SP in *. lia.
Qed.
Lemma name_not_brace k : is_name k -> forall r, starts_not RBRACE (k ++ r).
Proof.
  intros [Hne Hk] r. destruct k as [|c k]; [congruence|]. cbn. inversion Hk; subst.
  unfold letter, RBRACE in *. lia.
Qed.

(** Number of fields bounds nothing but fuel. *)
Lemma fields_text_length t fs : fields_text t fs -> List.length fs <= List.length t.
Proof.
  induction 1; cbn [List.length]; [lia|]. rewrite !app_length. cbn [List.length u bytes_of utf8_decode]. cbn. lia.
Qed.

Definition u_colon : u ": """ = [COLON; SP; QUOTE] := eq_refl.
Definition u_quote : u """" = [QUOTE] := eq_refl.
Definition u_open : u " { " = [SP; LBRACE; SP] := eq_refl.
Definition u_close : u "}" = [RBRACE] := eq_refl.

(** One field, as a step of the loop. *)
Lemma fields_loop_step fuel pre n key b v r order members :
  is_name key -> decodes b v ->
  fields_loop (S fuel) (pre ++ repeat SP n ++ key ++ [COLON; SP; QUOTE] ++ b ++ [QUOTE] ++ r) order members
    (st_of pre (repeat SP n ++ key ++ [COLON; SP; QUOTE] ++ b ++ [QUOTE] ++ r))
  = ('(order', members') <- token_append order members key v ;;
     fields_loop fuel (pre ++ repeat SP n ++ key ++ [COLON; SP; QUOTE] ++ b ++ [QUOTE] ++ r) order' members'
       (st_of (pre ++ repeat SP n ++ key ++ [COLON; SP; QUOTE] ++ b ++ [QUOTE]) r)).
Proof.
  intros Hk Hd. cbn [fields_loop].
  rewrite parse_ws_ok by (now apply name_not_space). cbn [bind].
  destruct (key ++ [COLON; SP; QUOTE] ++ b ++ [QUOTE] ++ r) as [|x y] eqn:E;
    [destruct key; discriminate|].
  rewrite char_is_st_of.
  assert (Hx : (x =? RBRACE)%N = false).
  { pose proof (name_not_brace key Hk ([COLON; SP; QUOTE] ++ b ++ [QUOTE] ++ r)) as HH.
    rewrite E in HH. cbn in HH. lia. }
  rewrite Hx. rewrite <- E. clear E Hx x y.
  rewrite app_assoc.
  rewrite parse_key_hit; [|assumption|cbn; unfold letter, COLON; lia]. cbn [bind].
  rewrite (app_assoc _ key). rewrite expect_chars_hit. cbn [bind].
  rewrite (app_assoc _ [COLON; SP; QUOTE]). cbn [app].
  rewrite (parse_value_hit _ b v r Hd). cbn [bind].
  rewrite (app_assoc _ b). change (QUOTE :: r) with ([QUOTE] ++ r). rewrite expect_chars_hit. cbn [bind].
  rewrite <- !app_assoc. reflexivity.
Qed.

Lemma fields_loop_ok t fs : fields_text t fs -> forall fuel pre r order members,
  List.length fs < fuel ->
  NoDup (map fst members ++ map fst fs) ->
  fields_loop fuel (pre ++ t ++ RBRACE :: r) order members (st_of pre (t ++ RBRACE :: r))
  = Ok (order ++ map fst fs, members ++ fs, st_of (pre ++ t ++ [RBRACE]) r).
Proof.
  induction 1 as [n|n key b v rest fs Hk Hd Hf IH]; intros fuel pre r order members Hfu ND;
    (destruct fuel as [|fuel]; [cbn in Hfu; lia|]).
  - change 32%N with SP. cbn [fields_loop]. rewrite parse_ws_ok by discriminate. cbn [bind].
    rewrite char_is_st_of, N.eqb_refl. rewrite app_assoc, parse_char_hit. cbn [bind].
    cbn [map]. rewrite !app_nil_r, <- app_assoc. reflexivity.
  - change 32%N with SP. rewrite u_colon, u_quote.
    replace (pre ++ (repeat SP n ++ key ++ [COLON; SP; QUOTE] ++ b ++ [QUOTE] ++ rest) ++ RBRACE :: r)
      with (pre ++ repeat SP n ++ key ++ [COLON; SP; QUOTE] ++ b ++ [QUOTE] ++ (rest ++ RBRACE :: r))
      by (now rewrite <- !app_assoc).
    replace ((repeat SP n ++ key ++ [COLON; SP; QUOTE] ++ b ++ [QUOTE] ++ rest) ++ RBRACE :: r)
      with (repeat SP n ++ key ++ [COLON; SP; QUOTE] ++ b ++ [QUOTE] ++ (rest ++ RBRACE :: r))
      by (now rewrite <- !app_assoc).
    rewrite (fields_loop_step fuel pre n key b v _ order members Hk Hd).
    rewrite token_append_ok.
    2:{ cbn in ND. apply NoDup_remove_2 in ND. intros HI. apply ND. apply in_or_app. now left. }
    cbn [bind].
    replace (pre ++ repeat SP n ++ key ++ [COLON; SP; QUOTE] ++ b ++ [QUOTE] ++ rest ++ RBRACE :: r)
      with ((pre ++ repeat SP n ++ key ++ [COLON; SP; QUOTE] ++ b ++ [QUOTE]) ++ rest ++ RBRACE :: r)
      by (now rewrite <- !app_assoc).
    rewrite IH; [|cbn in Hfu; lia|].
    + cbn [map fst]. rewrite <- !app_assoc. reflexivity.
    + rewrite map_app. cbn in ND |- *. now rewrite <- app_assoc.
Qed.

Lemma fields_loop_cases fuel : forall pre r order members,
  pre ++ r <> [] -> List.length r < fuel -> NoDup (map fst members) ->
  (exists t fs r', r = t ++ RBRACE :: r' /\ fields_text t fs /\ NoDup (map fst members ++ map fst fs)) \/
  (exists e, fields_loop fuel (pre ++ r) order members (st_of pre r) = Err e /\ good_err e).
Proof.
  induction fuel as [|fuel IH]; intros pre r order members Hne Hf ND; [lia|].
  destruct (split_spaces r) as (n & r1 & -> & Hs1).
  destruct r1 as [|c r1].
  { right. cbn [fields_loop]. rewrite parse_ws_ok by assumption. cbn. eexists; split; [reflexivity|auto]. }
  destruct (N.eq_dec c RBRACE) as [->|Hc].
  { left. exists (repeat SP n), [], r1. repeat split; [constructor|]. cbn. now rewrite app_nil_r. }
  destruct (parse_key_cases (pre ++ repeat SP n) (c :: r1)) as [(k & r2 & Ek & Hk & Hr2 & Pk)|(e & He & Hg)].
  2:{ right. exists e. split; [|assumption]. cbn [fields_loop]. rewrite parse_ws_ok by assumption. cbn [bind].
      rewrite char_is_st_of. replace (c =? RBRACE)%N with false by lia.
      rewrite app_assoc, He. reflexivity. }
  destruct (expect_chars_cases [COLON; SP; QUOTE] ((pre ++ repeat SP n) ++ k) r2) as [(r3 & -> & P3)|P3].
  { destruct Hk as [Hk _]. destruct k; [congruence|]. intros HH. apply app_eq_nil in HH as [HH _].
    apply app_eq_nil in HH as [_ HH]. discriminate. }
  2:{ right. eexists. split; [|apply good_tpe]. cbn [fields_loop]. rewrite parse_ws_ok by assumption. cbn [bind].
      rewrite char_is_st_of. replace (c =? RBRACE)%N with false by lia.
      rewrite app_assoc, Pk. cbn [bind]. rewrite Ek, (app_assoc _ k), P3. reflexivity. }
  destruct (parse_value_cases (((pre ++ repeat SP n) ++ k) ++ [COLON; SP; QUOTE]) r3)
    as [(b & v & r4 & -> & Hd & P4)|(e & He & Hg)].
  2:{ right. exists e. split; [|assumption]. cbn [fields_loop]. rewrite parse_ws_ok by assumption. cbn [bind].
      rewrite char_is_st_of. replace (c =? RBRACE)%N with false by lia.
      rewrite app_assoc, Pk. cbn [bind]. rewrite Ek, (app_assoc _ k), P3. cbn [bind].
      rewrite (app_assoc _ [COLON; SP; QUOTE]), He. reflexivity. }
  rewrite Ek in *. clear Ek.
  change (k ++ [COLON; SP; QUOTE] ++ b ++ QUOTE :: r4)
    with (k ++ [COLON; SP; QUOTE] ++ b ++ [QUOTE] ++ r4) in *.
  rewrite (fields_loop_step fuel pre n k b v r4 order members Hk Hd).
  destruct (in_dec text_eq_dec k (map fst members)) as [HI|HI].
  { right. rewrite token_append_dup by assumption. cbn. eexists; split; [reflexivity|auto]. }
  rewrite token_append_ok by assumption. cbn [bind].
  assert (ND' : NoDup (map fst (members ++ [(k, v)]))).
  { rewrite map_app. cbn. apply (NoDup_Add (a := k) (l := map fst members)).
    - replace (map fst members) with (map fst members ++ []) at 1 by apply app_nil_r. apply Add_app.
    - split; assumption. }
  destruct (IH (pre ++ repeat SP n ++ k ++ [COLON; SP; QUOTE] ++ b ++ [QUOTE]) r4 (order ++ [k])
              (members ++ [(k, v)])) as [(t & fs & r' & -> & Ht & ND2)|(e & He & Hg)].
  { intros HH. apply (f_equal (@List.length N)) in HH. rewrite !app_length in HH. cbn in HH. lia. }
  { rewrite !app_length in Hf. cbn in Hf. lia. }
  { exact ND'. }
  - left. exists (repeat SP n ++ k ++ [COLON; SP; QUOTE] ++ b ++ [QUOTE] ++ t), ((k, v) :: fs), r'.
    repeat split.
    + now rewrite <- !app_assoc.
    + change SP with 32%N at 1. rewrite <- u_colon, <- u_quote. now constructor.
    + rewrite map_app in ND2. cbn in ND2 |- *. now rewrite <- app_assoc in ND2.
  - right. exists e. split; [|assumption]. rewrite <- He. now rewrite <- !app_assoc.
Qed.

(** * Streams *)
Definition to_token (t : stoken) : token :=
  Token (st_name t) (st_from t) (st_to t) (map fst (st_fields t)) (st_fields t).

Lemma token_text_nonempty t name fs : token_text t name fs -> t <> [].
Proof. intros (body & -> & [Hn _] & _). destruct name; [congruence|discriminate]. Qed.

Lemma end_pos pre r : pre ++ r <> [] ->
  match ch (st_of pre r) with None => List.length (pre ++ r) | Some _ => ix (st_of pre r) end = List.length pre.
Proof.
  destruct r; cbn; intros; [now rewrite app_nil_r|reflexivity].
Qed.

Lemma tokens_loop_step fuel pre n t name fs rest acc :
  token_text t name fs ->
  tokens_loop (S fuel) (pre ++ repeat SP n ++ t ++ rest) acc (st_of pre (repeat SP n ++ t ++ rest))
  = tokens_loop fuel (pre ++ repeat SP n ++ t ++ rest)
      (acc ++ [Token name (List.length pre + n) (List.length pre + n + List.length t) (map fst fs) fs])
      (st_of (pre ++ repeat SP n ++ t) rest).
Proof.
  intros (body & -> & Hn & Hf & ND). rewrite u_open, u_close.
  set (t := name ++ [SP; LBRACE; SP] ++ body ++ [RBRACE]).
  assert (Et : t ++ rest = name ++ [SP; LBRACE; SP] ++ body ++ RBRACE :: rest).
  { unfold t. now rewrite <- !app_assoc. }
  cbn [tokens_loop]. rewrite parse_ws_ok by (rewrite Et; now apply name_not_space). cbn [bind].
  assert (Hnn : t ++ rest <> []) by (rewrite Et; destruct Hn as [Hn _]; destruct name; [congruence|discriminate]).
  destruct (t ++ rest) as [|x y] eqn:Exy; [congruence|].
  assert (Eix : ix (st_of (pre ++ repeat SP n) (x :: y)) = List.length pre + n).
  { cbn. now rewrite app_length, repeat_length. }
  rewrite Eix. rewrite Et. clear Eix Hnn.
  rewrite app_assoc. rewrite parse_key_hit; [|assumption|cbn; unfold letter, SP; lia]. cbn [bind].
  rewrite (app_assoc _ name), expect_chars_hit. cbn [bind].
  rewrite (app_assoc _ [SP; LBRACE; SP]).
  rewrite (fields_loop_ok body fs Hf).
  2:{ unfold loop_fuel. pose proof (fields_text_length _ _ Hf). rewrite !app_length. lia. }
  2:{ cbn. exact ND. }
  cbn [bind app map].
  replace (((((pre ++ repeat SP n) ++ name) ++ [SP; LBRACE; SP]) ++ body ++ RBRACE :: rest))
    with ((((((pre ++ repeat SP n) ++ name) ++ [SP; LBRACE; SP]) ++ body ++ [RBRACE])) ++ rest)
    by (now rewrite <- !app_assoc).
  rewrite end_pos.
  2:{ rewrite <- !app_assoc. intros HH. apply (f_equal (@List.length N)) in HH. rewrite !app_length in HH. cbn in HH. lia. }
  replace (List.length ((((pre ++ repeat SP n) ++ name) ++ [SP; LBRACE; SP]) ++ body ++ [RBRACE]))
    with (List.length pre + n + List.length t).
  2:{ unfold t. rewrite !app_length, repeat_length. lia. }
  unfold t. rewrite <- !app_assoc. cbn [app]. reflexivity.
Qed.

Lemma tokens_loop_ok o t ts : stream o t ts -> forall fuel pre acc,
  o = List.length pre -> List.length ts < fuel ->
  tokens_loop fuel (pre ++ t) acc (st_of pre t) = Ok (acc ++ map to_token ts).
Proof.
  induction 1 as [o n|o n t name fs rest ts Ht Hs IH]; intros fuel pre acc -> Hf;
    (destruct fuel as [|fuel]; [cbn in Hf; lia|]).
  - change 32%N with SP. cbn [tokens_loop].
    pose proof (parse_ws_ok pre n [] I) as P. rewrite app_nil_r in P. rewrite P. cbn [bind].
    now rewrite app_nil_r.
  - change 32%N with SP. rewrite (tokens_loop_step _ _ _ _ name fs) by assumption.
    replace (pre ++ repeat SP n ++ t ++ rest) with ((pre ++ repeat SP n ++ t) ++ rest)
      by (now rewrite <- !app_assoc).
    rewrite IH.
    + rewrite <- app_assoc. reflexivity.
    + rewrite !app_length, repeat_length. lia.
    + cbn in Hf. lia.
Qed.

Lemma tokens_loop_cases fuel : forall pre r acc,
  pre ++ r <> [] -> List.length r < fuel ->
  (exists ts, stream (List.length pre) r ts /\ List.length ts < fuel) \/
  (exists e, tokens_loop fuel (pre ++ r) acc (st_of pre r) = Err e /\ good_err e).
Proof.
  induction fuel as [|fuel IH]; intros pre r acc Hne Hf; [lia|].
  destruct (split_spaces r) as (n & r1 & -> & Hs1).
  destruct r1 as [|c r1].
  { left. exists []. split; [|cbn; lia]. rewrite app_nil_r. change SP with 32%N. constructor. }
  destruct (parse_key_cases (pre ++ repeat SP n) (c :: r1)) as [(k & r2 & Ek & Hk & Hr2 & Pk)|(e & He & Hg)].
  2:{ right. exists e. split; [|assumption]. cbn [tokens_loop]. rewrite parse_ws_ok by assumption. cbn [bind].
      rewrite app_assoc, He. reflexivity. }
  rewrite Ek in *. clear c r1 Ek Hs1.
  assert (Hks : forall z, starts_not SP (k ++ z)) by (now apply name_not_space).
  assert (Hkn : forall z, exists x y, k ++ z = x :: y).
  { destruct Hk as [Hk _]. destruct k; [congruence|]. cbn. eauto. }
  assert (Hpn : forall p z, (p ++ k) ++ z <> []).
  { destruct Hk as [Hk' _]. intros p z HH. apply app_eq_nil in HH as [HH _]. apply app_eq_nil in HH as [_ HH]. congruence. }
  destruct (expect_chars_cases [SP; LBRACE; SP] ((pre ++ repeat SP n) ++ k) r2) as [(r3 & -> & P3)|P3].
  { apply Hpn. }
  2:{ right. eexists. split; [|apply good_tpe]. cbn [tokens_loop]. rewrite parse_ws_ok by auto. cbn [bind].
      destruct (Hkn r2) as (x & y & E). rewrite E. rewrite <- E.
      rewrite app_assoc, Pk. cbn [bind]. rewrite (app_assoc _ k), P3. reflexivity. }
  destruct (fields_loop_cases (loop_fuel (pre ++ repeat SP n ++ k ++ [SP; LBRACE; SP] ++ r3))
              (((pre ++ repeat SP n) ++ k) ++ [SP; LBRACE; SP]) r3 [] [])
    as [(body & fs & r4 & -> & Hft & ND)|(e & He & Hg)].
  { rewrite <- app_assoc. apply Hpn. }
  { unfold loop_fuel. rewrite !app_length. lia. }
  { constructor. }
  2:{ right. exists e. split; [|assumption]. cbn [tokens_loop]. rewrite parse_ws_ok by auto. cbn [bind].
      destruct (Hkn ([SP; LBRACE; SP] ++ r3)) as (x & y & E). rewrite E. rewrite <- E.
      rewrite app_assoc, Pk. cbn [bind]. rewrite (app_assoc _ k), P3. cbn [bind].
      rewrite (app_assoc _ [SP; LBRACE; SP]).
      replace (loop_fuel ((((pre ++ repeat SP n) ++ k) ++ [SP; LBRACE; SP]) ++ r3))
        with (loop_fuel (pre ++ repeat SP n ++ k ++ [SP; LBRACE; SP] ++ r3))
        by (unfold loop_fuel; now rewrite <- !app_assoc).
      rewrite He. reflexivity. }
  set (t := k ++ [SP; LBRACE; SP] ++ body ++ [RBRACE]).
  assert (Ht : token_text t k fs).
  { exists body. repeat split; auto; try apply Hk. }
  replace (k ++ [SP; LBRACE; SP] ++ body ++ RBRACE :: r4) with (t ++ r4) in *
    by (unfold t; now rewrite <- !app_assoc).
  rewrite (tokens_loop_step _ _ _ _ k fs) by assumption.
  destruct (IH (pre ++ repeat SP n ++ t) r4
              (acc ++ [Token k (List.length pre + n) (List.length pre + n + List.length t) (map fst fs) fs]))
    as [(ts & Hts & Hl)|(e & He & Hg)].
  { rewrite <- !app_assoc. exact Hne. }
  { rewrite !app_length in Hf. assert (0 < List.length t) by (unfold t; rewrite !app_length; cbn; lia). lia. }
  - left. exists (SToken k (List.length pre + n) (List.length pre + n + List.length t) fs :: ts).
    split; [|cbn; lia]. change SP with 32%N. constructor; [assumption|].
    replace (List.length pre + n + List.length t) with (List.length (pre ++ repeat SP n ++ t)); [assumption|].
    rewrite !app_length, repeat_length. lia.
  - right. exists e. split; [|assumption]. rewrite <- He. now rewrite <- !app_assoc.
Qed.

Lemma stream_length o t ts : stream o t ts -> List.length ts <= List.length t.
Proof.
  induction 1; cbn [List.length]; [lia|]. rewrite !app_length.
  apply token_text_nonempty in H. destruct t; [congruence|]. cbn [List.length]. lia.
Qed.

(** * Main characterisation *)
Theorem parse_complete t ts : t <> [] -> stream 0 t ts -> parse t = Ok (map to_token ts).
Proof.
  intros Hne Hs. unfold parse. destruct t as [|c t]; [congruence|]. cbn [load bind].
  change (PState 0 (Some c)) with (st_of [] (c :: t)). change (c :: t) with ([] ++ (c :: t)) at 2.
  rewrite (tokens_loop_ok 0 (c :: t) ts Hs); [reflexivity|reflexivity|].
  unfold loop_fuel. apply stream_length in Hs. lia.
Qed.

Theorem parse_cases t :
  (exists ts, t <> [] /\ stream 0 t ts /\ parse t = Ok (map to_token ts)) \/
  (exists f, parse t = Err (TokenParseError f)).
Proof.
  destruct t as [|c t].
  { right. now exists EmptyStream. }
  destruct (tokens_loop_cases (loop_fuel (c :: t)) [] (c :: t) []) as [(ts & Hs & _)|(e & He & (f & ->))].
  { discriminate. }
  { unfold loop_fuel. lia. }
  - left. exists ts. split; [discriminate|]. split; [assumption|]. apply parse_complete; [discriminate|assumption].
  - right. exists f. exact He.
Qed.

Theorem parse_sound t toks : parse t = Ok toks ->
  exists ts, t <> [] /\ stream 0 t ts /\ toks = map to_token ts.
Proof.
  intros H. destruct (parse_cases t) as [(ts & Hne & Hs & E)|(f & E)]; [|congruence].
  exists ts. repeat split; auto. congruence.
Qed.

Lemma to_token_inj a b : to_token a = to_token b -> a = b.
Proof. destruct a, b. unfold to_token; cbn. intros [= -> -> -> _ ->]. reflexivity. Qed.

Theorem stream_unique t ts1 ts2 : t <> [] -> stream 0 t ts1 -> stream 0 t ts2 -> ts1 = ts2.
Proof.
  intros Hne H1 H2. apply parse_complete in H1; auto. apply parse_complete in H2; auto.
  rewrite H1 in H2. injection H2 as H2. revert ts2 H2; clear.
  induction ts1 as [|a l IH]; destruct ts2 as [|b l2]; cbn [map]; intros E; try discriminate; auto.
  assert (Ea : to_token a = to_token b) by congruence.
  assert (El : map to_token l = map to_token l2) by congruence.
  f_equal; auto using to_token_inj.
Qed.
