(** The C++ parser: its loops on the characters of a stream. *)
From Coq Require Import List NArith Bool Lia Arith ZifyBool ZifyNat ZifyN String.
From Verif Require Import Text TextFacts TokenModel TokenSpec TokenProofs CppModel CppSpec.
Import ListNotations.
Local Open Scope list_scope.

Section Parser.
(** [T]: what the pieces stand for; ASCII characters stand for themselves. *)
Variable enc : N -> list N.
Variable T : text.
Definition good (c : N) : Prop :=
  ((c < 128)%N -> enc c = [c]) /\
  ((128 <= c)%N -> enc c <> EOS /\ forall a, (a < 128)%N -> enc c <> [a]).
Hypothesis G : Forall good T.
Notation txt := (map enc T).

Lemma enc_is c a : good c -> (a < 128)%N -> text_eqb (enc c) [a] = (c =? a)%N.
Proof.
  intros [G1 G2] La. destruct (N.lt_ge_cases c 128) as [L|L].
  - rewrite (G1 L). cbn. now rewrite andb_true_r.
  - replace (c =? a)%N with false by lia. apply text_eqb_neq. now apply G2.
Qed.
Lemma enc_eos c : good c -> text_eqb (enc c) EOS = false.
Proof.
  intros [G1 G2]. apply text_eqb_neq. destruct (N.lt_ge_cases c 128) as [L|L].
  - rewrite (G1 L). discriminate.
  - now apply G2.
Qed.
Lemma letters_ascii l c : good c -> Forall (fun a => a < 128)%N l ->
  text_mem (enc c) (map (fun a => [a]) l) = existsb (N.eqb c) l.
Proof.
  intros Gc. induction 1 as [|a l La Hl IH]; [reflexivity|]. cbn [map text_mem existsb].
  now rewrite IH, enc_is.
Qed.
Lemma enc_letter c : good c -> text_mem (enc c) ascii_letters = key_char c.
Proof.
  intros Gc. unfold ascii_letters. rewrite letters_ascii; [|assumption|].
  2:{ apply Forall_forall. intros x Hx. assert (E : forallb (fun a => (a <? 128)%N) (u "abcdefghijklmnopqrstuvwxyzABCDEFGHIJKLMNOPQRSTUVWXYZ_") = true) by reflexivity.
      rewrite forallb_forall in E. apply N.ltb_lt. now apply E. }
  unfold key_char.
  change (u "abcdefghijklmnopqrstuvwxyzABCDEFGHIJKLMNOPQRSTUVWXYZ_")
    with [97;98;99;100;101;102;103;104;105;106;107;108;109;110;111;112;113;114;115;116;117;118;119;120;121;122;
          65;66;67;68;69;70;71;72;73;74;75;76;77;78;79;80;81;82;83;84;85;86;87;88;89;90;95]%N.
  cbn [existsb]. apply eq_true_iff_eq. rewrite !orb_true_iff, !andb_true_iff, !N.leb_le, !N.eqb_eq. lia.
Qed.

Definition cst (pre rest : text) : cstate :=
  match rest with
  | [] => CState (List.length pre - 1) EOS
  | c :: _ => CState (List.length pre) (enc c)
  end.

Definition some (r : text) : bool := match r with [] => false | _ => true end.

Lemma cread_ok pre c r : T = pre ++ c :: r ->
  cread txt (cst pre (c :: r)) = Ret (some r, cst (pre ++ [c]) r).
Proof.
  intros E. unfold cread, cst; cbn [cix]. rewrite map_length, E, app_length; cbn [List.length].
  destruct r as [|d r'].
  - cbn [List.length]. replace (List.length pre <? List.length pre + 1 - 1) with false by lia.
    rewrite app_length; cbn [List.length]. do 3 f_equal. lia.
  - cbn [List.length]. replace (List.length pre <? List.length pre + S (S (List.length r')) - 1) with true by lia.
    unfold at_index. rewrite map_app, nth_error_app2 by (rewrite map_length; lia). rewrite map_length.
    replace (List.length pre + 1 - List.length pre) with 1 by lia.
    cbn. rewrite app_length; cbn. do 3 f_equal.
Qed.

Lemma good_mid pre c r : T = pre ++ c :: r -> good c.
Proof. intros E. rewrite E in G. apply Forall_app in G as [_ H]. now inversion H. Qed.

Lemma cch_is pre r a : T = pre ++ r -> (a < 128)%N ->
  text_eqb (cch (cst pre r)) [a] = match r with [] => false | x :: _ => (x =? a)%N end.
Proof.
  intros E La. destruct r as [|c r]; cbn [cst cch].
  - unfold EOS. cbn. now rewrite andb_false_r.
  - apply enc_is; [|assumption]. eapply good_mid; eassumption.
Qed.
Lemma cch_eos pre r : T = pre ++ r -> text_eqb (cch (cst pre r)) EOS = negb (some r).
Proof.
  intros E. destruct r as [|c r]; cbn [cst cch some negb].
  - apply text_eqb_refl.
  - apply enc_eos. eapply good_mid; eassumption.
Qed.

Lemma assoc1 (pre : text) c r : pre ++ c :: r = (pre ++ [c]) ++ r.
Proof. now rewrite <- app_assoc. Qed.

Lemma cws_ok n : forall fuel pre r, T = pre ++ repeat SP n ++ r -> starts_not SP r -> n < fuel ->
  cws_loop fuel txt (some (repeat SP n ++ r)) (cst pre (repeat SP n ++ r))
  = Ret (some r, cst (pre ++ repeat SP n) r).
Proof.
  induction n as [|n IH]; intros [|fuel] pre r E Hs Hf; try lia; cbn [cws_loop];
    (rewrite (cch_is pre _ 32) by (assumption || reflexivity)).
  - cbn [repeat app]. rewrite app_nil_r. destruct r as [|c r]; [reflexivity|].
    cbn in Hs. replace (c =? 32)%N with false by (unfold SP in Hs; lia). reflexivity.
  - cbn [repeat app some]. change (SP =? 32)%N with true. cbn [andb].
    rewrite cread_ok by assumption. cbn [cbind]. rewrite IH; [|now rewrite <- app_assoc|assumption|lia].
    now rewrite <- app_assoc.
Qed.
Lemma cparse_ws n pre r : T = pre ++ repeat SP n ++ r -> starts_not SP r ->
  parse_ws_cpp txt (cst pre (repeat SP n ++ r)) = Ret (some r, cst (pre ++ repeat SP n) r).
Proof.
  intros E Hs. unfold parse_ws_cpp. rewrite cch_eos, negb_involutive by assumption.
  apply cws_ok; auto. unfold cfuel. rewrite map_length, E, !app_length, repeat_length. lia.
Qed.

Lemma cchar_hit pre c r : T = pre ++ c :: r -> (c < 128)%N ->
  parse_char_cpp txt [c] (cst pre (c :: r)) = Ret (true, cst (pre ++ [c]) r).
Proof.
  intros E L. unfold parse_char_cpp. rewrite (cch_is pre _ c) by assumption.
  now rewrite N.eqb_refl, cread_ok.
Qed.
Lemma cchar_miss pre c r : T = pre ++ r -> (c < 128)%N -> starts_not c r ->
  parse_char_cpp txt [c] (cst pre r) = Ret (false, cst pre r).
Proof.
  intros E L H. unfold parse_char_cpp. rewrite (cch_is pre _ c) by assumption.
  destruct r as [|x r]; [reflexivity|]. cbn in H. now replace (x =? c)%N with false by lia.
Qed.

Lemma cchars_cases exp : Forall (fun a => a < 128)%N exp -> forall start pre r,
  T = pre ++ r -> start < List.length T ->
  (exists r', r = exp ++ r' /\
     chars_from_cpp txt start (map (fun a => [a]) exp) (cst pre r) = Ret (true, cst (pre ++ exp) r')) \/
  (exists s, chars_from_cpp txt start (map (fun a => [a]) exp) (cst pre r) = Ret (false, s) /\
     forall r', r <> exp ++ r').
Proof.
  induction 1 as [|x exp Lx Hx IH]; intros start pre r E Hlt.
  { left. exists r. split; [reflexivity|]. cbn. now rewrite app_nil_r. }
  assert (Miss : starts_not x r -> exists s,
    chars_from_cpp txt start (map (fun a => [a]) (x :: exp)) (cst pre r) = Ret (false, s) /\
     forall r', r <> (x :: exp) ++ r').
  { intros H. cbn [map chars_from_cpp]. rewrite cchar_miss by assumption. cbn [cbind].
    unfold at_index. destruct (nth_error txt start) eqn:En.
    - eexists. split; [reflexivity|]. intros r' ->. now apply H.
    - apply nth_error_None in En. rewrite map_length in En. lia. }
  destruct r as [|c r]; [right; apply Miss; exact I|].
  destruct (N.eq_dec c x) as [->|Hne]; [|right; apply Miss; exact Hne].
  destruct (IH start (pre ++ [x]) r) as [(r' & -> & P)|(s & P & Q)].
  { now rewrite <- assoc1. } { assumption. }
  - left. exists r'. split; [reflexivity|]. cbn [map chars_from_cpp]. rewrite cchar_hit by assumption.
    cbn [cbind]. rewrite P. now rewrite <- app_assoc.
  - right. exists s. split.
    + cbn [map chars_from_cpp]. rewrite cchar_hit by assumption. cbn [cbind]. exact P.
    + intros r' [= Er]. eapply Q; eauto.
Qed.

Lemma split_colon : split_chars (u ": """) = Ret (map (fun a => [a]) [COLON; SP; QUOTE]).
Proof. reflexivity. Qed.
Lemma split_open : split_chars (u " { ") = Ret (map (fun a => [a]) [SP; LBRACE; SP]).
Proof. reflexivity. Qed.

Lemma cix_lt pre r : T = pre ++ r -> T <> [] -> cix (cst pre r) < List.length T.
Proof.
  intros E H. rewrite E. destruct r as [|c r]; cbn [cst cix]; rewrite app_length; cbn [List.length]; [|lia].
  destruct pre; [now elim H|cbn; lia].
Qed.

Lemma cexpect_cases exp e pre r : split_chars e = Ret (map (fun a => [a]) exp) ->
  Forall (fun a => a < 128)%N exp -> T = pre ++ r -> T <> [] ->
  (exists r', r = exp ++ r' /\ parse_chars_cpp txt e (cst pre r) = Ret (true, cst (pre ++ exp) r')) \/
  (exists s, parse_chars_cpp txt e (cst pre r) = Ret (false, s) /\ forall r', r <> exp ++ r').
Proof.
  intros Es Hx E Hn. unfold parse_chars_cpp. rewrite Es. cbn [cbind].
  apply cchars_cases; auto. now apply cix_lt.
Qed.

(** * Keys *)
Lemma enc_letters k : Forall letter k -> Forall good k -> flat_map enc k = k.
Proof.
  induction 1 as [|c k Hc Hk IH]; intros Hg; [reflexivity|]. inversion Hg; subst. cbn [flat_map].
  rewrite IH by assumption. destruct H1 as [H1 _]. rewrite H1; [reflexivity|]. unfold letter in Hc. lia.
Qed.

Lemma ckey_ok k : forall fuel acc pre r, T = pre ++ k ++ r ->
  Forall letter k -> starts_nonkey r -> List.length k < fuel ->
  ckey_loop fuel txt acc (cst pre (k ++ r)) = Ret (acc ++ k, cst (pre ++ k) r).
Proof.
  induction k as [|c k IH]; intros [|fuel] acc pre r E Hk Hr Hf; try (cbn in Hf; lia); cbn [ckey_loop].
  - cbn [app] in *. rewrite !app_nil_r. destruct r as [|c r]; [reflexivity|].
    cbn [cst cch]. rewrite enc_letter by (eapply good_mid; eassumption).
    destruct (key_char c) eqn:K; [|reflexivity]. apply key_char_spec in K. cbn in Hr. tauto.
  - apply Forall_cons_iff in Hk as [H1 H2]. cbn [app] in *. cbn [cst cch].
    assert (Gc : good c) by (eapply good_mid; eassumption).
    rewrite enc_letter by assumption.
    replace (key_char c) with true by (symmetry; now apply key_char_spec).
    change (CState (List.length pre) (enc c)) with (cst pre (c :: k ++ r)).
    rewrite cread_ok by assumption. cbn [cbind].
    rewrite IH; [|now rewrite <- assoc1|assumption|assumption|cbn in Hf; lia].
    destruct Gc as [Gc _]. rewrite Gc by (unfold letter in *; lia).
    now rewrite <- !app_assoc.
Qed.

Lemma ckey_cases pre r : T = pre ++ r ->
  (exists k r', r = k ++ r' /\ is_name k /\ starts_nonkey r' /\
     parse_key_cpp txt (cst pre r) = Ret (k, cst (pre ++ k) r')) \/
  parse_key_cpp txt (cst pre r) = Throw /\ forall k r', r = k ++ r' -> ~ is_name k.
Proof.
  intros E. destruct (split_key r) as (k & r' & -> & Hk & Hr). unfold parse_key_cpp.
  rewrite cch_eos by assumption.
  destruct k as [|c k].
  - right. cbn [app] in *.
    split.
    + destruct (_ || _); [reflexivity|].
      pose proof (ckey_ok [] (cfuel txt) [] pre r' E Hk Hr) as K. cbn [app] in K.
      rewrite K by (unfold cfuel; cbn; lia). reflexivity.
    + intros k r'' -> [H1 H2]. destruct k as [|x k]; [congruence|]. cbn in Hr. apply Forall_cons_iff in H2 as [H2 _]. tauto.
  - left. exists (c :: k), r'. split; [reflexivity|]. split; [split; [discriminate|assumption]|]. split; [assumption|].
    cbn [app some negb orb]. assert (H1 : letter c) by now inversion Hk.
    assert (Gc : good c) by (eapply good_mid; exact E).
    cbn [cst cch]. destruct Gc as [Gc _]. rewrite Gc by (unfold letter in *; lia).
    replace (text_mem [c] UTF8_WHITESPACE) with false.
    2:{ symmetry. cbn. unfold letter in *. rewrite !andb_true_r, ?andb_false_r. lia. }
    rewrite <- (Gc ltac:(unfold letter in *; lia)).
    change (CState (List.length pre) (enc c)) with (cst pre ((c :: k) ++ r')).
    rewrite ckey_ok; auto. unfold cfuel. rewrite map_length, E, !app_length. lia.
Qed.

(** * Values *)
Lemma cvalue_cases fuel : forall acc pre r, T = pre ++ r -> List.length r < fuel ->
  (exists b r', r = b ++ QUOTE :: r' /\ quotable b /\
     cvalue_loop fuel txt acc (cst pre r) = Ret (acc ++ flat_map enc b, cst (pre ++ b) (QUOTE :: r'))) \/
  cvalue_loop fuel txt acc (cst pre r) = Throw.
Proof.
  induction fuel as [|fuel IH]; intros acc pre r E Hf; [lia|]. cbn [cvalue_loop].
  change (u """") with [34%N]. change (u "\") with [92%N].
  rewrite (cch_is pre r 34), (cch_eos pre r), (cch_is pre r 92) by (assumption || reflexivity).
  destruct r as [|c r]; [right; reflexivity|]. cbn [some negb].
  assert (Gc : good c) by (eapply good_mid; exact E).
  destruct (N.eqb_spec c 34) as [->|Hq].
  { left. exists [], r. split; [reflexivity|]. split; [exists []; constructor|]. cbn. now rewrite !app_nil_r. }
  rewrite cread_ok by assumption. cbn [cbind].
  destruct (N.eqb_spec c 92) as [->|Hb].
  - assert (E1 : T = (pre ++ [92%N]) ++ r) by now rewrite <- assoc1.
    rewrite cch_eos by exact E1.
    destruct r as [|d r]; [right; reflexivity|]. cbn [some negb].
    rewrite cread_ok by exact E1. cbn [cbind].
    destruct (IH ((acc ++ cch (cst pre (92%N :: d :: r))) ++ cch (cst (pre ++ [92%N]) (d :: r))) ((pre ++ [92%N]) ++ [d]) r)
      as [(b & r' & -> & (v & Hd) & P)|P].
    { rewrite E1. apply assoc1. } { cbn in Hf. lia. }
    + left. exists (92%N :: d :: b), r'. split; [reflexivity|]. split.
      * destruct (N.eq_dec d 34) as [->|N1]; [eexists; apply dec_escape; eauto|].
        destruct (N.eq_dec d 92) as [->|N2]; [eexists; apply dec_escape; eauto|].
        eexists. apply dec_other; eauto.
      * rewrite P. cbn [cst cch flat_map]. now rewrite <- !app_assoc.
    + right. exact P.
  - destruct (IH (acc ++ cch (cst pre (c :: r))) (pre ++ [c]) r) as [(b & r' & -> & (v & Hd) & P)|P].
    { now rewrite <- assoc1. } { cbn in Hf. lia. }
    + left. exists (c :: b), r'. split; [reflexivity|]. split; [eexists; apply dec_plain; eauto|].
      rewrite P. cbn [cst cch flat_map]. now rewrite <- !app_assoc.
    + right. exact P.
Qed.

Lemma cparse_value_cases pre r : T = pre ++ r ->
  (exists b r', r = b ++ QUOTE :: r' /\ quotable b /\
     parse_value_cpp txt (cst pre r) = Ret (flat_map enc b, cst (pre ++ b) (QUOTE :: r'))) \/
  parse_value_cpp txt (cst pre r) = Throw.
Proof.
  intros E. unfold parse_value_cpp. rewrite cch_eos by assumption.
  destruct r as [|c r]; [right; reflexivity|]. cbn [some negb].
  destruct (cvalue_cases (cfuel txt) [] pre (c :: r) E) as [(b & r' & H)|P]; [|eauto|auto].
  unfold cfuel. rewrite map_length, E, app_length. lia.
Qed.

(** * Fields and tokens *)
Definition appended (t : ctoken) (fs : list (text * text)) : ctoken :=
  fold_left (fun t kb => ctoken_append t (fst kb) (flat_map enc (snd kb))) fs t.

Lemma cfields_cases fuel : forall pre r tok, T = pre ++ r -> T <> [] -> List.length r < fuel ->
  (exists body fs r', r = body ++ RBRACE :: r' /\ fields_raw body fs /\
     cfields_loop fuel txt tok (cst pre r) = Ret (appended tok fs, cst (pre ++ body ++ [RBRACE]) r')) \/
  cfields_loop fuel txt tok (cst pre r) = Throw.
Proof.
  induction fuel as [|fuel IH]; intros pre r tok E Hn Hf; [lia|]. cbn [cfields_loop].
  destruct (split_spaces r) as (n & r1 & -> & Hs1).
  rewrite cparse_ws by assumption. cbn [cbind].
  assert (E1 : T = (pre ++ repeat SP n) ++ r1) by now rewrite <- app_assoc.
  destruct r1 as [|c r1]; [right; reflexivity|]. cbn [some].
  change (u "}") with [125%N]. change (u """") with [34%N]. rewrite (cch_is _ _ 125 E1) by reflexivity.
  destruct (N.eqb_spec c 125) as [->|Hc].
  { left. exists (repeat SP n), [], r1. split; [reflexivity|]. split; [constructor|].
    rewrite cchar_hit by (assumption || reflexivity). cbn. now rewrite app_assoc. }
  destruct (ckey_cases _ _ E1) as [(k & r2 & Ek & Hk & Hr2 & Pk)|(Pk & _)]; rewrite Pk; cbn [cbind]; [|now right].
  assert (E2 : T = ((pre ++ repeat SP n) ++ k) ++ r2) by (rewrite E1, Ek; now rewrite <- !app_assoc).
  destruct (cexpect_cases [COLON; SP; QUOTE] (u ": """) _ _ split_colon ltac:(repeat constructor) E2 Hn)
    as [(r3 & -> & P3)|(s & P3 & _)]; rewrite P3; cbn [cbind]; [|now right].
  rewrite app_assoc in E2.
  destruct (cparse_value_cases _ _ E2) as [(b & r4 & -> & Hb & P4)|P4]; rewrite P4; cbn [cbind]; [|now right].
  rewrite app_assoc in E2.
  rewrite cchar_hit by (assumption || reflexivity). cbn [cbind].
  set (pre5 := (((((pre ++ repeat SP n) ++ k) ++ [COLON; SP; QUOTE]) ++ b) ++ [QUOTE])) in *.
  destruct (IH pre5 r4 (ctoken_append tok k (flat_map enc b))) as [(body & fs & r' & -> & Hfs & P)|P].
  { rewrite E2. apply assoc1. } { assumption. }
  { apply (f_equal (@List.length N)) in Ek. rewrite !app_length in *. cbn [List.length] in *. lia. }
  - left. exists (repeat SP n ++ k ++ u ": """ ++ b ++ u """" ++ body), ((k, b) :: fs), r'.
    split; [rewrite Ek; rewrite <- !app_assoc; reflexivity|].
    split; [change SP with 32%N; now constructor|].
    rewrite P. unfold pre5. cbn [appended fold_left fst snd]. rewrite <- !app_assoc. reflexivity.
  - right. exact P.
Qed.

Definition ctok (t : text * list (text * text)) : ctoken := appended (CToken (fst t) [] []) (snd t).

Lemma ctokens_cases fuel : forall pre r acc, T = pre ++ r -> T <> [] -> List.length r < fuel ->
  (exists ts, stream_raw r ts /\ ctokens_loop fuel txt acc (cst pre r) = Ret (acc ++ map ctok ts)) \/
  ctokens_loop fuel txt acc (cst pre r) = Throw.
Proof.
  induction fuel as [|fuel IH]; intros pre r acc E Hn Hf; [lia|]. cbn [ctokens_loop].
  destruct (split_spaces r) as (n & r1 & -> & Hs1).
  rewrite cparse_ws by assumption. cbn [cbind].
  assert (E1 : T = (pre ++ repeat SP n) ++ r1) by now rewrite <- app_assoc.
  destruct r1 as [|c r1].
  { left. exists []. split; [rewrite app_nil_r; constructor|]. cbn. now rewrite app_nil_r. }
  cbn [some].
  destruct (ckey_cases _ _ E1) as [(k & r2 & Ek & Hk & Hr2 & Pk)|(Pk & _)]; rewrite Pk; cbn [cbind]; [|now right].
  assert (E2 : T = ((pre ++ repeat SP n) ++ k) ++ r2) by (rewrite E1, Ek; now rewrite <- !app_assoc).
  destruct (cexpect_cases [SP; LBRACE; SP] (u " { ") _ _ split_open ltac:(repeat constructor) E2 Hn)
    as [(r3 & -> & P3)|(s & P3 & _)]; rewrite P3; cbn [cbind]; [|now right].
  rewrite app_assoc in E2.
  destruct (cfields_cases (cfuel txt) _ _ (CToken k [] []) E2 Hn) as [(body & fs & r4 & -> & Hfs & P4)|P4];
    [|rewrite P4; cbn [cbind]..|rewrite P4; cbn [cbind]; now right].
  { unfold cfuel. rewrite map_length, E2, !app_length. lia. }
  set (pre5 := (((pre ++ repeat SP n) ++ k) ++ [SP; LBRACE; SP]) ++ body ++ [RBRACE]) in *.
  destruct (IH pre5 r4 (acc ++ [appended (CToken k [] []) fs])) as [(ts & Hts & P)|P].
  { rewrite E2. unfold pre5. rewrite <- !app_assoc. reflexivity. } { assumption. }
  { apply (f_equal (@List.length N)) in Ek. rewrite !app_length in *. cbn [List.length] in *. lia. }
  - left. exists ((k, fs) :: ts). split.
    + rewrite Ek. change SP with 32%N at 1.
      replace (k ++ [SP; LBRACE; SP] ++ body ++ RBRACE :: r4) with ((k ++ u " { " ++ body ++ u "}") ++ r4)
        by (rewrite <- !app_assoc; reflexivity).
      now constructor.
    + rewrite P. cbn [map]. rewrite <- app_assoc. reflexivity.
  - right. exact P.
Qed.
(** * The same loops on a stream of the language *)
Lemma max_key k r k' r' : Forall letter k -> starts_nonkey r -> Forall letter k' -> starts_nonkey r' ->
  k ++ r = k' ++ r' -> k = k' /\ r = r'.
Proof.
  intros Hk. revert k'. induction Hk as [|c k Hc Hk IH]; intros k' Hr Hk' Hr' E.
  - destruct k' as [|c' k']; [auto|]. cbn [app] in E. subst r. cbn in Hr.
    apply Forall_cons_iff in Hk' as [Hc' _]. tauto.
  - destruct k' as [|c' k'].
    + cbn [app] in E. subst r'. cbn in Hr'. tauto.
    + cbn [app] in E. injection E as -> E. apply Forall_cons_iff in Hk' as [_ Hk'].
      destruct (IH k' Hr Hk' Hr' E) as [-> ->]. auto.
Qed.
Lemma ckey_hit pre k r : T = pre ++ k ++ r -> is_name k -> starts_nonkey r ->
  parse_key_cpp txt (cst pre (k ++ r)) = Ret (k, cst (pre ++ k) r).
Proof.
  intros E [Hn Hk] Hr. destruct (ckey_cases pre (k ++ r) E) as [(k' & r' & Ek & [_ Hk'] & Hr' & P)|(_ & P)].
  - destruct (max_key k r k' r') as [<- <-]; auto.
  - exfalso. apply (P k r); [reflexivity|]. split; assumption.
Qed.
Lemma cexpect_hit exp e pre r : split_chars e = Ret (map (fun a => [a]) exp) ->
  Forall (fun a => a < 128)%N exp -> T = pre ++ exp ++ r -> T <> [] ->
  parse_chars_cpp txt e (cst pre (exp ++ r)) = Ret (true, cst (pre ++ exp) r).
Proof.
  intros Es Hx E Hn. destruct (cexpect_cases exp e pre (exp ++ r) Es Hx E Hn) as [(r' & Er & P)|(s & _ & Q)].
  - apply app_inv_head in Er. now subst.
  - now elim (Q r).
Qed.

Lemma cvalue_hit b v : decodes b v -> forall fuel acc pre r, T = pre ++ b ++ QUOTE :: r ->
  List.length b < fuel ->
  cvalue_loop fuel txt acc (cst pre (b ++ QUOTE :: r)) = Ret (acc ++ flat_map enc b, cst (pre ++ b) (QUOTE :: r)).
Proof.
  assert (Esc : forall c b v, (forall fuel acc pre r, T = pre ++ b ++ QUOTE :: r -> List.length b < fuel ->
     cvalue_loop fuel txt acc (cst pre (b ++ QUOTE :: r)) = Ret (acc ++ flat_map enc b, cst (pre ++ b) (QUOTE :: r))) ->
     decodes b v ->
     forall fuel acc pre r, T = pre ++ (92%N :: c :: b) ++ QUOTE :: r -> List.length (92%N :: c :: b) < fuel ->
     cvalue_loop fuel txt acc (cst pre ((92%N :: c :: b) ++ QUOTE :: r))
     = Ret (acc ++ flat_map enc (92%N :: c :: b), cst (pre ++ 92%N :: c :: b) (QUOTE :: r))).
  { intros c b0 v0 IH Hd [|fuel] acc pre r E Hf; [cbn in Hf; lia|]. cbn [cvalue_loop].
    change (u """") with [34%N]. change (u "\") with [92%N]. cbn [app] in *.
    rewrite (cch_is pre _ 34), (cch_eos pre), (cch_is pre _ 92) by (assumption || reflexivity).
    cbn [some negb]. change (92 =? 34)%N with false. change (92 =? 92)%N with true. cbv iota.
    rewrite cread_ok by assumption. cbn [cbind].
    assert (E1 : T = (pre ++ [92%N]) ++ c :: b0 ++ QUOTE :: r) by now rewrite <- assoc1.
    rewrite cch_eos by exact E1. cbn [some negb]. rewrite cread_ok by exact E1. cbn [cbind].
    rewrite IH; [|rewrite E1; apply assoc1|cbn in Hf; lia].
    cbn [cst cch flat_map]. now rewrite <- !app_assoc. }
  induction 1 as [|c b v Hq Hb Hd IH|c b v Hc Hd IH|c b v Hq Hb Hd IH]; [| |eauto..].
  - intros [|fuel] acc pre r E Hf; [lia|]. cbn [cvalue_loop app flat_map].
    change (u """") with [34%N]. rewrite (cch_is pre _ 34) by (assumption || reflexivity).
    cbn. now rewrite !app_nil_r.
  - intros [|fuel] acc pre r E Hf; [cbn in Hf; lia|]. cbn [cvalue_loop app] in *.
    change (u """") with [34%N]. change (u "\") with [92%N].
    rewrite (cch_is pre _ 34), (cch_eos pre), (cch_is pre _ 92) by (assumption || reflexivity).
    cbn [some negb]. replace (c =? 34)%N with false by lia. replace (c =? 92)%N with false by lia.
    rewrite cread_ok by assumption. cbn [cbind].
    rewrite IH; [|now rewrite <- assoc1|cbn in Hf; lia].
    cbn [cst cch flat_map]. now rewrite <- !app_assoc.
Qed.

Lemma cparse_value_hit b v pre r : decodes b v -> T = pre ++ b ++ QUOTE :: r ->
  parse_value_cpp txt (cst pre (b ++ QUOTE :: r)) = Ret (flat_map enc b, cst (pre ++ b) (QUOTE :: r)).
Proof.
  intros Hd E. unfold parse_value_cpp. rewrite cch_eos by assumption.
  destruct (b ++ QUOTE :: r) as [|x y] eqn:X; [destruct b; discriminate|]. cbn [some negb]. rewrite <- X in *.
  rewrite (cvalue_hit b v Hd); auto. unfold cfuel. rewrite map_length, E, !app_length. lia.
Qed.

Lemma fields_raw_length t fs : fields_raw t fs -> List.length fs <= List.length t.
Proof. induction 1; cbn [List.length]; [lia|]. rewrite !app_length. cbn. lia. Qed.

Lemma cfields_hit body fs : fields_raw body fs -> forall fuel pre r tok,
  T = pre ++ body ++ RBRACE :: r -> T <> [] -> List.length fs < fuel ->
  cfields_loop fuel txt tok (cst pre (body ++ RBRACE :: r)) = Ret (appended tok fs, cst (pre ++ body ++ [RBRACE]) r).
Proof.
  induction 1 as [n|n key b rest fs Hk [v Hd] Hf IH]; intros [|fuel] pre r tok E Hn Hfu; try (cbn in Hfu; lia);
    cbn [cfields_loop]; change 32%N with SP in *; change (u "}") with [125%N]; change (u """") with [34%N] in *.
  - rewrite cparse_ws by (assumption || discriminate). cbn [cbind some].
    rewrite app_assoc in E. rewrite (cch_is _ _ 125) by (assumption || reflexivity).
    change (RBRACE =? 125)%N with true. cbv iota.
    rewrite cchar_hit by (assumption || reflexivity). cbn. now rewrite app_assoc.
  - rewrite <- !app_assoc in *.
    rewrite cparse_ws; [|assumption|now apply name_not_space]. cbn [cbind].
    destruct (key ++ u ": """ ++ b ++ [34%N] ++ rest ++ RBRACE :: r) as [|x y] eqn:X.
    { destruct Hk as [Hk _]. destruct key; [congruence|discriminate]. }
    cbn [some]. rewrite (app_assoc pre) in E.
    rewrite (cch_is _ _ 125) by (assumption || reflexivity).
    assert (Hx : (x =? 125)%N = false).
    { pose proof (name_not_brace key Hk (u ": """ ++ b ++ [34%N] ++ rest ++ RBRACE :: r)) as HH.
      rewrite X in HH. cbn in HH. unfold RBRACE in HH. lia. }
    rewrite Hx. rewrite <- X in *. clear X Hx x y.
    rewrite ckey_hit; [|assumption|assumption|cbn; unfold letter; lia]. cbn [cbind].
    rewrite app_assoc in E. change (u ": """) with [COLON; SP; QUOTE] at 2.
    rewrite (cexpect_hit [COLON; SP; QUOTE]); [|reflexivity|repeat constructor|exact E|assumption]. cbn [cbind].
    rewrite app_assoc in E. change (u ": """) with [COLON; SP; QUOTE] in E.
    change ([34%N] ++ rest ++ RBRACE :: r) with (QUOTE :: rest ++ RBRACE :: r) in *.
    rewrite (cparse_value_hit b v) by assumption. cbn [cbind].
    rewrite app_assoc in E. rewrite cchar_hit by (assumption || reflexivity). cbn [cbind].
    rewrite IH; [|rewrite E; apply assoc1|assumption|cbn in Hfu; lia].
    cbn [appended fold_left fst snd]. change (u ": """) with [COLON; SP; QUOTE]. rewrite <- !app_assoc. reflexivity.
Qed.

Lemma ctokens_hit t ts : stream_raw t ts -> forall fuel pre acc,
  T = pre ++ t -> T <> [] -> List.length ts < fuel ->
  ctokens_loop fuel txt acc (cst pre t) = Ret (acc ++ map ctok ts).
Proof.
  induction 1 as [n|n name body fs rest ts Hk Hf Hs IH]; intros [|fuel] pre acc E Hn Hfu; try (cbn in Hfu; lia);
    cbn [ctokens_loop]; change 32%N with SP in *.
  - rewrite <- (app_nil_r (repeat SP n)) in E |- *. rewrite cparse_ws by (assumption || exact I). cbn. now rewrite app_nil_r.
  - rewrite <- !app_assoc in *.
    rewrite cparse_ws; [|assumption|now apply name_not_space]. cbn [cbind].
    destruct (name ++ u " { " ++ body ++ u "}" ++ rest) as [|x y] eqn:X.
    { destruct Hk as [Hk _]. destruct name; [congruence|discriminate]. }
    cbn [some]. rewrite <- X in *. clear X x y. rewrite app_assoc in E.
    rewrite ckey_hit; [|assumption|assumption|cbn; unfold letter; lia]. cbn [cbind].
    rewrite app_assoc in E. change (u " { ") with [SP; LBRACE; SP] at 2.
    rewrite (cexpect_hit [SP; LBRACE; SP]); [|reflexivity|repeat constructor|exact E|assumption]. cbn [cbind].
    rewrite app_assoc in E. change (u " { ") with [SP; LBRACE; SP] in E.
    change (u "}" ++ rest) with (RBRACE :: rest) in *.
    rewrite (cfields_hit body fs Hf); [|assumption|assumption|].
    2:{ unfold cfuel. apply fields_raw_length in Hf. rewrite map_length, E, !app_length. lia. }
    cbn [cbind]. rewrite IH; [|rewrite E; rewrite <- !app_assoc; reflexivity|assumption|cbn in Hfu; lia].
    cbn [map]. rewrite <- app_assoc. reflexivity.
Qed.

Lemma stream_raw_length t ts : stream_raw t ts -> List.length ts <= List.length t.
Proof. induction 1; cbn [List.length]; [lia|]. rewrite !app_length. cbn. lia. Qed.

(** The whole parse, once the text is split. *)
Lemma cparse_hit ts : T <> [] -> stream_raw T ts ->
  (s <~ cload txt ;; ctokens_loop (cfuel txt) txt [] s) = Ret (map ctok ts).
Proof.
  intros Hn Hs. destruct T as [|c t] eqn:E; [congruence|]. cbn [cload map at_index nth_error cbind].
  change (CState 0 (enc c)) with (cst [] (c :: t)). rewrite <- E.
  change (enc c :: map enc t) with (map enc (c :: t)). rewrite <- E in *.
  rewrite (ctokens_hit T ts Hs); auto. unfold cfuel. rewrite map_length. apply stream_raw_length in Hs. lia.
Qed.
Lemma cparse_cases :
  (exists ts, T <> [] /\ stream_raw T ts /\
     (s <~ cload txt ;; ctokens_loop (cfuel txt) txt [] s) = Ret (map ctok ts)) \/
  (s <~ cload txt ;; ctokens_loop (cfuel txt) txt [] s) = Throw.
Proof.
  destruct T as [|c t] eqn:E; [right; reflexivity|]. cbn [cload map at_index nth_error cbind].
  change (CState 0 (enc c)) with (cst [] (c :: t)). rewrite <- E.
  change (enc c :: map enc t) with (map enc (c :: t)). rewrite <- E in *.
  destruct (ctokens_cases (cfuel txt) [] T []) as [(ts & Hs & P)|P]; [reflexivity|congruence| | |auto].
  { unfold cfuel. rewrite map_length. lia. }
  left. exists ts. repeat split; auto. congruence.
Qed.
End Parser.
