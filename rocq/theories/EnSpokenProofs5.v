(** Spoken English numbers: names read back, and the tokens of the inverse grammar (C59). *)
From Coq Require Import List NArith ZArith Bool String Lia Arith.
From Verif Require Import Text TextFacts TokenModel Fst FstFacts FstRun GrammarModel GrammarShape GrammarAccept NumeralSpec EnglishNumeralSpec EnglishSpokenSpec.
From Verif Require Import ZhNumberProofs EnNumberProofs EnNumberProofs2 EnNumberProofs4 EnNumberProofs5.
From Verif Require Import EnSpokenProofs EnSpokenProofs2 EnSpokenProofs3 EnSpokenProofs4.
From Verif Require Import EnItnModel.
From Verif Require EnItnAccept.
Import ListNotations.
Local Open Scope list_scope.

(** ** Names *)
Definition low_scales : list string := ["trillion"; "billion"; "million"; "thousand"]%string.
Lemma low_mags : mags low_scales = scale_names.
Proof. vm_compute. reflexivity. Qed.
Lemma low_apart : apart low_scales.
Proof. apply apart_b_spec. vm_compute. reflexivity. Qed.
Lemma low_not_and : Forall (fun s => u s <> AND) low_scales.
Proof. repeat constructor; discriminate. Qed.
Lemma fine_spoken y n : fine (words y) (said scale_names (without (words y))) n -> spoken y n.
Proof.
  intros (S & _ & H & L). split; [exact H|]. split; [exact L|]. fold (without (words y)). apply spoken_cases. right. right.
  rewrite <- mags_all. pose proof apart_all as A1. pose proof A1 as (_ & _ & _ & A2). pose proof A2 as (_ & _ & _ & A3).
  apply (said_smaller _ _ _ _ A1). apply (said_smaller _ _ _ _ A2). apply (said_smaller _ _ _ _ A3). change (said (mags low_scales) (without (words y)) = Some n).
  now rewrite low_mags.
Qed.
Lemma scaled_spoken y n : scaled false scale_names (words y) = Some n -> spoken y n.
Proof. intro H. apply fine_spoken. rewrite <- low_mags in *. now apply scaled_fine; [exact low_apart|exact low_not_and|]. Qed.
Lemma below_thousand_bound ws n : below_thousand ws = Some n -> (1 <= n <= 999)%N.
Proof. intro H. apply below_thousand_fine in H as (H & _). now apply below_bound in H. Qed.
Lemma scaled_start_false ss ws : Forall (fun s => text_eqb (u s) THOUSAND = false) ss -> scaled true (mags ss) ws = scaled false (mags ss) ws.
Proof.
  induction ss as [|s ss IH]; [reflexivity|]. intro F. cbn [scaled mags]. pose proof (Forall_inv F) as E. cbn beta in E. rewrite E. cbn [andb].
  destruct (cut (u s) ws) as [(a, b)|]; [reflexivity|]. apply IH. exact (Forall_inv_tail F).
Qed.
(** Only "thousand ..." is not named from its first scale on. *)
Lemma scaled_start sc : forall ws n, (forall s k, In (s, k) sc -> text_eqb s THOUSAND = false) ->
  scaled true (sc ++ [(THOUSAND, 1000%N)]) ws = Some n ->
  scaled false (sc ++ [(THOUSAND, 1000%N)]) ws = Some n \/ (1000 <= n < 2000)%N /\ exists r, ws = THOUSAND :: r.
Proof.
  induction sc as [|(s, k) sc IH]; intros ws n F; cbn [app scaled].
  - rewrite text_eqb_refl. cbn [andb]. destruct (cut THOUSAND ws) as [(a, b)|] eqn:C; [|auto]. destruct a as [|w a]; [|auto].
    apply cut_some in C as (-> & _). cbn [app]. intro H. right. split; [|eauto]. destruct b as [|w r]; [injection H as <-; lia|].
    apply plus_both in H as (i & j & E & H & ->). assert (i = 1 * 1000)%N as -> by congruence.
    assert (j <= 999)%N; [|lia]. destruct (text_eqb w AND); [apply below_hundred_small, small_bound in H; lia|apply below_thousand_bound in H; lia].
  - rewrite (F s k) by now left. cbn [andb]. destruct (cut s ws) as [(a, b)|]; [auto|]. apply IH. intros s' k' I. apply (F s' k'). now right.
Qed.
Theorem english_spoken y n : english_value y = Some n ->
  spoken y n \/ (1000 <= n < 2000)%N /\ exists r, words y = THOUSAND :: r.
Proof.
  unfold english_value. destruct (text_eqb_spec y (u "zero")) as [->|_].
  - intros [= <-]. left. split; [discriminate|]. split; [discriminate|reflexivity].
  - intro H. change scale_names with ([(u "trillion", 10 ^ 12); (u "billion", 10 ^ 9); (u "million", 10 ^ 6)]%N ++ [(THOUSAND, 1000%N)]) in H.
    apply scaled_start in H as [H|H]; [left; now apply scaled_spoken|now right|].
    intros s k [[= <- <-]|[[= <- <-]|[[= <- <-]|[]]]]; reflexivity.
Qed.
(** A number of a thousand and something begins with "one thousand" or with "thousand". *)
Lemma below_thousand_one ws : below_thousand ws = Some 1%N -> ws = [u "one"].
Proof.
  intro H. pose proof (below_thousand_fine ws 1 H) as (B & Ne & Hd & La).
  assert (L : spoken_words (without ws) = Some 1%N). { apply spoken_cases. right. right. rewrite <- mags_all, said_none; [exact B|exact apart_all|now apply below_words in B]. }
  apply low_words in L as (w & E & I); [|lia]. apply single_word in E; [|exact Ne|exact Hd|exact La]. subst ws.
  unfold labels_12 in I. cbn [In] in I. repeat destruct I as [<-|I]; try contradiction; try reflexivity; vm_compute in H; discriminate.
Qed.
Lemma thousand_start ws n : scaled false scale_names ws = Some n -> (1000 <= n < 2000)%N -> exists b, ws = u "one" :: THOUSAND :: b.
Proof.
  assert (Up : forall s k sc, (10 ^ 6 <= k)%N -> scaled false ((s, k) :: sc) ws = Some n -> (1000 <= n < 2000)%N -> scaled false sc ws = Some n).
  { intros s k sc K H B. cbn [scaled andb] in H. destruct (cut s ws) as [(a, b)|]; [|exact H]. exfalso. destruct (below_thousand a) as [j|] eqn:E; [|discriminate].
    apply below_thousand_bound in E. assert (n >= j * k)%N; [|nia]. destruct b as [|w r]; [assert (n = j * k)%N by congruence; lia|].
    apply plus_both in H as (i & m & E' & _ & ->). assert (i = j * k)%N by congruence. lia. }
  intros H B. unfold scale_names in H. apply Up in H; [|lia|exact B]. apply Up in H; [|lia|exact B]. apply Up in H; [|lia|exact B].
  cbn [scaled andb] in H. destruct (cut THOUSAND ws) as [(a, b)|] eqn:C; [|apply below_thousand_bound in H; lia].
  apply cut_some in C as (-> & _). destruct (below_thousand a) as [j|] eqn:E; [|discriminate]. exists b.
  pose proof (below_thousand_bound a j E) as Bj.
  assert (j = 1%N) as ->; [|now rewrite (below_thousand_one a E)].
  destruct b as [|w r]; [assert (n = j * 10 ^ 3)%N by congruence; lia|].
  apply plus_both in H as (i & m & E' & _ & ->). assert (i = j * 10 ^ 3)%N by congruence. lia.
Qed.
Lemma bare_thousand y n : english_value y = Some n -> (1000 <= n < 2000)%N -> (forall r, y <> u "one thousand" ++ r) -> exists r, words y = THOUSAND :: r.
Proof.
  unfold english_value. destruct (text_eqb_spec y (u "zero")) as [->|_]; [intros [= <-]; lia|].
  intros H B Nb. change scale_names with ([(u "trillion", 10 ^ 12); (u "billion", 10 ^ 9); (u "million", 10 ^ 6)]%N ++ [(THOUSAND, 1000%N)]) in H.
  apply scaled_start in H as [H|(_ & H)]; [|exact H|intros s k [[= <- <-]|[[= <- <-]|[[= <- <-]|[]]]]; reflexivity].
  apply thousand_start in H as (b & W); [|exact B]. exfalso. apply (Nb (spaced b)). rewrite <- (join_words y), W. reflexivity.
Qed.
Lemma thousand_not_spoken y n : (exists r, words y = THOUSAND :: r) -> ~ spoken y n.
Proof.
  intros (r & W) (_ & _ & S). rewrite W in S. cbn [filter] in S. change (is_and THOUSAND) with false in S. cbn [negb] in S.
  apply spoken_cases in S as [(E & _)|[S|S]]; [discriminate E| |].
  - apply many_words in S as (F & _). apply Forall_inv in F. vm_compute in F. discriminate.
  - assert (Up : forall s k sc ws, text_eqb THOUSAND s = false -> said ((s, k) :: sc) (THOUSAND :: ws) = Some n -> said sc (THOUSAND :: ws) = Some n).
    { intros s k sc ws D H. cbn [said cut] in H. rewrite D in H. destruct (cut s ws) as [(a, b)|]; [|exact H].
      destruct (below (THOUSAND :: a)) as [j|] eqn:B; [|discriminate]. apply below_words, Forall_inv in B. vm_compute in B. discriminate. }
    unfold spoken_scales, scale_names in S. cbn [app] in S.
    do 6 (apply Up in S; [|reflexivity]). cbn [said cut] in S. rewrite text_eqb_refl in S. discriminate.
Qed.
Lemma name_spoken n y : number_words n y -> spoken y n.
Proof.
  intros [(-> & ->)|(Z & g4 & g3 & g2 & g1 & g0 & G4 & G3 & G2 & G1 & G0 & -> & ->)]; [split; [discriminate|]; split; [discriminate|reflexivity]|].
  apply scaled_spoken. pose proof (say_counts g4 g3 g2 g1 g0 G4 G3 G2 G1 G0) as (E & C).
  assert (Ne : say g4 g3 g2 g1 g0 <> []) by (intro K; apply Z; now apply E).
  destruct (C Ne) as (_ & S). pose proof (say_spaceless g4 g3 g2 g1 g0 G4 G3 G2 G1 G0) as F. specialize (S false).
  destruct (say g4 g3 g2 g1 g0) as [|w ws]; [now destruct Ne|]. now rewrite words_join.
Qed.

(** ** Fields *)
Lemma char_word c y : In c y -> c <> 32%N -> exists w, In w (words y) /\ In c w.
Proof.
  intros I D. rewrite <- (join_words y) in I. unfold join in I. destruct (words y) as [|w r]; [destruct I|]. apply in_app_iff in I as [I|I]; [exists w; split; [now left|exact I]|].
  apply in_flat_map in I as (w' & J & [K|K]); [congruence|]. exists w'. split; [now right|exact K].
Qed.
Lemma spoken_listed y n : spoken y n -> Forall (fun w => In w number_words_list) (without (words y)).
Proof.
  intros (_ & _ & S). fold (without (words y)) in S. unfold number_words_list. apply spoken_cases in S as [(-> & _)|[S|S]].
  - constructor; [|constructor]. rewrite !in_app_iff. cbn [In]. auto.
  - apply many_words in S as (S & _). eapply Forall_impl; [|exact S]. intros w N. unfold numeral_word in N. rewrite !map_app, !in_app_iff.
    destruct (named unit_names w) eqn:U; [apply named_list in U; auto|]. destruct (named teen_names w) eqn:T; [apply named_list in T; auto|].
    destruct (named spoken_ties w) eqn:K; [apply named_list in K; auto|]. destruct (text_eqb_spec w HUNDRED) as [->|]; [|discriminate]. cbn [In]. auto.
  - apply said_words in S. eapply Forall_impl; [|exact S]. intros w [N|N]; rewrite !map_app, !in_app_iff; [|auto]. unfold numeral_word in N.
    destruct (named unit_names w) eqn:U; [apply named_list in U; auto|]. destruct (named teen_names w) eqn:T; [apply named_list in T; auto|].
    destruct (named spoken_ties w) eqn:K; [apply named_list in K; auto|]. destruct (text_eqb_spec w HUNDRED) as [->|]; [|discriminate]. cbn [In]. auto.
Qed.
Lemma spoken_chars y n : spoken y n -> Forall (fun c => c = 32%N \/ (97 <= c <= 122)%N) y.
Proof.
  intro S. pose proof (spoken_listed y n S) as F.
  assert (Low : forallb (forallb (fun c => (97 <=? c) && (c <=? 122))%N) number_words_list = true) by (vm_compute; reflexivity).
  apply Forall_forall. intros c I. destruct (N.eq_dec c 32) as [->|D]; [now left|]. right. apply char_word in I as (w & J & K); [|exact D].
  assert (W : forallb (fun c => (97 <=? c) && (c <=? 122))%N w = true).
  { destruct (is_and w) eqn:A; [apply is_and_spec in A as ->; reflexivity|]. rewrite forallb_forall in Low. apply Low. rewrite Forall_forall in F. apply F.
    apply filter_In. split; [exact J|]. now rewrite A. }
  rewrite forallb_forall in W. specialize (W c K). rewrite andb_true_iff, !N.leb_le in W. lia.
Qed.
Lemma spoken_plain y n : spoken y n -> ~ In 34%N y /\ escape_value y = y.
Proof.
  intro S. pose proof (spoken_chars y n S) as F. rewrite Forall_forall in F.
  assert (A : ~ In 34%N y) by (intro I; apply F in I; lia). split; [exact A|]. apply escape_plain; [exact A|]. intro I. apply F in I. lia.
Qed.
Lemma field_integer x d : gives (SIGMA @ Cardinal.integer)%fst x d <-> gives Cardinal.integer x d.
Proof.
  rewrite gives_compose. split.
  - intros (m & (w & H) & G). apply sigma_spec in H as (_ & -> & _). pose proof G as G'. apply integer_spec in G' as (n & S & _).
    now rewrite (proj2 (spoken_plain m n S)).
  - intro G. exists x. split; [|exact G]. apply integer_spec in G as (n & S & _). exists 0%Z. apply sigma_spec.
    split; [exact (spoken_valid x n S)|]. split; [now rewrite (proj2 (spoken_plain x n S))|reflexivity].
Qed.
Lemma field_negative x d : gives (SIGMA @ Cardinal.negative)%fst x d <-> (x = u "minus" \/ x = u "negative") /\ d = u "-".
Proof.
  rewrite gives_compose. unfold Cardinal.negative. split.
  - intros (m & (w & H) & G). apply sigma_spec in H as (_ & -> & _). apply gives_union in G as [G|G]; apply gives_cross in G as (-> & ->); auto.
  - intros (S & ->). exists x. split.
    + exists 0%Z. apply sigma_spec. destruct S as [->| ->]; (split; [reflexivity|split; reflexivity]).
    + apply gives_union. destruct S as [->| ->]; [left|right]; now apply gives_cross.
Qed.
Lemma gives_field name g x d : gives (verbalize_field name (Some g) false) x d <-> exists z, x = name ++ u ": """ ++ z ++ u """" /\ gives (SIGMA @ g)%fst z d.
Proof.
  unfold verbalize_field. cbn [app]. rewrite gives_cat. split.
  - intros (x1 & d1 & x2 & d2 & -> & -> & H & G). apply gives_cross in G as (-> & ->). apply gives_cat in H as (x3 & d3 & x4 & d4 & -> & -> & H & G).
    apply gives_cross in H as (-> & ->). exists x4. rewrite app_nil_r. cbn [app]. split; [now rewrite <- !app_assoc|exact G].
  - intros (z & -> & G). exists (name ++ u ": """ ++ z), d, (u """"), []. rewrite app_nil_r, <- !app_assoc. repeat split; [|now apply gives_cross].
    apply gives_cat. exists (name ++ u ": """), [], z, d. rewrite <- app_assoc. repeat split; [now apply gives_cross|exact G].
Qed.
Lemma gives_star_nil a x d : gives a x d -> gives (Star a) x d.
Proof. intros (w & H). exists (w + 0)%Z. rewrite <- (app_nil_r x), <- (app_nil_r d). cbn [denote]. constructor; [exact H|constructor]. Qed.
Lemma gives_delete_space x d : gives DELETE_SPACE x d <-> d = [] /\ forallb is_space x = true.
Proof.
  split.
  - intros (w & H). apply delete_space in H. tauto.
  - intros (-> & F). exists 0%Z. unfold DELETE_SPACE. cbn [denote]. induction x as [|c x IH]; [constructor|]. cbn [forallb] in F.
    apply andb_true_iff in F as (Fc & F). change (c :: x) with ([c] ++ x). change (@nil N) with (@nil N ++ []). change 0%Z with (0 + 0)%Z.
    constructor; [|auto]. split; [reflexivity|]. exists [c], c. auto.
Qed.
Lemma gives_delete_tokens name v x d : gives (delete_tokens name v) x d <->
  exists z c, x = name ++ u " { " ++ z ++ u " }" ++ c /\ (c = [] \/ c = u " ") /\ gives v z d.
Proof.
  unfold delete_tokens, ques. rewrite !gives_assoc, gives_cat. split.
  - intros (x1 & d1 & x2 & d2 & -> & -> & H & G). apply gives_cross in H as (-> & ->).
    apply gives_cat in G as (x3 & d3 & x4 & d4 & -> & -> & H & G). apply gives_cross in H as (-> & ->).
    apply gives_cat in G as (x5 & d5 & x6 & d6 & -> & -> & H & G).
    apply gives_cat in G as (x7 & d7 & x8 & d8 & -> & -> & G & K). apply gives_cross in G as (-> & ->).
    apply gives_union in K. exists x5, x8. split; [reflexivity|].
    assert ((x8 = [] \/ x8 = u " ") /\ d8 = []) as (C & ->) by (destruct K as [K|K]; apply gives_cross in K as (-> & ->); auto).
    split; [exact C|]. cbn [app]. now rewrite app_nil_r.
  - intros (z & c & -> & C & G). exists name, [], (u " { " ++ z ++ u " }" ++ c), d. repeat split; [now apply gives_cross|].
    apply gives_cat. exists (u " { "), [], (z ++ u " }" ++ c), d. repeat split; [now apply gives_cross|].
    apply gives_cat. exists z, d, (u " }" ++ c), []. rewrite app_nil_r. repeat split; [exact G|].
    apply gives_cat. exists (u " }"), [], c, []. repeat split; [now apply gives_cross|]. apply gives_union.
    destruct C as [->| ->]; [right|left]; now apply gives_cross.
Qed.
Definition fields (sign y : text) : text :=
  (match sign with [] => [] | _ => u "negative: """ ++ sign ++ u """ " end) ++ u "integer: """ ++ y ++ u """".
Lemma spoken_token_fields sign y : spoken_token sign y = Cardinal.name ++ u " { " ++ fields sign y ++ u " }" ++ [].
Proof.
  unfold spoken_token, fields. rewrite app_nil_r. change (u "cardinal { ") with (Cardinal.name ++ u " { "). rewrite <- !app_assoc. reflexivity.
Qed.
Lemma sign_plain sign : In sign signs -> ~ In 34%N sign /\ (sign = [] \/ (sign = u "minus" \/ sign = u "negative") /\ exists c r, sign = c :: r).
Proof.
  intros [<-|[<-|[<-|[]]]]; (split; [intro I; vm_compute in I; intuition discriminate|]); [now left| |]; right; (split; [auto|]); vm_compute; eauto.
Qed.
Definition sign_part : fst := ques (verbalize_field (u "negative") (Some Cardinal.negative) false + DELETE_SPACE)%fst.
Lemma sign_part_spec x d : gives sign_part x d <->
  (x = [] /\ d = []) \/ exists s sp, (s = u "minus" \/ s = u "negative") /\ forallb is_space sp = true /\ x = u "negative: """ ++ s ++ u """" ++ sp /\ d = u "-".
Proof.
  unfold sign_part, ques. rewrite gives_union, gives_cross, gives_cat. split.
  - intros [(x1 & d1 & x2 & d2 & -> & -> & H & G)|H]; [|now left]. right. apply gives_field in H as (s & -> & H). apply field_negative in H as (S & ->).
    apply gives_delete_space in G as (-> & F). exists s, x2. split; [exact S|]. split; [exact F|]. split; [|reflexivity]. rewrite <- !app_assoc. reflexivity.
  - intros [H|(s & sp & S & F & -> & ->)]; [now right|]. left. exists (u "negative" ++ u ": """ ++ s ++ u """"), (u "-"), sp, [].
    rewrite app_nil_r, <- !app_assoc. repeat split.
    + apply gives_field. exists s. split; [reflexivity|]. now apply field_negative.
    + now apply gives_delete_space.
Qed.
Lemma rule_verbalizer : r_verbalizer Cardinal.rule =
  delete_tokens Cardinal.name (sign_part + verbalize_field (u "integer") (Some Cardinal.integer) false)%fst.
Proof. reflexivity. Qed.
Lemma integer_field x d : gives (verbalize_field (u "integer") (Some Cardinal.integer) false) x d <->
  exists y, x = u "integer: """ ++ y ++ u """" /\ gives Cardinal.integer y d.
Proof.
  rewrite gives_field. split; intros (y & -> & G); exists y; (split; [reflexivity|]); now apply field_integer.
Qed.
(** The start of a token's text, read by the cardinal verbalizer, is the whole token. *)
Lemma verbal_inv x d s sign y : In sign signs -> ~ In 34%N y -> gives (r_verbalizer Cardinal.rule) x d -> x ++ s = spoken_token sign y ->
  s = [] /\ exists e, d = dash sign ++ e /\ gives Cardinal.integer y e.
Proof.
  intros Sg Q H E. rewrite rule_verbalizer in H. apply gives_delete_tokens in H as (z & c & -> & C & H).
  rewrite spoken_token_fields, <- !app_assoc in E. do 2 apply app_inv_head in E. cbn [app] in E.
  apply gives_cat in H as (x1 & d1 & x2 & d2 & -> & -> & H & G). apply integer_field in G as (y' & -> & G).
  assert (Q' : ~ In 34%N y') by (apply integer_spec in G as (n & S & _); now apply (spoken_plain y' n)).
  assert (Fin : (u "integer: """ ++ y' ++ u """") ++ u " }" ++ c ++ s = u "integer: """ ++ y ++ u """ }" -> s = [] /\ y' = y).
  { intro F. rewrite <- !app_assoc in F. apply app_inv_head in F. change (u """ }") with (34%N :: u " }") in F. change (u """") with [34%N] in F. cbn [app] in F.
    apply quoted_unique in F as (-> & F); [|exact Q'|exact Q]. split; [|reflexivity]. change (32%N :: 125%N :: c ++ s) with (u " }" ++ (c ++ s)) in F.
    rewrite <- (app_nil_r (u " }")) in F at 2. apply app_inv_head in F. now apply app_eq_nil in F. }
  destruct (sign_plain sign Sg) as (Qs & Sp). unfold fields in E. rewrite <- !app_assoc in E. change (u """" ++ u " }") with (u """ }") in E.
  apply sign_part_spec in H as [(-> & ->)|(s' & sp & S' & F & -> & ->)].
  - destruct Sp as [->|(Ss & a & b & Es)].
    + cbn [app] in E. destruct Fin as (-> & ->); [rewrite <- !app_assoc; rewrite app_nil_r in E; exact E|]. split; [reflexivity|]. exists d2. auto.
    + exfalso. rewrite Es in E. clear -E. vm_compute in E. discriminate.
  - destruct Sp as [->|(Ss & a & b & Es)].
    + exfalso. clear -E. vm_compute in E. discriminate.
    + assert (E' : (u "negative: """ ++ s' ++ u """" ++ sp) ++ u "integer: """ ++ y' ++ u """" ++ u " }" ++ c ++ s =
                   (u "negative: """ ++ sign ++ u """ ") ++ u "integer: """ ++ y ++ u """ }").
      { rewrite Es in E |- *. rewrite <- !app_assoc in E |- *. rewrite app_nil_r in E. exact E. }
      clear E. rewrite <- !app_assoc in E'. apply app_inv_head in E'. change (u """ ") with (34%N :: [32%N]) in E'. change (u """") with [34%N] in E'. cbn [app] in E'.
      apply quoted_unique in E' as (-> & E'); [|destruct S' as [->| ->]; intro I; vm_compute in I; intuition discriminate|exact Qs].
      change (32%N :: u "integer: """ ++ y ++ u """ }") with ([32%N] ++ (u "integer: """ ++ y ++ u """ }")) in E'.
      apply (split_unique is_space sp [32%N]) in E' as (-> & E'); [|exact F|reflexivity|reflexivity|reflexivity].
      destruct Fin as (-> & ->).
      * rewrite <- !app_assoc. exact E'.
      * split; [reflexivity|]. exists d2. split; [|exact G]. rewrite Es. reflexivity.
Qed.
Lemma verbal_i sign y e : In sign signs -> gives Cardinal.integer y e -> gives (r_verbalizer Cardinal.rule) (spoken_token sign y) (dash sign ++ e).
Proof.
  intros Sg G. rewrite rule_verbalizer, spoken_token_fields. apply gives_delete_tokens. exists (fields sign y), []. split; [reflexivity|]. split; [now left|].
  unfold fields. apply gives_cat. eexists _, (dash sign), _, e. split; [reflexivity|]. split; [reflexivity|]. split.
  - apply sign_part_spec. destruct (sign_plain sign Sg) as (_ & [->|(Ss & a & b & ->)]); [left; auto|]. right. exists (a :: b), [32%N]. auto.
  - apply integer_field. eauto.
Qed.

(** ** The verbalizer *)
Lemma other_token name v x y s r : text_eqb name (u "cardinal") = false -> existsb (N.eqb 32) name = false ->
  gives (delete_tokens name v) x y -> x ++ s = u "cardinal { " ++ r -> False.
Proof.
  intros Nm Sp H E. apply gives_delete_tokens in H as (z & c & -> & _ & _). change (u "cardinal { ") with (u "cardinal" ++ u " { ") in E. rewrite <- !app_assoc in E.
  assert (P : forall z, existsb (N.eqb 32) z = false -> forallb (fun c => negb (c =? 32)%N) z = true).
  { induction z0 as [|a z0 IH]; cbn [existsb forallb]; [auto|]. rewrite N.eqb_sym, orb_false_iff. intros (-> & F). cbn. auto. }
  apply (split_unique (fun c => negb (c =? 32)%N)) in E as (E & _); [|now apply P|reflexivity|reflexivity|reflexivity].
  subst name. discriminate.
Qed.
Lemma only_spoken e x y s r : verbalizer_union verbalizer_rules = Some e -> gives e x y -> x ++ s = u "cardinal { " ++ r ->
  gives (r_verbalizer Cardinal.rule) x y.
Proof.
  intros E (w & H) X. apply (verbalizers_spec _ _ E) in H as (q & I & _ & H). unfold verbalizer_rules, rules in I. cbn [In app] in I.
  assert (O : forall name v, gives (delete_tokens name v) x y -> text_eqb name (u "cardinal") = false -> existsb (N.eqb 32) name = false -> gives (r_verbalizer Cardinal.rule) x y).
  { intros name v D A B. exfalso. exact (other_token name v x y s r A B D X). }
  assert (D : gives (r_verbalizer (s_rule q)) x y) by now exists w. clear H w E.
  repeat destruct I as [<-|I]; [..|exact (False_ind _ I)]; cbn [s_rule] in D;
  [exact (O Date.name _ D eq_refl eq_refl)|exact (O Time.name _ D eq_refl eq_refl)|exact (O Measure.name _ D eq_refl eq_refl)|exact (O Money.name _ D eq_refl eq_refl)
  |exact (O Whitelist.name _ D eq_refl eq_refl)|exact (O Telephone.name _ D eq_refl eq_refl)|exact (O Electronic.name _ D eq_refl eq_refl)
  |exact (O Ordinal.name _ D eq_refl eq_refl)|exact (O Decimal.name _ D eq_refl eq_refl)|exact D|exact (O Word.name _ D eq_refl eq_refl)
  |exact (O Char.name _ D eq_refl eq_refl)|exact (O Punctuation.name _ D eq_refl eq_refl)].
Qed.
Lemma gives_star_inv a x d : gives (Star a) x d -> x = [] /\ d = [] \/ exists x1 d1 x2 d2, x = x1 ++ x2 /\ d = d1 ++ d2 /\ gives a x1 d1 /\ gives (Star a) x2 d2.
Proof.
  intros (w & H). cbn [denote] in H. destruct H as [|x1 d1 w1 x2 d2 w2 H S]; [auto|]. right. exists x1, d1, x2, d2. repeat split; [now exists w1|now exists w2].
Qed.
(** One space is one space after [DELETE_EXTRA_SPACE]. *)
Lemma extra_one out x y w : rewritten (denote DELETE_EXTRA_SPACE) Anywhere Anywhere out x y w ->
  forall z, x = z ++ [32%N] -> forallb (fun c => negb (is_space c)) z = true -> y = x.
Proof.
  assert (D : forall p q k, denote DELETE_EXTRA_SPACE p q k -> q = [32%N] /\ exists c r, p = c :: r /\ is_space c = true).
  { intros p q k H. unfold DELETE_EXTRA_SPACE in H. apply cat_inv in H as (x1 & y1 & w1 & x2 & y2 & w2 & -> & -> & -> & (-> & z & H) & (-> & -> & ->)).
    split; [reflexivity|]. unfold plus in H. apply cat_inv in H as (x3 & y3 & w3 & x4 & y4 & w4 & -> & -> & -> & (c & -> & -> & Sc & _) & _). cbn [app]. eauto. }
  induction 1 as [out|out p q w rest y v Np T Lo Ro Vp Vq R IH|out c rest y v M Vc R IH]; intros z E F.
  - reflexivity.
  - apply D in T as T'. destruct T' as (-> & c & r & -> & Sc). destruct z as [|a z]; cbn [app] in E; injection E as -> E.
    + apply app_eq_nil in E as (-> & ->). apply rewritten_nil in R as (-> & _); [|reflexivity]. reflexivity.
    + cbn [forallb] in F. rewrite Sc in F. discriminate.
  - destruct z as [|a z]; cbn [app] in E; injection E as -> E.
    + subst rest. exfalso. refine (M [32%N] [32%N] 0%Z [] eq_refl _ _ _); [discriminate| |now cbn].
      unfold DELETE_EXTRA_SPACE. apply (cat_i _ _ [32%N] [] 0%Z [] [32%N] 0%Z); [|now cbn]. split; [reflexivity|]. exists [32%N].
      unfold plus. apply (cat_i _ _ [32%N] [32%N] 0%Z [] [] 0%Z); [|constructor]. exists 32%N. auto.
    + cbn [forallb] in F. apply andb_true_iff in F as (_ & F). subst rest. f_equal. exact (IH z eq_refl F).
Qed.
Lemma decimal_chars d n c : decimal d n -> In c d -> (48 <= c <= 57)%N.
Proof. intros (_ & F & _) I. rewrite Forall_forall in F. exact (F c I). Qed.
Lemma decimal_exists n : exists d, decimal d n.
Proof.
  destruct (N.eq_dec n 0) as [->|Z].
  { exists [48%N]. split; [discriminate|]. split; [constructor; [cbv; split; discriminate|constructor]|]. split; reflexivity. }
  destruct (pad_exists (N.to_nat n) n) as (d0 & P0).
  { rewrite Nnat.N2Nat.id. apply N.pow_gt_lin_r. lia. }
  destruct P0 as (F0 & _ & V0). revert V0. induction F0 as [|c d0 C F IH]; intro V; [cbn in V; lia|].
  destruct (N.eq_dec c 48) as [->|Dc].
  - apply IH. change (48%N :: d0) with ([48%N] ++ d0) in V. rewrite value_app in V. exact V.
  - exists (c :: d0). split; [discriminate|]. split; [now constructor|]. split; [intro K; contradiction|exact V].
Qed.
Theorem whole_verbalizer v sign y n : verbalizer = Some v -> In sign signs -> spoken y n -> (13 <= n)%N ->
  exists d, decimal d n /\ forall z, gives v (spoken_token sign y) z <-> z = dash sign ++ d.
Proof.
  intros Ev Sg S L. unfold verbalizer in Ev. destruct (verbalizer_union verbalizer_rules) as [e|] eqn:E; [|discriminate]. injection Ev as <-.
  destruct (decimal_exists n) as (d & D). exists d. split; [exact D|].
  assert (G : gives Cardinal.integer y d) by (apply integer_spec; eauto).
  assert (Gu : forall e', gives Cardinal.integer y e' -> e' = d).
  { intros e' G'. apply integer_spec in G' as (n' & S' & _ & D').
    assert (n' = n) as -> by (destruct S' as (_ & _ & S'), S as (_ & _ & S); congruence). now apply (decimal_unique n). }
  destruct (spoken_plain y n S) as (Q & _).
  assert (Tok : spoken_token sign y = u "cardinal { " ++ fields sign y ++ u " }").
  { unfold spoken_token, fields. rewrite <- !app_assoc. reflexivity. }
  assert (Ns : forallb (fun c => negb (is_space c)) (dash sign ++ d) = true).
  { apply forallb_forall. intros c I. apply in_app_iff in I as [I|I].
    - destruct sign; [destruct I|]. destruct I as [<-|[]]. reflexivity.
    - apply (decimal_chars d n c D) in I. apply negb_true_iff. unfold is_space, in_range. rewrite !orb_false_iff, andb_false_iff, !N.leb_gt, !N.eqb_neq. lia. }
  assert (Star1 : forall m, gives (Star (e + insert (u " "))) (spoken_token sign y) m <-> m = (dash sign ++ d) ++ [32%N]).
  { intro m. split.
    - intro H. apply gives_star_inv in H as [(K & _)|(x1 & d1 & x2 & d2 & X & -> & H & R)]; [rewrite Tok in K; discriminate|].
      apply gives_cat in H as (x3 & d3 & x4 & d4 & -> & -> & H & I). apply gives_ins in I as (-> & ->). rewrite app_nil_r in X.
      apply (only_spoken e x3 d3 x2 (fields sign y ++ u " }") E) in H; [|now rewrite <- X, Tok].
      apply (verbal_inv x3 d3 x2 sign y Sg Q) in H as (-> & e' & -> & H); [|now symmetry]. apply Gu in H as ->.
      apply gives_star_inv in R as [(_ & ->)|(x5 & d5 & x6 & d6 & X6 & _ & R & _)]; [now rewrite app_nil_r|]. exfalso.
      symmetry in X6. apply app_eq_nil in X6 as (-> & _). apply gives_cat in R as (x7 & d7 & x8 & d8 & X8 & _ & R & _).
      symmetry in X8. apply app_eq_nil in X8 as (-> & _). apply (only_spoken e [] d7 (u "cardinal { ") [] E) in R; [|reflexivity].
      rewrite rule_verbalizer in R. apply gives_delete_tokens in R as (z & c & K & _). discriminate.
    - intros ->. apply gives_star_nil, gives_cat. exists (spoken_token sign y), (dash sign ++ d), [], [32%N]. rewrite app_nil_r.
      repeat split; [|now apply gives_ins]. destruct (verbal_i sign y d Sg G) as (w & H). exists w. apply (verbalizers_spec _ _ E).
      exists (RuleSpec Cardinal.rule (Some 11000%Z) true). split; [unfold verbalizer_rules, rules; cbn [In app]; tauto|]. split; [reflexivity|exact H]. }
  assert (Val : forallb vchar ((dash sign ++ d) ++ [32%N]) = true).
  { apply forallb_forall. intros c I. rewrite !in_app_iff in I. destruct I as [[I|I]|[<-|[]]]; [| |reflexivity].
    - destruct sign; [destruct I|]. destruct I as [<-|[]]. reflexivity.
    - apply (decimal_chars d n c D) in I. unfold vchar. apply orb_true_iff. left. apply andb_true_iff. split; [apply N.leb_le|apply N.ltb_lt]; lia. }
  intro z. rewrite !gives_compose. split.
  - intros (m & H & (w' & T)). apply gives_compose in H as (m' & H & (w & R)). apply Star1 in H as ->.
    pose proof (extra_one _ _ _ _ R _ eq_refl Ns) as ->. now apply (trim_space _ _ _ _ T _ eq_refl).
  - intros ->. destruct (EnItnAccept.extra_total _ Val) as (m & w & R & _).
    pose proof (extra_one _ _ _ _ R _ eq_refl Ns) as ->.
    destruct (total_rewrite ds Anywhere Edge eq_refl eq_refl _ Val) as (m & w' & T & _).
    pose proof (trim_space _ _ _ _ T _ eq_refl) as (-> & _).
    exists ((dash sign ++ d) ++ [32%N]). split; [|now exists w']. apply gives_compose. exists ((dash sign ++ d) ++ [32%N]). split; [now apply Star1|now exists w].
Qed.

(** ** The tagger *)
Lemma gives_blank x d : gives ds x d <-> x = u " " /\ d = [].
Proof. exact (gives_cross (u " ") [] x d). Qed.
Lemma gives_tag_field name g x d : gives (tag_field name g) x d <-> forallb vchar x = true /\ d = name ++ u ": """ ++ escape_value x ++ u """" /\ exists z, gives g x z.
Proof.
  unfold gives. setoid_rewrite tag_field_spec. split.
  - intros (w & V & E & z & H). eauto 6.
  - intros (V & E & z & w & H). eauto 6.
Qed.
Lemma gives_add_tokens name g x d : gives (add_tokens name g) x d <-> exists t, d = name ++ u " { " ++ t ++ u " } " /\ gives g x t.
Proof.
  unfold add_tokens. rewrite gives_assoc, gives_insert. split.
  - intros (r & -> & H). apply gives_cat in H as (x1 & d1 & x2 & d2 & -> & -> & H & I). apply gives_ins in I as (-> & ->).
    rewrite app_nil_r. exists d1. split; [now rewrite <- !app_assoc|exact H].
  - intros (t & -> & H). exists (t ++ u " } "). split; [now rewrite <- !app_assoc|]. apply gives_cat. exists x, t, [], (u " } "). rewrite app_nil_r.
    repeat split; [exact H|now apply gives_ins].
Qed.
Lemma minus_negative x d : gives (tag_field (u "negative") Cardinal.negative) x d <-> (x = u "minus" \/ x = u "negative") /\ d = u "negative: """ ++ x ++ u """".
Proof.
  rewrite gives_tag_field. unfold Cardinal.negative. split.
  - intros (_ & -> & z & H). assert (X : x = u "minus" \/ x = u "negative") by (apply gives_union in H as [H|H]; apply gives_cross in H; tauto).
    split; [exact X|]. destruct X as [->| ->]; reflexivity.
  - intros (X & ->). split; [destruct X as [->| ->]; reflexivity|]. split; [destruct X as [->| ->]; reflexivity|]. exists (u "-"). apply gives_union.
    destruct X as [->| ->]; [left|right]; now apply gives_cross.
Qed.
Lemma integer_tag x d : gives (tag_field (u "integer") Cardinal.integer) x d <-> d = u "integer: """ ++ x ++ u """" /\ exists n, spoken x n /\ (13 <= n)%N.
Proof.
  rewrite gives_tag_field. split.
  - intros (_ & -> & z & H). apply integer_spec in H as (n & S & L & _). rewrite (proj2 (spoken_plain x n S)). split; [reflexivity|eauto].
  - intros (-> & n & S & L). split; [exact (spoken_valid x n S)|]. rewrite (proj2 (spoken_plain x n S)). split; [reflexivity|].
    destruct (decimal_exists n) as (d & D). exists d. apply integer_spec. eauto.
Qed.
Lemma rule_tagger x t : gives (r_tagger Cardinal.rule) x t <->
  exists sign y n, In sign signs /\ x = with_sign sign y /\ spoken y n /\ (13 <= n)%N /\ t = spoken_token sign y ++ u " ".
Proof.
  unfold Cardinal.rule. cbn [r_tagger]. rewrite gives_add_tokens. split.
  - intros (f & -> & H). apply gives_cat in H as (x1 & d1 & x2 & d2 & -> & -> & H & G). apply integer_tag in G as (-> & n & S & L).
    unfold ques in H. apply gives_union in H as [H|H].
    + apply gives_cat in H as (x3 & d3 & x4 & d4 & -> & -> & H & I). apply gives_ins in I as (-> & ->).
      apply gives_cat in H as (x5 & d5 & x6 & d6 & -> & -> & H & D). apply minus_negative in H as (X & ->). apply gives_blank in D as (-> & ->).
      exists x5, x2, n. split; [unfold signs; cbn [In]; destruct X as [->| ->]; auto|]. destruct X as [->| ->];
        (split; [reflexivity|]; split; [exact S|]; split; [exact L|]; unfold spoken_token; rewrite <- !app_assoc; reflexivity).
    + apply gives_cross in H as (-> & ->). exists [], x2, n. split; [now left|]. split; [reflexivity|]. split; [exact S|]. split; [exact L|].
      unfold spoken_token. rewrite <- !app_assoc. reflexivity.
  - intros (sign & y & n & I & -> & S & L & ->). exists (fields sign y). split; [unfold spoken_token, fields; rewrite <- !app_assoc; reflexivity|].
    assert (T : gives (tag_field (u "integer") Cardinal.integer) y (u "integer: """ ++ y ++ u """")) by (apply integer_tag; eauto).
    destruct (sign_plain sign I) as (_ & [->|(X & a & b & E)]).
    + apply gives_cat. exists [], [], y, (u "integer: """ ++ y ++ u """"). repeat split; [|exact T]. unfold ques. apply gives_union. right. now apply gives_cross.
    + apply gives_cat. exists (sign ++ u " "), (u "negative: """ ++ sign ++ u """ "), y, (u "integer: """ ++ y ++ u """").
      split; [rewrite E; unfold with_sign; now rewrite <- app_assoc|]. split; [rewrite E; reflexivity|]. split; [|exact T]. unfold ques. apply gives_union. left.
      apply gives_cat. exists (sign ++ u " "), (u "negative: """ ++ sign ++ u """"), [], (u " "). rewrite app_nil_r. split; [reflexivity|].
      split; [now rewrite <- !app_assoc|]. split; [|now apply gives_ins].
      apply gives_cat. exists sign, (u "negative: """ ++ sign ++ u """"), (u " "), []. rewrite app_nil_r. repeat split; [now apply minus_negative|now apply gives_blank].
Qed.
