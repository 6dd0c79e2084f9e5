(** Proofs about the command line and the helpers. *)
From Coq Require Import List NArith Bool Arith Lia ZifyBool ZifyNat ZifyN String.
From Verif Require Import Text TextFacts CacheModel StoreModel PipelineModel CliModel CliSpec.
Import ListNotations.
Local Open Scope list_scope.

(** * Booleans *)
Definition is_lower (s : text) : Prop := Forall (fun d => 97 <= d <= 122 /\ d <> 105 /\ d <> 107)%N s.
Lemma lower_spec s : is_lower s -> forall t, lower t = s <-> ignoring_case t s.
Proof.
  unfold lower, ignoring_case. induction 1 as [|d s Hd Hs IH]; intros t.
  - split; [|now inversion 1]. destruct t as [|c t]; [constructor|]. cbn [flat_map]. unfold lower_char.
    destruct (_ && _)%bool; [discriminate|]. destruct (c =? 304)%N; [discriminate|]. destruct (c =? 8490)%N; discriminate.
  - split.
    + destruct t as [|c t]; [discriminate|]. cbn [flat_map]. unfold lower_char at 1.
      destruct (_ && _)%bool eqn:E.
      { cbn [app]. intros [= <- X]. constructor; [right; lia|now apply IH]. }
      destruct (c =? 304)%N; [cbn [app]; intros [= <- X]; lia|].
      destruct (c =? 8490)%N; [cbn [app]; intros [= <- X]; lia|].
      cbn [app]. intros [= <- X]. constructor; [now left|now apply IH].
    + inversion 1 as [|c d' t' s' Hc Ht]; subst. cbn [flat_map]. apply IH in Ht. rewrite Ht. unfold lower_char.
      destruct Hc as [->|[Hc ->]].
      * replace ((65 <=? d) && (d <=? 90))%N with false by lia. replace (d =? 304)%N with false by lia.
        replace (d =? 8490)%N with false by lia. reflexivity.
      * now replace ((65 <=? c) && (c <=? 90))%N with true by lia.
Qed.
Lemma lower_true t : lower t = u "true" <-> ignoring_case t (u "true").
Proof. apply lower_spec. repeat (apply Forall_cons; [cbn; lia|]). apply Forall_nil. Qed.
Lemma lower_false t : lower t = u "false" <-> ignoring_case t (u "false").
Proof. apply lower_spec. repeat (apply Forall_cons; [cbn; lia|]). apply Forall_nil. Qed.

Lemma parse_bool_spec t :
  (parse_bool (AText t) = Some true <-> ignoring_case t (u "true")) /\
  (parse_bool (AText t) = Some false <-> ignoring_case t (u "false")) /\
  (parse_bool (AText t) = None <-> ~ ignoring_case t (u "true") /\ ~ ignoring_case t (u "false")).
Proof.
  rewrite <- lower_true, <- lower_false. unfold parse_bool.
  destruct (text_eqb_spec (lower t) (u "true")) as [E|E].
  - rewrite E. repeat split; try discriminate; auto. intros (H & _). congruence.
  - destruct (text_eqb_spec (lower t) (u "false")) as [F|F].
    + rewrite F. repeat split; try discriminate; auto. intros (_ & H). congruence.
    + repeat split; try discriminate; auto; congruence.
Qed.
Lemma str2bool_spec t d :
  (ignoring_case t (u "true") -> str2bool t d = true) /\
  (ignoring_case t (u "false") -> str2bool t d = false) /\
  (~ ignoring_case t (u "true") -> ~ ignoring_case t (u "false") -> str2bool t d = d).
Proof.
  rewrite <- lower_true, <- lower_false. unfold str2bool.
  destruct (text_eqb_spec (lower t) (u "true")) as [E|E].
  - rewrite E. repeat split; try discriminate; congruence.
  - destruct (text_eqb_spec (lower t) (u "false")) as [F|F]; [rewrite F|]; repeat split; try discriminate; congruence.
Qed.

(** * Lines *)
Lemma ends_with_spec c t : ends_with c t = true <-> exists r, t = r ++ [c].
Proof.
  induction t as [|y t IH]; [split; [discriminate|intros ([|? ?] & E); discriminate]|].
  destruct t as [|z t].
  - cbn. rewrite N.eqb_eq. split; [intros ->; now exists []|].
    intros ([|a [|? ?]] & E); cbn in E; congruence.
  - cbn [ends_with] in *. rewrite IH. split.
    + intros (r & E). exists (y :: r). cbn. now rewrite <- E.
    + intros ([|a r] & E); cbn in E; [discriminate|]. injection E as -> E. eauto.
Qed.
Lemma stripped_spec line : stripped line (without_line_ending line).
Proof.
  unfold without_line_ending, stripped.
  destruct (ends_with LF line) eqn:E1.
  - apply ends_with_spec in E1 as (r & ->). rewrite removelast_last.
    destruct (ends_with CR r) eqn:E2.
    + apply ends_with_spec in E2 as (q & ->). rewrite removelast_last. right. right. left. now rewrite <- app_assoc.
    + right. left. split; [reflexivity|]. intros q ->. assert (X : ends_with CR (q ++ [13%N]) = true) by (apply ends_with_spec; eauto). congruence.
  - destruct (ends_with CR line) eqn:E2.
    + apply ends_with_spec in E2 as (r & ->). rewrite removelast_last. right. right. right. reflexivity.
    + left. split; [reflexivity|]. intros r. split; intros ->.
      * assert (X : ends_with LF (r ++ [10%N]) = true) by (apply ends_with_spec; eauto). congruence.
      * assert (X : ends_with CR (r ++ [13%N]) = true) by (apply ends_with_spec; eauto). congruence.
Qed.
Lemma stripped_lf l : ~ In 13%N l -> without_line_ending (l ++ [10%N]) = l.
Proof.
  intros H. unfold without_line_ending. replace (ends_with LF (l ++ [10%N])) with true by (symmetry; apply ends_with_spec; eauto).
  rewrite removelast_last. destruct (ends_with CR l) eqn:E; [|reflexivity].
  apply ends_with_spec in E as (r & ->). exfalso. apply H. apply in_app_iff. right. now left.
Qed.
Lemma stripped_none l : unbroken l -> without_line_ending l = l.
Proof.
  intros (A & B). unfold without_line_ending. destruct (ends_with LF l) eqn:E.
  { apply ends_with_spec in E as (r & ->). exfalso. apply A. apply in_app_iff. right. now left. }
  destruct (ends_with CR l) eqn:E2; [|reflexivity].
  apply ends_with_spec in E2 as (r & ->). exfalso. apply B. apply in_app_iff. right. now left.
Qed.

Lemma translate_unbroken l r : ~ In 13%N l -> translate (l ++ r) = l ++ translate r.
Proof.
  induction l as [|c l IH]; intros H; [reflexivity|]. cbn [app translate].
  destruct (N.eqb_spec c CR) as [->|_]; [exfalso; apply H; now left|]. rewrite IH; [reflexivity|]. intros I; apply H; now right.
Qed.
Lemma translate_end e rest : line_end e rest -> translate (e ++ rest) = 10%N :: translate rest.
Proof.
  intros [r|r|r H]; cbn [app translate].
  - reflexivity.
  - reflexivity.
  - change (13 =? CR)%N with true. cbn. destruct r as [|d r]; [reflexivity|]. cbn in H.
    destruct (N.eqb_spec d LF) as [->|_]; [exfalso; now apply H|reflexivity].
Qed.
Lemma keep_line l r : ~ In 10%N l -> keep_lines (l ++ 10%N :: r) = (l ++ [10%N]) :: keep_lines r.
Proof.
  induction l as [|c l IH]; intros H; [reflexivity|]. cbn [app keep_lines].
  destruct (N.eqb_spec c LF) as [->|_]; [exfalso; apply H; now left|]. rewrite IH; [reflexivity|]. intros I; apply H; now right.
Qed.
Lemma keep_last l : ~ In 10%N l -> l <> [] -> keep_lines l = [l].
Proof.
  induction l as [|c l IH]; intros H N; [congruence|]. cbn [keep_lines].
  destruct (N.eqb_spec c LF) as [->|_]; [exfalso; apply H; now left|].
  destruct l as [|d l]; [reflexivity|]. rewrite IH; [reflexivity| |discriminate]. intros I; apply H; now right.
Qed.
Lemma lines_of_model content ls : lines_of content ls -> map without_line_ending (iterate_file content) = ls.
Proof.
  unfold iterate_file. induction 1 as [|l N U|l e rest ls U E _ IH]; [reflexivity| |].
  - rewrite <- (app_nil_r l), translate_unbroken by apply U. cbn [translate]. rewrite app_nil_r.
    rewrite keep_last by (try apply U; assumption). cbn [map]. now rewrite stripped_none.
  - rewrite translate_unbroken by apply U. rewrite (translate_end e rest E), keep_line by apply U. cbn [map].
    rewrite stripped_lf by apply U. now rewrite IH.
Qed.
Lemma lines_of_exists content : exists ls, lines_of content ls.
Proof.
  assert (H : forall n content, List.length content <= n -> exists ls, lines_of content ls).
  { clear content. induction n as [|n IH]; intros content L.
    - destruct content; [exists []; constructor|cbn in L; lia].
    - assert (S : unbroken content \/ exists l c r, content = l ++ c :: r /\ unbroken l /\ (c = 10 \/ c = 13)%N).
      { clear. induction content as [|c t IHt]; [left; split; intros []|].
        destruct (N.eq_dec c 10) as [->|N1]; [right; exists [], 10%N, t; repeat split; auto|].
        destruct (N.eq_dec c 13) as [->|N2]; [right; exists [], 13%N, t; repeat split; auto|].
        destruct IHt as [[U1 U2]|(l & d & r & -> & [U1 U2] & D)].
        - left. split; intros [E|I]; auto.
        - right. exists (c :: l), d, r. repeat split; auto; intros [E|I]; auto. }
      destruct S as [U|(l & c & r & -> & U & D)].
      { destruct content; [exists []; constructor|]. eexists. apply lo_last; [discriminate|exact U]. }
      rewrite app_length in L. cbn in L.
      destruct D as [->| ->].
      + destruct (IH r) as (ls & H); [lia|]. exists (l :: ls). exact (lo_line l [10%N] r ls U (le_lf r) H).
      + destruct r as [|d r].
        { exists [l]. apply (lo_line l [13%N] [] [] U); [apply le_cr; discriminate|constructor]. }
        destruct (N.eq_dec d 10) as [->|Nd].
        * destruct (IH r) as (ls & H); [cbn in L; lia|]. exists (l :: ls). exact (lo_line l [13%N; 10%N] r ls U (le_crlf r) H).
        * destruct (IH (d :: r)) as (ls & H); [cbn in *; lia|]. exists (l :: ls).
          apply (lo_line l [13%N] (d :: r) ls U); [apply le_cr; cbn; congruence|exact H]. }
  now apply (H (List.length content)).
Qed.
Theorem file_lines content ls : lines_of content ls <-> map without_line_ending (iterate_file content) = ls.
Proof.
  split; [apply lines_of_model|]. intros <-. destruct (lines_of_exists content) as (ls & H).
  now rewrite (lines_of_model _ _ H).
Qed.

(** * Processing *)
Lemma one_line w h line h' r : process_line w h line = (h', r) ->
  (r = None /\ served w h [line] h') \/ (exists e, r = Some e /\ broken w h line h' e).
Proof.
  unfold process_line, broken.
  destruct (w h (Tag line)) as [e|tagged] eqn:E1; [intros [= <- <-]; right; eauto|].
  destruct (w _ (Print tagged)) as [e|x] eqn:E2.
  { intros [= <- <-]. right. exists e. split; [reflexivity|]. right. exists tagged. split; [reflexivity|].
    left. now rewrite <- app_assoc. }
  destruct (w _ (Verbalize tagged)) as [e|out] eqn:E3.
  { intros [= <- <-]. right. exists e. split; [reflexivity|]. right. exists tagged. split; [reflexivity|].
    right. left. rewrite <- !app_assoc in *. auto. }
  destruct (w _ (Print out)) as [e|y] eqn:E4; intros [= <- <-]; rewrite <- !app_assoc in *; cbn [app] in *.
  - right. exists e. split; [reflexivity|]. right. exists tagged. split; [reflexivity|]. right. right. eauto.
  - left. split; [reflexivity|]. eapply sv_cons; eauto. constructor.
Qed.
Lemma served_app w a b : forall h h1 h2, served w h a h1 -> served w h1 b h2 -> served w h (a ++ b) h2.
Proof.
  induction a as [|l a IH]; intros h h1 h2 H1 H2; inversion H1; subst; [exact H2|]. cbn [app]. eapply sv_cons; eauto.
Qed.
Theorem lines_processed w lines fail : forall h h' r, process_lines w h lines fail = (h', r) ->
  (r = fail /\ served w h (map without_line_ending lines) h') \/
  (exists a line b h1 e, map without_line_ending lines = a ++ line :: b /\ served w h a h1 /\
     broken w h1 line h' e /\ r = Some e).
Proof.
  induction lines as [|l lines IH]; intros h h' r E; cbn [process_lines map] in *.
  - injection E as <- <-. left. split; [reflexivity|constructor].
  - destruct (process_line w h (without_line_ending l)) as [h1 [e|]] eqn:P; apply one_line in P as [[P1 P2]|(e' & P1 & P2)]; try discriminate.
    + injection P1 as <-. injection E as <- <-. right. exists [], (without_line_ending l), (map without_line_ending lines), h, e.
      split; [reflexivity|]. split; [constructor|]. auto.
    + apply IH in E as [[-> E]|(a & line & b & h2 & e & E1 & E2 & E3 & E4)].
      * left. split; [reflexivity|]. apply (served_app w [_] _ h h1 h'); assumption.
      * right. exists (without_line_ending l :: a), line, b, h2, e. rewrite E1. split; [reflexivity|].
        split; [|auto]. apply (served_app w [_] a h h1 h2); assumption.
Qed.

Lemma printed_app a b : printed (a ++ b) = printed a ++ printed b.
Proof. apply flat_map_app. Qed.
Lemma served_printed w h lines h' : served w h lines h' ->
  List.length (printed h') = List.length (printed h) + 2 * List.length lines.
Proof.
  induction 1 as [|h line tagged out x y rest h' E1 E2 E3 E4 _ IH]; [cbn; lia|].
  rewrite IH, printed_app, app_length. cbn. lia.
Qed.
Lemma newlines_stdout h : newlines (stdout h) = List.length (printed h) + list_sum (map newlines (printed h)).
Proof.
  unfold newlines. induction h as [|c h IH]; [reflexivity|]. cbn [stdout printed flat_map].
  change (flat_map _ h) with (stdout h) at 1. change (flat_map (fun c0 : call => match c0 with Print t => [t] | _ => [] end) h) with (printed h).
  destruct c as [t|t|t]; cbn [app]; try exact IH.
  rewrite !count_occ_app. rewrite IH. cbn [List.length map]. change (list_sum (?x :: ?l)) with (x + list_sum l).
  cbn [list_sum fold_right]. cbn [count_occ]. destruct (N.eq_dec 10 10); [|congruence]. lia.
Qed.
Theorem served_newlines w lines h : served w [] lines h ->
  newlines (stdout h) = 2 * List.length lines + list_sum (map newlines (printed h)).
Proof. intros H. rewrite newlines_stdout, (served_printed _ _ _ _ H). cbn. lia. Qed.

(** * Options *)
Lemma table_language d l t : dict_get t (option_table d l) = Some OLanguage <-> t = u "--language".
Proof.
  split; [|intros ->; destruct d, l; vm_compute; reflexivity].
  intros H. apply dict_get_In in H.
  assert (A : forallb (fun e => match snd e with OLanguage => text_eqb (fst e) (u "--language") | _ => true end) (option_table d l) = true)
    by (destruct d, l; vm_compute; reflexivity).
  rewrite forallb_forall in A. specialize (A _ H). cbn [fst snd] in A.
  destruct (text_eqb_spec t (u "--language")); [assumption|discriminate].
Qed.
(** No option name holds "=". *)
Lemma table_plain d l t o : dict_get t (option_table d l) = Some o -> snd (split_eq t) = None.
Proof.
  intros H. apply dict_get_In in H.
  assert (A : forallb (fun e => match snd (split_eq (fst e)) with None => true | Some _ => false end) (option_table d l) = true)
    by (destruct d, l; vm_compute; reflexivity).
  rewrite forallb_forall in A. specialize (A _ H). cbn [fst] in A. destruct (snd (split_eq t)); [discriminate|reflexivity].
Qed.
(** Both parsers see the same words, up to the options only one of them knows. *)
Lemma same_word d l t :
  match read_word (option_table d l) t with
  | WOpt OLanguage v => read_word [(u "--language", OLanguage)] t = WOpt OLanguage v
  | WOpt _ _ => read_word [(u "--language", OLanguage)] t = WUnknown \/ read_word [(u "--language", OLanguage)] t = WValue t
  | WUnknown => True
  | WValue v => read_word [(u "--language", OLanguage)] t = WValue v
  end.
Proof.
  unfold read_word. destruct (dashed t); [|reflexivity]. cbn [dict_get].
  destruct (text_eqb_spec t (u "--language")) as [->|N].
  { rewrite (proj2 (table_language d l _) eq_refl). reflexivity. }
  destruct (dict_get t (option_table d l)) as [o|] eqn:E.
  - pose proof (table_plain d l t o E) as P. destruct (split_eq t) as [n v]. cbn in P. subst v.
    destruct o; try (destruct (spaced t); auto; fail). exfalso. apply N. now apply (table_language d l).
  - destruct (split_eq t) as [n [v|]]; [|destruct (spaced t); [reflexivity|exact I]].
    destruct (text_eqb_spec n (u "--language")) as [->|Nn].
    + rewrite (proj2 (table_language d l _) eq_refl). reflexivity.
    + destruct (dict_get n (option_table d l)) as [o|] eqn:En.
      * destruct o; try (destruct (spaced t); auto; fail). exfalso. apply Nn. now apply (table_language d l).
      * destruct (spaced t); [reflexivity|exact I].
Qed.
Lemma apply_language o v a a' : apply_opt o v a = Some a' -> o <> OLanguage -> a_language a' = a_language a.
Proof.
  intros H N. destruct o, v; cbn [apply_opt] in H; try discriminate; try (injection H as <-; reflexivity).
  - congruence.
  - destruct (parse_bool (AText t)); [injection H as <-; reflexivity|discriminate].
Qed.
Definition pre_pending (p : option opt) : bool := match p with Some OLanguage => true | _ => false end.
Lemma select_agrees d l argv : forall p a a', parse_words (option_table d l) argv p a = Some a' ->
  select_words argv (pre_pending p) (a_language a) = Some (a_language a').
Proof.
  induction argv as [|t argv IH]; intros p a a' H; cbn [parse_words select_words] in *.
  - destruct p as [o|]; [|injection H as <-; reflexivity].
    destruct o; try discriminate; cbn [pre_pending]; now rewrite (apply_language _ _ _ _ H) by discriminate.
  - pose proof (same_word d l t) as W.
    destruct (read_word (option_table d l) t) as [o v| |v].
    + (* an option *)
      destruct (match p with Some o' => apply_opt o' None a | None => Some a end) as [a1|] eqn:E1; [|discriminate].
      assert (PP : pre_pending p = false /\ a_language a1 = a_language a).
      { destruct p as [o'|]; [|injection E1 as <-; auto]. destruct o'; try discriminate; (split; [reflexivity|]; now apply (apply_language _ _ _ _ E1)). }
      destruct PP as [-> L1].
      assert (Lang : forall o', o' <> OLanguage -> o = o' ->
        (read_word [(u "--language", OLanguage)] t = WUnknown \/ read_word [(u "--language", OLanguage)] t = WValue t) ->
        select_words (t :: argv) false (a_language a) = Some (a_language a')).
      { intros o' No -> X. cbn [select_words]. assert (K : select_words argv false (a_language a) = Some (a_language a')).
        { rewrite <- L1. destruct v as [v|].
          - destruct (apply_opt o' (Some v) a1) as [a2|] eqn:E2; [|discriminate]. apply IH in H.
            now rewrite (apply_language _ _ _ _ E2 No) in H.
          - destruct (takes_value o').
            + apply IH in H. replace (pre_pending (Some o')) with false in H by (destruct o'; congruence || reflexivity). exact H.
            + destruct (apply_opt o' None a1) as [a2|] eqn:E2; [|discriminate]. apply IH in H.
              now rewrite (apply_language _ _ _ _ E2 No) in H. }
        destruct X as [-> | ->]; exact K. }
      cbn [select_words] in Lang.
      destruct o; try (apply (fun N => Lang _ N eq_refl W); discriminate).
      rewrite W. destruct v as [v|].
      * cbn [apply_opt] in H. destruct (language_of v) as [l'|]; [|discriminate]. apply IH in H. exact H.
      * cbn [takes_value] in H. apply IH in H. rewrite L1 in H. exact H.
    + discriminate.
    + rewrite W. destruct p as [o|]; [|discriminate].
      destruct (apply_opt o (Some v) a) as [a1|] eqn:E; [|discriminate].
      destruct o; cbn [pre_pending].
      1-4,6-7: apply IH in H; rewrite (apply_language _ _ _ _ E) in H by discriminate; exact H.
      cbn [apply_opt] in E. destruct (language_of v) as [l'|]; [|discriminate]. injection E as <-. apply IH in H. exact H.
Qed.
Lemma parse_args_language d argv a : parse_args d argv = Some a ->
  select_words argv false Zh = Some (a_language a) /\
  parse_words (option_table d (a_language a)) argv None (Args None None None false Zh (booleans d (a_language a))) = Some a /\
  (a_text a = None \/ a_file a = None).
Proof.
  unfold parse_args. destruct (select_words argv false Zh) as [l|] eqn:S; [|discriminate].
  destruct (parse_words _ _ _ _) as [a1|] eqn:P; [|discriminate]. intros H.
  assert (E : a1 = a /\ (a_text a1 = None \/ a_file a1 = None)).
  { destruct (a_text a1) as [x|], (a_file a1) as [y|]; injection H as <- || discriminate; auto. }
  destruct E as [-> F]. pose proof (select_agrees d l argv None _ a P) as Q. cbn [pre_pending a_language] in Q.
  rewrite S in Q. injection Q as ->. auto.
Qed.

(** The booleans. *)
Lemma apply_bools o v a a' n : apply_opt o v a = Some a' -> dict_get n (a_bools a) <> None -> dict_get n (a_bools a') <> None.
Proof.
  intros H N. destruct o, v; cbn [apply_opt] in H; try discriminate; try (injection H as <-; exact N).
  - destruct (language_of t); [injection H as <-; exact N|discriminate].
  - destruct (parse_bool (AText t)); [|discriminate]. injection H as <-. cbn [set_bool a_bools dict_get]. destruct (text_eqb n name); [discriminate|exact N].
  - injection H as <-. cbn [set_bool a_bools dict_get]. destruct (text_eqb n name); [discriminate|exact N].
  - injection H as <-. cbn [set_bool a_bools dict_get]. destruct (text_eqb n name); [discriminate|exact N].
Qed.
Lemma words_bools T n argv : forall p a a', parse_words T argv p a = Some a' ->
  dict_get n (a_bools a) <> None -> dict_get n (a_bools a') <> None.
Proof.
  induction argv as [|t argv IH]; intros p a a' H N; cbn [parse_words] in H.
  - destruct p; [eapply apply_bools; eauto|now injection H as <-].
  - destruct (read_word T t) as [o v| |v]; [|discriminate|].
    + destruct (match p with Some o' => apply_opt o' None a | None => Some a end) as [a1|] eqn:E1; [|discriminate].
      assert (N1 : dict_get n (a_bools a1) <> None) by (destruct p; [eapply apply_bools; eauto|now injection E1 as <-]).
      destruct v as [v|].
      * destruct (apply_opt o (Some v) a1) as [a2|] eqn:E2; [|discriminate]. eapply IH; eauto. eapply apply_bools; eauto.
      * destruct (takes_value o); [eapply IH; eauto|].
        destruct (apply_opt o None a1) as [a2|] eqn:E2; [|discriminate]. eapply IH; eauto. eapply apply_bools; eauto.
    + destruct p as [o|]; [|discriminate]. destruct (apply_opt o (Some v) a) as [a2|] eqn:E2; [|discriminate].
      eapply IH; eauto. eapply apply_bools; eauto.
Qed.
Theorem wiring d argv a : parse_args d argv = Some a -> exists p, create_processor d a = Some p /\
  List.length (grammar_reads p) = List.length (booleans d (a_language a)) /\
  forall n def, In (n, def) (booleans d (a_language a)) ->
    exists o b, option_for n = Some o /\ dict_get n (a_bools a) = Some b /\ In (o, JBool b) (grammar_reads p).
Proof.
  intros H. apply parse_args_language in H as (_ & H & _).
  assert (B : forall n, dict_get n (booleans d (a_language a)) <> None -> exists b, dict_get n (a_bools a) = Some b).
  { intros n N. pose proof (words_bools _ n _ _ _ _ H N). destruct (dict_get n (a_bools a)) as [b|]; [eauto|congruence]. }
  unfold create_processor, attr.
  destruct d, (a_language a); try (eexists; split; [reflexivity|]; split; [reflexivity|intros n def []]).
  all: repeat (match goal with |- context [dict_get ?n (a_bools ?z)] =>
       let E := fresh "E" in destruct (B n ltac:(vm_compute; discriminate)) as (? & E); rewrite E end).
  all: eexists; split; [reflexivity|]; split; [reflexivity|].
  all: intros n def I; cbn [booleans tn_booleans itn_booleans app In] in I;
    repeat (destruct I as [I|I]; [injection I as <- <-; eexists; eexists; split; [vm_compute; reflexivity|]; split; [eassumption|cbn; tauto]|]); destruct I.
Qed.

Lemma words_app T argv : forall t ts o v p a a', read_word T t = WOpt o v -> parse_words T argv p a = Some a' ->
  parse_words T (argv ++ t :: ts) p a = parse_words T (t :: ts) None a'.
Proof.
  induction argv as [|s argv IH]; intros t ts o v p a a' R H.
  - cbn [app parse_words] in *. rewrite R. destruct p as [q|]; [now rewrite H|now injection H as ->].
  - cbn [app]. cbn [parse_words] in H. change (parse_words T (s :: argv ++ t :: ts) p a) with
      (match read_word T s, p with
      | WValue v, Some o => match apply_opt o (Some v) a with Some a' => parse_words T (argv ++ t :: ts) None a' | None => None end
      | WValue _, None => None
      | WUnknown, _ => None
      | WOpt o value, _ =>
          match match p with None => Some a | Some p => apply_opt p None a end with
          | None => None
          | Some a' =>
              match value with
              | Some v => match apply_opt o (Some v) a' with Some a'' => parse_words T (argv ++ t :: ts) None a'' | None => None end
              | None =>
                  if takes_value o then parse_words T (argv ++ t :: ts) (Some o) a'
                  else match apply_opt o None a' with Some a'' => parse_words T (argv ++ t :: ts) None a'' | None => None end
              end
          end
      end).
    destruct (read_word T s) as [o' v'| |v']; [|discriminate|].
    + destruct (match p with Some o'' => apply_opt o'' None a | None => Some a end) as [a1|]; [|discriminate].
      destruct v' as [v'|].
      * destruct (apply_opt o' (Some v') a1); [|discriminate]. eapply IH; eauto.
      * destruct (takes_value o'); [eapply IH; eauto|]. destruct (apply_opt o' None a1); [|discriminate]. eapply IH; eauto.
    + destruct p as [q|]; [|discriminate]. destruct (apply_opt q (Some v') a); [|discriminate]. eapply IH; eauto.
Qed.
Lemma select_app argv : forall ts p l l', select_words argv p l = Some l' ->
  select_words (argv ++ ts) p l = select_words ts false l'.
Proof.
  induction argv as [|s argv IH]; intros ts p l l' H; cbn [app select_words] in *.
  - destruct p; [discriminate|]. now injection H as ->.
  - destruct (read_word _ s) as [o [v|]| |v], p; try discriminate; auto; destruct (language_of v); try discriminate; auto.
Qed.
Lemma parse_app d argv a t ts o v : parse_args d argv = Some a ->
  read_word (option_table d (a_language a)) t = WOpt o v -> o <> OLanguage ->
  (forall l, select_words ts false l = Some l) ->
  parse_args d (argv ++ t :: ts) =
    match parse_words (option_table d (a_language a)) (t :: ts) None a with
    | Some a' => match a_text a', a_file a' with Some _, Some _ => None | _, _ => Some a' end
    | None => None
    end.
Proof.
  intros H R No St. apply parse_args_language in H as (S & P & _). unfold parse_args.
  rewrite (select_app _ (t :: ts) _ _ _ S).
  assert (X : select_words (t :: ts) false (a_language a) = Some (a_language a)).
  { pose proof (same_word d (a_language a) t) as W. rewrite R in W. cbn [select_words].
    assert (W' : read_word [(u "--language", OLanguage)] t = WUnknown \/ read_word [(u "--language", OLanguage)] t = WValue t)
      by (destruct o; congruence || exact W).
    destruct W' as [-> | ->]; apply St. }
  rewrite X. now rewrite (words_app _ argv t ts o v None _ a R P).
Qed.
Lemma split_eq_app x v : ~ In 61%N x -> split_eq (x ++ 61%N :: v) = (x, Some v).
Proof.
  induction x as [|c x IH]; intros H; [reflexivity|]. cbn [app split_eq].
  destruct (N.eqb_spec c 61) as [->|_]; [exfalso; apply H; now left|]. rewrite IH; [reflexivity|]. intros I; apply H; now right.
Qed.
Lemma spellings d l n def s : In (n, def) (booleans d l) -> s = n \/ s = hyphenated n ->
  dict_get (u "--" ++ s) (option_table d l) = Some (OBool n) /\
  dict_get (u "--no-" ++ s) (option_table d l) = Some (ONoBool n) /\ ~ In 61%N (u "--" ++ s).
Proof.
  intros I S. assert (A : forallb (fun e =>
      forallb (fun s => match dict_get (u "--" ++ s) (option_table d l), dict_get (u "--no-" ++ s) (option_table d l) with
         | Some (OBool a), Some (ONoBool b) => text_eqb a (fst e) && text_eqb b (fst e) && negb (existsb (N.eqb 61) (u "--" ++ s))
         | _, _ => false end) [fst e; hyphenated (fst e)]) (booleans d l) = true) by (destruct d, l; vm_compute; reflexivity).
  rewrite forallb_forall in A. specialize (A _ I). rewrite forallb_forall in A. cbn [fst] in A.
  specialize (A s ltac:(cbn; intuition)).
  destruct (dict_get (u "--" ++ s) _) as [[]|]; try discriminate. destruct (dict_get (u "--no-" ++ s) _) as [[]|]; try discriminate.
  apply andb_prop in A as [A A3]. apply andb_prop in A as [A1 A2].
  destruct (text_eqb_spec name n) as [->|]; [|discriminate]. destruct (text_eqb_spec name0 n) as [->|]; [|discriminate].
  repeat split; auto. intros J. apply negb_true_iff in A3. assert (E : existsb (N.eqb 61) (u "--" ++ s) = true) by (apply existsb_exists; exists 61%N; auto). congruence.
Qed.
Lemma set_with_bool n b a : with_bool n b a (set_bool n b a).
Proof.
  unfold with_bool, set_bool. cbn [a_text a_file a_cache_dir a_overwrite a_language a_bools dict_get].
  rewrite text_eqb_refl. repeat split; auto. intros m N. now rewrite text_eqb_neq.
Qed.
Lemma keeps_input d argv a b n : parse_args d argv = Some a ->
  match a_text (set_bool n b a), a_file (set_bool n b a) with Some _, Some _ => None | _, _ => Some (set_bool n b a) end = Some (set_bool n b a).
Proof.
  intros H. apply parse_args_language in H as (_ & _ & F). cbn [set_bool a_text a_file].
  destruct (a_text a), (a_file a); try reflexivity. destruct F; discriminate.
Qed.
Definition chosen (d : operator) (argv : list text) (a : args) (n : text) (b : bool) : Prop :=
  exists a', parse_args d argv = Some a' /\ with_bool n b a a'.
Theorem option_words d argv a n def s : parse_args d argv = Some a -> In (n, def) (booleans d (a_language a)) ->
  s = n \/ s = hyphenated n ->
  chosen d (argv ++ [u "--" ++ s]) a n true /\ chosen d (argv ++ [u "--no-" ++ s]) a n false /\
  forall v words, words = [u "--" ++ s ++ u "=" ++ v] \/ (words = [u "--" ++ s; v] /\ hd_error v <> Some 45%N) ->
    (ignoring_case v (u "true") -> chosen d (argv ++ words) a n true) /\
    (ignoring_case v (u "false") -> chosen d (argv ++ words) a n false) /\
    (~ ignoring_case v (u "true") -> ~ ignoring_case v (u "false") -> parse_args d (argv ++ words) = None).
Proof.
  intros H I S. destruct (spellings d (a_language a) n def s I S) as (S1 & S2 & S3).
  assert (R1 : read_word (option_table d (a_language a)) (u "--" ++ s) = WOpt (OBool n) None).
  { unfold read_word. rewrite S1. reflexivity. }
  assert (R2 : read_word (option_table d (a_language a)) (u "--no-" ++ s) = WOpt (ONoBool n) None).
  { unfold read_word. rewrite S2. reflexivity. }
  split; [|split].
  - exists (set_bool n true a). split; [|apply set_with_bool].
    etransitivity; [apply (parse_app d argv a _ [] _ _ H R1); [discriminate|reflexivity]|]. cbn [parse_words]. rewrite R1. cbn [takes_value apply_opt].
    apply (keeps_input d argv a _ _ H).
  - exists (set_bool n false a). split; [|apply set_with_bool].
    etransitivity; [apply (parse_app d argv a _ [] _ _ H R2); [discriminate|reflexivity]|]. cbn [parse_words]. rewrite R2. cbn [takes_value apply_opt].
    apply (keeps_input d argv a _ _ H).
  - intros v words W.
    assert (E : parse_args d (argv ++ words) = match parse_bool (AText v) with Some b => Some (set_bool n b a) | None => None end).
    { destruct W as [-> | [-> Hv]].
      - assert (R : read_word (option_table d (a_language a)) (u "--" ++ s ++ u "=" ++ v) = WOpt (OBool n) (Some v)).
        { unfold read_word. replace (u "--" ++ s ++ u "=" ++ v) with ((u "--" ++ s) ++ 61%N :: v) by (now rewrite <- app_assoc).
          destruct (dict_get ((u "--" ++ s) ++ 61%N :: v) (option_table d (a_language a))) as [o|] eqn:D.
          { apply table_plain in D. rewrite split_eq_app in D by exact S3. discriminate. }
          rewrite split_eq_app by exact S3. rewrite S1. reflexivity. }
        etransitivity; [apply (parse_app d argv a _ [] _ _ H R); [discriminate|reflexivity]|]. cbn [parse_words]. rewrite R. cbn [apply_opt].
        destruct (parse_bool (AText v)) as [b|]; [|reflexivity]. apply (keeps_input d argv a _ _ H).
      - assert (Rv : forall T, read_word T v = WValue v).
        { intros T. unfold read_word. destruct v as [|c [|c2 v]]; try reflexivity. cbn [dashed] in *. cbn in Hv.
          destruct (N.eqb_spec c 45) as [->|]; [congruence|reflexivity]. }
        etransitivity; [apply (parse_app d argv a _ [v] _ _ H R1); [discriminate|intros l; cbn [select_words]; now rewrite Rv]|].
        cbn [parse_words]. rewrite R1. cbn [takes_value]. rewrite Rv. cbn [apply_opt].
        destruct (parse_bool (AText v)) as [b|]; [|reflexivity]. apply (keeps_input d argv a _ _ H). }
    rewrite E. destruct (parse_bool_spec v) as (P1 & P2 & P3). split; [|split].
    + intros X. exists (set_bool n true a). apply P1 in X. rewrite E, X. split; [reflexivity|apply set_with_bool].
    + intros X. exists (set_bool n false a). apply P2 in X. rewrite E, X. split; [reflexivity|apply set_with_bool].
    + intros X Y. assert (Z : parse_bool (AText v) = None) by (apply P3; auto). now rewrite Z.
Qed.

(** * The other options *)
Lemma value_word T v : hd_error v <> Some 45%N -> read_word T v = WValue v.
Proof.
  intros Hv. unfold read_word. destruct v as [|c [|c2 v]]; try reflexivity. cbn [dashed] in *. cbn in Hv.
  destruct (N.eqb_spec c 45) as [->|]; [congruence|reflexivity].
Qed.
Lemma given_words d argv a name v words o : parse_args d argv = Some a ->
  dict_get name (option_table d (a_language a)) = Some o -> dashed name = true -> ~ In 61%N name ->
  o <> OLanguage -> takes_value o = true -> given name v words ->
  parse_args d (argv ++ words) =
    match apply_opt o (Some v) a with
    | Some a' => match a_text a', a_file a' with Some _, Some _ => None | _, _ => Some a' end
    | None => None
    end.
Proof.
  intros H S1 Dn S3 No Tv [-> | [-> Hv]].
  - assert (R : read_word (option_table d (a_language a)) (name ++ u "=" ++ v) = WOpt o (Some v)).
    { unfold read_word. replace (dashed (name ++ u "=" ++ v)) with true by (destruct name as [|? []]; cbn in Dn |- *; congruence).
      change (u "=" ++ v) with (61%N :: v).
      destruct (dict_get (name ++ 61%N :: v) (option_table d (a_language a))) as [o'|] eqn:D.
      { apply table_plain in D. rewrite split_eq_app in D by exact S3. discriminate. }
      rewrite split_eq_app by exact S3. rewrite S1. reflexivity. }
    etransitivity; [apply (parse_app d argv a _ [] _ _ H R No); reflexivity|]. cbn [parse_words]. rewrite R.
    destruct (apply_opt o (Some v) a); reflexivity.
  - assert (R1 : read_word (option_table d (a_language a)) name = WOpt o None).
    { unfold read_word. now rewrite Dn, S1. }
    etransitivity; [apply (parse_app d argv a _ [v] _ _ H R1 No); intros l; cbn [select_words]; now rewrite value_word|].
    cbn [parse_words]. rewrite R1, Tv, value_word by exact Hv. destruct (apply_opt o (Some v) a); reflexivity.
Qed.
Lemma common_words d l :
  dict_get (u "--text") (option_table d l) = Some OText /\ dict_get (u "--file") (option_table d l) = Some OFile /\
  dict_get (u "--cache_dir") (option_table d l) = Some OCacheDir /\ dict_get (u "--cache-dir") (option_table d l) = Some OCacheDir /\
  dict_get (u "--overwrite_cache") (option_table d l) = Some OOverwrite /\
  dict_get (u "--overwrite-cache") (option_table d l) = Some OOverwrite.
Proof. destruct d, l; repeat split; vm_compute; reflexivity. Qed.
Lemma not_in_by t : existsb (N.eqb 61) t = false -> ~ In 61%N t.
Proof. intros E I. assert (existsb (N.eqb 61) t = true) by (apply existsb_exists; exists 61%N; auto). congruence. Qed.
Theorem text_words d argv a v words : parse_args d argv = Some a -> given (u "--text") v words ->
  (a_file a = None -> exists a', parse_args d (argv ++ words) = Some a' /\ with_text v a a') /\
  (a_file a <> None -> parse_args d (argv ++ words) = None).
Proof.
  intros H G. rewrite (given_words d argv a _ v words OText H (proj1 (common_words d _)) eq_refl) by
    (discriminate || reflexivity || exact G || (apply not_in_by; reflexivity)).
  cbn [apply_opt a_text a_file]. destruct (a_file a) as [f|] eqn:F.
  - split; [discriminate|reflexivity].
  - split; [intros _|congruence]. eexists. split; [reflexivity|]. unfold with_text, same_rest. cbn. auto 10.
Qed.
Theorem file_words d argv a v words : parse_args d argv = Some a -> given (u "--file") v words ->
  (a_text a = None -> exists a', parse_args d (argv ++ words) = Some a' /\ with_file v a a') /\
  (a_text a <> None -> parse_args d (argv ++ words) = None).
Proof.
  intros H G. rewrite (given_words d argv a _ v words OFile H (proj1 (proj2 (common_words d _))) eq_refl) by
    (discriminate || reflexivity || exact G || (apply not_in_by; reflexivity)).
  cbn [apply_opt a_text a_file]. destruct (a_text a) as [f|] eqn:F.
  - split; [discriminate|reflexivity].
  - split; [intros _|congruence]. eexists. split; [reflexivity|]. unfold with_file, same_rest. cbn. auto 10.
Qed.
Lemma one_source_kept d argv a (a' : args) : parse_args d argv = Some a -> a_text a' = a_text a -> a_file a' = a_file a ->
  match a_text a', a_file a' with Some _, Some _ => None | _, _ => Some a' end = Some a'.
Proof.
  intros H -> ->. apply parse_args_language in H as (_ & _ & F). destruct (a_text a), (a_file a); try reflexivity. destruct F; discriminate.
Qed.
Theorem cache_dir_words d argv a v words name : parse_args d argv = Some a -> name = u "--cache_dir" \/ name = u "--cache-dir" ->
  given name v words -> exists a', parse_args d (argv ++ words) = Some a' /\ with_cache_dir v a a'.
Proof.
  intros H N G. destruct (common_words d (a_language a)) as (_ & _ & C1 & C2 & _).
  assert (D : dict_get name (option_table d (a_language a)) = Some OCacheDir) by (destruct N as [-> | ->]; assumption).
  assert (D2 : dashed name = true /\ ~ In 61%N name) by (destruct N as [-> | ->]; (split; [reflexivity|apply not_in_by; reflexivity])).
  destruct D2 as [D2 D3].
  rewrite (given_words d argv a name v words OCacheDir H D D2 D3) by (discriminate || reflexivity || exact G).
  cbn [apply_opt]. eexists. split; [apply (one_source_kept d argv a _ H); reflexivity|]. unfold with_cache_dir, same_rest. cbn. auto 10.
Qed.
Theorem overwrite_word d argv a name : parse_args d argv = Some a -> name = u "--overwrite_cache" \/ name = u "--overwrite-cache" ->
  exists a', parse_args d (argv ++ [name]) = Some a' /\ with_overwrite a a'.
Proof.
  intros H N. destruct (common_words d (a_language a)) as (_ & _ & _ & _ & C1 & C2).
  assert (R : read_word (option_table d (a_language a)) name = WOpt OOverwrite None).
  { unfold read_word. destruct N as [-> | ->]; rewrite ?C1, ?C2; reflexivity. }
  rewrite (parse_app d argv a _ [] _ _ H R) by (discriminate || reflexivity). cbn [parse_words]. rewrite R. cbn [takes_value apply_opt].
  eexists. split; [apply (one_source_kept d argv a _ H); reflexivity|]. unfold with_overwrite, same_rest. cbn. auto 10.
Qed.
(** A line without --text and --file has neither. *)
Lemma split_eq_prefix t : forall n v, split_eq t = (n, Some v) -> t = n ++ 61%N :: v.
Proof.
  induction t as [|c t IH]; intros n v; cbn [split_eq]; [discriminate|].
  destruct (N.eqb_spec c 61) as [->|_]; [intros [= <- <-]; reflexivity|].
  destruct (split_eq t) as [n' v'] eqn:E. intros [= <- ->]. cbn [app]. f_equal. now apply IH.
Qed.
Lemma table_inputs d l t o : dict_get t (option_table d l) = Some o ->
  (o = OText -> t = u "--text") /\ (o = OFile -> t = u "--file").
Proof.
  intros H. apply dict_get_In in H.
  assert (A : forallb (fun e => match snd e with OText => text_eqb (fst e) (u "--text")
                                | OFile => text_eqb (fst e) (u "--file") | _ => true end) (option_table d l) = true)
    by (destruct d, l; vm_compute; reflexivity).
  rewrite forallb_forall in A. specialize (A _ H). cbn [fst snd] in A.
  split; intros ->; match type of A with text_eqb t ?x = true => destruct (text_eqb_spec t x); [assumption|discriminate] end.
Qed.
Lemma word_inputs d l t o v : read_word (option_table d l) t = WOpt o v ->
  (o = OText -> starts (u "--text") t) /\ (o = OFile -> starts (u "--file") t).
Proof.
  unfold read_word. destruct (dashed t); [|discriminate].
  destruct (dict_get t _) as [o'|] eqn:E.
  - intros [= -> <-]. destruct (table_inputs d l t o E) as [A B].
    split; intros X; exists []; rewrite app_nil_r; auto.
  - destruct (split_eq t) as [n [w|]] eqn:S; [|destruct (spaced t); discriminate].
    destruct (dict_get n _) as [o'|] eqn:En; [|destruct (spaced t); discriminate].
    intros [= -> <-]. destruct (table_inputs d l n o En) as [A B]. apply split_eq_prefix in S.
    split; intros X; exists (61%N :: w); rewrite S; f_equal; auto.
Qed.
Definition not_input (o : opt) : Prop := o <> OText /\ o <> OFile.
Lemma apply_inputs o v a a' : apply_opt o v a = Some a' -> not_input o -> a_text a' = a_text a /\ a_file a' = a_file a.
Proof.
  intros H (N1 & N2). destruct o, v; cbn [apply_opt] in H; try discriminate; try congruence; try (injection H as <-; split; reflexivity).
  - destruct (language_of t); [injection H as <-; split; reflexivity|discriminate].
  - destruct (parse_bool (AText t)); [injection H as <-; split; reflexivity|discriminate].
Qed.
Lemma words_inputs d l argv : Forall (fun t => ~ starts (u "--text") t /\ ~ starts (u "--file") t) argv ->
  forall p a a', (forall o, p = Some o -> not_input o) -> parse_words (option_table d l) argv p a = Some a' ->
  a_text a' = a_text a /\ a_file a' = a_file a.
Proof.
  induction 1 as [|t argv (T1 & T2) _ IH]; intros p a a' P H; cbn [parse_words] in H.
  - destruct p as [o|]; [apply (apply_inputs _ _ _ _ H); auto|injection H as <-; auto].
  - destruct (read_word (option_table d l) t) as [o v| |v] eqn:R; [|discriminate|].
    + assert (No : not_input o) by (destruct (word_inputs _ _ _ _ _ R); split; intros ->; auto).
      destruct (match p with Some o' => apply_opt o' None a | None => Some a end) as [a1|] eqn:E1; [|discriminate].
      assert (K1 : a_text a1 = a_text a /\ a_file a1 = a_file a).
      { destruct p as [o'|]; [apply (apply_inputs _ _ _ _ E1); auto|injection E1 as <-; auto]. }
      destruct K1 as [K1 K2]. destruct v as [v|].
      * destruct (apply_opt o (Some v) a1) as [a2|] eqn:E2; [|discriminate].
        destruct (apply_inputs _ _ _ _ E2 No). destruct (IH None a2 a') as [F1 F2]; [discriminate|exact H|]. split; congruence.
      * destruct (takes_value o).
        { destruct (IH (Some o) a1 a') as [F1 F2]; [intros o' [= <-]; exact No|exact H|]. split; congruence. }
        destruct (apply_opt o None a1) as [a2|] eqn:E2; [|discriminate].
        destruct (apply_inputs _ _ _ _ E2 No). destruct (IH None a2 a') as [F1 F2]; [discriminate|exact H|]. split; congruence.
    + destruct p as [o|]; [|discriminate]. destruct (apply_opt o (Some v) a) as [a2|] eqn:E2; [|discriminate].
      destruct (apply_inputs _ _ _ _ E2 (P o eq_refl)). destruct (IH None a2 a') as [F1 F2]; [discriminate|exact H|]. split; congruence.
Qed.
Theorem no_input_words d argv a : parse_args d argv = Some a ->
  Forall (fun t => ~ starts (u "--text") t /\ ~ starts (u "--file") t) argv -> a_text a = None /\ a_file a = None.
Proof.
  intros H F. apply parse_args_language in H as (_ & H & _).
  apply (words_inputs _ _ _ F) in H; [exact H|discriminate].
Qed.

(** * itn/utils.py *)
Lemma real_nil links : real_place links [].
Proof. split; [intros []|]. intros a b E N. symmetry in E. apply app_eq_nil in E as [-> _]. congruence. Qed.
Lemma real_removelast links p : real_place links p -> real_place links (removelast p).
Proof.
  intros (D & L).
  destruct p as [|y p']; [apply real_nil|]. assert (N : y :: p' <> []) by discriminate.
  destruct (exists_last N) as (q & x & E). rewrite E in *. rewrite removelast_last. split.
  - intros I. apply D. apply in_app_iff. now left.
  - intros a b -> Na. apply (L a (b ++ [x])); [now rewrite app_assoc|assumption].
Qed.
Lemma real_snoc links p x : real_place links p -> x <> u ".." -> links (p ++ [x]) = None -> real_place links (p ++ [x]).
Proof.
  intros (D & L) Nx Lx. split.
  - rewrite in_app_iff. intros [I|[I|[]]]; auto.
  - intros a b E Na.
    destruct b as [|z b']; [rewrite app_nil_r in E; now rewrite <- E|].
    assert (N : z :: b' <> []) by discriminate. destruct (exists_last N) as (b2 & y & Eb). rewrite Eb, app_assoc in E.
    apply app_inj_tail in E as [-> _]. now apply (L a b2).
Qed.
Lemma resolve_real links fuel : forall acc ps p, real_place links acc -> resolve links fuel acc ps = Some p -> real_place links p.
Proof.
  induction fuel as [|fuel IH]; intros acc ps p R H; [discriminate|]. cbn [resolve] in H.
  destruct ps as [|x ps]; [now injection H as <-|].
  destruct (text_eqb_spec x dotdot) as [->|N]; [eapply IH; [|exact H]; now apply real_removelast|].
  destruct (links (acc ++ [x])) as [tgt|] eqn:E.
  - eapply IH; [|exact H]. destruct (absolute tgt); [apply real_nil|assumption].
  - eapply IH; [|exact H]. now apply real_snoc.
Qed.
Lemma relative_to_spec root p : (exists q, relative_to root p = Some q /\ p = root ++ q) \/ (relative_to root p = None /\ forall q, p <> root ++ q).
Proof.
  revert p. induction root as [|x root IH]; intros p; [left; exists p; auto|]. destruct p as [|y p]; cbn [relative_to].
  - right. split; [reflexivity|discriminate].
  - destruct (text_eqb_spec x y) as [->|N].
    + destruct (IH p) as [(q & E & ->)|(E & F)]; [left; exists q; auto|]. right. split; [assumption|]. intros q [= X]. now apply (F q).
    + right. split; [reflexivity|]. intros q [= X _]. congruence.
Qed.
Theorem abs_path_inside links fuel root rel p : get_abs_path links fuel root rel = PathOk p ->
  (exists q, p = root ++ q) /\ real_place links p.
Proof.
  unfold get_abs_path. destruct (resolve _ _ _ _) as [p'|] eqn:E; [|discriminate].
  destruct (relative_to_spec root p') as [(q & Er & X)|(Er & _)]; rewrite Er; [|discriminate]. intros [= <-].
  split; [eauto|]. eapply resolve_real; [apply real_nil|exact E].
Qed.
Lemma resolve_plain links fuel : forall acc ps, real_place links (acc ++ ps) -> List.length ps < fuel ->
  resolve links fuel acc ps = Some (acc ++ ps).
Proof.
  induction fuel as [|fuel IH]; intros acc ps R L; [lia|]. cbn [resolve]. destruct ps as [|x ps]; [now rewrite app_nil_r|].
  destruct (text_eqb_spec x dotdot) as [->|N].
  { exfalso. apply (proj1 R). apply in_app_iff. right. now left. }
  rewrite (proj2 R (acc ++ [x]) ps); [|now rewrite <- app_assoc|now destruct acc].
  replace (acc ++ x :: ps) with ((acc ++ [x]) ++ ps) in * by (now rewrite <- app_assoc). apply IH; [assumption|cbn in L; lia].
Qed.
Theorem abs_path_plain links fuel root rel : absolute (parse_path rel) = false ->
  real_place links (root ++ parts (parse_path rel)) -> List.length (root ++ parts (parse_path rel)) < fuel ->
  get_abs_path links fuel root rel = PathOk (root ++ parts (parse_path rel)).
Proof.
  intros A R L. unfold get_abs_path, path_div. rewrite A. cbn [parts]. rewrite (resolve_plain links fuel [] _ R L). cbn [app].
  destruct (relative_to_spec root (root ++ parts (parse_path rel))) as [(q & -> & _)|(_ & F)]; [reflexivity|]. exfalso. now apply (F (parts (parse_path rel))).
Qed.
