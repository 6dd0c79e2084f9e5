(** The cheapest tagging of a written number (C65). *)
From Coq Require Import List NArith ZArith Bool String Lia Arith.
From Verif Require Import Text TextFacts TokenModel Fst FstFacts FstRun GrammarModel GrammarAccept NumeralSpec EnglishNumeralSpec DataZhTn ZhTnModel ZhTnEndSpec.
From Verif Require Import ZhNumberProofs TokenVerbal Apart Letters ZhTnRead ZhTnTag.
Import ListNotations.
Local Open Scope list_scope.

Lemma digits_body f : Forall digit_char f -> forallb body f = true.
Proof. intro F. apply digs_spec in F. revert F. apply all_imp. exact dig_body. Qed.
Lemma digits_dots f : Forall digit_char f -> dots f = 0.
Proof. intro F. apply count_occ_not_In. intro I. rewrite Forall_forall in F. specialize (F _ I). unfold digit_char in F. lia. Qed.
Lemma digits_tidy x : Forall digit_char x -> tidy x.
Proof.
  intro F. split; [now apply digs_known|]. rewrite (digits_dots _ F). split; [|lia]. apply digits_body in F. destruct x as [|c x]; [reflexivity|]. cbn [tl forallb] in *. now apply andb_true_iff in F as (_ & F).
Qed.
Lemma body_tl x : forallb body x = true -> forallb body (tl x) = true.
Proof. destruct x as [|c x]; [auto|]. cbn [forallb tl]. intro H. now apply andb_true_iff in H as (_ & H). Qed.
Lemma numeral_tidy s t f d r : sign_words s = Some d -> t <> [] -> Forall digit_char t -> Forall digit_char f -> (r = [] \/ r = u "%") -> tidy (numeral s t f ++ r).
Proof.
  intros S N T F R. assert (Br : forallb body r = true /\ forallb known r = true /\ dots r = 0) by (destruct R as [-> | ->]; vm_compute; auto). destruct Br as (Br & Kr & Dr).
  assert (Bp : forallb body (points f) = true /\ dots (points f) <= 1).
  { destruct f as [|c f]; [cbn; auto|]. unfold points. rewrite forallb_app, dots_app, (digits_body _ F), (digits_dots _ F). vm_compute. auto. }
  destruct Bp as (Bp & Dp). split; [|split].
  - rewrite forallb_app, (numeral_known _ _ _ _ S T F), Kr. reflexivity.
  - unfold numeral. change (match f with [] => [] | _ => u "." ++ f end) with (points f). destruct (sign_cases _ _ S) as [(-> & _)|(c & -> & _)].
    + cbn [app]. apply body_tl. now rewrite !forallb_app, (digits_body _ T), Bp, Br.
    + cbn [app tl]. now rewrite !forallb_app, (digits_body _ T), Bp, Br.
  - unfold numeral. change (match f with [] => [] | _ => u "." ++ f end) with (points f). rewrite !dots_app, Dr, (digits_dots _ T).
    assert (dots s = 0) by (destruct (sign_cases _ _ S) as [(-> & _)|(c & -> & [-> |[-> | ->]] & _)]; reflexivity). lia.
Qed.
Lemma hotline_digits p : hotline p -> Forall digit_char p.
Proof.
  intros [I|(_ & F)]; [|exact F]. assert (A : forallb (fun l => forallb dig (Datatypes.fst (entry l))) zh_tn_cardinal_phone = true) by (vm_compute; reflexivity).
  rewrite forallb_forall in A. apply in_map_iff in I as (l & <- & I). apply digs_spec. exact (A l I).
Qed.
Lemma date_chars p : date_like p -> Forall (fun c => digit_char c \/ c = 46%N) p.
Proof.
  intros (a & b & -> & H). assert (Forall digit_char a /\ Forall digit_char b) as (A & B) by (unfold year_like, month_like, day_like in H; tauto).
  apply Forall_app. split; [revert A; apply Forall_impl; auto|]. constructor; [auto|]. revert B; apply Forall_impl; auto.
Qed.
Lemma light_chars p : hotline p \/ date_like p -> Forall (fun c => digit_char c \/ c = 46%N) p.
Proof. intros [H|H]; [apply hotline_digits in H; revert H; apply Forall_impl; auto|now apply date_chars]. Qed.

Section Tokens.
Variables (o : options) (e : fst).
Hypothesis Union : tagger_union (rules o) = Some e.
Lemma token_dear x y w : tidy x -> denote e x y w -> (600 <= w)%Z.
Proof. intros T H. apply (token_tidy o e Union x y w T) in H. lia. Qed.
Lemma tokens_dear x y w : tidy x -> star (denote e) x y w -> (0 <= w)%Z /\ (x = [] /\ y = [] /\ w = 0 \/ 600 <= w)%Z.
Proof.
  intros T H. induction H as [|p t1 w1 q t2 w2 H S IH]; [split; [lia|auto]|]. apply tidy_app in T as (Tp & Tq).
  pose proof (token_dear _ _ _ Tp H). destruct (IH Tq) as (? & _). lia.
Qed.
Lemma math_tagged x z : tidy x -> denote Cardinal.number x z 0%Z -> denote e x (value_token (u "math") x ++ u " ") 900000%Z.
Proof.
  intros T H. pose proof T as (K & _). apply (taggers_spec _ _ Union). exists (RuleSpec Math.rule (Some 900000%Z) true), 900000%Z.
  split; [unfold rules; cbn [In]; tauto|]. split; [reflexivity|]. cbn [s_rule].
  apply (value_tagged (u "math") Math.math x _ _ K). split; [reflexivity|]. exists z. now apply math_known.
Qed.
Lemma cardinal_tagged x z v : tidy x -> denote Cardinal.cardinal x z v -> denote e x (value_token (u "cardinal") x ++ u " ") (v + 10600)%Z.
Proof.
  intros T H. pose proof T as (K & _). apply (taggers_spec _ _ Union). exists (RuleSpec Cardinal.rule (Some 10600%Z) true), 10600%Z.
  split; [unfold rules; cbn [In]; tauto|]. split; [reflexivity|]. cbn [s_rule].
  apply (value_tagged (u "cardinal") Cardinal.cardinal x _ _ K). split; [reflexivity|]. exists z. replace (v + 10600 - 10600)%Z with v by lia. exact H.
Qed.
Lemma one_star x y w : denote e x y w -> star (denote e) x y w.
Proof. intro H. rewrite <- (app_nil_r x), <- (app_nil_r y), <- (Z.add_0_r w). constructor; [exact H|constructor]. Qed.

(** A telephone number. *)
Theorem hotline_tagging x : hotline x -> cheapest (denote (Star e)) x (value_token (u "cardinal") x ++ u " ").
Proof.
  intro Hl. pose proof (digits_tidy _ (hotline_digits _ Hl)) as T. exists 600%Z. split.
  - apply one_star. change 600%Z with (-10000 + 10600)%Z. apply (cardinal_tagged x (flat_map phone_word x)); [exact T|]. apply cardinal_known; [exact T|]. left. auto.
  - intros z v H. cbn [denote] in H. destruct H as [|p t1 w1 q t2 w2 H S].
    + exfalso. destruct Hl as [I|(L & _)]; [|discriminate]. vm_compute in I. repeat (destruct I as [I|I]; [discriminate|]). destruct I.
    + apply tidy_app in T as (Tp & Tq). destruct (tokens_dear _ _ _ Tq S) as (P & C).
      apply (token_tidy o e Union _ _ _ Tp) in H as [(-> & _ & ->)|[(-> & _)|[(-> & _)|[(-> & _)| ->]]]]; try (split; lia).
      destruct C as [(-> & -> & ->)|C]; [|split; lia]. rewrite !app_nil_r. split; [lia|auto].
Qed.
(** A percentage. *)
Theorem percent_tagging s t f d y : sign_words s = Some d -> t <> [] -> Forall digit_char t -> Forall digit_char f -> denote Cardinal.plain_number (numeral s t f) y 0%Z ->
  cheapest (denote (Star e)) (numeral s t f ++ u "%") (value_token (u "cardinal") (numeral s t f ++ u "%") ++ u " ").
Proof.
  intros Sg N D F R. pose proof (numeral_tidy s t f d (u "%") Sg N D F (or_intror eq_refl)) as T. exists 10600%Z. split.
  - apply one_star. change 10600%Z with (0 + 10600)%Z. apply (cardinal_tagged _ (u "百分之" ++ y)); [exact T|]. apply cardinal_known; [exact T|]. right. apply percent_shape. eauto.
  - assert (G : forall x t w, star (denote e) x t w -> tidy x -> In 37%N x -> (w = 10600 /\ t = value_token (u "cardinal") x ++ u " " \/ 10600 < w)%Z).
    { clear R T. intros x t' w H. induction H as [|p t1 w1 q t2 w2 H S IH]; intros T I; [destruct I|]. apply tidy_app in T as (Tp & Tq). pose proof (token_dear _ _ _ Tp H).
      destruct (tokens_dear _ _ _ Tq S) as (P & C). destruct (in_dec N.eq_dec 37%N q) as [J|J].
      - destruct (IH Tq J); lia.
      - assert (Ip : In 37%N p) by (apply in_app_iff in I as [I|I]; [exact I|contradiction]).
        assert (Light : hotline p \/ date_like p -> False).
        { intro L. apply light_chars in L. rewrite Forall_forall in L. destruct (L _ Ip) as [E|E]; [unfold digit_char in E; lia|discriminate]. }
        apply (token_tidy o e Union _ _ _ Tp) in H as [(-> & L & _)|[(-> & L)|[(-> & _ & ->)|[(-> & _)| ->]]]]; try (exfalso; tauto); try lia.
        destruct C as [(-> & -> & ->)|C]; [|lia]. left. rewrite !app_nil_r. auto. }
    intros z v H. apply G in H; [|exact T|apply in_app_iff; right; left; reflexivity]. destruct H as [(-> & ->)|H]; [split; [lia|auto]|split; lia].
Qed.
(** A number. *)
Lemma tokens_apart x t w : star (denote e) x t w -> tidy x -> ~ In 37%N x ->
  taken_apart x \/ (900000 < w)%Z \/ (w = 900000 /\ t = value_token (u "math") x ++ u " ")%Z.
Proof.
  intro H. induction H as [|p t1 w1 q t2 w2 H S IH]; intros T I; [left; exists []; split; [reflexivity|constructor]|].
  apply tidy_app in T as (Tp & Tq). pose proof (token_dear _ _ _ Tp H). destruct (tokens_dear _ _ _ Tq S) as (P & C).
  rewrite in_app_iff in I. specialize (IH Tq (fun J => I (or_intror J))).
  assert (Light : hotline p \/ date_like p -> taken_apart (p ++ q) \/ (900000 < w1 + w2)%Z).
  { intro L. destruct IH as [(ps & -> & F)|[L'|(-> & _)]]; [|right; lia..]. left. exists (p :: ps). split; [reflexivity|]. now constructor. }
  apply (token_tidy o e Union _ _ _ Tp) in H as [(-> & L & _)|[(-> & L)|[(-> & (a & ->) & _)|[(-> & ->)| ->]]]]; try tauto.
  - exfalso. apply I. left. apply in_app_iff. right. left. reflexivity.
  - right. destruct C as [(-> & -> & ->)|C]; [|left; lia]. right. rewrite !app_nil_r. auto.
  - right. left. lia.
Qed.
Lemma signed_whole s t f d : sign_words s = Some d -> s <> [] -> ~ taken_apart (numeral s t f).
Proof.
  intros S N (ps & E & F). destruct (sign_cases _ _ S) as [(-> & _)|(c & -> & C & _)]; [contradiction|].
  assert (A : Forall (fun c => digit_char c \/ c = 46%N) (List.concat ps)).
  { apply Forall_concat. revert F. apply Forall_impl. exact light_chars. }
  rewrite <- E in A. unfold numeral in A. cbn [app] in A. apply Forall_inv in A. unfold digit_char in A. lia.
Qed.
Theorem number_tagging s t f d y : sign_words s = Some d -> t <> [] -> Forall digit_char t -> Forall digit_char f -> denote Cardinal.plain_number (numeral s t f) y 0%Z ->
  ~ taken_apart (numeral s t f) -> cheapest (denote (Star e)) (numeral s t f) (value_token (u "math") (numeral s t f) ++ u " ").
Proof.
  intros Sg N D F R A. pose proof (numeral_tidy s t f d [] Sg N D F (or_introl eq_refl)) as T. rewrite app_nil_r in T. pose proof T as (K & _). exists 900000%Z. split.
  - apply one_star. apply (math_tagged _ y T). apply number_inv; auto.
  - assert (P : ~ In 37%N (numeral s t f)).
    { unfold numeral. change (match f with [] => [] | _ => u "." ++ f end) with (points f). rewrite !in_app_iff. intros [I|[I|I]].
      - destruct (sign_cases _ _ Sg) as [(-> & _)|(c & -> & C & _)]; [destruct I|]. destruct I as [I|[]]. lia.
      - rewrite Forall_forall in D. specialize (D _ I). unfold digit_char in D. lia.
      - destruct f as [|c f]; [destruct I|]. unfold points in I. apply in_app_iff in I as [[I|[]]|I]; [discriminate|]. rewrite Forall_forall in F. specialize (F _ I). unfold digit_char in F. lia. }
    intros z v H. apply tokens_apart in H as [H|[H|(-> & ->)]]; [contradiction|split; lia|split; [lia|auto]|exact T|exact P].
Qed.
End Tokens.
