(** Property C65: a written number through the whole Chinese normaliser.

    Vocabulary (ZhTnEndSpec.v): [numeral s t f] is the number with sign [s], digits [t] and, after
    a point, the digits [f]; [sign_words], [point_words] and [phone_word] are what is said for the
    sign, for the digits after the point and for a digit on the telephone; [hotline x] says [x] is
    a telephone number (a listed one or any eleven digits); [taken_apart x] that [x] is telephone
    numbers and dates with a point (12.25) one after another.  [chinese_value] (NumeralSpec.v) is
    the number a Chinese numeral means.  [engine_for], [normalizes_to] and [plain] are those of
    C63 and C64: the number may stand alone ([p] and [q] empty) or among characters that no rule
    but the one of single characters reads. *)
From Coq Require Import List NArith ZArith Bool String Lia.
From Verif Require Import Text TextFacts TokenModel Fst GrammarModel GrammarSpec NumeralSpec EnglishNumeralSpec BoundarySpec BoundaryLaw PlainSpec ZhTnModel ZhTnEndSpec.
From Verif Require Import NbestModel NbestSpec EngineSpec NbestWitness PipelineModel PropsTotal.
From Verif Require Import ZhNumberProofs ZhNumberProofs4 BoundaryLawProofs PropsBoundary ZhTnRead ZhTnTag ZhTnTag2 ZhTnPost OneToken.
From Verif Require FstFacts GrammarEngine PropsZhSpoken PlainRules BoundaryChar.
Import ListNotations.
Local Open Scope list_scope.

(** The answer among plain text. *)
Definition said_as (x d : text) : Prop := forall o en p q, engine_for (zh_tn o) en -> valid_text p -> valid_text q -> plain (zh_tn o) p -> plain (zh_tn o) q ->
  normalizes_to en (p ++ x ++ q) (flat_map (zh_tn_clean o) p ++ d ++ flat_map (zh_tn_clean o) q).
Lemma said_i x d : forallb known x = true -> x <> [] -> (forall o t v, tagger o = Some t -> verbalizer o = Some v -> only_answer orders t v x d) -> said_as x d.
Proof.
  intros K N A o en p q En Vp Vq P Q. destruct (C44_zh_tn o) as (t & v & Et & Ev & _).
  refine (proj2 (C64_around_zh_tn o en p x q d En Vp _ Vq P Q N _)); [apply FstFacts.vtext_spec; exact (known_valid x K)|].
  apply (sole_only (zh_tn o) t v x d Et Ev). exact (A o t v Et Ev).
Qed.
Lemma numeral_some s t f : t <> [] -> numeral s t f <> [].
Proof. intros N E. unfold numeral in E. apply app_eq_nil in E as (_ & E). apply app_eq_nil in E as (E & _). contradiction. Qed.
Section Number.
Variables (s d t m : text) (n : N) (f : text).
Hypothesis Sign : sign_words s = Some d.
Hypothesis Dec : decimal t n.
Hypothesis Fraction : Forall digit_char f.
Hypothesis Reading : just Cardinal.integer t m.
Hypothesis Value : chinese_value m = Some n.
Let Some_digit : t <> [] := proj1 Dec.
Let Digits : Forall digit_char t := proj1 (proj2 Dec).
Lemma plain_said : just Cardinal.plain_number (numeral s t f) (words_of s f d m).
Proof. exact (plain_reads s t f d m Sign Digits Some_digit Fraction Reading n Value). Qed.
Lemma whole_tidy : tidy (numeral s t f).
Proof. pose proof (numeral_tidy s t f d [] Sign Some_digit Digits Fraction (or_introl eq_refl)) as T. now rewrite app_nil_r in T. Qed.
Lemma math_reads z w : denote Math.math (numeral s t f) z w <-> z = words_of s f d m /\ w = 0%Z.
Proof.
  pose proof whole_tidy as T. rewrite (math_known _ _ _ T), (number_inv _ _ _ (proj1 T)). split; [|intro H; left; now apply plain_said]. intros [H|H]; [now apply plain_said|].
  exfalso. apply percent_shape in H as (x' & y' & E & _). exact (numeral_end s t f d Sign Some_digit Digits Fraction x' E).
Qed.
Lemma not_hotline x : In 37%N x -> ~ hotline x.
Proof. intros I H. apply hotline_digits in H. rewrite Forall_forall in H. specialize (H _ I). unfold digit_char in H. lia. Qed.
Lemma percent_reads z w : denote Cardinal.cardinal (numeral s t f ++ u "%") z w <-> z = u "百分之" ++ words_of s f d m /\ w = 0%Z.
Proof.
  pose proof (numeral_tidy s t f d (u "%") Sign Some_digit Digits Fraction (or_intror eq_refl)) as T. rewrite (cardinal_known _ _ _ T). split.
  - intros [(H & _)|H].
    + exfalso. revert H. apply not_hotline. apply in_app_iff. right. left. reflexivity.
    + apply percent_shape in H as (x' & y' & E & -> & H). apply app_inv_tail in E as <-. apply plain_said in H as (-> & ->). auto.
  - intros (-> & ->). right. apply percent_shape. exists (numeral s t f), (words_of s f d m). split; [reflexivity|]. split; [reflexivity|]. now apply plain_said.
Qed.
Lemma words_ok : forallb word (words_of s f d m) = true.
Proof. apply (number_words s t f d m Sign Fraction). now apply Reading. Qed.
Lemma number_said : ~ taken_apart (numeral s t f) -> said_as (numeral s t f) (words_of s f d m).
Proof.
  intro A. apply said_i; [exact (proj1 whole_tidy)|exact (numeral_some _ _ _ Some_digit)|]. intros o tg vb Et Ev.
  apply (value_answer o tg vb Et Ev (u "math") Math.rule (Some 900000%Z) Math.math (numeral s t f) (words_of s f d m) 0%Z); try reflexivity.
  - apply only_math.
  - exact (proj1 whole_tidy).
  - exact (all_safe _ words_ok).
  - exact math_reads.
  - intros e E. apply (number_tagging o e E s t f d (words_of s f d m) Sign Some_digit Digits Fraction); [now apply plain_said|exact A].
Qed.
Lemma percent_said : said_as (numeral s t f ++ u "%") (u "百分之" ++ words_of s f d m).
Proof.
  pose proof (numeral_tidy s t f d (u "%") Sign Some_digit Digits Fraction (or_intror eq_refl)) as T.
  apply said_i; [exact (proj1 T)|intro E; apply app_eq_nil in E as (_ & E); discriminate|]. intros o tg vb Et Ev.
  apply (value_answer o tg vb Et Ev (u "cardinal") Cardinal.rule (Some 10600%Z) Cardinal.cardinal (numeral s t f ++ u "%") (u "百分之" ++ words_of s f d m) 0%Z); try reflexivity.
  - apply only_cardinal.
  - exact (proj1 T).
  - apply all_safe. rewrite forallb_app, words_ok. vm_compute. reflexivity.
  - exact percent_reads.
  - intros e E. apply (percent_tagging o e E s t f d (words_of s f d m) Sign Some_digit Digits Fraction). now apply plain_said.
Qed.
End Number.

(** A number that is not telephone numbers and dates is said with its value: the sign, a numeral
    that means the digits, the digits after the point one by one. *)
Theorem C65_number s d t n : sign_words s = Some d -> decimal t n -> (n < 1000000000000)%N -> exists y, chinese_value y = Some n /\
  forall f, Forall digit_char f -> s <> [] \/ ~ taken_apart (numeral s t f) -> said_as (numeral s t f) (d ++ y ++ point_words f).
Proof.
  intros S D L. destruct (integer_reading t n D L) as (m & J & V). exists (said s m). split; [now rewrite said_value|].
  intros f F A. apply (number_said s d t m n f S D F J V). destruct A as [A|A]; [exact (signed_whole s t f d S A)|exact A].
Qed.
Print Assumptions C65_number.
(** A percentage. *)
Theorem C65_percent s d t n : sign_words s = Some d -> decimal t n -> (n < 1000000000000)%N -> exists y, chinese_value y = Some n /\
  forall f, Forall digit_char f -> said_as (numeral s t f ++ u "%") (u "百分之" ++ d ++ y ++ point_words f).
Proof.
  intros S D L. destruct (integer_reading t n D L) as (m & J & V). exists (said s m). split; [now rewrite said_value|].
  intros f F. exact (percent_said s d t m n f S D F J V).
Qed.
Print Assumptions C65_percent.
(** A telephone number is said digit by digit, with 幺 for 1. *)
Theorem C65_hotline x : hotline x -> said_as x (flat_map phone_word x).
Proof.
  intro H. pose proof (hotline_digits _ H) as F. pose proof (digits_tidy _ F) as T. apply said_i; [exact (proj1 T)| |].
  - intros ->. destruct H as [I|(L & _)]; [|discriminate]. vm_compute in I. repeat (destruct I as [I|I]; [discriminate|]). destruct I.
  - intros o tg vb Et Ev.
    apply (value_answer o tg vb Et Ev (u "cardinal") Cardinal.rule (Some 10600%Z) Cardinal.cardinal x (flat_map phone_word x) (-10000)%Z); try reflexivity.
    + apply only_cardinal.
    + exact (proj1 T).
    + apply all_safe. exact (proj2 (digit_words _ F)).
    + intros z w. rewrite (cardinal_known _ _ _ T). split.
      * intros [(_ & -> & ->)|Hp]; [auto|]. exfalso. apply percent_shape in Hp as (x' & y' & -> & _). revert H. apply not_hotline. apply in_app_iff. right. left. reflexivity.
      * intros (-> & ->). left. auto.
    + intros e E. exact (hotline_tagging o e E x H).
Qed.
Print Assumptions C65_hotline.
(** A decimal that looks like a date is not said as a number: 10.5 becomes the fifth of October. *)
Theorem C65_date_refuted : exists o en, engine_for (zh_tn o) en /\ decimal (u "10") 10 /\ Forall digit_char (u "5") /\
  normalize 300 en (numeral [] (u "10") (u "5")) (PyInt 1) = POk (One (u "十月五日")).
Proof.
  set (o := Options true true true true true false).
  destruct (tagger o) as [t|] eqn:Et; [|discriminate]. destruct (verbalizer o) as [v|] eqn:Ev; [|discriminate].
  exists o, (GrammarEngine.graph_engine zh_tn_token_orders t v engine_w). split.
  { split; [reflexivity|]. exists t, v. split; [exact Et|]. split; [exact Ev|]. pose proof (GrammarEngine.zh_tn_tagger_loopfree o) as L1. pose proof (GrammarEngine.zh_tn_verbalizer_loopfree o) as L2.
    rewrite Et in L1. rewrite Ev in L2. now apply GrammarEngine.graph_engine_oracle. }
  split; [split; [discriminate|split; [apply PropsZhSpoken.digits_of; reflexivity|split; [discriminate|reflexivity]]]|].
  split; [apply PropsZhSpoken.digits_of; reflexivity|].
  assert (G : match tagger o, verbalizer o with
    | Some t, Some v => normalize 300 (GrammarEngine.graph_engine zh_tn_token_orders t v engine_w) (u "10.5") (PyInt 1)
    | _, _ => PErr PNoPath end = POk (One (u "十月五日"))) by (vm_compute; reflexivity).
  rewrite Et, Ev in G. exact G.
Qed.
Print Assumptions C65_date_refuted.

(** ** The hypotheses are met *)
(** Digits without a point are taken apart only into telephone numbers. *)
Lemma short_whole x : Forall digit_char x -> x <> [] -> List.length x < 3 -> forallb (fun l => (3 <=? List.length (Datatypes.fst (Fst.entry l)))%nat) DataZhTn.zh_tn_cardinal_phone = true -> ~ taken_apart x.
Proof.
  intros F N L A (ps & -> & H). destruct ps as [|p ps]; [contradiction|]. apply Forall_inv in H. cbn [List.concat] in *. rewrite app_length in L. apply Forall_app in F as (F & _).
  destruct H as [[I|(L' & _)]|(a & b & -> & _)]; [|lia|].
  - rewrite forallb_forall in A. apply in_map_iff in I as (l & <- & I). specialize (A l I). apply Nat.leb_le in A. lia.
  - rewrite Forall_app in F. destruct F as (_ & F). assert (D : digit_char 46%N) by exact (Forall_inv F). unfold digit_char in D. lia.
Qed.
Example C65_witness_number : exists o en y, engine_for (zh_tn o) en /\ chinese_value y = Some 32%N /\
  normalizes_to en (u "氣溫-32.50啊") (u "气温负" ++ y ++ u "点五零").
Proof.
  set (o := Options true true true true true true). destruct (engine_zh_tn o) as (en & En).
  assert (D : decimal (u "32") 32) by (split; [discriminate|split; [apply PropsZhSpoken.digits_of; reflexivity|split; [discriminate|reflexivity]]]).
  destruct (C65_number (u "-") (u "负") (u "32") 32 eq_refl D ltac:(reflexivity)) as (y & V & H). exists o, en, y. split; [exact En|]. split; [exact V|].
  assert (P : forall x, forallb (BoundaryLawProofs.plainb (rules o)) x = true -> plain (zh_tn o) x) by (intros x; apply (all_plain _ _ _ (PlainRules.zh_tn_only o))).
  assert (F : Forall digit_char (u "50")) by (apply PropsZhSpoken.digits_of; reflexivity). assert (Ns : u "-" <> []) by discriminate.
  specialize (H (u "50") F (or_introl Ns)). unfold said_as in H. specialize (H o en (u "氣溫") (u "啊") En).
  replace (u "气温负" ++ y ++ u "点五零") with (flat_map (zh_tn_clean o) (u "氣溫") ++ (u "负" ++ y ++ point_words (u "50")) ++ flat_map (zh_tn_clean o) (u "啊")).
  - change (u "氣溫-32.50啊") with (u "氣溫" ++ numeral (u "-") (u "32") (u "50") ++ u "啊"). apply H; [apply FstFacts.vtext_spec; reflexivity|apply FstFacts.vtext_spec; reflexivity|apply P; vm_compute; reflexivity|apply P; vm_compute; reflexivity].
  - assert (E1 : flat_map (zh_tn_clean o) (u "氣溫") = u "气温") by (vm_compute; reflexivity). assert (E2 : flat_map (zh_tn_clean o) (u "啊") = []) by (vm_compute; reflexivity).
    assert (E3 : point_words (u "50") = u "点五零") by (vm_compute; reflexivity). rewrite E1, E2, E3, app_nil_r. reflexivity.
Qed.
Example C65_witness_plain : ~ taken_apart (numeral [] (u "25") []) /\ ~ taken_apart (numeral [] (u "3") (u "14")) /\ hotline (u "10086") /\ hotline (u "13812345678").
Proof.
  split; [|split; [|split]].
  - apply short_whole; [apply PropsZhSpoken.digits_of; reflexivity|discriminate|vm_compute; auto|vm_compute; reflexivity].
  - intros (ps & E & H). destruct ps as [|p ps]; [discriminate|]. apply Forall_inv in H. cbn [List.concat] in E.
    destruct H as [[I|(L & F)]|(a & b & -> & H)].
    + pose proof (hotline_digits p (or_introl I)) as F. destruct p as [|c p]; [|destruct p as [|c' p]].
      * vm_compute in I. repeat (destruct I as [I|I]; [discriminate|]). destruct I.
      * injection E as <- _. vm_compute in I. repeat (destruct I as [I|I]; [discriminate|]). destruct I.
      * injection E as _ <- _. apply Forall_inv_tail, Forall_inv in F. unfold digit_char in F. lia.
    + destruct p as [|c [|c' p]]; try discriminate. injection E as _ <- _. apply Forall_inv_tail, Forall_inv in F. unfold digit_char in F. lia.
    + assert (2 <= List.length a /\ Forall digit_char a) as (La & F) by (unfold year_like, month_like in H; intuition lia).
      destruct a as [|c [|c' a]]; cbn [List.length] in La; try lia. injection E as _ <- _. apply Forall_inv_tail, Forall_inv in F. unfold digit_char in F. lia.
  - left. vm_compute. tauto.
  - right. split; [reflexivity|]. apply PropsZhSpoken.digits_of. reflexivity.
Qed.
