(** Property C86: a spoken fraction through the whole Chinese inverse normaliser.

    Vocabulary: [spoken_number x = Some n] (ZhSpokenSpec.v): the numeral [x] says the number [n];
    [decimal t n] (NumeralSpec.v): [t] is the decimal numeral of [n] without leading zeros;
    [zh_itn_said o w d] (ZhItnSaid.v): the inverse normaliser with the options [o] answers [d] for [w];
    [said_as x w] (PropsZhTnEnd.v): the normaliser answers [w] for [x] whatever its options; both
    alone or among characters that no rule but the one of single characters reads, whatever the engine;
    [written_date x] (ZhAmountSpec.v): the normaliser reads [x] as a date. *)
From Coq Require Import List NArith ZArith Bool String Lia Arith.
From Verif Require Import Text TextFacts TokenModel Fst FstFacts GrammarModel NumeralSpec EnglishNumeralSpec ZhSpokenSpec ZhItnModel ZhItnTag ZhItnSaid ZhItnFraction2.
From Verif Require ZhNumberProofs ZhAmountSpec ZhTnRead PropsZhTnEnd PropsZhAmount ZhAmount ZhBack ZhBack2 ZhNumberProofs4 ZhTnModel.
Import ListNotations.
Local Open Scope list_scope.

(** Whatever the options, the denominator [x], 分之 and the numerator [y] are written numerator,
    slash, denominator.  A number of a million or more needs the option for millions, and the numerator
    must not end in 两, which is also a unit of weight. *)
Theorem C86_fraction o x n dx y m dy : spoken_number x = Some n -> spoken_number y = Some m ->
  (enable_million o = true \/ n < 1000000)%N -> (enable_million o = true \/ m < 1000000)%N -> ~ (exists a, y = a ++ u "两") ->
  decimal dx n -> decimal dy m -> zh_itn_said o (x ++ u "分之" ++ y) (dy ++ u "/" ++ dx).
Proof. exact (fraction_said o x n dx y m dy). Qed.
Print Assumptions C86_fraction.
(** What the normaliser says for a written number, and that the inverse reads it. *)
Lemma said_back t n : decimal t n -> (n < 10 ^ 8)%N ->
  exists y m, ZhNumberProofs.just ZhTnModel.Cardinal.integer t m /\ chinese_value m = Some n /\ ZhTnRead.words_of [] [] [] m = y /\ spoken_number y = Some n /\ ~ (exists a, y = a ++ u "两").
Proof.
  intros D L. destruct (ZhNumberProofs4.integer_reading t n D ltac:(lia)) as (m & J & V). pose proof (PropsZhTnEnd.plain_said [] [] t m n [] eq_refl D (Forall_nil _) J V) as Pl.
  unfold ZhTnEndSpec.numeral in Pl. cbn [app ZhTnEndSpec.point_words] in Pl. rewrite !app_nil_r in Pl.
  destruct (ZhBack.number_spoken t n D L) as (y & S & Jy). pose proof (proj2 (Jy y 0%Z) (conj eq_refl eq_refl)) as H. pose proof (ZhBack2.number_ends t y 0%Z (proj1 (proj2 D)) H) as Nl.
  apply ZhNumberProofs4.number_digits in H; [|exact (proj1 (proj2 D))]. apply Pl in H as (E & _). exists y, m. split; [exact J|]. split; [exact V|]. split; [now symmetry|]. split; [exact S|]. intros (a & Ea). exact (Nl a Ea).
Qed.
(** What the normaliser says for a written fraction that is no date, the inverse normaliser writes back. *)
Theorem C86_round_fraction o t n t' n' : decimal t n -> decimal t' n' -> (n < 10 ^ 8)%N -> (n' < 10 ^ 8)%N ->
  (enable_million o = true \/ n < 1000000)%N -> (enable_million o = true \/ n' < 1000000)%N -> ~ ZhAmountSpec.written_date (t ++ u "/" ++ t') ->
  exists w, PropsZhTnEnd.said_as (t ++ u "/" ++ t') w /\ zh_itn_said o w (t ++ u "/" ++ t').
Proof.
  intros D D' L L' M M' W. destruct (said_back t n D L) as (y & m & J & V & E & S & Nl). destruct (said_back t' n' D' L') as (y' & m' & J' & V' & E' & S' & _).
  pose proof (ZhAmount.number_spoken [] [] t n [] m eq_refl D (Forall_nil _) J V) as A. pose proof (ZhAmount.number_spoken [] [] t' n' [] m' eq_refl D' (Forall_nil _) J' V') as B. rewrite E in A. rewrite E' in B.
  unfold ZhTnEndSpec.numeral in A, B. cbn [app] in A, B. rewrite app_nil_r in A, B.
  exists (y' ++ u "分之" ++ y). split; [exact (ZhAmount.fraction_said _ _ _ _ [] [] A B (or_introl eq_refl) (or_introl eq_refl) W)|].
  exact (C86_fraction o y' n' t' y n t S' S M' M Nl D' D).
Qed.
Print Assumptions C86_round_fraction.
(** The hypotheses are met: 三分之一 is written 1/3, and 1/3 is said and written back. *)
Lemma dec1 : decimal (u "1") 1.
Proof. split; [discriminate|]. split; [repeat constructor; vm_compute; intro X; discriminate X|]. split; [vm_compute; intro X; discriminate X|reflexivity]. Qed.
Lemma dec3 : decimal (u "3") 3.
Proof. split; [discriminate|]. split; [repeat constructor; vm_compute; intro X; discriminate X|]. split; [vm_compute; intro X; discriminate X|reflexivity]. Qed.
Example C86_witness (o : options) : zh_itn_said o (u "三分之一") (u "1/3").
Proof.
  refine (C86_fraction o (u "三") 3 (u "3") (u "一") 1 (u "1") _ _ (or_intror _) (or_intror _) _ dec3 dec1); [vm_compute; reflexivity|vm_compute; reflexivity|lia|lia|].
  intros (a & E). apply (f_equal (fun t => hd 0%N (rev t))) in E. rewrite rev_app_distr in E. discriminate E.
Qed.
Example C86_round_witness (o : options) : exists w, PropsZhTnEnd.said_as (u "1/3") w /\ zh_itn_said o w (u "1/3").
Proof. refine (C86_round_fraction o (u "1") 1 (u "3") 3 dec1 dec3 _ _ (or_intror _) (or_intror _) _); try lia. apply PropsZhAmount.C68_no_date. left. cbn; lia. Qed.
