(** Property C85: a spoken percentage through the whole Chinese inverse normaliser.

    Vocabulary: [spoken_number x = Some n] (ZhSpokenSpec.v): the numeral [x] says the number [n];
    [decimal t n] (NumeralSpec.v): [t] is the decimal numeral of [n] without leading zeros;
    [zh_itn_said o w d] (ZhItnSaid.v): the inverse normaliser with the options [o] answers [d] for [w];
    [said_as x w] (PropsZhTnEnd.v): the normaliser answers [w] for [x] whatever its options; both
    alone or among characters that no rule but the one of single characters reads, whatever the engine. *)
From Coq Require Import List NArith ZArith Bool String Lia Arith.
From Verif Require Import Text TextFacts TokenModel Fst FstFacts GrammarModel NumeralSpec EnglishNumeralSpec ZhSpokenSpec ZhItnModel ZhItnTag ZhItnSaid ZhItnPercent.
From Verif Require PropsZhTnEnd ZhBack ZhBack2 ZhNumberProofs4 ZhTnModel.
Import ListNotations.
Local Open Scope list_scope.

(** Whatever the options, 百分之 before a numeral is written as the number with a percent sign.  A
    number of a million or more needs the option for millions, and a numeral must not end in 两, which
    is also a unit of weight. *)
Theorem C85_percent o x n d : spoken_number x = Some n -> (enable_million o = true \/ n < 1000000)%N -> ~ (exists a, x = a ++ u "两") -> decimal d n ->
  zh_itn_said o (u "百分之" ++ x) (d ++ u "%").
Proof. exact (percent_said o x n d). Qed.
Print Assumptions C85_percent.
(** What the normaliser says for a written percentage, the inverse normaliser writes back. *)
Theorem C85_round_percent o t n : decimal t n -> (n < 10 ^ 8)%N -> (enable_million o = true \/ n < 1000000)%N ->
  exists w, PropsZhTnEnd.said_as (t ++ u "%") w /\ zh_itn_said o w (t ++ u "%").
Proof.
  intros D L M. destruct (ZhNumberProofs4.integer_reading t n D ltac:(lia)) as (m & J & V). pose proof (PropsZhTnEnd.percent_said [] [] t m n [] eq_refl D (Forall_nil _) J V) as P. pose proof (PropsZhTnEnd.plain_said [] [] t m n [] eq_refl D (Forall_nil _) J V) as Pl.
  unfold ZhTnEndSpec.numeral, ZhTnRead.words_of in P, Pl. cbn [app ZhTnEndSpec.point_words] in P, Pl. rewrite !app_nil_r in P, Pl.
  destruct (ZhBack.number_spoken t n D L) as (y & S & Jy). eexists. split; [exact P|]. pose proof (proj2 (Jy y 0%Z) (conj eq_refl eq_refl)) as H. pose proof (ZhBack2.number_ends t y 0%Z (proj1 (proj2 D)) H) as Nl.
  apply ZhNumberProofs4.number_digits in H; [|exact (proj1 (proj2 D))]. apply Pl in H as (<- & _). apply (C85_percent o y n t S M); [|exact D]. intros (a & E). exact (Nl a E).
Qed.
Print Assumptions C85_round_percent.
(** The hypotheses are met: 百分之三十五 is written 35%, and 12% is said and written back. *)
Example C85_witness (o : options) : zh_itn_said o (u "百分之三十五") (u "35%").
Proof.
  refine (C85_percent o (u "三十五") 35 (u "35") _ (or_intror _) _ _); [vm_compute; reflexivity|lia| |].
  - intros (a & E). apply (f_equal (fun t => hd 0%N (rev t))) in E. rewrite rev_app_distr in E. discriminate E.
  - split; [discriminate|]. split; [repeat constructor; vm_compute; intro X; discriminate X|]. split; [vm_compute; intro X; discriminate X|reflexivity].
Qed.
