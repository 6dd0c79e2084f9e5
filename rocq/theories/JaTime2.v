(** Times of day of the Japanese normaliser: the verbaliser and the whole (C75). *)
From Coq Require Import List NArith ZArith Bool String Lia Arith.
From Verif Require Import Text TextFacts TokenModel Fst FstFacts FstRun GrammarModel GrammarSpec GrammarAccept NumeralSpec EnglishNumeralSpec DataJaTn JaTnModel ZhTnEndSpec ZhDateSpec ZhAmountSpec JaNumeralSpec JaAmountSpec WholeSpec.
From Verif Require Import BoundaryChar Letters Apart OneToken TokenVerbal Fields ZhNumberProofs ZhTnRead ZhTnPost ZhDate ZhDate2 ZhAmount ZhMoney ZhTime JaApart JaHead JaPost JaNumber JaNumber2 JaDate JaDate2 JaDate3 JaTnRead JaTnRead2 PropsJaDate PropsJaNumber JaFraction JaMoney JaTime.
From Verif Require EndToEnd EnNumberProofs5 PlainRules FstEval Whole PipelineModel.
Import ListNotations.
Local Open Scope list_scope.

Definition jhour_part (h : text) : text := u "hour: """ ++ h ++ u """".
Definition jminute_part (m : text) : text := u " minute: """ ++ m ++ u """".
Section Opt.
Variable o : options.
Lemma un_noon x z w : denote (Time.g_noon o) x z w -> forallb unquoted x = true.
Proof. apply unquoted_of. destruct o as [t i p [] v]; vm_compute; reflexivity. Qed.
Lemma un_hour x z w : denote (Time.g_hour o) x z w -> forallb unquoted x = true.
Proof. apply unquoted_of. destruct o as [t i p [] v]; vm_compute; reflexivity. Qed.
Lemma un_minute x z w : denote (Time.g_minute o) x z w -> forallb unquoted x = true.
Proof. apply unquoted_of. destruct o as [t i p [] v]; vm_compute; reflexivity. Qed.
Lemma un_second x z w : denote (Time.g_second o) x z w -> forallb unquoted x = true.
Proof. apply unquoted_of. destruct o as [t i p [] v]; vm_compute; reflexivity. Qed.
(** What the parts of the verbaliser read. *)
Lemma part_split k a b r r' : forallb unquoted a = true -> forallb unquoted b = true -> (k ++ a ++ u """") ++ r = (k ++ b ++ u """") ++ r' -> a = b /\ r = r'.
Proof.
  intros A B E. rewrite <- !app_assoc in E. change (u """") with (34%N :: []) in E. cbn [app] in E. apply value_split in E as (-> & E); [|exact A|exact B]. auto.
Qed.
Lemma noon_parts no r r' vo : match no with Some a => forallb unquoted a = true | None => True end -> match vo with Some a => forallb unquoted a = true | None => True end ->
  noon_part no ++ u "hour: """ ++ r = noon_part vo ++ u "hour: """ ++ r' -> no = vo /\ r = r'.
Proof.
  destruct no as [a|], vo as [b|]; cbn [noon_part app]; intros A B E.
  - rewrite <- !app_assoc in E. change (u """ ") with (34%N :: u " ") in E. rewrite <- !app_comm_cons in E. apply value_split in E as (-> & E); [|exact A|exact B]. apply app_inv_head in E. injection E as E. auto.
  - rewrite <- !app_assoc in E. discriminate E.
  - rewrite <- !app_assoc in E. discriminate E.
  - apply app_inv_head in E. auto.
Qed.
Lemma v_noon_inv x y w : denote (ques (Time.v_noon o)) x y w -> exists vo, x = noon_part vo /\ match vo with Some a => denote (Time.g_noon o) a y w | None => y = [] /\ w = 0%Z end.
Proof.
  intros [H|(-> & -> & ->)]; [|exists None; auto]. apply shed_denote in H as (v & -> & H). exists (Some v). auto.
Qed.
Lemma v_second_inv x y w : denote (ques (Time.v_second o)) x y w -> exists vo, x = second_part vo /\ match vo with Some a => denote (Time.g_second o) a y w | None => y = [] /\ w = 0%Z end.
Proof.
  intros [H|(-> & -> & ->)]; [|exists None; auto]. apply shed_denote in H as (v & -> & H). exists (Some v). auto.
Qed.
Lemma jtime_verbal no h m so dn dh dm ds : opt_reads (Time.g_noon o) no dn -> opt_reads (Time.g_hour o) (Some h) dh -> opt_reads (Time.g_minute o) (Some m) dm -> opt_reads (Time.g_second o) so ds -> forall z w,
  denote (Time.verbalizer o) (noon_part no ++ jhour_part h ++ jminute_part m ++ second_part so) z w <-> z = dn ++ dh ++ dm ++ ds /\ w = 0%Z.
Proof.
  intros N (Uh & H0) (Um & M) S z w. unfold Time.verbalizer. assert (Un : match no with Some a => forallb unquoted a = true | None => True end) by (destruct no; [exact (proj1 N)|exact I]). split.
  - intros [H|H].
    + apply cat_inv in H as (x1 & y1 & w1 & xs & ys & ws & E & -> & -> & H & Hs). apply cat_inv in H as (x2 & y2 & w2 & xm & ym & wm & -> & -> & -> & H & Hm). apply cat_inv in H as (xn & yn & wn & xh & yh & wh & -> & -> & -> & Hn & Hh).
      apply shed_denote in Hm as (vm & -> & Hm). apply shed_denote in Hh as (vh & -> & Hh). apply v_noon_inv in Hn as (vn & -> & Hn). apply v_second_inv in Hs as (vs & -> & Hs).
      unfold jhour_part, jminute_part in E. rewrite <- !app_assoc in E. apply noon_parts in E as (<- & E); [|exact Un|destruct vn as [a|]; [exact (un_noon _ _ _ Hn)|exact I]].
      change (u """") with (34%N :: []) in E. cbn [app] in E. apply (value_split [] h _ vh) in E as (<- & E); [|exact Uh|exact (un_hour _ _ _ Hh)]. apply app_inv_head in E.
      apply (value_split [] m _ vm) in E as (<- & E); [|exact Um|exact (un_minute _ _ _ Hm)].
      assert (Es : so = vs).
      { destruct so as [a|], vs as [b|]; cbn [second_part] in E; try discriminate E; [|reflexivity]. change (u """") with (34%N :: []) in E. apply value_split in E as (-> & _); [reflexivity|exact (proj1 S)|exact (un_second _ _ _ Hs)]. }
      subst vs. apply M in Hm as (-> & ->). apply H0 in Hh as (-> & ->).
      assert (Tn : yn = dn /\ wn = 0%Z) by (destruct no as [a|]; [apply (proj2 N) in Hn; exact Hn|destruct Hn as (-> & ->); now rewrite N]).
      assert (Ts : ys = ds /\ ws = 0%Z) by (destruct so as [a|]; [apply (proj2 S) in Hs; exact Hs|destruct Hs as (-> & ->); now rewrite S]).
      destruct Tn as (-> & ->), Ts as (-> & ->). rewrite <- !app_assoc. auto.
    + exfalso. apply cat_inv in H as (xn & yn & wn & xh & yh & wh & E & -> & -> & Hn & Hh). apply shed_denote in Hn as (vn & -> & Hn). apply shed_denote in Hh as (vh & -> & Hh).
      unfold jhour_part, jminute_part in E. rewrite <- (app_assoc (u "hour: """)) in E. change (u "noon: """ ++ vn ++ u """ ") with (noon_part (Some vn)) in E.
      apply noon_parts in E as (_ & E); [|exact Un|exact (un_noon _ _ _ Hn)]. rewrite <- !app_assoc in E. change (u """") with (34%N :: []) in E. cbn [app] in E. apply (value_split [] h _ vh) in E as (_ & E); [|exact Uh|exact (un_hour _ _ _ Hh)]. discriminate E.
  - intros (-> & ->). left.
    replace (noon_part no ++ jhour_part h ++ jminute_part m ++ second_part so) with (((noon_part no ++ jhour_part h) ++ jminute_part m) ++ second_part so) by now rewrite <- !app_assoc.
    replace (dn ++ dh ++ dm ++ ds) with (((dn ++ dh) ++ dm) ++ ds) by now rewrite <- !app_assoc. change 0%Z with (0 + 0 + 0 + 0)%Z. repeat apply cat_i.
    + destruct no as [a|]; [left; apply shed_denote; exists a; split; [reflexivity|now apply N]|right; cbn; auto].
    + apply shed_denote. exists h. split; [reflexivity|now apply H0].
    + apply shed_denote. exists m. split; [reflexivity|now apply M].
    + destruct so as [a|]; [left; apply shed_denote; exists a; split; [reflexivity|now apply S]|right; cbn; auto].
Qed.
Lemma hnoon_verbal t h dn dh : opt_reads (Time.g_noon o) (Some t) dn -> opt_reads (Time.g_hour o) (Some h) dh -> forall z w,
  denote (Time.verbalizer o) (noon_part (Some t) ++ jhour_part h) z w <-> z = dn ++ dh /\ w = 0%Z.
Proof.
  intros (Un & N) (Uh & H0) z w. unfold Time.verbalizer. split.
  - intros [H|H].
    + exfalso. apply cat_inv in H as (x1 & y1 & w1 & xs & ys & ws & E & -> & -> & H & Hs). apply cat_inv in H as (x2 & y2 & w2 & xm & ym & wm & -> & -> & -> & H & Hm). apply cat_inv in H as (xn & yn & wn & xh & yh & wh & -> & -> & -> & Hn & Hh).
      apply shed_denote in Hm as (vm & -> & Hm). apply shed_denote in Hh as (vh & -> & Hh). apply v_noon_inv in Hn as (vn & -> & Hn).
      unfold jhour_part in E. rewrite <- !app_assoc in E. apply noon_parts in E as (<- & E); [|exact Un|destruct vn as [a|]; [exact (un_noon _ _ _ Hn)|exact I]].
      change (u """") with (34%N :: []) in E. cbn [app] in E. apply (value_split [] h _ vh) in E as (<- & E); [|exact Uh|exact (un_hour _ _ _ Hh)]. discriminate E.
    + apply cat_inv in H as (xn & yn & wn & xh & yh & wh & E & -> & -> & Hn & Hh). apply shed_denote in Hn as (vn & -> & Hn). apply shed_denote in Hh as (vh & -> & Hh).
      change (u "noon: """ ++ vn ++ u """ ") with (noon_part (Some vn)) in E. unfold jhour_part in E. apply noon_parts in E as (E1 & E); [|exact Un|exact (un_noon _ _ _ Hn)]. injection E1 as <-.
      change (u """") with (34%N :: []) in E. apply (value_split [] h _ vh) in E as (<- & _); [|exact Uh|exact (un_hour _ _ _ Hh)].
      apply N in Hn as (-> & ->). apply H0 in Hh as (-> & ->). auto.
  - intros (-> & ->). right. change 0%Z with (0 + 0)%Z. apply cat_i; apply shed_denote; eexists; (split; [reflexivity|]); [now apply N|now apply H0].
Qed.
(** ** The other rules *)
Lemma only_jtime : name_only (rules o) (u "time") (RuleSpec (Time.rule o (r_tagger (Range.rule o))) (Some 10500%Z) true).
Proof. destruct o as [[] i p f v]; PlainRules.only_tac. Qed.
Lemma jtime_first s k x y v : forallb tchar x = true -> In 58%N x -> In s (rules o) -> s_weight s = Some k -> denote (r_tagger (s_rule s)) x y v ->
  s = RuleSpec (Time.rule o (r_tagger (Range.rule o))) (Some 10500%Z) true \/ (10500 < k)%Z.
Proof.
  intros K J I W H. destruct (confined tchar uncoloned (r_tagger (s_rule s))) eqn:E.
  - exfalso. pose proof (confined_sound tchar uncoloned tchar_valid _ E _ _ _ K H) as F. rewrite forallb_forall in F. specialize (F _ J). discriminate F.
  - unfold rules in I. apply in_app_iff in I as [I|I].
    + cbn [In] in I. destruct I as [<-|[<-|[<-|[<-|[<-|[<-|[<-|[<-|[<-|[<-|[<-|[]]]]]]]]]]]]; cbn [s_weight] in W; try (injection W as <-); try discriminate W; auto; try (right; lia);
        exfalso; revert E; clear; destruct o as [t i p [] v]; vm_compute; discriminate.
    + destruct (transliterate o); [|destruct I]. destruct I as [<-|[]]. exfalso. revert E. clear. destruct o as [t i p [] v]; vm_compute; discriminate.
Qed.
End Opt.
