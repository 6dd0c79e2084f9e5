(** Spoken Chinese numbers (C61): their tokens, and what is answered to them. *)
From Coq Require Import List NArith ZArith Bool String Lia Arith.
From Verif Require Import Text TextFacts TokenModel Fst FstFacts FstRun GrammarModel GrammarShape GrammarAccept NumeralSpec EnglishNumeralSpec ZhSpokenSpec.
From Verif Require Import EnSpokenProofs ZhSpokenProofs ZhSpokenProofs2 TokenVerbal ZhItnModel ZhItnVerbal.
Import ListNotations.
Local Open Scope list_scope.

Definition plain (c : N) : bool := vchar c && negb (c =? 34)%N && negb (c =? 92)%N.
Lemma numeral_plain c : numeral c = true -> plain c = true.
Proof.
  unfold numeral. destruct (digit_of c) as [n|] eqn:E.
  - intros _. exact (lookup_all (fun t _ => match t with [c] => plain c | _ => false end) spoken_digits ltac:(vm_compute; reflexivity) c n E).
  - intro H. apply orb_true_iff in H as [H|H].
    + unfold zero_of in H. apply orb_true_iff in H as [H|H].
      * destruct (text_eqb_spec (u "零") [c]) as [X|]; [|discriminate]. vm_compute in X. injection X as <-. reflexivity.
      * destruct (text_eqb_spec (u "洞") [c]) as [X|]; [|discriminate]. vm_compute in X. injection X as <-. reflexivity.
    + apply existsb_exists in H as (t & I & X). destruct (text_eqb_spec [c] t) as [<-|]; [|discriminate].
      unfold units in I. cbn [In] in I. repeat destruct I as [I|I]; [..|destruct I]; vm_compute in I; injection I as <-; reflexivity.
Qed.
Lemma spoken_plain x n : spoken_number x = Some n -> forallb plain x = true.
Proof.
  intro H. assert (G : forall t, Forall (fun c => numeral c = true) t -> forallb plain t = true).
  { intros t F. rewrite forallb_forall. rewrite Forall_forall in F. intros c I. exact (numeral_plain c (F c I)). }
  apply spoken_cases in H as [H|(a & b & k & j & -> & A & B & _)].
  - apply small_either in H as [(z & -> & Z & _)|H]; [cbn [forallb]; now rewrite (numeral_plain z (numeral_zero z Z))|exact (G _ (numerals_section _ _ H))].
  - rewrite !forallb_app, (G a), (G b); [reflexivity|exact (numerals_after_wan _ _ B)|exact (numerals_section _ _ A)].
Qed.
Lemma plain_facts x : forallb plain x = true -> forallb vchar x = true /\ ~ In 34%N x /\ ~ In 92%N x.
Proof.
  rewrite !forallb_forall. intro F. split; [|split].
  - intros c I. specialize (F c I). unfold plain in F. now rewrite !andb_true_iff in F.
  - intro I. specialize (F _ I). vm_compute in F. discriminate.
  - intro I. specialize (F _ I). vm_compute in F. discriminate.
Qed.
Lemma digits_kept d n : decimal d n -> forallb kept d = true.
Proof.
  intros (_ & F & _). rewrite forallb_forall. rewrite Forall_forall in F. intros c I. specialize (F c I). unfold digit_char in F.
  assert (c = 48 \/ c = 49 \/ c = 50 \/ c = 51 \/ c = 52 \/ c = 53 \/ c = 54 \/ c = 55 \/ c = 56 \/ c = 57)%N as C by lia.
  repeat destruct C as [->|C]; try (vm_compute; reflexivity). rewrite C. vm_compute. reflexivity.
Qed.
(** The token holds what was said, in the words it was said in. *)
Lemma cardinal_tagged o x t w : forallb plain x = true -> denote (r_tagger (Cardinal.rule o)) x t w <->
  t = value_token (u "cardinal") x ++ u " " /\ exists z, denote (Cardinal.cardinal o) x z w.
Proof.
  intro P. destruct (plain_facts x P) as (V & Q & B). unfold Cardinal.rule. cbn [r_tagger]. unfold add_tokens. split.
  - intro H. apply cat_inv in H as (x1 & y1 & w1 & x2 & y2 & w2 & -> & -> & -> & H & (-> & -> & ->)).
    apply cat_inv in H as (x3 & y3 & w3 & x4 & y4 & w4 & E & -> & -> & (-> & -> & ->) & H). rewrite app_nil_r in *. cbn [app] in E. subst x1.
    apply tag_field_spec in H as (_ & -> & z & G). rewrite (escape_plain x4 Q B). split.
    + unfold value_token. change (u "cardinal") with Cardinal.name. change (u " } ") with (u " }" ++ u " ").
      change (u " { value: """) with (u " { " ++ u "value" ++ u ": """). change (u """ }") with (u """" ++ u " }"). now rewrite <- !app_assoc.
    + exists z. replace (0 + w4 + 0)%Z with w4 by lia. exact G.
  - intros (-> & z & G).
    replace (value_token (u "cardinal") x ++ u " ") with (((Cardinal.name ++ u " { ") ++ (u "value" ++ u ": """ ++ x ++ u """")) ++ u " } ").
    + rewrite <- (app_nil_r x) at 1. replace w with (0 + w + 0)%Z by lia. apply cat_i; [|now cbn].
      apply (cat_i _ _ [] _ 0%Z); [now cbn|]. apply tag_field_spec. split; [exact V|]. rewrite (escape_plain x Q B). eauto.
    + unfold value_token. change (u "cardinal") with Cardinal.name. change (u " } ") with (u " }" ++ u " ").
      change (u " { value: """) with (u " { " ++ u "value" ++ u ": """). change (u """ }") with (u """" ++ u " }"). now rewrite <- !app_assoc.
Qed.
