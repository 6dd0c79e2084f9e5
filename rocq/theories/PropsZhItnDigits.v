(** Property C88: telephone and identity numbers through the whole Chinese inverse normaliser.

    Vocabulary: [digit_named c d] (ZhItnPlateSpec.v): the digit said [c] is written [d].
    [zh_itn_said o w d] (ZhItnSaid.v): the inverse normaliser with the options [o] answers [d] for [w],
    alone or among characters that no rule but the one of single characters reads, whatever the engine. *)
From Coq Require Import List NArith ZArith Bool String Lia Arith.
From Verif Require ZhTnEndSpec PropsZhTnEnd DataZhTn Fst.
From Verif Require Import Text TextFacts NumeralSpec ZhItnModel ZhItnPlateSpec ZhItnSaid ZhItnDigits PropsZhItnPlate.
Import ListNotations.
Local Open Scope list_scope.

(** Three, four, five, eleven or eighteen digits, said one by one, are written one by one, whatever
    the options; 两, which is also a unit of weight, is not among them. *)
Theorem C88_digits o ds Ds : Forall2 digit_named ds Ds -> ~ In (hd 0%N (u "两")) ds -> In (List.length ds) [3; 4; 5; 11; 18] -> zh_itn_said o ds Ds.
Proof. exact (digits_said o ds Ds). Qed.
Print Assumptions C88_digits.
(** Seventeen digits and an X: the number of an identity card. *)
Theorem C88_identity o ds Ds c : Forall2 digit_named ds Ds -> ~ In (hd 0%N (u "两")) ds -> List.length ds = 17 -> [c] = u "X" \/ [c] = u "x" -> zh_itn_said o (ds ++ [c]) (Ds ++ [c]).
Proof. exact (identity_said o ds Ds c). Qed.
Print Assumptions C88_identity.
(** What the normaliser says for a telephone number, the inverse normaliser writes back: any eleven
    digits, and the listed numbers. *)
Lemma absent c l : existsb (N.eqb c) l = false -> ~ In c l.
Proof. intros E I. assert (X : existsb (N.eqb c) l = true) by (apply existsb_exists; exists c; split; [exact I|apply N.eqb_refl]). congruence. Qed.
Lemma phone_named x : Forall digit_char x -> exists y, flat_map ZhTnEndSpec.phone_word x = y /\ Forall2 digit_named y x /\ ~ In (hd 0%N (u "两")) y /\ List.length y = List.length x.
Proof.
  intro F. induction F as [|c x D F (y & E & N & Ne & L)]; [exists []; split; [reflexivity|]; split; [constructor|]; split; [intros []|reflexivity]|].
  assert (W : exists d, ZhTnEndSpec.phone_word c = [d] /\ digit_named d c /\ d <> hd 0%N (u "两")).
  { assert (C : c = 48%N \/ c = 49%N \/ c = 50%N \/ c = 51%N \/ c = 52%N \/ c = 53%N \/ c = 54%N \/ c = 55%N \/ c = 56%N \/ c = 57%N) by (unfold digit_char in D; lia).
    clear -C. repeat destruct C as [-> |C]; [..|subst c]; eexists; (split; [vm_compute; reflexivity|split; [vm_compute; tauto|vm_compute; discriminate]]). }
  destruct W as (d & Ed & Dn & Nd). exists (d :: y). cbn [flat_map]. rewrite Ed, E. split; [reflexivity|]. split; [constructor; assumption|]. split; [|cbn; now rewrite L]. intros [I|I]; [exact (Nd I)|exact (Ne I)].
Qed.
Definition digitb (c : N) : bool := (48 <=? c)%N && (c <=? 57)%N.
Lemma listed_lengths : forallb (fun l => forallb digitb (Datatypes.fst (Fst.entry l)) && existsb (Nat.eqb (List.length (Datatypes.fst (Fst.entry l)))) [3; 4; 5; 11; 18]) DataZhTn.zh_tn_cardinal_phone = true.
Proof. vm_compute. reflexivity. Qed.
Theorem C88_round_phone o x : ZhTnEndSpec.hotline x -> exists w, PropsZhTnEnd.said_as x w /\ zh_itn_said o w x.
Proof.
  intro H. assert (A : Forall digit_char x /\ In (List.length x) [3; 4; 5; 11; 18]).
  { destruct H as [H|(L & F)]; [|split; [exact F|rewrite L; cbn; tauto]]. apply in_map_iff in H as (l & <- & I). pose proof (proj1 (forallb_forall _ _) listed_lengths l I) as X. cbn beta in X. apply andb_true_iff in X as (X & Y). split.
    - apply Forall_forall. intros c J. rewrite forallb_forall in X. specialize (X c J). unfold digitb in X. apply andb_true_iff in X as (X1 & X2). apply N.leb_le in X1, X2. unfold digit_char. lia.
    - apply existsb_exists in Y as (n & J & E). apply Nat.eqb_eq in E. rewrite E. exact J. }
  destruct A as (F & L). destruct (phone_named x F) as (y & E & N & Ne & Ly). exists (flat_map ZhTnEndSpec.phone_word x). split; [exact (PropsZhTnEnd.C65_hotline x H)|]. rewrite E. apply C88_digits; [exact N|exact Ne|rewrite Ly; exact L].
Qed.
Print Assumptions C88_round_phone.
(** The hypotheses are met: 幺三八零零洞幺二三四五 is the telephone number 13800012345. *)
Example C88_witness_phone (o : options) : zh_itn_said o (u "幺三八零零洞幺二三四五") (u "13800012345").
Proof. apply C88_digits; [apply named; vm_compute; reflexivity|apply absent; vm_compute; reflexivity|do 3 right; left; vm_compute; reflexivity]. Qed.
Example C88_witness_identity (o : options) : zh_itn_said o (u "一一零幺零一一九九零零一零一一二三" ++ [88%N]) (u "11010119900101123" ++ [88%N]).
Proof. apply C88_identity; [apply named; vm_compute; reflexivity|apply absent; vm_compute; reflexivity|vm_compute; reflexivity|left; reflexivity]. Qed.
Example C88_witness_round (o : options) : exists w, PropsZhTnEnd.said_as (u "13800012345") w /\ zh_itn_said o w (u "13800012345").
Proof. apply C88_round_phone. right. split; [reflexivity|]. repeat constructor; unfold digit_char; vm_compute; intro X; discriminate X. Qed.
