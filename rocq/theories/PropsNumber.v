(** Property C45: the reading of Chinese numbers (tn/chinese/rules/cardinal.py).

    Vocabulary: [decimal] and [chinese_value] are in NumeralSpec.v; [Cardinal.number]
    (ZhTnModel.v) is the number graph every rule shares. *)
From Coq Require Import List NArith ZArith Bool String Lia.
From Verif Require Import Text Fst FstFacts FstRun GrammarModel ZhTnModel NumeralSpec.
From Verif Require Import ZhNumberProofs ZhNumberProofs2 ZhNumberProofs3 ZhNumberProofs4.
Import ListNotations.
Local Open Scope list_scope.

(** Every number below 10^12 has exactly one reading, and its value is the number. *)
Theorem C45_reading : forall t n, decimal t n -> (n < 10 ^ 12)%N ->
  exists y, chinese_value y = Some n /\
    forall z, (exists w, denote Cardinal.number t z w) <-> z = y.
Proof.
  intros t n D L. destruct (number_reading t n D L) as (y & V & J). exists y. split; [exact V|].
  intro z. split; [intros (w & H); now apply J in H|intros ->; exists 0%Z; now apply J].
Qed.
Print Assumptions C45_reading.
(** From 10^12 on there is none. *)
Theorem C45_domain : forall t n, decimal t n -> (10 ^ 12 <= n)%N -> forall z w, ~ denote Cardinal.number t z w.
Proof. exact number_none. Qed.
Print Assumptions C45_domain.

(** Different numbers have different readings. *)
Theorem C45_apart : forall t t' n n' z w w', decimal t n -> decimal t' n' ->
  denote Cardinal.number t z w -> denote Cardinal.number t' z w' -> n = n'.
Proof.
  intros t t' n n' z w w' D D' H H'.
  destruct (N.lt_ge_cases n (10 ^ 12)) as [L|L]; [|now apply (C45_domain t n D L) in H].
  destruct (N.lt_ge_cases n' (10 ^ 12)) as [L'|L']; [|now apply (C45_domain t' n' D' L') in H'].
  destruct (number_reading t n D L) as (y & V & J). destruct (number_reading t' n' D' L') as (y' & V' & J').
  apply J in H as (-> & _). apply J' in H' as (<- & _). rewrite V in V'. now injection V'.
Qed.
Print Assumptions C45_apart.

(** Every number is written in exactly one way, so the theorems are about all numbers. *)
Theorem C45_every_number : forall n, exists t, decimal t n.
Proof.
  induction n as [n IH] using (well_founded_induction N.lt_wf_0).
  destruct (N.lt_ge_cases n 10) as [L|L].
  - exists [(48 + n)%N]. split; [discriminate|]. split; [|split].
    + constructor; [unfold digit_char; lia|constructor].
    + cbn [hd]. intro E. now rewrite E.
    + unfold decimal_value. cbn [fold_left]. lia.
  - pose proof (N.div_mod n 10 ltac:(lia)) as E. pose proof (N.mod_lt n 10 ltac:(lia)) as M.
    destruct (IH (n / 10)%N) as (t & Nt & F & H & V); [apply N.div_lt; lia|].
    exists (t ++ [(48 + n mod 10)%N]). split; [now destruct t|]. split; [|split].
    + apply Forall_app. split; [exact F|]. constructor; [unfold digit_char; lia|constructor].
    + destruct t as [|c t]; [now destruct Nt|]. cbn [app hd] in *. intro C. specialize (H C).
      injection H as -> ->. exfalso. unfold decimal_value in V. cbn in V.
      assert (1 <= n / 10)%N by (apply N.div_le_lower_bound; lia). lia.
    + rewrite value_app, V. cbn [List.length]. change (10 ^ N.of_nat 1)%N with 10%N.
      unfold decimal_value. cbn [fold_left]. lia.
Qed.
Print Assumptions C45_every_number.

Example C45_witness : decimal (u "200300040005") 200300040005 /\
  denote Cardinal.number (u "200300040005") (u "两千零三亿零四万零五") 0%Z.
Proof.
  assert (D : decimal (u "200300040005") 200300040005).
  { split; [discriminate|]. split; [|split].
    - change (u "200300040005") with [50; 48; 48; 51; 48; 48; 48; 52; 48; 48; 48; 53]%N.
      repeat (constructor; [unfold digit_char; lia|]). constructor.
    - discriminate.
    - reflexivity. }
  split; [exact D|]. pose proof D as (_ & F & _).
  apply number_digits; [exact F|]. apply plain_digits; [exact F|].
  replace (u "两千零三亿零四万零五") with [20004; 21315; 38646; 19977; 20159; 38646; 22235; 19975; 38646; 20116]%N by (vm_compute; reflexivity).
  exists [20108; 21315; 38646; 19977; 20159; 38646; 22235; 19975; 38646; 20116]%N, 0%Z, 0%Z. split; [reflexivity|]. split.
  - apply outs_all; [reflexivity|]. vm_compute. auto 20.
  - apply liang_spec; split; vm_compute; reflexivity.
Qed.
