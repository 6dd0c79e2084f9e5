(** Spoken Japanese numbers: the inverse normaliser's graph reads every numeral below 10^8 that does not say "one ten". *)
From Coq Require Import List NArith ZArith Bool String Lia Arith.
From Verif Require Import Text TextFacts Fst FstFacts FstRun GrammarModel DataJaItn JaItnModel NumeralSpec JaNumeralSpec ZhNumberProofs ZhNumberProofs2 JaNumber JaNumber2 JaSpoken JaSpoken2.
Import ListNotations.
Local Open Scope list_scope.
Local Open Scope fst_scope.

(** ** The words *)
Lemma lookup_in (tbl : list (string * N)) c v : lookup tbl c = Some v -> exists k, In (k, v) tbl /\ [c] = u k.
Proof.
  unfold lookup. destruct (find _ _) as [[k v']|] eqn:E; [|discriminate]. intro H. injection H as <-. apply find_some in E as (I & E). exists k. split; [exact I|]. cbn [Datatypes.fst] in E. destruct (text_eqb_spec (u k) [c]); congruence.
Qed.
Lemma digit_word c d : lookup ja_digit_words c = Some d -> exists a, nz a /\ c = dw a /\ d = (a - 48)%N.
Proof.
  intro H. apply lookup_in in H as (k & I & E). vm_compute in I. repeat destruct I as [I|I]; try contradiction; injection I as <- <-; vm_compute in E; injection E as ->;
    [exists 49%N|exists 50%N|exists 51%N|exists 52%N|exists 53%N|exists 54%N|exists 55%N|exists 56%N|exists 57%N]; (split; [unfold nz; lia|split; reflexivity]).
Qed.
Lemma unit_word c w : lookup ja_unit_words c = Some w -> unit_of c w.
Proof.
  intro H. apply lookup_in in H as (k & I & E). vm_compute in I. unfold unit_of. repeat destruct I as [I|I]; try contradiction; injection I as <- <-; vm_compute in E; injection E as ->; auto.
Qed.
Definition smaller (x : text) : Prop := Forall (fun c => lookup ja_big_words c = None) x.
Definition reads (U : N) (x : text) : Prop := smaller x /\ exists D S B s, ja_words (Jr D S None U B) x = Some s.
Definition one_ten (x : text) : Prop := exists p q, x = p ++ [dw 49; TEN] ++ q.
Lemma one_ten_app a b : ~ one_ten (a ++ b) -> ~ one_ten b.
Proof. intros H (p & q & ->). apply H. exists (a ++ p), q. now rewrite app_assoc. Qed.
Lemma one_ten_l a b : ~ one_ten (a ++ b) -> ~ one_ten a.
Proof. intros H (p & q & ->). apply H. exists p, (q ++ b). now rewrite <- !app_assoc. Qed.

(** A numeral under ten times a unit starts with that unit, or is under it. *)
Lemma under_unit c v x : unit_of c v -> reads (10 * v) x -> reads v x \/ exists h y, x = h ++ y /\ (h = [c] \/ exists a, nz a /\ h = [dw a; c]) /\ reads v y.
Proof.
  remember (10 * v)%N as T eqn:ET. intros W (Sm & D & S & B & s & J).
  assert (Same : forall c' w, unit_of c' w -> (w < T)%N -> (w < v)%N \/ c' = c /\ w = v).
  { intros c' w W' L. unfold unit_of in *. intuition (subst; try lia; auto). }
  destruct x as [|c1 x]; [left; split; [constructor|]; exists D, S, B; eexists; reflexivity|]. cbn [ja_words] in J. destruct (ja_word _ c1) as [s1|] eqn:E1; [|discriminate J]. pose proof (Forall_inv Sm) as S1; pose proof (Forall_inv_tail Sm) as Sm'; cbv beta in S1.
  unfold ja_word in E1. destruct (lookup ja_digit_words c1) as [d|] eqn:L1.
  - injection E1 as <-. apply digit_word in L1 as (a & A & -> & ->). destruct x as [|c2 x].
    + left. split; [exact Sm|]. exists D, S, B. eexists. rewrite digit_step by exact A. reflexivity.
    + cbn [ja_words] in J. destruct (ja_word _ c2) as [s2|] eqn:E2; [|discriminate J]. pose proof (Forall_inv Sm') as S2; pose proof (Forall_inv_tail Sm') as Sm2; cbv beta in S2. unfold ja_word in E2. destruct (lookup ja_digit_words c2) eqn:L2; [discriminate E2|].
      destruct (lookup ja_unit_words c2) as [w|] eqn:L3; [|rewrite S2 in E2; discriminate E2]. apply unit_word in L3. destruct (w <? T)%N eqn:Lt; [|discriminate E2]. apply N.ltb_lt in Lt. injection E2 as <-.
      destruct (Same _ _ L3 Lt) as [Lw|(-> & ->)].
      * left. split; [exact Sm|]. exists D, S, B, s. rewrite (digit_step _ _ _ _ _ _ A), (unit_step _ _ _ _ _ _ _ _ L3). apply N.ltb_lt in Lw. rewrite Lw. exact J.
      * right. exists [dw a; c], x. split; [reflexivity|]. split; [right; exists a; auto|]. split; [exact Sm2|]. do 4 eexists. exact J.
  - destruct (lookup ja_unit_words c1) as [w|] eqn:L3; [|rewrite S1 in E1; discriminate E1]. apply unit_word in L3. destruct (w <? T)%N eqn:Lt; [|discriminate E1]. apply N.ltb_lt in Lt. injection E1 as <-.
    destruct (Same _ _ L3 Lt) as [Lw|(-> & ->)].
    + left. split; [exact Sm|]. exists D, S, B, s. rewrite (unit_step _ _ _ _ _ _ _ _ L3). apply N.ltb_lt in Lw. rewrite Lw. exact J.
    + right. exists [c], x. split; [reflexivity|]. split; [auto|]. split; [exact Sm'|]. do 4 eexists. exact J.
Qed.
Lemma under_ten x : reads 10 x -> x = [] \/ exists a, nz a /\ x = [dw a].
Proof.
  intros (Sm & D & S & B & s & J). destruct x as [|c1 x]; [auto|right]. cbn [ja_words] in J. destruct (ja_word _ c1) as [s1|] eqn:E1; [|discriminate J]. inversion Sm as [|? ? S1 Sm']; subst.
  assert (No : forall g c s', ja_word (Jr D S g 10 B) c = Some s' -> lookup ja_big_words c = None -> lookup ja_digit_words c = None -> False).
  { intros g c s' E L0 L1. unfold ja_word in E. rewrite L1 in E. destruct (lookup ja_unit_words c) as [w|] eqn:L3; [|rewrite L0 in E; discriminate E]. apply unit_word in L3. destruct (w <? 10)%N eqn:Lt; [|discriminate E]. apply N.ltb_lt in Lt. unfold unit_of in L3. intuition lia. }
  destruct (lookup ja_digit_words c1) as [d|] eqn:L1; [|now destruct (No _ _ _ E1 S1 L1)]. unfold ja_word in E1. rewrite L1 in E1. injection E1 as <-. apply digit_word in L1 as (a & A & -> & ->). exists a. split; [exact A|]. destruct x as [|c2 x]; [reflexivity|exfalso].
  cbn [ja_words] in J. destruct (ja_word _ c2) as [s2|] eqn:E2; [|discriminate J]. inversion Sm' as [|? ? S2 Sm2]; subst. destruct (lookup ja_digit_words c2) as [d|] eqn:L2; [|exact (No _ _ _ E2 S2 L2)]. unfold ja_word in E2. rewrite L2 in E2. discriminate E2.
Qed.

(** ** What the graph reads *)
Definition acc (P : fst) (x : text) : Prop := exists d, denote P x d 0%Z.
Lemma acc_l P Q x : acc P x -> acc (P ∪ Q) x. Proof. intros (d & H). exists d. now left. Qed.
Lemma acc_r P Q x : acc Q x -> acc (P ∪ Q) x. Proof. intros (d & H). exists d. now right. Qed.
Lemma acc_cat P Q x y : acc P x -> acc Q y -> acc (P + Q) (x ++ y).
Proof. intros (d & H) (e & K). exists (d ++ e). change 0%Z with (0 + 0)%Z. now apply cat_i. Qed.
Lemma acc_zeros n : acc (Cardinal.addzero ** n) []. Proof. exists (repeat 48%N n). now apply addzeros_denote. Qed.
Lemma acc_zero : acc Cardinal.addzero []. Proof. exact (acc_zeros 1). Qed.
Lemma acc_pad n P x : acc P x -> acc (Cardinal.addzero ** n + P) x. Proof. intro H. exact (acc_cat _ _ [] x (acc_zeros n) H). Qed.
Lemma acc_digit a : nz a -> acc Cardinal.digit [dw a]. Proof. intro A. exists [a]. apply itn_digit. exists a. auto. Qed.
Lemma acc_digits a : nz a -> acc Cardinal.digits [dw a]. Proof. intro A. apply acc_r; now apply acc_digit. Qed.
Lemma acc_cross a b : acc (Cross a b) a. Proof. exists b. cbn. auto. Qed.
Lemma acc_delete a : acc (delete a) a. Proof. exists []. cbn. auto. Qed.
Lemma acc_teen y : y = [] \/ (exists a, nz a /\ y = [dw a]) -> acc Cardinal.teen (TEN :: y).
Proof. intros H. (apply acc_r). apply (acc_cat _ _ [TEN] y); [apply acc_cross|]. destruct H as [->|(a & A & ->)]; [(apply acc_r; apply acc_zero)|(apply acc_l; apply acc_digit; assumption)]. Qed.
Lemma acc_ties a : nz a -> a <> 49%N -> acc Cardinal.ties [dw a; TEN].
Proof. intros A N. exists [a]. split; [|reflexivity]. assert (C : (a = 50 \/ a = 51 \/ a = 52 \/ a = 53 \/ a = 54 \/ a = 55 \/ a = 56 \/ a = 57)%N) by (unfold nz in A; lia). repeat destruct C as [->|C]; try subst a; vm_compute; tauto. Qed.
Lemma acc_tens a y : nz a -> a <> 49%N -> y = [] \/ (exists a, nz a /\ y = [dw a]) -> acc Cardinal.tens (dw a :: TEN :: y).
Proof. intros A N H. (apply acc_r). apply (acc_cat _ _ [dw a; TEN] y); [now apply acc_ties|]. destruct H as [->|(b & B & ->)]; [(apply acc_r; apply acc_zero)|(apply acc_l; apply acc_digit; assumption)]. Qed.
Definition small (x : text) : Prop := acc Cardinal.digits x \/ acc Cardinal.teen x \/ acc Cardinal.tens x.
Lemma read100 x : reads 100 x -> ~ one_ten x -> x = [] \/ small x.
Proof.
  intros R O. apply (under_unit TEN 10 x unit_ten) in R as [R|(h & y & -> & H & R)].
  - apply under_ten in R as [->|(a & A & ->)]; [auto|right]. left. now apply acc_digits.
  - right. right. apply under_ten in R. destruct H as [->|(a & A & ->)]; [left; now apply acc_teen|right]. apply acc_tens; [exact A| |exact R]. intros ->. apply O. exists [], y. reflexivity.
Qed.
Lemma acc_under100 x : x = [] \/ small x -> acc under100 x.
Proof.
  intros [->|[H|[H|H]]].
  - (apply acc_r; apply (acc_zeros 2)).
  - (apply acc_l; apply acc_r). exact (acc_pad 1 _ _ H).
  - (apply acc_l; apply acc_l; apply acc_r; assumption).
  - (apply acc_l; apply acc_l; apply acc_l; assumption).
Qed.
Lemma read1000 x : reads 1000 x -> ~ one_ten x -> x = [] \/ small x \/ acc Cardinal.hundred x.
Proof.
  intros R O. apply (under_unit BAI 100 x unit_bai) in R as [R|(h & y & -> & H & R)].
  - destruct (read100 x R O) as [K|K]; auto.
  - right. right. apply one_ten_app in O. pose proof (acc_under100 _ (read100 y R O)) as K. destruct H as [->|(a & A & ->)].
    + (apply acc_l; apply acc_r). apply acc_cat; [apply acc_cross|exact K].
    + (apply acc_l; apply acc_l). apply acc_cat; [|exact K]. apply (acc_cat _ _ [dw a] [BAI]); [now apply acc_digit|apply acc_delete].
Qed.
Lemma acc_below_thousand x : x = [] \/ small x \/ acc Cardinal.hundred x -> acc Cardinal.below_thousand x.
Proof.
  intros [->|[[H|[H|H]]|H]].
  - (apply acc_r; apply (acc_zeros 3)).
  - (apply acc_l; apply acc_r). exact (acc_pad 2 _ _ H).
  - (apply acc_l; apply acc_l; apply acc_r). exact (acc_pad 1 _ _ H).
  - (apply acc_l; apply acc_l; apply acc_l; apply acc_r). exact (acc_pad 1 _ _ H).
  - (apply acc_l; apply acc_l; apply acc_l; apply acc_l; assumption).
Qed.
Lemma read10000 x : reads 10000 x -> ~ one_ten x -> x = [] \/ small x \/ acc Cardinal.hundred x \/ acc Cardinal.thousand x.
Proof.
  intros R O. apply (under_unit QIAN 1000 x unit_qian) in R as [R|(h & y & -> & H & R)].
  - destruct (read1000 x R O) as [K|[K|K]]; auto.
  - do 3 right. apply one_ten_app in O. pose proof (acc_below_thousand _ (read1000 y R O)) as K. destruct H as [->|(a & A & ->)].
    + (apply acc_r). apply acc_cat; [apply acc_cross|exact K].
    + (apply acc_l). apply acc_cat; [|exact K]. apply (acc_cat _ _ [dw a] [QIAN]); [(apply acc_r; apply acc_digits; assumption)|apply acc_delete].
Qed.
Lemma acc_below_man x : x = [] \/ small x \/ acc Cardinal.hundred x \/ acc Cardinal.thousand x -> acc Cardinal.below_man x.
Proof.
  intros [->|[[H|[H|H]]|[H|H]]].
  - (apply acc_r; apply (acc_zeros 4)).
  - (apply acc_l; apply acc_r). exact (acc_pad 3 _ _ H).
  - (apply acc_l; apply acc_l; apply acc_r). exact (acc_pad 2 _ _ H).
  - (apply acc_l; apply acc_l; apply acc_l; apply acc_r). exact (acc_pad 2 _ _ H).
  - (apply acc_l; apply acc_l; apply acc_l; apply acc_l; apply acc_r). exact (acc_pad 1 _ _ H).
  - (apply acc_l; apply acc_l; apply acc_l; apply acc_l; apply acc_l; assumption).
Qed.
Lemma acc_minus x : small x \/ acc Cardinal.hundred x \/ acc Cardinal.thousand x -> acc Cardinal.ten_thousand_minus x.
Proof.
  intros [[H|[H|H]]|[H|H]]; unfold Cardinal.ten_thousand_minus.
  - (apply acc_l; apply acc_l; apply acc_l; apply acc_l; assumption).
  - (apply acc_l; apply acc_l; apply acc_l; apply acc_r; assumption).
  - (apply acc_l; apply acc_l; apply acc_r; assumption).
  - (apply acc_l; apply acc_r; assumption).
  - (apply acc_r; assumption).
Qed.

(** ** The whole numeral *)
Lemma big_split x : smaller x \/ exists p c b q, x = p ++ c :: q /\ smaller p /\ lookup ja_big_words c = Some b.
Proof.
  induction x as [|c x IH]; [left; constructor|]. destruct (lookup ja_big_words c) as [b|] eqn:L; [right; exists [], c, b, x; split; [reflexivity|]; split; [constructor|exact L]|].
  destruct IH as [H|(p & c' & b & q & -> & H & K)]; [left; now constructor|right]. exists (c :: p), c', b, q. split; [reflexivity|]. split; [now constructor|exact K].
Qed.
Lemma big_step D S g U B c b r s : lookup ja_big_words c = Some b -> ja_words (Jr D S g U B) (c :: r) = Some s -> (0 < S + ones g)%N /\ (b < B)%N /\ ja_words (Jr (D + (S + ones g) * b) 0 None 10000 b) r = Some s.
Proof.
  intros L J. assert (E : lookup ja_digit_words c = None /\ lookup ja_unit_words c = None).
  { apply lookup_in in L as (k & I & E). vm_compute in I. repeat destruct I as [I|I]; try contradiction; injection I as <- <-; vm_compute in E; injection E as ->; vm_compute; auto. }
  destruct E as (E1 & E2). cbn [ja_words] in J. unfold ja_word in J. rewrite E1, E2, L in J. unfold jr_ones in J. cbn [jr_digit] in J. fold (ones g) in J. destruct (0 <? S + ones g)%N eqn:A; [|discriminate J]. destruct (b <? B)%N eqn:B'; [|discriminate J]. apply N.ltb_lt in A, B'. auto.
Qed.
Lemma done_grows t : forall s0 s', ja_words s0 t = Some s' -> (jr_done s0 <= jr_done s')%N.
Proof.
  induction t as [|c t IH]; intros s0 s' J; cbn [ja_words] in J; [injection J as <-; lia|]. destruct (ja_word s0 c) as [s2|] eqn:E; [|discriminate J]. apply IH in J. enough (jr_done s0 <= jr_done s2)%N by lia. clear J.
  destruct s0 as [D S g U B]. unfold ja_word in E. destruct (lookup ja_digit_words c); [destruct g; [discriminate E|injection E as <-; cbn; lia]|]. destruct (lookup ja_unit_words c); [destruct (_ <? U)%N; [injection E as <-; cbn; lia|discriminate E]|].
  destruct (lookup ja_big_words c); [|discriminate E]. destruct (_ && _); [injection E as <-; cbn; lia|discriminate E].
Qed.
Lemma smaller_keeps x : forall D S g U B s, smaller x -> ja_words (Jr D S g U B) x = Some s -> jr_done s = D /\ jr_big s = B.
Proof.
  induction x as [|c x IH]; intros D S g U B s Sm J; cbn [ja_words] in J; [injection J as <-; auto|]. inversion Sm as [|? ? L Sm']; subst. destruct (ja_word _ c) as [s2|] eqn:E; [|discriminate J]. unfold ja_word in E.
  destruct (lookup ja_digit_words c); [destruct g; [discriminate E|injection E as <-; now apply IH in J]|]. destruct (lookup ja_unit_words c); [destruct (_ <? U)%N; [injection E as <-; now apply IH in J|discriminate E]|]. rewrite L in E. discriminate E.
Qed.
Lemma big_words c b : lookup ja_big_words c = Some b -> c = WAN /\ b = 10000%N \/ (100000000 <= b)%N.
Proof.
  intro H. apply lookup_in in H as (k & I & E). vm_compute in I. repeat destruct I as [I|I]; try contradiction; injection I as <- <-; vm_compute in E; injection E as ->; try (left; split; reflexivity); right; lia.
Qed.
Lemma numeral_split x s : ja_words jr_start x = Some s -> (amounts s < 100000000)%N -> reads 10000 x \/ exists p q, x = p ++ [WAN] ++ q /\ p <> [] /\ reads 10000 p /\ reads 10000 q.
Proof.
  intros J L. unfold jr_start in J. destruct (big_split x) as [Sm|(p & c & b & q & -> & Sm & Lb)]; [left; split; [exact Sm|]; do 4 eexists; exact J|right].
  rewrite ja_words_app in J. destruct (ja_words _ p) as [[D S g U B]|] eqn:E; [|discriminate J]. destruct (smaller_keeps _ _ _ _ _ _ _ Sm E) as (ED & EB). cbn [jr_done jr_big] in ED, EB. subst D B. destruct (big_step _ _ _ _ _ _ _ _ _ Lb J) as (Pos & Lt & J').
  apply big_words in Lb as [(-> & ->)|Big].
  - exists p, q. split; [reflexivity|]. split; [intros ->; cbn [ja_words] in E; injection E as <- <- <-; cbn in Pos; lia|]. split; [split; [exact Sm|]; do 4 eexists; exact E|].
    split; [|do 4 eexists; exact J']. destruct (big_split q) as [Sq|(p' & c' & b' & q' & -> & Sp & Lb')]; [exact Sq|exfalso]. rewrite ja_words_app in J'. destruct (ja_words _ p') as [[D S' g' U' B]|] eqn:E'; [|discriminate J']. destruct (smaller_keeps _ _ _ _ _ _ _ Sp E') as (_ & EB). cbn [jr_big] in EB. subst B.
    destruct (big_step _ _ _ _ _ _ _ _ _ Lb' J') as (_ & Lt' & _). apply big_words in Lb' as [(_ & ->)|Big]; lia.
  - exfalso. apply done_grows in J'. cbn [jr_done] in J'. unfold amounts in L. nia.
Qed.
Lemma integer_read m x s : ja_words jr_start x = Some s -> (0 < amounts s < 100000000)%N -> (m = true \/ amounts s < 1000000)%N -> ~ one_ten x -> acc (Cardinal.positive_integer m) x.
Proof.
  intros J (Pos & L) M O. destruct (numeral_split x s J L) as [R|(p & q & -> & Np & Rp & Rq)].
  - destruct (read10000 x R O) as [->|K]; [cbn [ja_words] in J; injection J as <-; cbn in Pos; lia|]. (apply acc_l). now apply acc_minus.
  - (apply acc_r). pose proof (one_ten_l _ _ O) as Op. apply one_ten_app, one_ten_app in O. destruct (read10000 p Rp Op) as [->|K]; [congruence|]. pose proof (acc_below_man _ (read10000 q Rq O)) as Kq. rewrite app_assoc.
    unfold Cardinal.ten_thousand. destruct m.
    + apply acc_cat; [|exact Kq]. apply acc_cat; [|apply acc_delete]. destruct K as [[K|[K|K]]|[K|K]].
      * (apply acc_r; assumption).
      * (apply acc_l; apply acc_l; apply acc_r; assumption).
      * (apply acc_l; apply acc_r; assumption).
      * (apply acc_l; apply acc_l; apply acc_l; apply acc_r; assumption).
      * (apply acc_l; apply acc_l; apply acc_l; apply acc_l; assumption).
    + destruct M as [M|M]; [discriminate M|]. (apply acc_l). apply acc_cat; [|exact Kq]. apply acc_cat; [|apply acc_delete]. destruct K as [[K|[K|K]]|[(d & K)|(d & K)]].
      * (apply acc_r; assumption).
      * (apply acc_l; apply acc_l; assumption).
      * (apply acc_l; apply acc_r; assumption).
      * pose proof (long_head _ _ _ _ _ _ (or_introl (leads_of _ _ _ hundred_worth)) K J). lia.
      * pose proof (long_head _ _ _ _ _ _ (or_intror (leads_of _ _ _ thousand_worth)) K J). lia.
Qed.
