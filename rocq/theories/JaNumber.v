(** The reading of Japanese numbers below 10^8 (C71). *)
From Coq Require Import List NArith ZArith Bool String Lia Arith.
From Verif Require Import Text TextFacts Fst FstFacts FstRun GrammarModel DataJaTn JaTnModel NumeralSpec JaNumeralSpec ZhNumberProofs ZhNumberProofs2.
Import ListNotations.
Local Open Scope list_scope.
Local Open Scope fst_scope.

(** ** Outputs on symbolic digits and commas *)
Definition CM : N := 44%N.
Lemma jdigit_nz c r : nz c -> outs Cardinal.digit (c :: r) = [([dw c], r, 0%Z)].
Proof. apply (nz_cases c (fun c => outs Cardinal.digit (c :: r) = [([dw c], r, 0%Z)])); reflexivity. Qed.
Lemma jteen_nz c r : nz c -> outs Cardinal.teen (c :: r) = [(tw c, r, 0%Z)].
Proof. apply (nz_cases c (fun c => outs Cardinal.teen (c :: r) = [(tw c, r, 0%Z)])); reflexivity. Qed.
Lemma jzero_nz c r : nz c -> outs Cardinal.zero (c :: r) = [].
Proof. apply (nz_cases c (fun c => outs Cardinal.zero (c :: r) = [])); reflexivity. Qed.
Lemma jrmzero_nz c r : nz c -> outs Cardinal.rmzero (c :: r) = [].
Proof. apply (nz_cases c (fun c => outs Cardinal.rmzero (c :: r) = [])); reflexivity. Qed.
Lemma jrmpunct_nz c r : nz c -> outs Cardinal.rmpunct (c :: r) = [([], c :: r, 0%Z)].
Proof. apply (nz_cases c (fun c => outs Cardinal.rmpunct (c :: r) = [([], c :: r, 0%Z)])); reflexivity. Qed.
Lemma jdigit_z r : outs Cardinal.digit (48%N :: r) = []. Proof. reflexivity. Qed.
Lemma jteen_z r : outs Cardinal.teen (48%N :: r) = []. Proof. reflexivity. Qed.
Lemma jzero_z r : outs Cardinal.zero (48%N :: r) = [(u "〇", r, 0%Z)]. Proof. reflexivity. Qed.
Lemma jrmzero_z r : outs Cardinal.rmzero (48%N :: r) = [([], r, 0%Z)]. Proof. reflexivity. Qed.
Lemma jrmpunct_z r : outs Cardinal.rmpunct (48%N :: r) = [([], 48%N :: r, 0%Z)]. Proof. reflexivity. Qed.
Lemma jdigit_c r : outs Cardinal.digit (CM :: r) = []. Proof. reflexivity. Qed.
Lemma jteen_c r : outs Cardinal.teen (CM :: r) = []. Proof. reflexivity. Qed.
Lemma jzero_c r : outs Cardinal.zero (CM :: r) = []. Proof. reflexivity. Qed.
Lemma jrmzero_c r : outs Cardinal.rmzero (CM :: r) = []. Proof. reflexivity. Qed.
Lemma jrmpunct_c r : outs Cardinal.rmpunct (CM :: r) = [([], r, 0%Z); ([], CM :: r, 0%Z)]. Proof. reflexivity. Qed.
Lemma jdigit_n : outs Cardinal.digit [] = []. Proof. reflexivity. Qed.
Lemma jteen_n : outs Cardinal.teen [] = []. Proof. reflexivity. Qed.
Lemma jzero_n : outs Cardinal.zero [] = []. Proof. reflexivity. Qed.
Lemma jrmzero_n : outs Cardinal.rmzero [] = []. Proof. reflexivity. Qed.
Lemma jrmpunct_n : outs Cardinal.rmpunct [] = [([], [], 0%Z)]. Proof. reflexivity. Qed.
Lemma jrmpunct_d c r : digit_char c -> outs Cardinal.rmpunct (c :: r) = [([], c :: r, 0%Z)].
Proof. intro D. apply digit_cases in D as [->|D]; [reflexivity|now apply jrmpunct_nz]. Qed.
(** The words of one, two, three and four digits. *)
Definition w1 (a : N) : text := if (a =? 48)%N then [] else [dw a].
Definition w2 (a b : N) : text := if (a =? 48)%N then w1 b else tw a ++ [TEN] ++ w1 b.
Definition w3 (a b c : N) : text := if (a =? 48)%N then w2 b c else tw a ++ [BAI] ++ w2 b c.
Definition w4 (a b c d : N) : text := if (a =? 48)%N then w3 b c d else tw a ++ [QIAN] ++ w3 b c d.
Lemma nz_48 c : nz c -> (c =? 48)%N = false.
Proof. unfold nz. intro H. apply N.eqb_neq. lia. Qed.
Lemma ten_text : u "十" = [TEN]. Proof. reflexivity. Qed.
Lemma bai_text : u "百" = [BAI]. Proof. reflexivity. Qed.
Lemma qian_text : u "千" = [QIAN]. Proof. reflexivity. Qed.
Ltac leaf1 :=
  rewrite ?ten_text, ?bai_text, ?qian_text;
  repeat first
    [ rewrite union_outs | rewrite cat_outs | rewrite insert_outs
    | rewrite jdigit_z | rewrite jteen_z | rewrite jrmzero_z | rewrite jrmpunct_z
    | rewrite jdigit_c | rewrite jteen_c | rewrite jrmzero_c | rewrite jrmpunct_c
    | rewrite jdigit_n | rewrite jteen_n | rewrite jrmzero_n | rewrite jrmpunct_n
    | rewrite jdigit_nz by assumption | rewrite jteen_nz by assumption
    | rewrite jrmzero_nz by assumption | rewrite jrmpunct_nz by assumption | rewrite jrmpunct_d by assumption
    | progress cbn [flat_map map app] ].
Ltac words := unfold w4, w3, w2, w1; cbn [N.eqb Pos.eqb]; repeat match goal with H : nz ?c |- _ => rewrite (nz_48 c H) end; rewrite ?app_nil_r; reflexivity.
Lemma ten_nz a b r : nz a -> digit_char b -> outs Cardinal.ten (a :: b :: r) = [(w2 a b, r, 0%Z)].
Proof. intros A B. unfold Cardinal.ten. apply digit_cases in B as [->|B]; leaf1; rewrite <- ?app_assoc; words. Qed.
Lemma ten_z r : outs Cardinal.ten (48%N :: r) = []. Proof. reflexivity. Qed.
Lemma ten_c r : outs Cardinal.ten (CM :: r) = []. Proof. reflexivity. Qed.
Lemma ten_n : outs Cardinal.ten [] = []. Proof. reflexivity. Qed.
Lemma ten_n1 a : nz a -> outs Cardinal.ten [a] = [].
Proof. intro A. unfold Cardinal.ten. now leaf1. Qed.
Lemma ten_c1 a r : nz a -> outs Cardinal.ten (a :: CM :: r) = [].
Proof. intro A. unfold Cardinal.ten. now leaf1. Qed.
Definition two : fst := Cardinal.ten ∪ (Cardinal.rmzero + Cardinal.digit) ∪ Cardinal.rmzero ** 2.
Ltac leaf2 :=
  repeat first
    [ rewrite ten_z | rewrite ten_c | rewrite ten_n | rewrite ten_nz by assumption | rewrite ten_n1 by assumption | rewrite ten_c1 by assumption | progress leaf1 ].
Lemma two_outs a b r : digit_char a -> digit_char b -> outs two (a :: b :: r) = [(w2 a b, r, 0%Z)].
Proof. intros A B. unfold two. cbn [power]. pose proof B as B'. apply digit_cases in A as [->|A], B' as [->|B']; leaf2; words. Qed.
Lemma two_c r : outs two (CM :: r) = []. Proof. reflexivity. Qed.
Lemma two_n : outs two [] = []. Proof. reflexivity. Qed.
Lemma two_n1 a : digit_char a -> outs two [a] = [].
Proof. intro A. unfold two. cbn [power]. apply digit_cases in A as [->|A]; leaf2; reflexivity. Qed.
Lemma two_c1 a r : digit_char a -> outs two (a :: CM :: r) = [].
Proof. intro A. unfold two. cbn [power]. apply digit_cases in A as [->|A]; leaf2; reflexivity. Qed.
Lemma hundred_eq : Cardinal.hundred = Cardinal.teen + insert (u "百") + two. Proof. reflexivity. Qed.
Lemma prefix_eq : Cardinal.hundred_prefix = Cardinal.teen + insert (u "百") + Cardinal.rmpunct + two. Proof. reflexivity. Qed.
Ltac leaf3 :=
  repeat first
    [ rewrite two_c | rewrite two_n | rewrite two_outs by assumption | rewrite two_n1 by assumption | rewrite two_c1 by assumption | progress leaf2 ].
Lemma hundred_nz a b c r : nz a -> digit_char b -> digit_char c -> outs Cardinal.hundred (a :: b :: c :: r) = [(w3 a b c, r, 0%Z)].
Proof. intros A B C. rewrite hundred_eq. leaf3. rewrite <- ?app_assoc. words. Qed.
Lemma hundred_z r : outs Cardinal.hundred (48%N :: r) = []. Proof. reflexivity. Qed.
Lemma hundred_c r : outs Cardinal.hundred (CM :: r) = []. Proof. reflexivity. Qed.
Lemma hundred_n : outs Cardinal.hundred [] = []. Proof. reflexivity. Qed.
Lemma hundred_n1 a : nz a -> outs Cardinal.hundred [a] = [].
Proof. intro A. rewrite hundred_eq. now leaf3. Qed.
Lemma hundred_n2 a b : nz a -> digit_char b -> outs Cardinal.hundred [a; b] = [].
Proof. intros A B. rewrite hundred_eq. now leaf3. Qed.
Lemma hundred_c1 a r : nz a -> outs Cardinal.hundred (a :: CM :: r) = [].
Proof. intro A. rewrite hundred_eq. now leaf3. Qed.
Lemma hundred_c2 a b r : nz a -> digit_char b -> outs Cardinal.hundred (a :: b :: CM :: r) = [].
Proof. intros A B. rewrite hundred_eq. now leaf3. Qed.
Ltac leaf4 :=
  repeat first
    [ rewrite hundred_z | rewrite hundred_c | rewrite hundred_n | rewrite hundred_nz by assumption | rewrite hundred_n1 by assumption | rewrite hundred_n2 by assumption
    | rewrite hundred_c1 by assumption | rewrite hundred_c2 by assumption | progress leaf3 ].
Definition three : fst := Cardinal.hundred ∪ (Cardinal.rmzero + Cardinal.ten) ∪ (Cardinal.rmzero ** 2 + Cardinal.digit) ∪ Cardinal.rmzero ** 3.
Lemma thousand_eq : Cardinal.thousand0 = Cardinal.teen + insert (u "千") + Cardinal.rmpunct + three. Proof. reflexivity. Qed.
Lemma three_outs a b c r : digit_char a -> digit_char b -> digit_char c -> outs three (a :: b :: c :: r) = [(w3 a b c, r, 0%Z)].
Proof.
  intros A B C. unfold three. cbn [power]. pose proof B as B'. pose proof C as C'. apply digit_cases in A as [->|A]; [|leaf4; words].
  apply digit_cases in B' as [->|B'], C' as [->|C']; leaf4; words.
Qed.
(** ** Reading the words back *)
Lemma lookup_jw c : nz c -> lookup ja_digit_words (dw c) = Some (c - 48)%N.
Proof. apply (nz_cases c (fun c => lookup ja_digit_words (dw c) = Some (c - 48)%N)); reflexivity. Qed.
Lemma ja_digit D S U B c r : nz c -> ja_words (Jr D S None U B) (dw c :: r) = ja_words (Jr D S (Some (c - 48)%N) U B) r.
Proof. intro H. cbn [ja_words ja_word]. now rewrite (lookup_jw c H). Qed.
Lemma ja_unit c w D S U B r : unit_of c w -> (w <? U)%N = true -> forall a, nz a ->
  ja_words (Jr D S None U B) (tw a ++ c :: r) = ja_words (Jr D (S + (a - 48) * w)%N None w B) r /\
  ja_words (Jr D S None U B) (dw a :: c :: r) = ja_words (Jr D (S + (a - 48) * w)%N None w B) r.
Proof.
  intros V L a A.
  assert (E : ja_words (Jr D S None U B) (dw a :: c :: r) = ja_words (Jr D (S + (a - 48) * w)%N None w B) r).
  { rewrite (ja_digit D S U B a _ A). destruct V as [(-> & ->)|[(-> & ->)|(-> & ->)]]; cbn [ja_words ja_word]; cbn; rewrite L; reflexivity. }
  split; [|exact E]. unfold tw. destruct (N.eqb_spec a 49) as [->|_]; [|exact E].
  cbn [app]. destruct V as [(-> & ->)|[(-> & ->)|(-> & ->)]]; cbn [ja_words ja_word]; cbn; rewrite L; reflexivity.
Qed.
Lemma ja_words_app t t' : forall s, ja_words s (t ++ t') = match ja_words s t with Some s' => ja_words s' t' | None => None end.
Proof. induction t as [|c t IH]; intro s; [reflexivity|]. cbn [app ja_words]. destruct (ja_word s c); auto. Qed.
Ltac jlits :=
  change (u "千") with [QIAN]; change (u "百") with [BAI]; change (u "十") with [TEN]; repeat (rewrite <- app_assoc); cbn [app]; rewrite ?app_nil_r.
Ltac jread :=
  repeat first
    [ rewrite (fun D S U B r H a A => proj1 (ja_unit QIAN 1000 D S U B r unit_qian H a A)) by (assumption || reflexivity)
    | rewrite (fun D S U B r H a A => proj1 (ja_unit BAI 100 D S U B r unit_bai H a A)) by (assumption || reflexivity)
    | rewrite (fun D S U B r H a A => proj1 (ja_unit TEN 10 D S U B r unit_ten H a A)) by (assumption || reflexivity)
    | rewrite (fun D S U B r H a A => proj2 (ja_unit QIAN 1000 D S U B r unit_qian H a A)) by (assumption || reflexivity)
    | rewrite (fun D S U B r H a A => proj2 (ja_unit BAI 100 D S U B r unit_bai H a A)) by (assumption || reflexivity)
    | rewrite (fun D S U B r H a A => proj2 (ja_unit TEN 10 D S U B r unit_ten H a A)) by (assumption || reflexivity)
    | rewrite ja_digit by assumption ].
(** The section read so far is worth [n]. *)
Definition counts (D B : N) (s : option ja_reading) (n : N) : Prop :=
  match s with Some (Jr D' n' d U B') => D' = D /\ B' = B /\ (n' + match d with Some d => d | None => 0 end)%N = n | None => False end.
Ltac jfinish := cbn [ja_words counts]; split; [reflexivity|]; split; [reflexivity|]; unfold decimal_value; cbn [fold_left]; unfold nz in *; lia.
Definition comma (g : text) : Prop := g = [] \/ g = [CM].
Lemma three_c r : outs three (CM :: r) = []. Proof. reflexivity. Qed.
Ltac leaf5 := repeat first [ rewrite three_c | rewrite three_outs by assumption | progress leaf4 ].
Lemma low_outs g a b c d r : comma g -> digit_char a -> digit_char b -> digit_char c -> digit_char d ->
  outs Cardinal.low (a :: g ++ b :: c :: d :: r) = [(w4 a b c d, r, 0%Z)].
Proof.
  intros G A B C D. unfold Cardinal.low. rewrite thousand_eq. cbn [power]. pose proof B as B'. pose proof C as C'. pose proof D as D'.
  apply digit_cases in A as [->|A]; [|destruct G as [->| ->]; cbn [app]; repeat first [rewrite three_c | rewrite three_outs by assumption | rewrite cat_outs | progress leaf4]; rewrite <- ?app_assoc; words].
  assert (Tz : forall r, outs (Cardinal.teen + insert (u "千") + Cardinal.rmpunct + three) (48%N :: r) = []) by reflexivity. rewrite union_outs, union_outs, union_outs, union_outs, Tz.
  apply digit_cases in B' as [->|B'], C' as [->|C'], D' as [->|D']; destruct G as [->| ->]; cbn [app]; leaf4; words.
Qed.

(** ** The part before 万 *)
Ltac high_tac :=
  eapply just_full; [reflexivity|unfold Cardinal.high; rewrite prefix_eq; unfold Cardinal.thousand_prefix; rewrite prefix_eq; cbn [power]; leaf4; reflexivity|
    cbn [filter Datatypes.fst snd]; rewrite <- ?app_assoc; cbn [app]; words].
Lemma high_1 a : nz a -> just Cardinal.high [a] (w1 a).
Proof. intro A. high_tac. Qed.
Lemma high_2 a b : nz a -> digit_char b -> just Cardinal.high [a; b] (w2 a b).
Proof. intros A B. pose proof B as B'. apply digit_cases in B' as [->|B']; high_tac. Qed.
Lemma high_3 g a b c : comma g -> nz a -> digit_char b -> digit_char c -> just Cardinal.high (a :: g ++ [b; c]) (w3 a b c).
Proof.
  intros G A B C. pose proof B as B'. pose proof C as C'. apply digit_cases in B' as [->|B'], C' as [->|C']; destruct G as [->| ->]; cbn [app]; high_tac.
Qed.
Definition h4 (a b c d : N) : text := dw a :: QIAN :: w3 b c d.
Lemma high_4 g a b c d : comma g -> nz a -> digit_char b -> digit_char c -> digit_char d -> just Cardinal.high (a :: b :: g ++ [c; d]) (h4 a b c d).
Proof.
  intros G A B C D. unfold h4. pose proof B as B'. pose proof C as C'. pose proof D as D'. apply digit_cases in B' as [->|B'], C' as [->|C'], D' as [->|D']; destruct G as [->| ->]; cbn [app]; high_tac.
Qed.
