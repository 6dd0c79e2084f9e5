(** The reading of Chinese numbers (C45). *)
From Coq Require Import List NArith ZArith Bool String Lia Arith.
From Verif Require Import Text TextFacts Fst FstFacts FstRun GrammarModel DataZhTn ZhTnModel NumeralSpec.
Import ListNotations.
Local Open Scope list_scope.
Local Open Scope fst_scope.

(** ** Digit strings *)
Definition value_from (n : N) (t : text) : N := fold_left (fun n c => 10 * n + (c - 48))%N t n.
Lemma value_from_spec t : forall n, value_from n t = (n * 10 ^ N.of_nat (List.length t) + decimal_value t)%N.
Proof.
  unfold decimal_value. fold (value_from 0 t).
  induction t as [|c t IH]; intro n; cbn [value_from fold_left List.length].
  - rewrite N.pow_0_r. lia.
  - fold (value_from (10 * n + (c - 48)) t) (value_from (10 * 0 + (c - 48)) t).
    rewrite IH, (IH (10 * 0 + (c - 48))%N). rewrite Nnat.Nat2N.inj_succ, N.pow_succ_r'. lia.
Qed.
Lemma value_app a b : decimal_value (a ++ b) = (decimal_value a * 10 ^ N.of_nat (List.length b) + decimal_value b)%N.
Proof.
  unfold decimal_value at 1. rewrite fold_left_app. apply value_from_spec.
Qed.
Lemma value_long c t : digit_char c -> c <> 48%N -> (10 ^ N.of_nat (List.length t) <= decimal_value (c :: t))%N.
Proof.
  intros D H. change (c :: t) with ([c] ++ t). rewrite value_app. unfold digit_char in *. unfold decimal_value at 1. cbn [fold_left].
  assert (1 <= 10 * 0 + (c - 48))%N by lia. nia.
Qed.
Lemma value_short t : Forall digit_char t -> (decimal_value t < 10 ^ N.of_nat (List.length t))%N.
Proof.
  induction 1 as [|c t D F IH]; [reflexivity|]. change (c :: t) with ([c] ++ t) at 1. rewrite value_app.
  cbn [List.length]. rewrite Nnat.Nat2N.inj_succ, N.pow_succ_r'. unfold digit_char in *. unfold decimal_value at 1. cbn [fold_left]. nia.
Qed.

(** ** Outputs on symbolic digits *)
Definition nz (c : N) : Prop := (49 <= c <= 57)%N.
Lemma digit_cases c : digit_char c -> c = 48%N \/ nz c.
Proof. unfold digit_char, nz. lia. Qed.
Lemma nz_cases c (P : N -> Prop) : P 49%N -> P 50%N -> P 51%N -> P 52%N -> P 53%N -> P 54%N -> P 55%N -> P 56%N -> P 57%N ->
  nz c -> P c.
Proof.
  intros. unfold nz in *.
  assert (c = 49 \/ c = 50 \/ c = 51 \/ c = 52 \/ c = 53 \/ c = 54 \/ c = 55 \/ c = 56 \/ c = 57)%N as C by lia.
  destruct C as [->|[->|[->|[->|[->|[->|[->|[->| ->]]]]]]]]; assumption.
Qed.
(** The word of a digit. *)
Definition dw (c : N) : N := nth (N.to_nat (c - 49)) (u "一二三四五六七八九") 0%N.
Definition tw (c : N) : text := if (c =? 49)%N then [] else [dw c].
Definition ZERO : N := 38646%N.
Lemma digit_nz c r : nz c -> outs Cardinal.digit (c :: r) = [([dw c], r, 0%Z)].
Proof. apply (nz_cases c (fun c => outs Cardinal.digit (c :: r) = [([dw c], r, 0%Z)])); reflexivity. Qed.
Lemma teen_nz c r : nz c -> outs Cardinal.teen (c :: r) = [(tw c, r, 0%Z)].
Proof. apply (nz_cases c (fun c => outs Cardinal.teen (c :: r) = [(tw c, r, 0%Z)])); reflexivity. Qed.
Lemma zero_nz c r : nz c -> outs Cardinal.zero (c :: r) = [].
Proof. apply (nz_cases c (fun c => outs Cardinal.zero (c :: r) = [])); reflexivity. Qed.
Lemma rmzero_nz c r : nz c -> outs Cardinal.rmzero (c :: r) = [].
Proof. apply (nz_cases c (fun c => outs Cardinal.rmzero (c :: r) = [])); reflexivity. Qed.
Lemma digit_z r : outs Cardinal.digit (48%N :: r) = []. Proof. reflexivity. Qed.
Lemma teen_z r : outs Cardinal.teen (48%N :: r) = []. Proof. reflexivity. Qed.
Lemma zero_z r : outs Cardinal.zero (48%N :: r) = [([ZERO], r, 0%Z)]. Proof. reflexivity. Qed.
Lemma rmzero_z r : outs Cardinal.rmzero (48%N :: r) = [([], r, 0%Z)]. Proof. reflexivity. Qed.
Lemma digit_n : outs Cardinal.digit [] = []. Proof. reflexivity. Qed.
Lemma teen_n : outs Cardinal.teen [] = []. Proof. reflexivity. Qed.
Lemma zero_n : outs Cardinal.zero [] = []. Proof. reflexivity. Qed.
Lemma rmzero_n : outs Cardinal.rmzero [] = []. Proof. reflexivity. Qed.
Lemma cat_outs a b t : outs (a + b) t = flat_map (fun i => let '(y, r, w) := i in
  map (fun j => let '(y', r', w') := j in (y ++ y', r', (w + w')%Z)) (outs b r)) (outs a t).
Proof. reflexivity. Qed.
Lemma union_outs a b t : outs (a ∪ b) t = outs a t ++ outs b t.
Proof. reflexivity. Qed.
Lemma insert_outs y t : outs (insert y) t = [(y, t, 0%Z)].
Proof. reflexivity. Qed.

Definition head : fst := Cardinal.thousand ∪ Cardinal.hundred ∪ Cardinal.ten ∪ Cardinal.digit.
Definition low : fst :=
  (Cardinal.zero + Cardinal.hundred) ∪ (Cardinal.rmzero + Cardinal.zero + Cardinal.tens)
  ∪ (Cardinal.rmzero ** 2 + Cardinal.zero + Cardinal.digit) ∪ (insert (u "零") + Cardinal.thousand).

Ltac open_graphs :=
  unfold head, low, Cardinal.four_any, Cardinal.four_nonzero, Cardinal.thousand, Cardinal.hundred, Cardinal.tens, Cardinal.ten;
  cbn [power].
Ltac leaf :=
  repeat first
    [ rewrite union_outs | rewrite cat_outs | rewrite insert_outs
    | rewrite digit_z | rewrite teen_z | rewrite zero_z | rewrite rmzero_z
    | rewrite digit_n | rewrite teen_n | rewrite zero_n | rewrite rmzero_n
    | rewrite digit_nz by assumption | rewrite teen_nz by assumption
    | rewrite zero_nz by assumption | rewrite rmzero_nz by assumption
    | progress cbn [flat_map map app] ].

(** [e] relates [t] to [y] only, at no cost. *)
Definition just (e : fst) (t y : text) : Prop := forall z w, denote e t z w <-> z = y /\ w = 0%Z.
Lemma just_outs e t y : simple e = true -> outs e t = [(y, [], 0%Z)] -> just e t y.
Proof.
  intros S E z w. rewrite (outs_all e S), E. cbn. split.
  - intros [[= -> ->]|[]]. auto.
  - intros (-> & ->). auto.
Qed.
Lemma none_outs e t : simple e = true -> outs e t = [] -> forall z w, ~ denote e t z w.
Proof. intros S E z w D. apply (outs_all e S) in D. now rewrite E in D. Qed.

(** ** Reading the words back *)
Definition wan : N := 10000%N. Definition yi : N := 100000000%N.
Definition WAN : N := 19975%N. Definition YI : N := 20159%N.
Definition TEN : N := 21313%N. Definition BAI : N := 30334%N. Definition QIAN : N := 21315%N.
Lemma lookup_dw c : nz c -> is_zero (dw c) = false /\ lookup digit_words (dw c) = Some (c - 48)%N.
Proof.
  apply (nz_cases c (fun c => is_zero (dw c) = false /\ lookup digit_words (dw c) = Some (c - 48)%N)); now split.
Qed.
Lemma read_digit D S U z o B c : nz c ->
  read_word (Rd D S None (Some U) z o B) (dw c) = Some (Rd D S (Some (c - 48)%N) (Some U) z o B).
Proof. intro H. destruct (lookup_dw c H) as (E & F). cbn [read_word]. now rewrite E, F. Qed.
Lemma read_first D S o B c : nz c ->
  read_word (Rd D S None None false o B) (dw c) = Some (Rd D S (Some (c - 48)%N) None false o B).
Proof. intro H. destruct (lookup_dw c H) as (E & F). cbn [read_word]. now rewrite E, F. Qed.
Lemma read_zero D S U o B :
  read_word (Rd D S None U false o B) ZERO = Some (Rd D S None U true o B).
Proof. reflexivity. Qed.
Lemma read_ten D S o B :
  read_word (Rd D S None None false o B) TEN = Some (Rd D 10 None (Some 10%N) false o B).
Proof. reflexivity. Qed.
Definition unit_of (c w : N) : Prop := c = TEN /\ w = 10%N \/ c = BAI /\ w = 100%N \/ c = QIAN /\ w = 1000%N.
Lemma read_unit c w D S d z o B : unit_of c w ->
  read_word (Rd D S (Some d) None z o B) c = Some (Rd D (S + d * w) None (Some w) false o B).
Proof. intros [(-> & ->)|[(-> & ->)|(-> & ->)]]; reflexivity. Qed.
Lemma read_next c w D S d last z o B : unit_of c w ->
  read_word (Rd D S (Some d) (Some last) z o B) c =
  (let after_yi := (last =? 100000000)%N && (w =? 1000)%N in
   if (w <? last)%N && (z || (w * 10 =? last)%N || after_yi)
   then Some (Rd D (S + d * w) None (Some w) false (o || (after_yi && negb z)) B) else None).
Proof. intros [(-> & ->)|[(-> & ->)|(-> & ->)]]; reflexivity. Qed.
Lemma read_next_ok c w D S d last z o B o' : unit_of c w ->
  ((w <? last)%N && (z || (w * 10 =? last)%N || ((last =? 100000000)%N && (w =? 1000)%N)))%bool = true ->
  (o || (((last =? 100000000)%N && (w =? 1000)%N) && negb z))%bool = o' ->
  read_word (Rd D S (Some d) (Some last) z o B) c = Some (Rd D (S + d * w) None (Some w) false o' B).
Proof. intros U E <-. rewrite (read_next c w) by exact U. cbv zeta. now rewrite E. Qed.
Lemma read_big c b D S d U z o B : c = WAN /\ b = wan \/ c = YI /\ b = yi ->
  read_word (Rd D S d U z o B) c =
  match rd_rest (Rd D S d U z o B) with
  | None => None
  | Some r => if (0 <? S + r)%N && (S + r <? 10000)%N && match B with None => true | Some b' => (b <? b')%N end
              then Some (Rd (D + (S + r) * b) 0 None (Some b) false false (Some b)) else None
  end.
Proof.
  intros [(-> & ->)|(-> & ->)]; reflexivity.
Qed.
Lemma read_words_app t t' : forall s, read_words s (t ++ t') =
  match read_words s t with Some s' => read_words s' t' | None => None end.
Proof.
  induction t as [|c t IH]; intro s; [reflexivity|]. cbn [app read_words]. destruct (read_word s c); auto.
Qed.
Lemma unit_ten : unit_of TEN 10. Proof. unfold unit_of. auto. Qed.
Lemma unit_bai : unit_of BAI 100. Proof. unfold unit_of. auto. Qed.
Lemma unit_qian : unit_of QIAN 1000. Proof. unfold unit_of. auto. Qed.
Ltac step_read :=
  repeat (cbn [read_words];
    first
    [ rewrite read_zero
    | rewrite read_first by assumption | rewrite read_digit by assumption
    | rewrite (read_unit TEN 10) by exact unit_ten | rewrite (read_unit BAI 100) by exact unit_bai
    | rewrite (read_unit QIAN 1000) by exact unit_qian
    | erewrite (read_next_ok TEN 10); [|exact unit_ten|reflexivity|vm_compute; reflexivity]
    | erewrite (read_next_ok BAI 100); [|exact unit_bai|reflexivity|vm_compute; reflexivity]
    | erewrite (read_next_ok QIAN 1000); [|exact unit_qian|reflexivity|vm_compute; reflexivity]
    | rewrite read_ten ]).
Ltac lits :=
  change (u "千") with [QIAN]; change (u "百") with [BAI]; change (u "十") with [TEN]; change (u "零") with [ZERO];
  cbn [app].
Lemma four_spec a b c d D : digit_char a -> digit_char b -> digit_char c -> digit_char d ->
  exists y s, just Cardinal.four_any [a; b; c; d] y /\
    read_words (Rd D 0 None (Some wan) false false (Some wan)) y = Some s /\
    rd_value s = Some (D + decimal_value [a; b; c; d])%N.
Proof.
  intros Ha Hb Hc Hd.
  apply digit_cases in Ha as [->|Ha], Hb as [->|Hb], Hc as [->|Hc], Hd as [->|Hd];
  (eexists; eexists; split; [apply just_outs; [reflexivity|]; open_graphs; leaf; reflexivity|];
   split; [lits; step_read; reflexivity|]).
  all: cbn [rd_value rd_open rd_rest rd_digit rd_unit rd_zero rd_done rd_section]; unfold decimal_value; cbn [fold_left];
    change (10 =? 10)%N with true; cbn [orb]; f_equal; unfold nz in *; lia.
Qed.

Ltac by_blocks :=
  eexists; eexists; split; [apply just_outs; [reflexivity|]; open_graphs; leaf; reflexivity|];
  split; [lits; step_read; reflexivity|].
Ltac finish :=
  cbn [rd_value rd_open rd_rest rd_digit rd_unit rd_zero rd_done rd_section]; unfold decimal_value; cbn [fold_left];
  change (10 =? 10)%N with true; cbn [orb]; try f_equal; unfold nz in *; lia.
Lemma low_spec a b c d D : digit_char a -> digit_char b -> digit_char c -> digit_char d ->
  [a; b; c; d] <> [48; 48; 48; 48]%N ->
  exists y s, just low [a; b; c; d] y /\
    read_words (Rd D 0 None (Some yi) false false (Some yi)) y = Some s /\
    rd_value s = Some (D + decimal_value [a; b; c; d])%N.
Proof.
  intros Ha Hb Hc Hd N.
  apply digit_cases in Ha as [->|Ha], Hb as [->|Hb], Hc as [->|Hc], Hd as [->|Hd];
    [now destruct N|..]; clear N; by_blocks; finish.
Qed.
Lemma low_none z w : ~ denote low [48; 48; 48; 48]%N z w.
Proof. apply none_outs; reflexivity. Qed.
Lemma nonzero_none z w : ~ denote Cardinal.four_nonzero [48; 48; 48; 48]%N z w.
Proof. apply none_outs; reflexivity. Qed.
(** What has been read before 万 or 亿. *)
Definition counted (D : N) (B : option N) (s : reading) (n : N) : Prop :=
  rd_done s = D /\ rd_big s = B /\ exists r, rd_rest s = Some r /\ (rd_section s + r)%N = n.
Lemma mid_spec a b c d D : digit_char a -> digit_char b -> digit_char c -> digit_char d ->
  [a; b; c; d] <> [48; 48; 48; 48]%N ->
  exists y s, just Cardinal.four_nonzero [a; b; c; d] y /\
    read_words (Rd D 0 None (Some yi) false false (Some yi)) y = Some s /\
    counted D (Some yi) s (decimal_value [a; b; c; d]).
Proof.
  intros Ha Hb Hc Hd N.
  apply digit_cases in Ha as [->|Ha], Hb as [->|Hb], Hc as [->|Hc], Hd as [->|Hd];
    [now destruct N|..]; clear N; by_blocks;
    (split; [reflexivity|]; split; [reflexivity|]; eexists; split; [reflexivity|]; finish).
Qed.
