(** The date rule of the Chinese normaliser on whole dates (C67). *)
From Coq Require Import List NArith ZArith Bool String Lia Arith.
From Verif Require Import Text TextFacts TokenModel Fst FstFacts FstRun GrammarModel GrammarSpec GrammarAccept NumeralSpec EnglishNumeralSpec DataZhTn ZhTnModel ZhTnEndSpec ZhDateSpec WholeSpec.
From Verif Require Import BoundaryChar Letters OneToken TokenVerbal Fields ZhTnRead ZhTnPost PropsZhTnEnd ZhWhole.
From Verif Require EndToEnd EnNumberProofs5 PlainRules.
Import ListNotations.
Local Open Scope list_scope.

(** ** The parts *)
Lemma digs_known' x : Forall digit_char x -> forallb known x = true.
Proof. intro F. rewrite Forall_forall in F. apply forallb_forall. intros c I. apply body_known, dig_body, dig_spec. exact (F c I). Qed.
Lemma power_star g n x y w : denote (g ** n)%fst x y w -> denote (Star g) x y w.
Proof.
  revert x y w. induction n as [|n IH]; intros x y w H; [destruct H as (-> & -> & ->); constructor|]. destruct n as [|n].
  - cbn [power] in H. rewrite <- (app_nil_r x), <- (app_nil_r y), <- (Z.add_0_r w). constructor; [exact H|constructor].
  - change (denote (g + g ** S n)%fst x y w) in H. apply cat_inv in H as (x1 & y1 & w1 & x2 & y2 & w2 & -> & -> & -> & H1 & H2). constructor; [exact H1|exact (IH _ _ _ H2)].
Qed.
Lemma star_mono a b x y w : (forall x y w, denote a x y w -> denote b x y w) -> denote (Star a) x y w -> denote (Star b) x y w.
Proof. intros M H. cbn [denote] in *. induction H; constructor; auto. Qed.
Lemma any_digit x y w : denote (Date.digit ∪ Date.zero)%fst x y w -> denote Cardinal.digits x y w.
Proof. intros [H|H]; [right|left]; exact H. Qed.
Lemma yyyy_digits x y w : denote Date.yyyy x y w -> denote (plus Cardinal.digits) x y w.
Proof.
  intro H. unfold Date.yyyy in H. apply cat_inv in H as (x1 & y1 & w1 & x2 & y2 & w2 & -> & -> & -> & H1 & H2). apply cat_i; [right; exact H1|].
  apply (star_mono _ _ _ _ _ any_digit). exact (power_star _ _ _ _ _ H2).
Qed.
Lemma nonzero_table c : digit_char c -> c <> 48%N -> denote Date.digit [c] (digit_word c) 0%Z.
Proof.
  intros D N. assert (A : forallb (fun c => existsb (fun p : text * text => text_eqb (Datatypes.fst p) [c] && text_eqb (snd p) (digit_word c)) (map entry zh_tn_number_digit)) [49; 50; 51; 52; 53; 54; 55; 56; 57]%N = true) by (vm_compute; reflexivity).
  rewrite forallb_forall in A. assert (I : In c [49; 50; 51; 52; 53; 54; 55; 56; 57]%N) by (unfold digit_char in D; cbn [In]; lia). specialize (A c I).
  apply existsb_exists in A as ((a & b) & J & E). cbn [Datatypes.fst snd] in E. apply andb_true_iff in E as (A & B).
  destruct (text_eqb_spec a [c]) as [->|]; [|discriminate]. destruct (text_eqb_spec b (digit_word c)) as [->|]; [|discriminate]. split; [exact J|reflexivity].
Qed.
Lemma one_digit c : digit_char c -> denote (Date.digit ∪ Date.zero)%fst [c] (digit_word c) 0%Z.
Proof.
  intro D. assert (H : denote Cardinal.digits [c] (digit_word c) 0%Z) by (apply digits_table; [cbn [forallb]; apply dig_spec in D; now rewrite (body_known c (dig_body c D))|eauto]).
  destruct H as [H|H]; [right|left]; exact H.
Qed.
Lemma year_reads p : year_like p -> forall z w, denote Date.g_year p z w <-> z = year_words p /\ w = 0%Z.
Proof.
  intros (L & F & N) z w. unfold Date.g_year, year_words. split.
  - intro H. apply cat_inv in H as (x1 & y1 & w1 & x2 & y2 & w2 & -> & -> & -> & H & (-> & -> & ->)). rewrite app_nil_r in *. apply yyyy_digits in H.
    apply plus_digits in H as (_ & _ & -> & ->); [auto|]. now apply digs_known'.
  - intros (-> & ->). destruct p as [|a [|b [|c [|d [|]]]]]; try discriminate L. cbn [flat_map]. rewrite app_nil_r.
    pose proof (Forall_inv F) as Da. pose proof (Forall_inv (Forall_inv_tail F)) as Db. pose proof (Forall_inv (Forall_inv_tail (Forall_inv_tail F))) as Dc. pose proof (Forall_inv (Forall_inv_tail (Forall_inv_tail (Forall_inv_tail F)))) as Dd.
    change [a; b; c; d] with (([a] ++ [b] ++ [c] ++ [d]) ++ []). change 0%Z with ((0 + (0 + (0 + 0))) + 0)%Z. apply cat_i; [|now cbn]. unfold Date.yyyy. apply cat_i; [exact (nonzero_table a Da N)|].
    cbn [power]. apply cat_i; [exact (one_digit b Db)|]. apply cat_i; [exact (one_digit c Dc)|exact (one_digit d Dd)].
Qed.
(** A check over all texts of one or two digits. *)
Definition ten : list N := [48; 49; 50; 51; 52; 53; 54; 55; 56; 57]%N.
Lemma short_all (P : text -> bool) : (forallb (fun c => P [c] && forallb (fun d => P [c; d]) ten) ten)%bool = true -> forall p, List.length p = 1 \/ List.length p = 2 -> Forall digit_char p -> P p = true.
Proof.
  intros A p L F. rewrite forallb_forall in A. destruct p as [|c [|d [|]]]; cbn [List.length] in L; try lia.
  - specialize (A c (ten_digits c (Forall_inv F))). now apply andb_true_iff in A as (A & _).
  - specialize (A c (ten_digits c (Forall_inv F))). apply andb_true_iff in A as (_ & A). rewrite forallb_forall in A. exact (A d (ten_digits d (Forall_inv (Forall_inv_tail F)))).
Qed.
Definition within (a b : N) (p : text) : bool := ((a <=? decimal_value p) && (decimal_value p <=? b))%N.
(** The table has the key [p], always with the value [d]. *)
Definition lists (l : list (text * text)) (p d : text) : bool :=
  existsb (fun e => text_eqb (Datatypes.fst e) p) l && forallb (fun e => negb (text_eqb (Datatypes.fst e) p) || text_eqb (snd e) d) l.
Lemma lists_sound l p d : lists l p d = true -> forall z, In (p, z) l <-> z = d.
Proof.
  unfold lists. rewrite andb_true_iff, existsb_exists, forallb_forall. intros ((e & I & E) & A).
  assert (B : forall z, In (p, z) l -> z = d).
  { intros z J. specialize (A _ J). cbn [Datatypes.fst snd] in A. destruct (text_eqb_spec p p) as [_|X]; [|contradiction]. cbn [negb orb] in A. now destruct (text_eqb_spec z d). }
  intro z. split; [apply B|]. intros ->. destruct e as (a & b). cbn [Datatypes.fst] in E. destruct (text_eqb_spec a p) as [->|]; [|discriminate]. now rewrite <- (B b I).
Qed.
Definition months : list (text * text) := Eval vm_compute in map entry zh_tn_date_m ++ map entry zh_tn_date_mm.
Definition days : list (text * text) := Eval vm_compute in map entry zh_tn_date_d ++ map entry zh_tn_date_dd.
Definition months2 : list (text * text) := Eval vm_compute in map entry zh_tn_date_mm.
Lemma two_tables a b l x y w : map entry a ++ map entry b = l -> denote (string_file a ∪ string_file b)%fst x y w <-> In (x, y) l /\ w = 0%Z.
Proof. intros <-. rewrite in_app_iff. cbn [denote]. unfold string_file. cbn [denote]. tauto. Qed.
Lemma months_eq : map entry zh_tn_date_m ++ map entry zh_tn_date_mm = months.
Proof. vm_compute. reflexivity. Qed.
Lemma days_eq : map entry zh_tn_date_d ++ map entry zh_tn_date_dd = days.
Proof. vm_compute. reflexivity. Qed.
Lemma months2_eq : map entry zh_tn_date_mm = months2.
Proof. vm_compute. reflexivity. Qed.
Lemma month_reads p : month_text p -> forall z w, denote Date.g_month p z w <-> z = month_words p /\ w = 0%Z.
Proof.
  intros (L & F & B) z w. unfold Date.g_month, Date.m, Date.mm. rewrite (two_tables _ _ months _ _ _ months_eq).
  assert (A : implb (within 1 12 p) (lists months p (month_words p)) = true) by (revert p L F B; intros p L F _; apply (short_all (fun p => implb (within 1 12 p) (lists months p (month_words p)))); [vm_compute; reflexivity|exact L|exact F]).
  assert (W : within 1 12 p = true) by (unfold within; now rewrite andb_true_iff, !N.leb_le). rewrite W in A. cbn [implb] in A. now rewrite (lists_sound _ _ _ A).
Qed.
Lemma day_reads p : day_like p -> forall z w, denote Date.g_day p z w <-> z = day_words p /\ w = 0%Z.
Proof.
  intros (L & F & B) z w. unfold Date.g_day, Date.d, Date.dd. rewrite (two_tables _ _ days _ _ _ days_eq).
  assert (A : implb (within 1 31 p) (lists days p (day_words p)) = true) by (revert p L F B; intros p L F _; apply (short_all (fun p => implb (within 1 31 p) (lists days p (day_words p)))); [vm_compute; reflexivity|exact L|exact F]).
  assert (W : within 1 31 p = true) by (unfold within; now rewrite andb_true_iff, !N.leb_le). rewrite W in A. cbn [implb] in A. now rewrite (lists_sound _ _ _ A).
Qed.
Lemma two_digit_reads p : month_like p -> exists z, denote Date.mm p z 0%Z.
Proof.
  intros (L & F & B). exists (month_words p). assert (A : implb (within 1 12 p) (implb (List.length p =? 2)%nat (lists months2 p (month_words p))) = true).
  { apply (short_all (fun p => implb (within 1 12 p) (implb (List.length p =? 2)%nat (lists months2 p (month_words p))))); [vm_compute; reflexivity|auto|exact F]. }
  assert (W : within 1 12 p = true) by (unfold within; now rewrite andb_true_iff, !N.leb_le). rewrite W, L in A. cbn [implb Nat.eqb] in A.
  unfold Date.mm, string_file. cbn [denote]. split; [|reflexivity]. rewrite months2_eq. now apply (lists_sound _ _ _ A).
Qed.
