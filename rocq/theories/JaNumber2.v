(** The reading of Japanese numbers below 10^8 (C71), continued. *)
From Coq Require Import List NArith ZArith Bool String Lia Arith.
From Verif Require Import Text TextFacts Fst FstFacts FstRun GrammarModel DataJaTn JaTnModel NumeralSpec JaNumeralSpec ZhNumberProofs ZhNumberProofs2 JaNumber.
Import ListNotations.
Local Open Scope list_scope.
Local Open Scope fst_scope.

(** ** The words are worth the digits *)
Section Values.
Variables (D B : N).
Lemma w1_read a n U : digit_char a -> counts D B (ja_words (Jr D n None U B) (w1 a)) (n + (a - 48)).
Proof.
  intro A. unfold w1. apply digit_cases in A as [->|A]; [cbn; split; [reflexivity|]; split; [reflexivity|lia]|]. rewrite (nz_48 a A), (ja_digit D n U B a [] A). cbn. auto.
Qed.
Lemma unit_read c w U a n t : unit_of c w -> (w <? U)%N = true -> nz a -> ja_words (Jr D n None U B) (tw a ++ [c] ++ t) = ja_words (Jr D (n + (a - 48) * w) None w B) t.
Proof. intros V L A. exact (proj1 (ja_unit c w D n U B t V L a A)). Qed.
Lemma w2_read a b n U : digit_char a -> digit_char b -> (10 <? U)%N = true -> counts D B (ja_words (Jr D n None U B) (w2 a b)) (n + (a - 48) * 10 + (b - 48)).
Proof.
  intros A H L. unfold w2. apply digit_cases in A as [->|A]; [rewrite N.eqb_refl; replace (n + (48 - 48) * 10)%N with n by lia; now apply w1_read|].
  rewrite (nz_48 a A), (unit_read TEN 10 U a n _ unit_ten L A). now apply w1_read.
Qed.
Lemma w3_read a b c n U : digit_char a -> digit_char b -> digit_char c -> (100 <? U)%N = true ->
  counts D B (ja_words (Jr D n None U B) (w3 a b c)) (n + (a - 48) * 100 + (b - 48) * 10 + (c - 48)).
Proof.
  intros A H C L. unfold w3. apply digit_cases in A as [->|A].
  - rewrite N.eqb_refl. replace (n + (48 - 48) * 100)%N with n by lia. apply w2_read; [assumption|assumption|]. apply N.ltb_lt in L. apply N.ltb_lt. lia.
  - rewrite (nz_48 a A), (unit_read BAI 100 U a n _ unit_bai L A). now apply w2_read.
Qed.
Lemma w4_read a b c d n U : digit_char a -> digit_char b -> digit_char c -> digit_char d -> (1000 <? U)%N = true ->
  counts D B (ja_words (Jr D n None U B) (w4 a b c d)) (n + (a - 48) * 1000 + (b - 48) * 100 + (c - 48) * 10 + (d - 48)).
Proof.
  intros A H C E L. unfold w4. apply digit_cases in A as [->|A].
  - rewrite N.eqb_refl. replace (n + (48 - 48) * 1000)%N with n by lia. apply w3_read; try assumption. apply N.ltb_lt in L. apply N.ltb_lt. lia.
  - rewrite (nz_48 a A), (unit_read QIAN 1000 U a n _ unit_qian L A). now apply w3_read.
Qed.
Lemma h4_read a b c d n U : nz a -> digit_char b -> digit_char c -> digit_char d -> (1000 <? U)%N = true ->
  counts D B (ja_words (Jr D n None U B) (h4 a b c d)) (n + (a - 48) * 1000 + (b - 48) * 100 + (c - 48) * 10 + (d - 48)).
Proof.
  intros A H C E L. unfold h4. rewrite (proj2 (ja_unit QIAN 1000 D n U B _ unit_qian L a A)). now apply w3_read.
Qed.
End Values.

(** ** How many digits a graph reads, commas aside *)
Definition size (x : text) : nat := List.length (filter (fun c => negb (c =? CM)%N) x).
Lemma size_app a b : size (a ++ b) = (size a + size b)%nat.
Proof. unfold size. now rewrite filter_app, app_length. Qed.
Fixpoint least (e : fst) : nat :=
  match e with
  | Cross x _ => size x
  | Table l => fold_right (fun p n => Nat.min (size (Datatypes.fst p)) n) 1000 l
  | Union a b => Nat.min (least a) (least b)
  | Cat a b => least a + least b
  | Weight _ a => least a
  | _ => 0
  end.
Fixpoint most (e : fst) : nat :=
  match e with
  | Cross x _ => size x
  | Table l => fold_right (fun p n => Nat.max (size (Datatypes.fst p)) n) 0 l
  | Union a b => Nat.max (most a) (most b)
  | Cat a b => most a + most b
  | Weight _ a => most a
  | _ => 0
  end.
Fixpoint plain_graph (e : fst) : bool :=
  match e with
  | Cross _ _ | Table _ => true
  | Union a b | Cat a b => plain_graph a && plain_graph b
  | Weight _ a => plain_graph a
  | _ => false
  end.
Lemma size_bounds e : plain_graph e = true -> forall x y w, denote e x y w -> (least e <= size x <= most e)%nat.
Proof.
  induction e as [x0 y0|p|l|a IHa b IHb|a IHa b IHb|a IHa|k a IHa|a IHa b IHb|a IHa|a IHa|a IHa|t IHt l r]; cbn [plain_graph]; try discriminate; intros P x y w H.
  - destruct H as (-> & _). cbn. lia.
  - destruct H as (I & _). cbn [least most]. clear P. induction l as [|e l IH]; [destruct I|]. cbn [fold_right]. destruct I as [-> |I]; [cbn [Datatypes.fst]; lia|]. specialize (IH I). lia.
  - apply andb_true_iff in P as (Pa & Pb). cbn [least most]. destruct H as [H|H]; [apply (IHa Pa) in H|apply (IHb Pb) in H]; lia.
  - apply andb_true_iff in P as (Pa & Pb). apply cat_inv in H as (x1 & y1 & w1 & x2 & y2 & w2 & -> & -> & -> & H1 & H2). apply (IHa Pa) in H1. apply (IHb Pb) in H2. rewrite size_app. cbn [least most]. lia.
  - destruct H as (v & _ & H). exact (IHa P _ _ _ H).
Qed.
Lemma low_size x y w : denote Cardinal.low x y w -> size x = 4.
Proof. intro H. apply size_bounds in H; [|vm_compute; reflexivity]. change (4 <= size x <= 4)%nat in H. lia. Qed.
Lemma high_size x y w : denote Cardinal.high x y w -> (1 <= size x <= 4)%nat.
Proof. intro H. apply size_bounds in H; [exact H|vm_compute; reflexivity]. Qed.
Lemma rest_size x y w : denote (Cardinal.digits0 ∪ Cardinal.ten ∪ Cardinal.hundred ∪ Cardinal.thousand0) x y w -> (size x <= 4)%nat.
Proof. intro H. apply size_bounds in H; [|vm_compute; reflexivity]. apply H. Qed.
Lemma million_size x y w : denote Cardinal.hundred_millon x y w -> (9 <= size x)%nat.
Proof. intro H. apply size_bounds in H; [|vm_compute; reflexivity]. apply H. Qed.

(** ** One way to cut *)
Lemma commas_only z : size z = 0 -> z = [] \/ exists r, z = r ++ [CM] /\ hd CM z = CM.
Proof.
  intro S. destruct z as [|c z]; [auto|]. right.
  assert (A : forall z, size z = 0 -> Forall (fun c => c = CM) z).
  { clear. induction z as [|c z IH]; intro S; [constructor|]. unfold size in S. cbn [filter] in S. destruct (N.eqb_spec c CM) as [->|N]; [constructor; [reflexivity|now apply IH]|discriminate S]. }
  specialize (A _ S). pose proof (Forall_inv A) as E. cbn beta in E. destruct (exists_last (l := c :: z)) as (r & d & E'); [discriminate|]. exists r. rewrite E' in A.
  apply Forall_app in A as (_ & A). apply Forall_inv in A. cbn beta in A. subst d. split; [exact E'|exact E].
Qed.
Lemma cut_unique a b a' b' : a ++ b = a' ++ b' -> size b = size b' -> hd CM b' <> CM -> last a' CM <> CM -> a = a' /\ b = b'.
Proof.
  intros E S H L. destruct (app_eq_app _ _ _ _ E) as (z & [(E1 & E2)|(E1 & E2)]).
  - (* a = a' ++ z, b' = z ++ b *) subst a b'. rewrite size_app in S. destruct (commas_only z ltac:(lia)) as [->|(r & -> & Hd)]; [now rewrite app_nil_r|].
    exfalso. apply H. destruct r; exact Hd.
  - subst a' b. rewrite size_app in S. destruct (commas_only z ltac:(lia)) as [->|(r & -> & Hd)]; [now rewrite app_nil_r|].
    exfalso. apply L. rewrite app_assoc. apply last_last.
Qed.
Lemma wan_reads p l mp ml : just Cardinal.high p mp -> just Cardinal.low l ml -> hd CM l <> CM -> last p CM <> CM -> (5 <= size (p ++ l) <= 8)%nat ->
  just Cardinal.integer (p ++ l) (mp ++ u "万" ++ ml).
Proof.
  intros P L Hl Hp S z w. split.
  - intros [[H|H]|H].
    + apply rest_size in H. lia.
    + unfold Cardinal.ten_thousand in H. apply cat_inv in H as (x1 & y1 & w1 & x2 & y2 & w2 & E & -> & -> & H & H2). apply cat_inv in H as (x3 & y3 & w3 & x4 & y4 & w4 & -> & -> & -> & H1 & (-> & -> & ->)).
      rewrite app_nil_r in E. assert (S2 : size x2 = 4) by exact (low_size _ _ _ H2). assert (S3 : size l = 4) by (apply (low_size l ml 0%Z); now apply L).
      symmetry in E. destruct (cut_unique x3 x2 p l E ltac:(lia) Hl Hp) as (-> & ->). apply P in H1 as (-> & ->). apply L in H2 as (-> & ->). now rewrite <- app_assoc.
    + apply million_size in H. lia.
  - intros (-> & ->). left. right. unfold Cardinal.ten_thousand. rewrite app_assoc. rewrite <- (app_nil_r p). change 0%Z with (0 + 0 + 0)%Z.
    apply cat_i; [apply cat_i; [now apply P|cbn; auto]|now apply L].
Qed.
(** ** Up to four digits *)
Definition rest4 : fst := Cardinal.digits0 ∪ Cardinal.ten ∪ Cardinal.hundred ∪ Cardinal.thousand0.
Lemma wan_size x y w : denote Cardinal.ten_thousand x y w -> (5 <= size x)%nat.
Proof. intro H. apply size_bounds in H; [|vm_compute; reflexivity]. apply H. Qed.
Lemma few_reads x m : (size x <= 4)%nat -> just rest4 x m -> just Cardinal.integer x m.
Proof.
  intros S J z w. rewrite <- (J z w). unfold Cardinal.integer. split.
  - intros [[H|H]|H]; [exact H|apply wan_size in H; lia|apply million_size in H; lia].
  - intro H. left. left. exact H.
Qed.
Lemma short_outs e t : simple e = true -> plain_graph e = true -> (size t < least e)%nat -> outs e t = [].
Proof.
  intros S P L. destruct (outs e t) as [|((y & r) & w) l] eqn:E; [reflexivity|]. exfalso.
  assert (I : In (y, r, w) (outs e t)) by (rewrite E; now left). apply (outs_spec e S) in I as (x & -> & H). apply (size_bounds e P) in H. rewrite size_app in L. lia.
Qed.
Lemma size_le t : (size t <= List.length t)%nat.
Proof. unfold size. induction t as [|c t IH]; [apply le_n|]. cbn [filter List.length]. destruct (negb _); cbn [List.length]; lia. Qed.
Lemma three_short t : (List.length t < 3)%nat -> outs three t = [].
Proof. intro L. apply short_outs; [vm_compute; reflexivity|vm_compute; reflexivity|]. change (least three) with 3. pose proof (size_le t). lia. Qed.
Ltac rest_tac :=
  eapply just_full; [reflexivity|unfold rest4, Cardinal.digits0; rewrite thousand_eq; repeat first [rewrite jzero_nz by assumption | rewrite jzero_z | rewrite three_c | rewrite three_outs by assumption | rewrite three_short by (cbn [List.length]; lia) | progress leaf4]; reflexivity|
    cbn [filter Datatypes.fst snd]; rewrite <- ?app_assoc; cbn [app]; words].
Lemma one_reads a : nz a -> just rest4 [a] (w1 a).
Proof. intro A. rest_tac. Qed.
Lemma zero_reads : just rest4 [48%N] (u "〇").
Proof. eapply just_full; [reflexivity|vm_compute; reflexivity|reflexivity]. Qed.
Lemma two_reads a b : nz a -> digit_char b -> just rest4 [a; b] (w2 a b).
Proof. intros A B. pose proof B as B'. apply digit_cases in B' as [->|B']; rest_tac. Qed.
Lemma three_reads a b c : nz a -> digit_char b -> digit_char c -> just rest4 [a; b; c] (w3 a b c).
Proof. intros A B C. pose proof B as B'. pose proof C as C'. apply digit_cases in B' as [->|B'], C' as [->|C']; rest_tac. Qed.
Lemma four_reads g a b c d : comma g -> nz a -> digit_char b -> digit_char c -> digit_char d -> just rest4 (a :: g ++ [b; c; d]) (w4 a b c d).
Proof. intros G A B C D. pose proof B as B'. pose proof C as C'. pose proof D as D'. apply digit_cases in B' as [->|B'], C' as [->|C'], D' as [->|D']; destruct G as [->| ->]; cbn [app]; rest_tac. Qed.
(** ** All numbers below 10^8 *)
Definition BIG : N := 1000000000000%N.
Lemma counted_value m n : counts 0 BIG (ja_words jr_start m) n -> (0 < n)%N -> japanese_value m = Some n.
Proof.
  intros C P. unfold japanese_value. destruct (text_eqb_spec m (u "〇")) as [->|_]; [vm_compute in C; destruct C|].
  destruct (ja_words jr_start m) as [[D S d U B']|]; [|destruct C]. destruct C as (-> & -> & E). cbn [jr_done jr_section jr_ones jr_digit]. unfold jr_ones. cbn [jr_digit]. cbv zeta. rewrite N.add_0_l, E. 
  apply N.ltb_lt in P. now rewrite P.
Qed.
Lemma wan_value mp ml np nl : counts 0 BIG (ja_words jr_start mp) np -> (0 < np)%N -> (forall D B, counts D B (ja_words (Jr D 0 None 10000 B) ml) nl) ->
  japanese_value (mp ++ u "万" ++ ml) = Some (np * 10000 + nl)%N.
Proof.
  intros C P L. unfold japanese_value. destruct (text_eqb_spec (mp ++ u "万" ++ ml) (u "〇")) as [E|_].
  { exfalso. destruct mp as [|c [|c' mp]]; vm_compute in E; discriminate. }
  rewrite ja_words_app. destruct (ja_words jr_start mp) as [[D S d U B']|]; [|destruct C]. destruct C as (-> & -> & E).
  assert (W : forall r, ja_words (Jr 0 S d U BIG) (u "万" ++ r) = ja_words (Jr (np * 10000) 0 None 10000 10000) r).
  { intro r. assert (V : ja_word (Jr 0 S d U BIG) WAN = Some (Jr (np * 10000) 0 None 10000 10000)).
    { cbn [ja_word]. change (lookup ja_digit_words WAN) with (@None N). change (lookup ja_unit_words WAN) with (@None N). change (lookup ja_big_words WAN) with (Some 10000%N). cbv beta iota. unfold jr_ones. cbn [jr_digit].
      rewrite E. apply N.ltb_lt in P. rewrite P. change (10000 <? BIG)%N with true. cbn [andb]. now rewrite N.add_0_l. }
    change (u "万") with [WAN]. cbn [app ja_words]. now rewrite V. }
  rewrite W. specialize (L (np * 10000)%N 10000%N). destruct (ja_words (Jr (np * 10000) 0 None 10000 10000) ml) as [[D S' d' U' B']|]; [|destruct L]. destruct L as (-> & -> & E').
  cbn [jr_done jr_section]. unfold jr_ones. cbn [jr_digit]. cbv zeta. assert (E2 : (np * 10000 + S' + match d' with Some d => d | None => 0 end = np * 10000 + nl)%N) by lia. rewrite E2.
  assert (Q : (0 <? np * 10000 + nl)%N = true) by (apply N.ltb_lt; lia). now rewrite Q.
Qed.
Lemma comma_head g : comma g -> forall a t, digit_char a -> hd CM (a :: g ++ t) <> CM.
Proof. intros _ a t A. cbn [hd]. unfold digit_char, CM in *. lia. Qed.
Lemma low_just g a b c d : comma g -> digit_char a -> digit_char b -> digit_char c -> digit_char d -> just Cardinal.low (a :: g ++ [b; c; d]) (w4 a b c d).
Proof. intros. apply just_outs; [vm_compute; reflexivity|now apply low_outs]. Qed.
Definition four_value (a b c d : N) : N := ((a - 48) * 1000 + (b - 48) * 100 + (c - 48) * 10 + (d - 48))%N.
Lemma wan_integer p mp np g a b c d : just Cardinal.high p mp -> counts 0 BIG (ja_words jr_start mp) np -> (0 < np)%N -> last p CM <> CM ->
  comma g -> digit_char a -> digit_char b -> digit_char c -> digit_char d ->
  exists m, just Cardinal.integer (p ++ a :: g ++ [b; c; d]) m /\ japanese_value m = Some (np * 10000 + four_value a b c d)%N.
Proof.
  intros J C P L G A B E F. assert (S : (1 <= size p <= 4)%nat) by (apply (high_size p mp 0%Z); now apply J). pose proof (low_just g a b c d G A B E F) as Jl. exists (mp ++ u "万" ++ w4 a b c d). split.
  - apply wan_reads; try assumption; [exact (comma_head g G a _ A)|]. rewrite size_app. assert (Sl : size (a :: g ++ [b; c; d]) = 4) by (apply (low_size _ (w4 a b c d) 0%Z); now apply Jl). lia.
  - apply wan_value; [exact C|exact P|]. intros D B0. unfold four_value. replace ((a - 48) * 1000)%N with (0 + (a - 48) * 1000)%N by lia. now apply w4_read.
Qed.
Lemma few_integer x m n : just rest4 x m -> counts 0 BIG (ja_words jr_start m) n -> (0 < n)%N -> exists m, just Cardinal.integer x m /\ japanese_value m = Some n.
Proof. intros J C P. assert (S : (size x <= 4)%nat) by (apply (rest_size x m 0%Z); now apply J). exists m. split; [now apply few_reads|now apply counted_value]. Qed.
Lemma grouped_cases t x : grouped t x -> x = t
  \/ ((4 <= List.length t <= 6)%nat /\ x = firstn (List.length t - 3) t ++ CM :: skipn (List.length t - 3) t)
  \/ ((7 <= List.length t <= 9)%nat /\ x = firstn (List.length t - 6) t ++ CM :: firstn 3 (skipn (List.length t - 6) t) ++ CM :: skipn (List.length t - 3) t).
Proof.
  intros [->|[(p & q & Lp & Lq & -> & ->)|(p & q & r & Lp & Lq & Lr & -> & ->)]]; [auto|right; left|right; right].
  - rewrite app_length, Lq. split; [lia|]. replace (List.length p + 3 - 3) with (List.length p) by lia. rewrite firstn_app, skipn_app, Nat.sub_diag, firstn_all, skipn_all. cbn [firstn skipn]. rewrite app_nil_r. reflexivity.
  - rewrite !app_length, Lq, Lr. split; [lia|]. replace (List.length p + (3 + 3) - 6) with (List.length p) by lia. rewrite firstn_app, skipn_app, Nat.sub_diag, firstn_all, skipn_all, firstn_O, skipn_O, app_nil_r.
    cbn [app]. change (u ",") with [CM]. cbn [app]. do 2 f_equal.
    assert (E1 : firstn 3 (q ++ r) = q) by (rewrite <- Lq, firstn_app, Nat.sub_diag, firstn_all; cbn [firstn]; now rewrite app_nil_r). rewrite E1. do 2 f_equal.
    replace (List.length p + (3 + 3) - 3) with (List.length (p ++ q)) by (rewrite app_length; lia). rewrite app_assoc, skipn_app, Nat.sub_diag, skipn_all. reflexivity.
Qed.
Lemma no_comma : comma []. Proof. now left. Qed.
Lemma a_comma : comma [CM]. Proof. now right. Qed.
Ltac ends := cbn [last app]; unfold digit_char, nz, CM in *; lia.
Ltac worth := unfold four_value, decimal_value; cbn [fold_left]; unfold nz, digit_char in *; lia.
Lemma ja_integer t n x : decimal t n -> (n < 100000000)%N -> grouped t x -> exists m, just Cardinal.integer x m /\ japanese_value m = Some n.
Proof.
  intros (N & F & Z & V) L G. apply grouped_cases in G.
  assert (Ln : (List.length t <= 8)%nat).
  { destruct t as [|c r]; [contradiction|]. destruct (N.eq_dec c 48) as [->|Nc]; [rewrite (Z eq_refl); cbn; lia|]. pose proof (value_long c r (Forall_inv F) Nc) as Lo.
    destruct (Nat.le_gt_cases (List.length r) 7) as [H|H]; [cbn [List.length]; lia|exfalso].
    assert (P : (10 ^ 8 <= 10 ^ N.of_nat (List.length r))%N) by (apply N.pow_le_mono_r; lia). change (10 ^ 8)%N with 100000000%N in P. lia. }
  destruct t as [|a t]; [contradiction|]. destruct (N.eq_dec a 48) as [->|Na].
  { specialize (Z eq_refl). injection Z as ->. cbn [List.length] in G. destruct G as [->|[(G & _)|(G & _)]]; [|lia|lia]. exists (u "〇"). split.
    - apply few_reads; [vm_compute; lia|exact zero_reads].
    - rewrite <- V. vm_compute. reflexivity. }
  clear Z N. pose proof (Forall_inv F) as Da. apply Forall_inv_tail in F. apply digit_cases in Da as [E|A]; [contradiction|]. clear Na.
  subst n. destruct t as [|b t].
  { cbn [List.length] in G. destruct G as [->|[(G & _)|(G & _)]]; [|lia|lia]. apply (few_integer _ _ _ (one_reads a A)); [|worth].
    replace (decimal_value [a]) with (0 + (a - 48))%N by worth. apply w1_read. unfold nz, digit_char in *. lia. }
  pose proof (Forall_inv F) as B. apply Forall_inv_tail in F. assert (A' : digit_char a) by (unfold nz, digit_char in *; lia). destruct t as [|c t].
  { cbn [List.length] in G. destruct G as [->|[(G & _)|(G & _)]]; [|lia|lia]. apply (few_integer _ _ _ (two_reads a b A B)); [|worth].
    replace (decimal_value [a; b]) with (0 + (a - 48) * 10 + (b - 48))%N by worth. now apply w2_read. }
  pose proof (Forall_inv F) as C. apply Forall_inv_tail in F. destruct t as [|d t].
  { cbn [List.length] in G. destruct G as [->|[(G & _)|(G & _)]]; [|lia|lia]. apply (few_integer _ _ _ (three_reads a b c A B C)); [|worth].
    replace (decimal_value [a; b; c]) with (0 + (a - 48) * 100 + (b - 48) * 10 + (c - 48))%N by worth. now apply w3_read. }
  pose proof (Forall_inv F) as D. apply Forall_inv_tail in F. destruct t as [|e t].
  { assert (X : exists g, comma g /\ x = a :: g ++ [b; c; d]) by (cbn [List.length Nat.sub firstn skipn app] in G; destruct G as [->|[(_ & ->)|(G & _)]]; [exists []|exists [CM]|lia]; split; auto using no_comma, a_comma).
    destruct X as (g & Hg & ->). apply (few_integer _ _ _ (four_reads g a b c d Hg A B C D)); [|worth].
    replace (decimal_value [a; b; c; d]) with (0 + (a - 48) * 1000 + (b - 48) * 100 + (c - 48) * 10 + (d - 48))%N by worth. now apply w4_read. }
  pose proof (Forall_inv F) as E. apply Forall_inv_tail in F. destruct t as [|f t].
  { assert (X : exists g, comma g /\ x = [a] ++ b :: g ++ [c; d; e]) by (cbn [List.length Nat.sub firstn skipn app] in G; destruct G as [->|[(_ & ->)|(G & _)]]; [exists []|exists [CM]|lia]; split; auto using no_comma, a_comma).
    destruct X as (g & Hg & ->). destruct (wan_integer [a] (w1 a) (0 + (a - 48))%N g b c d e (high_1 a A)) as (m & J & V); try assumption; [now apply w1_read|worth|ends|].
    exists m. split; [exact J|]. rewrite V. f_equal. worth. }
  pose proof (Forall_inv F) as H. apply Forall_inv_tail in F. destruct t as [|i t].
  { assert (X : exists g, comma g /\ x = [a; b] ++ c :: g ++ [d; e; f]) by (cbn [List.length Nat.sub firstn skipn app] in G; destruct G as [->|[(_ & ->)|(G & _)]]; [exists []|exists [CM]|lia]; split; auto using no_comma, a_comma).
    destruct X as (g & Hg & ->). destruct (wan_integer [a; b] (w2 a b) (0 + (a - 48) * 10 + (b - 48))%N g c d e f (high_2 a b A B)) as (m & J & V); try assumption; [now apply w2_read|worth|ends|].
    exists m. split; [exact J|]. rewrite V. f_equal. worth. }
  pose proof (Forall_inv F) as I. apply Forall_inv_tail in F. destruct t as [|j t].
  { assert (X : exists g, comma g /\ x = (a :: g ++ [b; c]) ++ d :: g ++ [e; f; i]) by (cbn [List.length Nat.sub firstn skipn app] in G; destruct G as [->|[(G & _)|(_ & ->)]]; [exists []|lia|exists [CM]]; split; auto using no_comma, a_comma).
    destruct X as (g & Hg & ->). destruct (wan_integer (a :: g ++ [b; c]) (w3 a b c) (0 + (a - 48) * 100 + (b - 48) * 10 + (c - 48))%N g d e f i (high_3 g a b c Hg A B C)) as (m & J & V); try assumption;
      [now apply w3_read|worth|destruct Hg as [->| ->]; ends|].
    exists m. split; [exact J|]. rewrite V. f_equal. worth. }
  pose proof (Forall_inv F) as K. apply Forall_inv_tail in F. destruct t as [|k t]; [|cbn [List.length] in Ln; lia].
  assert (X : exists g, comma g /\ x = (a :: b :: g ++ [c; d]) ++ e :: g ++ [f; i; j]) by (cbn [List.length Nat.sub firstn skipn app] in G; destruct G as [->|[(G & _)|(_ & ->)]]; [exists []|lia|exists [CM]]; split; auto using no_comma, a_comma).
  destruct X as (g & Hg & ->). destruct (wan_integer (a :: b :: g ++ [c; d]) (h4 a b c d) (0 + (a - 48) * 1000 + (b - 48) * 100 + (c - 48) * 10 + (d - 48))%N g e f i j (high_4 g a b c d Hg A B C D)) as (m & J & V); try assumption;
    [now apply h4_read|worth|destruct Hg as [->| ->]; ends|].
  exists m. split; [exact J|]. rewrite V. f_equal. worth.
Qed.
