(** Spoken Chinese numbers and the number graphs of the Chinese inverse grammar (C61). *)
From Coq Require Import List NArith ZArith Bool String Lia Arith.
From Verif Require Import Text TextFacts Fst FstFacts FstRun GrammarModel NumeralSpec EnglishNumeralSpec ZhSpokenSpec.
From Verif Require Import ZhNumberProofs EnNumberProofs EnNumberProofs4 EnSpokenProofs.
From Verif Require Import DataZhItn ZhItnModel.
Import ListNotations.
Local Open Scope list_scope.

(** ** Characters *)
Lemma is_spec s c : is s c = true <-> u s = [c].
Proof. unfold is. destruct (text_eqb_spec (u s) [c]); split; congruence. Qed.
Lemma lookup_in {A} (l : list (string * A)) c n : lookup l c = Some n -> exists s, In (s, n) l /\ u s = [c].
Proof.
  unfold lookup. destruct (find _ _) as [e|] eqn:E; [|discriminate]. intros [= <-]. apply find_some in E as (I & E).
  exists (Datatypes.fst e). split; [now destruct e|]. destruct (text_eqb_spec (u (Datatypes.fst e)) [c]); [auto|discriminate].
Qed.
Lemma lookup_all {A} (P : text -> A -> bool) (l : list (string * A)) : forallb (fun e => P (u (Datatypes.fst e)) (snd e)) l = true ->
  forall c n, lookup l c = Some n -> P [c] n = true.
Proof. intros F c n H. apply lookup_in in H as (s & I & <-). rewrite forallb_forall in F. exact (F _ I). Qed.

(** The words of a number below ten thousand, and those of the larger units. *)
Definition units : list text := [u "十"; u "百"; u "千"].
Definition bigs : list text := [u "万"; u "亿"; u "兆"].
Definition numeral (c : N) : bool :=
  match digit_of c with Some _ => true | None => zero_of c || existsb (text_eqb [c]) units end.
Lemma digit_facts c n : digit_of c = Some n -> (1 <= n <= 9)%N /\ zero_of c = false /\ is "十" c = false /\
  is "百" c = false /\ is "千" c = false /\ is "万" c = false /\ is "亿" c = false /\ is "兆" c = false.
Proof.
  intro H. pose proof (lookup_all (fun t n => (1 <=? n)%N && (n <=? 9)%N && negb (text_eqb (u "零") t) && negb (text_eqb (u "洞") t) &&
    negb (text_eqb (u "十") t) && negb (text_eqb (u "百") t) && negb (text_eqb (u "千") t) && negb (text_eqb (u "万") t) &&
    negb (text_eqb (u "亿") t) && negb (text_eqb (u "兆") t)) spoken_digits ltac:(vm_compute; reflexivity) c n H) as F.
  cbn beta in F. rewrite !andb_true_iff, !negb_true_iff, !N.leb_le in F. unfold zero_of, is.
  destruct F as (((((((((A & B) & C) & D) & E) & F1) & F2) & F3) & F4) & F5). rewrite C, D. repeat split; auto.
Qed.
Lemma zero_facts c : zero_of c = true -> digit_of c = None /\ is "十" c = false /\
  is "百" c = false /\ is "千" c = false /\ is "万" c = false /\ is "亿" c = false /\ is "兆" c = false.
Proof.
  unfold zero_of. intro H. apply orb_true_iff in H as [H|H];
    (destruct (text_eqb_spec (u "零") [c]) as [E|]; [|try discriminate]) || idtac;
    try (destruct (text_eqb_spec (u "洞") [c]) as [E|]; [|discriminate]);
    vm_compute in E; injection E as <-; vm_compute; auto 10.
Qed.
Lemma unit_facts s c : In s ["十"; "百"; "千"; "万"; "亿"; "兆"]%string -> is s c = true ->
  digit_of c = None /\ zero_of c = false /\ forall s', In s' ["十"; "百"; "千"; "万"; "亿"; "兆"]%string -> is s' c = true -> s' = s.
Proof.
  intros I H. apply is_spec in H. repeat (destruct I as [<-|I]); try contradiction;
    vm_compute in H; injection H as <-; (split; [vm_compute; reflexivity|]; split; [vm_compute; reflexivity|]);
    intros s' I' E; repeat (destruct I' as [<-|I']); try contradiction; auto; vm_compute in E; discriminate.
Qed.
Lemma numeral_not_big c s : numeral c = true -> In s ["万"; "亿"; "兆"]%string -> is s c = false.
Proof.
  intros H I. destruct (is s c) eqn:E; [|reflexivity]. exfalso. apply is_spec in E.
  repeat (destruct I as [<-|I]); try contradiction; vm_compute in E; injection E as <-; vm_compute in H; discriminate.
Qed.

(** ** What a text of each sort begins with *)
Definition kind (t : text) : N :=
  match t with
  | [] => 0
  | a :: r => if zero_of a then 2 else if is "十" a then 3 else
      match r with [] => 1 | b :: _ => if is "十" b then 3 else if is "百" b then 4 else if is "千" b then 5 else 6 end
  end.
Definition of_kind (k : N) (f : text -> option N) : Prop := forall x n, f x = Some n -> kind x = k.
Definition apart (f g : text -> option N) : Prop := forall x n m, f x = Some n -> g x = Some m -> False.
Lemma kinds_apart j k f g : of_kind j f -> of_kind k g -> j <> k -> apart f g.
Proof. intros F G D x n m A B. apply D. now rewrite <- (F x n A), <- (G x m B). Qed.
Lemma plus_some a b n : plus a b = Some n -> exists i j, a = Some i /\ b = Some j /\ n = (i + j)%N.
Proof. destruct a as [i|], b as [j|]; try discriminate. intro H. exists i, j. split; [auto|]. split; [auto|]. unfold plus in H. congruence. Qed.
Lemma times_some k a n : times k a = Some n -> exists i, a = Some i /\ n = (k * i)%N.
Proof. destruct a as [i|]; [|discriminate]. intro H. exists i. split; [auto|]. unfold times in H. congruence. Qed.
Lemma orelse_some a b n : orelse a b = Some n -> a = Some n \/ b = Some n.
Proof. destruct a; cbn; auto. Qed.
Lemma lone_some x n : lone x = Some n -> exists c, x = [c] /\ digit_of c = Some n.
Proof. destruct x as [|c [|? ?]]; try discriminate. eauto. Qed.
Lemma nothing_some x n : nothing x = Some n -> x = [] /\ n = 0%N.
Proof. destruct x; [|discriminate]. intros [= <-]. auto. Qed.
Lemma with_unit_some s k f x n : with_unit s k f x = Some n ->
  exists a b r i j, x = a :: b :: r /\ is s b = true /\ digit_of a = Some i /\ f r = Some j /\ n = (k * i + j)%N.
Proof.
  destruct x as [|a [|b r]]; try discriminate. unfold with_unit. destruct (is s b) eqn:E; [|discriminate]. intro H.
  apply plus_some in H as (m & j & H & F & ->). apply times_some in H as (i & H & ->). exists a, b, r, i, j. auto.
Qed.
Lemma after_zero_some f x n : after_zero f x = Some n -> exists z r, x = z :: r /\ zero_of z = true /\ f r = Some n.
Proof. destruct x as [|z r]; [discriminate|]. unfold after_zero. destruct (zero_of z) eqn:E; [|discriminate]. eauto. Qed.
Lemma tens_some x n : tens_of x = Some n -> exists r j, orelse (lone r) (nothing r) = Some j /\
  ((exists a, x = a :: r /\ is "十" a = true /\ n = (10 + j)%N) \/
   (exists a b i, x = a :: b :: r /\ is "十" b = true /\ digit_of a = Some i /\ n = (10 * i + j)%N)).
Proof.
  destruct x as [|a r]; [discriminate|]. unfold tens_of. destruct (is "十" a) eqn:E; intro H.
  - apply plus_some in H as (i & j & [= <-] & B & ->). exists r, j. split; [exact B|]. left. eauto.
  - destruct r as [|b r]; [discriminate|]. destruct (is "十" b) eqn:E'; [|discriminate].
    apply plus_some in H as (m & j & H & B & ->). apply times_some in H as (i & H & ->). exists r, j. split; [exact B|]. right. eauto 8.
Qed.
Lemma kind_lone : of_kind 1 lone.
Proof. intros x n H. apply lone_some in H as (c & -> & H). apply digit_facts in H as (_ & A & B & _). unfold kind. now rewrite A, B. Qed.
Lemma kind_ten k : of_kind 1 (fun x => times k (lone x)).
Proof. intros x n H. apply times_some in H as (i & H & _). now apply kind_lone in H. Qed.
Lemma kind_nothing : of_kind 0 nothing.
Proof. intros x n H. now apply nothing_some in H as (-> & _). Qed.
Lemma kind_zero f : of_kind 2 (after_zero f).
Proof. intros x n H. apply after_zero_some in H as (z & r & -> & Z & _). unfold kind. now rewrite Z. Qed.
Lemma kind_unit s k f : In s ["百"; "千"]%string -> of_kind (if String.eqb s "百" then 4 else 5) (with_unit s k f).
Proof.
  intros I x n H. apply with_unit_some in H as (a & b & r & i & j & -> & E & D & _). unfold kind.
  apply digit_facts in D as (_ & A & B & _). rewrite A, B. destruct I as [<-|[<-|[]]];
    apply is_spec in E; vm_compute in E; injection E as <-; reflexivity.
Qed.
Lemma kind_tens : of_kind 3 tens_of.
Proof.
  intros x n H. apply tens_some in H as (r & j & _ & [(a & -> & E & _)|(a & b & i & -> & E & D & _)]); unfold kind.
  - destruct (unit_facts "十" a ltac:(cbn; auto) E) as (_ & -> & _). now rewrite E.
  - apply digit_facts in D as (_ & -> & -> & _). now rewrite E.
Qed.
Lemma kind_hundreds : of_kind 4 hundreds_of.
Proof. exact (kind_unit "百" _ _ ltac:(cbn; auto)). Qed.
Lemma kind_thousands : of_kind 5 thousands_of.
Proof. exact (kind_unit "千" _ _ ltac:(cbn; auto)). Qed.

(** ** Graphs that write a number in a fixed number of digits *)
Definition pads (e : fst) (k : nat) (f : text -> option N) : Prop :=
  (forall x n, f x = Some n -> (n < 10 ^ N.of_nat k)%N) /\
  forall x d, gives e x d <-> exists n, f x = Some n /\ pad k n d.
Lemma pads_ext e k f g : (forall x, f x = g x) -> pads e k f -> pads e k g.
Proof.
  intros E (B & P). split; [intros x n H; apply (B x); now rewrite E|]. intros x d. rewrite (P x d). now setoid_rewrite E.
Qed.
Lemma pads_weight w e k f : pads e k f -> pads (Weight w e) k f.
Proof. intros (B & P). split; [exact B|]. intros x d. rewrite gives_weight. apply P. Qed.
Lemma pads_union a b k f g : pads a k f -> pads b k g -> apart f g -> pads (a ∪ b)%fst k (fun x => orelse (f x) (g x)).
Proof.
  intros (Ba & A) (Bb & B) D. split; [intros x n H; apply orelse_some in H as [H|H]; eauto|].
  intros x d. rewrite gives_union, (A x d), (B x d). split.
  - intros [(n & H & P)|(n & H & P)]; exists n; split; auto.
    + now rewrite H.
    + destruct (f x) as [m|] eqn:E; [exfalso; exact (D x m n E H)|exact H].
  - intros (n & H & P). apply orelse_some in H as [H|H]; eauto.
Qed.
Lemma pads_same a b k f : pads a k f -> (forall x d, gives a x d <-> gives b x d) -> pads b k f.
Proof. intros (B & P) E. split; [exact B|]. intros x d. rewrite <- E. apply P. Qed.
Lemma gives_accep t x d : gives (accep t) x d <-> x = t /\ d = t.
Proof. exact (gives_cross t t x d). Qed.
Lemma gives_delete_text t x d : gives (delete t) x d <-> x = t /\ d = [].
Proof. exact (gives_cross t [] x d). Qed.
Lemma digit_table x d : gives Cardinal.digit x d <-> exists n, named spoken_digits x = Some n /\ d = [(48 + n)%N].
Proof. apply (table_named _ _ (fun n => [(48 + n)%N])). vm_compute. reflexivity. Qed.
Lemma digit_graph x d : gives Cardinal.digit x d <-> exists c n, x = [c] /\ digit_of c = Some n /\ d = [(48 + n)%N].
Proof.
  rewrite digit_table. split.
  - intros (n & H & ->).
    pose proof (named_all (fun t n => match t with [c] => match digit_of c with Some m => N.eqb m n | None => false end | _ => false end)
      spoken_digits ltac:(vm_compute; reflexivity) x n H) as F.
    destruct x as [|c [|? ?]]; try discriminate. destruct (digit_of c) as [m|] eqn:D; [|discriminate].
    apply N.eqb_eq in F as ->. eauto.
  - intros (c & n & -> & H & ->). exists n. split; [|reflexivity]. exact H.
Qed.
Lemma digit_pads : pads Cardinal.digit 1 lone.
Proof.
  split; [intros x n H; apply lone_some in H as (c & _ & H); apply digit_facts in H; change (10 ^ N.of_nat 1)%N with 10%N; lia|].
  intros x d. rewrite digit_graph. split.
  - intros (c & n & -> & H & ->). exists n. split; [exact H|]. apply pad_one. apply digit_facts in H. lia.
  - intros (n & H & P). apply lone_some in H as (c & -> & H). exists c, n. split; [auto|]. split; [exact H|].
    eapply pad_unique; [exact P|]. apply pad_one. apply digit_facts in H. lia.
Qed.
Lemma zero_graph x d : gives Cardinal.zero x d <-> exists z, x = [z] /\ zero_of z = true /\ d = [48%N].
Proof.
  unfold Cardinal.zero, string_file. rewrite gives_table. split.
  - intro I. vm_compute in I. destruct I as [[= <- <-]|[[= <- <-]|[]]]; eexists; (split; [reflexivity|]); split; vm_compute; reflexivity.
  - intros (z & -> & H & ->). unfold zero_of in H. apply orb_true_iff in H as [H|H].
    + destruct (text_eqb_spec (u "零") [z]) as [E|]; [|discriminate]. rewrite <- E. vm_compute. auto.
    + destruct (text_eqb_spec (u "洞") [z]) as [E|]; [|discriminate]. rewrite <- E. vm_compute. auto.
Qed.
Lemma zero_pad : pad 1 0 [48%N].
Proof. exact (pad_zeros 1). Qed.
Lemma pow_S k : (10 ^ N.of_nat (S k) = 10 * 10 ^ N.of_nat k)%N.
Proof. now rewrite Nnat.Nat2N.inj_succ, N.pow_succ_r'. Qed.
Lemma pow_pos k : (1 <= 10 ^ N.of_nat k)%N.
Proof. pose proof (N.pow_nonzero 10 (N.of_nat k) ltac:(lia)). lia. Qed.
(** A zero said in front, a zero not said, a digit and its unit in front, and zeros at the end. *)
Lemma zero_front k n d : (n < 10 ^ N.of_nat k)%N -> pad (S k) n d <-> exists d', d = 48%N :: d' /\ pad k n d'.
Proof.
  intro L. split.
  - intro P. destruct (pad_split 1 k 0 n d P L) as (a & b & -> & A & B). exists b. split; [|exact B].
    now rewrite (pad_unique 1 0 a [48%N] A zero_pad).
  - intros (d' & -> & P). exact (pad_app 1 k 0 n _ _ zero_pad P).
Qed.
Lemma pads_zero e k f : pads e k f -> pads (Cardinal.zero + e)%fst (S k) (after_zero f).
Proof.
  intros (B & P). split.
  { intros x n H. apply after_zero_some in H as (z & r & _ & _ & H). apply B in H. rewrite pow_S. pose proof (pow_pos k). lia. }
  intros x d. rewrite gives_cat. split.
  - intros (x1 & d1 & x2 & d2 & -> & -> & H & G). apply zero_graph in H as (z & -> & Z & ->). apply P in G as (n & F & G).
    exists n. split; [cbn; now rewrite Z|]. exact (pad_app 1 k 0 n _ _ zero_pad G).
  - intros (n & H & G). apply after_zero_some in H as (z & r & -> & Z & F). apply zero_front in G as (d' & -> & G); [|exact (B _ _ F)].
    exists [z], [48%N], r, d'. split; [auto|]. split; [auto|]. split; [apply zero_graph; eauto|]. apply P. eauto.
Qed.
Lemma pads_silent e k f : pads e k f -> pads (Cardinal.addzero + e)%fst (S k) f.
Proof.
  intros (B & P). split.
  { intros x n H. apply B in H. rewrite pow_S. pose proof (pow_pos k). lia. }
  intros x d. unfold Cardinal.addzero. rewrite gives_insert. split.
  - intros (d' & -> & G). apply P in G as (n & F & G). exists n. split; [auto|]. exact (pad_app 1 k 0 n _ _ zero_pad G).
  - intros (n & F & G). apply zero_front in G as (d' & -> & G); [|exact (B _ _ F)]. exists d'. split; [reflexivity|]. apply P. eauto.
Qed.
Lemma pads_unit s e k f : pads e k f -> (exists b, u s = [b]) ->
  pads (Cardinal.digit + delete (u s) + e)%fst (S k) (with_unit s (10 ^ N.of_nat k) f).
Proof.
  intros (B & P) (cu & U). split.
  { intros x n H. apply with_unit_some in H as (a & b & r & i & j & _ & _ & D & F & ->). apply B in F. apply digit_facts in D as (D & _).
    rewrite pow_S. pose proof (pow_pos k). nia. }
  intros x d. rewrite gives_assoc, gives_cat. split.
  - intros (x1 & d1 & x2 & d2 & -> & -> & H & G). apply digit_graph in H as (a & i & -> & D & ->).
    apply gives_cat in G as (x3 & d3 & x4 & d4 & -> & -> & G1 & G2). apply gives_delete_text in G1 as (-> & ->).
    apply P in G2 as (j & F & G2). exists (10 ^ N.of_nat k * i + j)%N. split.
    + rewrite U. cbn [app with_unit]. rewrite (proj2 (is_spec s cu) U), D, F. reflexivity.
    + cbn [app]. rewrite N.mul_comm. apply (pad_app 1 k i j [(48 + i)%N] d4); [apply pad_one; apply digit_facts in D; lia|exact G2].
  - intros (n & H & G). apply with_unit_some in H as (a & b & r & i & j & -> & E & D & F & ->). rewrite N.mul_comm in G.
    apply (pad_split 1 k) in G as (a' & b' & -> & G1 & G2); [|exact (B _ _ F)].
    exists [a], a', (b :: r), b'. split; [auto|]. split; [auto|]. split.
    + apply digit_graph. exists a, i. split; [auto|]. split; [auto|]. eapply pad_unique; [exact G1|]. apply pad_one. apply digit_facts in D. lia.
    + apply gives_cat. apply is_spec in E. exists [b], [], r, b'. split; [auto|]. split; [auto|]. split; [apply gives_delete_text; auto|].
      apply P. eauto.
Qed.
Lemma zeros_pads k : pads (Cardinal.addzero ** k)%fst k nothing.
Proof.
  split; [intros x n H; apply nothing_some in H as (_ & ->); pose proof (pow_pos k); lia|].
  assert (Z : forall x d, gives (Cardinal.addzero ** k)%fst x d <-> x = [] /\ d = repeat 48%N k).
  { induction k as [|[|k] IH]; intros x d.
    - exact (gives_cross [] [] x d).
    - exact (gives_cross [] [48%N] x d).
    - change (Cardinal.addzero ** S (S k))%fst with (Cardinal.addzero + Cardinal.addzero ** S k)%fst. unfold Cardinal.addzero at 1.
      rewrite gives_insert. split; [intros (d' & -> & H); apply IH in H as (-> & ->); auto|].
      intros (-> & ->). exists (repeat 48%N (S k)). split; [reflexivity|]. apply IH. auto. }
  intros x d. rewrite Z. split.
  - intros (-> & ->). exists 0%N. split; [reflexivity|apply pad_zeros].
  - intros (n & H & P). apply nothing_some in H as (-> & ->). split; [reflexivity|]. exact (pad_unique _ _ _ _ P (pad_zeros k)).
Qed.
Lemma pads_trailing k : pads (Cardinal.digit + Cardinal.addzero ** k)%fst (S k) (fun x => times (10 ^ N.of_nat k) (lone x)).
Proof.
  destruct (zeros_pads k) as (_ & Z). split.
  { intros x n H. apply times_some in H as (i & H & ->). apply digit_pads in H. rewrite pow_S. change (10 ^ N.of_nat 1)%N with 10%N in H.
    pose proof (pow_pos k). nia. }
  intros x d. rewrite gives_cat. split.
  - intros (x1 & d1 & x2 & d2 & -> & -> & H & G). apply digit_pads in H as (i & L & H). apply Z in G as (j & N0 & G).
    apply nothing_some in N0 as (-> & ->). rewrite app_nil_r, L. exists (10 ^ N.of_nat k * i)%N. split; [reflexivity|].
    rewrite N.mul_comm, <- (N.add_0_r (i * _)). exact (pad_app 1 k i 0 _ _ H G).
  - intros (n & H & G). apply times_some in H as (i & L & ->). rewrite N.mul_comm, <- (N.add_0_r (i * _)) in G.
    apply (pad_split 1 k) in G as (a & b & -> & A & B); [|pose proof (pow_pos k); lia].
    exists x, a, [], b. split; [now rewrite app_nil_r|]. split; [auto|]. split; [apply digit_pads; eauto|]. apply Z. exists 0%N. auto.
Qed.

(** ** Below ten thousand *)
Definition last_digit (r : text) : option N := orelse (lone r) (nothing r).
Lemma last_pads : pads (Cardinal.digit ∪ Weight 1000 Cardinal.addzero)%fst 1 last_digit.
Proof.
  apply pads_union; [apply digit_pads|apply pads_weight; exact (zeros_pads 1)|].
  apply (kinds_apart 1 0); [exact kind_lone|exact kind_nothing|discriminate].
Qed.
Definition teen_of (t : text) : option N :=
  match t with a :: r => if is "十" a then plus (Some 10%N) (last_digit r) else None | [] => None end.
Lemma teen_pads : pads Cardinal.teen 2 teen_of.
Proof.
  assert (S : forall x n, teen_of x = Some n -> exists a r j, x = a :: r /\ is "十" a = true /\ last_digit r = Some j /\ n = (1 * 10 ^ N.of_nat 1 + j)%N).
  { intros [|a r] n H; [discriminate|]. unfold teen_of in H. destruct (is "十" a) eqn:E; [|discriminate].
    apply plus_some in H as (i & j & [= <-] & L & ->). exists a, r, j. auto. }
  destruct last_pads as (Bl & Pl). split.
  { intros x n H. apply S in H as (a & r & j & _ & _ & L & ->). apply Bl in L. rewrite pow_S. lia. }
  intros x d. unfold Cardinal.teen. rewrite gives_cat. split.
  - intros (x1 & d1 & x2 & d2 & -> & -> & H & G). apply gives_cross in H as (-> & ->). apply Pl in G as (j & L & G).
    exists (1 * 10 ^ N.of_nat 1 + j)%N. split.
    + destruct (u "十") as [|c [|? ?]] eqn:U; try discriminate. cbn [app teen_of]. rewrite (proj2 (is_spec "十" c) U), L. reflexivity.
    + apply (pad_app 1 1 1 j (u "1") d2); [exact (pad_one 1 ltac:(lia))|exact G].
  - intros (n & H & P). apply S in H as (a & r & j & -> & E & L & ->). apply (pad_split 1 1) in P as (d1 & d2 & -> & P1 & P2); [|exact (Bl _ _ L)].
    exists [a], d1, r, d2. split; [auto|]. split; [auto|]. split; [|apply Pl; eauto].
    apply gives_cross. apply is_spec in E. split; [auto|]. exact (pad_unique 1 1 _ _ P1 (pad_one 1 ltac:(lia))).
Qed.
Definition ties_of : text -> option N := with_unit "十" 10 last_digit.
Lemma ties_pads : pads Cardinal.tens 2 ties_of.
Proof. exact (pads_unit "十" _ 1 last_digit last_pads (ex_intro _ _ eq_refl)). Qed.
Lemma ties_teen_apart : apart ties_of teen_of.
Proof.
  intros x n m H G. apply with_unit_some in H as (a & b & r & i & j & -> & _ & D & _). unfold teen_of in G.
  apply digit_facts in D as (_ & _ & E & _). rewrite E in G. discriminate.
Qed.
Lemma tens_orelse x : orelse (ties_of x) (teen_of x) = tens_of x.
Proof.
  destruct x as [|a r]; [reflexivity|]. unfold ties_of, teen_of, tens_of, with_unit, last_digit. destruct (is "十" a) eqn:E.
  - destruct r as [|b r]; [reflexivity|]. destruct (is "十" b); [|reflexivity].
    destruct (unit_facts "十" a ltac:(cbn; auto) E) as (-> & _). reflexivity.
  - destruct r as [|b r]; [reflexivity|]. destruct (is "十" b); [|reflexivity]. now destruct (plus _ _).
Qed.
Lemma tens_pads : pads (Cardinal.tens ∪ Cardinal.teen)%fst 2 tens_of.
Proof. apply (pads_ext _ _ _ _ tens_orelse). apply pads_union; [exact ties_pads|exact teen_pads|exact ties_teen_apart]. Qed.
Lemma orelse_assoc a b c : orelse (orelse a b) c = orelse a (orelse b c).
Proof. now destruct a. Qed.
Lemma apart_or f g h : apart f h -> apart g h -> apart (fun x => orelse (f x) (g x)) h.
Proof. intros A B x n m H G. apply orelse_some in H as [H|H]; [exact (A _ _ _ H G)|exact (B _ _ _ H G)]. Qed.
Lemma apart_sym f g : apart f g -> apart g f.
Proof. intros A x n m H G. exact (A x m n G H). Qed.
Lemma apart_zero f g : apart f g -> apart (after_zero f) (after_zero g).
Proof.
  intros A x n m H G. apply after_zero_some in H as (z & r & -> & _ & H). apply after_zero_some in G as (z' & r' & [= <- <-] & _ & G).
  exact (A _ _ _ H G).
Qed.
Ltac apart_kinds := repeat apply apart_or; try apply apart_zero;
  eapply kinds_apart; first [exact kind_tens | exact kind_hundreds | exact kind_thousands | apply kind_zero | exact kind_lone
    | apply kind_ten | exact kind_nothing | discriminate].
Lemma zero_digit_pads : pads (Cardinal.zero + Cardinal.digit)%fst 2 (after_zero lone).
Proof. exact (pads_zero _ _ _ digit_pads). Qed.
Lemma hundred_pads : pads Cardinal.hundred 3 hundreds_of.
Proof.
  apply (pads_unit "百" _ 2 after_hundred); [|eexists; reflexivity].
  eapply pads_ext with (f := fun x => orelse (orelse (orelse (tens_of x) (after_zero lone x)) (times 10 (lone x))) (nothing x)).
  { intro x. unfold after_hundred. now rewrite !orelse_assoc. }
  apply pads_union; [apply pads_union; [apply pads_union|..]|..].
  - exact tens_pads.
  - apply pads_weight. exact zero_digit_pads.
  - apart_kinds.
  - apply pads_weight. exact (pads_trailing 1).
  - apart_kinds.
  - apply pads_weight. exact (zeros_pads 2).
  - apart_kinds.
Qed.
Lemma thousand_pads : pads Cardinal.thousand 4 thousands_of.
Proof.
  apply (pads_unit "千" _ 3 after_thousand); [|eexists; reflexivity].
  eapply pads_ext with (f := fun x => orelse (orelse (orelse (orelse (hundreds_of x) (after_zero tens_of x)) (after_zero lone x)) (times 100 (lone x))) (nothing x)).
  { intro x. unfold after_thousand. now rewrite !orelse_assoc. }
  apply pads_union; [apply pads_union; [apply pads_union; [apply pads_union|..]|..]|..].
  - exact hundred_pads.
  - apply pads_weight. exact (pads_zero _ _ _ tens_pads).
  - apart_kinds.
  - apply pads_weight. eapply pads_same; [exact (pads_silent _ _ _ zero_digit_pads)|]. intros x d. now rewrite gives_assoc.
  - apart_kinds.
  - apply pads_weight. exact (pads_trailing 2).
  - apart_kinds.
  - apply pads_weight. exact (zeros_pads 3).
  - apart_kinds.
Qed.
Lemma below_wan_pads : pads Cardinal.below_wan 4 after_wan.
Proof.
  eapply pads_ext with (f := fun x => orelse (orelse (orelse (orelse (orelse (thousands_of x) (after_zero hundreds_of x)) (after_zero tens_of x))
    (after_zero lone x)) (times 1000 (lone x))) (nothing x)).
  { intro x. unfold after_wan. now rewrite !orelse_assoc. }
  apply pads_union; [apply pads_union; [apply pads_union; [apply pads_union; [apply pads_union|..]|..]|..]|..].
  - exact thousand_pads.
  - apply pads_weight. exact (pads_zero _ _ _ hundred_pads).
  - apart_kinds.
  - apply pads_weight. eapply pads_same; [exact (pads_silent _ _ _ (pads_zero _ _ _ tens_pads))|]. intros x d. now rewrite gives_assoc.
  - apart_kinds.
  - apply pads_weight. eapply pads_same; [exact (pads_silent _ _ _ (pads_silent _ _ _ zero_digit_pads))|].
    intros x d. now rewrite !gives_assoc.
  - apart_kinds.
  - apply pads_weight. exact (pads_trailing 3).
  - apart_kinds.
  - apply pads_weight. exact (zeros_pads 4).
  - apart_kinds.
Qed.

(** ** Graphs that write a number as it is written *)
Definition decs (e : fst) (f : text -> option N) : Prop :=
  forall x d, gives e x d <-> exists n, f x = Some n /\ decimal d n.
Lemma pads_decs e k f : pads e (S k) f -> (forall x n, f x = Some n -> (10 ^ N.of_nat k <= n)%N) -> decs e f.
Proof.
  intros (B & P) L x d. rewrite (P x d). split; intros (n & F & D); exists n; split; auto.
  - exact (pad_decimal k n d D (L _ _ F)).
  - apply decimal_pad; auto. split; [exact (L _ _ F)|exact (B _ _ F)].
Qed.
Lemma decs_union a b f g h : decs a f -> decs b g -> (forall x n, h x = Some n <-> f x = Some n \/ g x = Some n) -> decs (a ∪ b)%fst h.
Proof.
  intros A B H x d. rewrite gives_union, (A x d), (B x d). split.
  - intros [(n & F & D)|(n & F & D)]; exists n; (split; [apply H|]); auto.
  - intros (n & F & D). apply H in F as [F|F]; eauto.
Qed.
Lemma unit_least s k f x n : with_unit s k f x = Some n -> (k <= n)%N.
Proof. intro H. apply with_unit_some in H as (a & b & r & i & j & _ & _ & D & _ & ->). apply digit_facts in D. nia. Qed.
Lemma teen_least x n : teen_of x = Some n -> (10 <= n)%N.
Proof. destruct x as [|a r]; [discriminate|]. unfold teen_of. destruct (is "十" a); [|discriminate]. intro H. apply plus_some in H as (i & j & [= <-] & _ & ->). lia. Qed.
Lemma thousand_decs : decs Cardinal.thousand thousands_of.
Proof. apply (pads_decs _ 3 _ thousand_pads). exact (unit_least "千" 1000 _). Qed.
Lemma hundred_decs : decs Cardinal.hundred hundreds_of.
Proof. apply (pads_decs _ 2 _ hundred_pads). exact (unit_least "百" 100 _). Qed.
Lemma ties_decs : decs Cardinal.tens ties_of.
Proof. apply (pads_decs _ 1 _ ties_pads). exact (unit_least "十" 10 _). Qed.
Lemma teen_decs : decs Cardinal.teen teen_of.
Proof. apply (pads_decs _ 1 _ teen_pads). exact teen_least. Qed.
Lemma digit_decs : decs Cardinal.digit lone.
Proof. apply (pads_decs _ 0 _ digit_pads). intros x n H. apply lone_some in H as (c & _ & H). apply digit_facts in H. change (10 ^ N.of_nat 0)%N with 1%N. lia. Qed.
Lemma tens_either x n : tens_of x = Some n <-> ties_of x = Some n \/ teen_of x = Some n.
Proof.
  rewrite <- tens_orelse. split; [apply orelse_some|]. intros [->|H]; [reflexivity|].
  destruct (ties_of x) as [m|] eqn:E; [exfalso; exact (ties_teen_apart x m n E H)|exact H].
Qed.
Lemma orelse_either f g x n : apart f g -> orelse (f x) (g x) = Some n <-> f x = Some n \/ g x = Some n.
Proof.
  intro A. split; [apply orelse_some|]. intros [->|H]; [reflexivity|]. destruct (f x) as [m|] eqn:E; [exfalso; exact (A x m n E H)|exact H].
Qed.
Lemma section_either x n : section x = Some n <-> thousands_of x = Some n \/ hundreds_of x = Some n \/ tens_of x = Some n \/ lone x = Some n.
Proof.
  unfold section. rewrite (orelse_either thousands_of (fun x => orelse (hundreds_of x) (orelse (tens_of x) (lone x)))).
  2:{ apply apart_sym. apply apart_or; [apart_kinds|]. apart_kinds. }
  rewrite (orelse_either hundreds_of (fun x => orelse (tens_of x) (lone x))); [|apply apart_sym; apart_kinds].
  rewrite (orelse_either tens_of lone); [|apart_kinds]. reflexivity.
Qed.
Lemma section_graph : decs (Cardinal.thousand ∪ Cardinal.hundred ∪ Cardinal.teen ∪ Cardinal.tens ∪ Cardinal.digit)%fst section.
Proof.
  intros x d. rewrite !gives_union, (thousand_decs x d), (hundred_decs x d), (teen_decs x d), (ties_decs x d), (digit_decs x d).
  setoid_rewrite section_either. setoid_rewrite tens_either. firstorder.
Qed.
Lemma section_bound x n : section x = Some n -> (1 <= n < 10000)%N.
Proof.
  intro H. apply section_either in H as [H|[H|[H|H]]].
  - pose proof (proj1 thousand_pads _ _ H) as B. change (10 ^ N.of_nat 4)%N with 10000%N in B. apply unit_least in H. lia.
  - pose proof (proj1 hundred_pads _ _ H) as B. change (10 ^ N.of_nat 3)%N with 1000%N in B. apply unit_least in H. lia.
  - pose proof (proj1 tens_pads _ _ H) as B. change (10 ^ N.of_nat 2)%N with 100%N in B. apply tens_either in H as [H|H]; [apply unit_least in H|apply teen_least in H]; lia.
  - apply lone_some in H as (c & _ & H). apply digit_facts in H. lia.
Qed.
Lemma section_small x n : section x = Some n -> (n < 100)%N <-> tens_of x = Some n \/ lone x = Some n.
Proof.
  intro H. split; [intro L|intros [T|T]].
  - apply section_either in H as [H|[H|H]]; [apply unit_least in H; lia|apply unit_least in H; lia|exact H].
  - apply (proj1 tens_pads _ _ T).
  - apply lone_some in T as (c & _ & T). apply digit_facts in T. lia.
Qed.
