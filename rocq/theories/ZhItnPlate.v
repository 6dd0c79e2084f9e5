(** Train numbers and number plates of the Chinese inverse normaliser (C87). *)
From Coq Require Import List NArith ZArith Bool String Lia Arith MSetPositive SetoidList.
From Verif Require Import Text TextFacts TokenModel Fst FstFacts GrammarModel GrammarSpec GrammarAccept EnglishNumeralSpec BoundarySpec WholeSpec DataZhItn ZhItnModel ZhItnPlateSpec.
From Verif Require Import TokenVerbal JaHead Least OneToken Fields Fields2 ZhItnVerbal ZhItnSaid.
From Verif Require FstEval PlainRules Whole TokenProofs2.
Import ListNotations.
Local Open Scope list_scope.

(** ** Sets of characters, as trees so that membership is quick to compute *)
Definition tree (l : text) : PositiveSet.t := fold_right (fun c t => match c with Npos p => PositiveSet.add p t | N0 => t end) PositiveSet.empty l.
Definition held (t : PositiveSet.t) (c : N) : bool := match c with Npos p => PositiveSet.mem p t | N0 => false end.
Lemma held_all t (P : N -> bool) : forallb (fun p => P (Npos p)) (PositiveSet.elements t) = true -> forall c, held t c = true -> P c = true.
Proof.
  intros A [|p] H; [discriminate H|]. cbn [held] in H. apply PositiveSet.mem_spec, PositiveSet.elements_spec1 in H. rewrite forallb_forall in A. apply (A p). apply InA_alt in H as (q & -> & I). exact I.
Qed.
Definition kinds_set := Eval vm_compute in tree (map Datatypes.fst train_kinds).
Definition provinces_set := Eval vm_compute in tree provinces.
Definition letters : text := Eval vm_compute in u "ABCDEFGHIJKLMNOPQRSTUVWXYZabcdefghijklmnopqrstuvwxyz".
Definition rest_chars : text := Eval vm_compute in map Datatypes.fst digit_names ++ letters.
Definition rest_set := Eval vm_compute in tree rest_chars.
Definition all_set := Eval vm_compute in tree (map Datatypes.fst train_kinds ++ provinces ++ rest_chars).
Definition kc : N -> bool := held all_set.
Definition rc : N -> bool := held rest_set.
Lemma kc_valid c : kc c = true -> vchar c = true.
Proof. apply held_all. vm_compute. reflexivity. Qed.
Lemma kc_bare c : kc c = true -> bare c = true.
Proof. apply held_all. vm_compute. reflexivity. Qed.
Lemma all_of (P Q : N -> bool) x : (forall c, P c = true -> Q c = true) -> forallb P x = true -> forallb Q x = true.
Proof. intros A H. rewrite forallb_forall in *. auto. Qed.
(** ** The costs of all rules *)
Lemma plate_floor o : forallb (floor_on kc 10000) (rules o) = true.
Proof. destruct o as [r [] [] []]; vm_compute; reflexivity. Qed.
(** All rules but these begin with a digit or a letter. *)
Definition starts (s : rule_spec) : bool := match s_weight s with Some k => (k =? 10000)%Z || (10000 <? k)%Z && (begins kc rc (r_tagger (s_rule s)) || (k =? 1000000)%Z) | None => true end.
Lemma rules_start o : forallb starts (rules o) = true.
Proof. destruct o as [r [] [] []]; vm_compute; reflexivity. Qed.
Definition plate_spec : rule_spec := RuleSpec LicensePlate.rule (Some 10000%Z) true.
Definition train_spec : rule_spec := RuleSpec TrainNumber.rule (Some 10000%Z) true.
Lemma only_plate o : name_only (rules o) (u "licenseplate") plate_spec.
Proof. destruct o as [a b c d]; PlainRules.only_tac. Qed.
Lemma only_train o : name_only (rules o) (u "trainnumber") train_spec.
Proof. destruct o as [a b c d]; PlainRules.only_tac. Qed.
Lemma light o s : In s (rules o) -> s_weight s = Some 10000%Z -> s = plate_spec \/ s = train_spec.
Proof. intros I W. unfold rules in I. cbn [In] in I. repeat destruct I as [I|I]; [..|destruct I]; rewrite <- I in W |- *; cbn [s_weight] in W; try discriminate W; auto. Qed.
Lemma whole_rule o s k c r y w : In s (rules o) -> s_weight s = Some k -> forallb kc (c :: r) = true -> rc c = false -> denote (r_tagger (s_rule s)) (c :: r) y w ->
  (10000 <= k + w)%Z /\ (k + w = 10000 -> s = plate_spec \/ s = train_spec)%Z.
Proof.
  intros I W K C H. pose proof (proj1 (forallb_forall _ _) (plate_floor o) s I) as F. unfold floor_on in F. rewrite W in F. pose proof (least_sound kc _ _ _ _ K H) as L.
  assert (Lo : (10000 <= k + w)%Z) by (destruct (least kc _); [destruct L| |discriminate F]; cbn [low_ok] in L; apply Z.leb_le in F; lia). split; [exact Lo|]. intro E.
  pose proof (proj1 (forallb_forall _ _) (rules_start o) s I) as B. unfold starts in B. rewrite W in B. apply orb_true_iff in B as [B|B]; [apply Z.eqb_eq in B; subst k; exact (light o s I W)|]. exfalso.
  apply andb_true_iff in B as (Hk & B). apply orb_true_iff in B as [B|B].
  - pose proof (begins_sound kc rc kc_valid _ B _ _ _ K H) as X. cbn [headed] in X. congruence.
  - apply Z.eqb_eq in B. subst k. assert (s = RuleSpec Char.rule (Some 1000000%Z) true) as -> by (unfold rules in I; cbn [In] in I; repeat destruct I as [I|I]; [..|destruct I]; rewrite <- I in W |- *; cbn [s_weight] in W; try discriminate W; reflexivity).
    pose proof (Whole.nonneg_sound (r_tagger Char.rule) eq_refl _ _ _ H). lia.
Qed.
(** ** Graphs that write each character by itself *)
Definition wrote (c : N) : N := match find (fun q => (Datatypes.fst q =? c)%N) (digit_names ++ train_kinds) with Some q => snd q | None => c end.
Definition maps (e : fst) : Prop := forall x y w, denote e x y w -> y = map wrote x /\ w = 0%Z.
Lemma maps_cat a b : maps a -> maps b -> maps (a + b)%fst.
Proof. intros A B x y w H. apply cat_inv in H as (x1 & y1 & w1 & x2 & y2 & w2 & -> & -> & -> & H1 & H2). destruct (A _ _ _ H1) as (-> & ->), (B _ _ _ H2) as (-> & ->). now rewrite map_app. Qed.
Lemma maps_union a b : maps a -> maps b -> maps (a ∪ b)%fst.
Proof. intros A B x y w [H|H]; auto. Qed.
Lemma maps_ques a : maps a -> maps (ques a).
Proof. intro A. apply maps_union; [exact A|]. intros x y w (-> & -> & ->). auto. Qed.
Lemma maps_power a n : maps a -> maps (a ** n)%fst.
Proof. intro A. induction n as [|n IH]; [intros x y w (-> & -> & ->); auto|]. first [exact (maps_cat _ _ A IH)|destruct n; [exact A|exact (maps_cat _ _ A IH)]]. Qed.
Lemma maps_table l : forallb (fun q => if list_eq_dec N.eq_dec (snd q) (map wrote (Datatypes.fst q)) then true else false) l = true -> maps (Table l).
Proof. intros A x y w (I & ->). rewrite forallb_forall in A. specialize (A _ I). cbn [Datatypes.fst snd] in A. split; [|reflexivity]. revert A. destruct (list_eq_dec N.eq_dec y (map wrote x)) as [E|E]; intro A; [exact E|discriminate A]. Qed.
Lemma maps_letters : maps ALPHA.
Proof.
  intros x y w (c & -> & -> & A & ->). split; [|reflexivity]. cbn [map]. f_equal. unfold wrote.
  destruct (find _ _) as [q|] eqn:E; [exfalso|reflexivity]. apply find_some in E as (I & E). apply N.eqb_eq in E. subst c.
  assert (B : forallb (fun q => negb (is_alpha (Datatypes.fst q))) (digit_names ++ train_kinds) = true) by (vm_compute; reflexivity). rewrite forallb_forall in B. specialize (B _ I). rewrite A in B. discriminate B.
Qed.
Lemma maps_digits : maps TrainNumber.digits.
Proof. apply maps_union; apply maps_table; vm_compute; reflexivity. Qed.
Lemma maps_train : maps TrainNumber.graph.
Proof. unfold TrainNumber.graph, TrainNumber.number. repeat first [apply maps_cat|apply maps_ques|exact maps_digits]. apply maps_table. vm_compute. reflexivity. Qed.
Lemma maps_plate : maps LicensePlate.graph.
Proof.
  assert (P : maps LicensePlate.province) by (apply maps_table; vm_compute; reflexivity). unfold LicensePlate.graph.
  assert (Q : forall n, maps ((ALPHA ∪ LicensePlate.digits) ** n)%fst) by (intro n; exact (maps_power _ n (maps_union _ _ maps_letters maps_digits))).
  apply maps_union; apply maps_cat; try apply Q; apply maps_cat; first [exact P|exact maps_letters].
Qed.
(** ** From the reading to the answer *)
Section Said.
Variables (o : options) (name : text) (g : fst) (c : N) (r : text).
Let x : text := c :: r.
Hypothesis Only : name_only (rules o) name (RuleSpec (value_rule name g) (Some 10000%Z) true).
Hypothesis Which : name = u "licenseplate" \/ name = u "trainnumber".
Hypothesis Maps : maps g.
Hypothesis Reads : denote g x (map wrote x) 0%Z.
Hypothesis Known : forallb kc x = true.
Hypothesis Head : rc c = false.
Hypothesis Alone : forall s y w, s = plate_spec \/ s = train_spec -> denote (r_tagger (s_rule s)) x y w -> s = RuleSpec (value_rule name g) (Some 10000%Z) true.
Hypothesis Kept : forallb kept (map wrote x) = true.
Lemma value_said : zh_itn_said o x (map wrote x).
Proof.
  pose proof (all_of _ _ _ kc_valid Known) as V. pose proof (all_of _ _ _ kc_bare Known) as B.
  assert (Tok : fields_token name [(u "value", x)] = name ++ u " { " ++ piece (u "value") x ++ u " }") by (unfold fields_token; cbn [map join Datatypes.fst snd]; rewrite (bare_escape x B); reflexivity).
  apply (zh_itn_said_fields o kc 10000 name (value_rule name g) 10000 x _ [(u "value", x)] [(u "value", x)] Only); try reflexivity; try assumption; try lia; try discriminate; try (destruct Which as [-> | ->]; reflexivity).
  - apply plate_floor.
  - unfold good_values. cbn [forallb Datatypes.fst snd]. rewrite V. reflexivity.
  - repeat constructor. intros [].
  - cbn [r_tagger value_rule]. apply PlainRules.tokens_added. exists (piece (u "value") x). split; [rewrite Tok, <- !app_assoc; reflexivity|]. apply tag_field_spec. split; [exact V|]. split; [unfold piece; now rewrite (bare_escape x B)|]. now exists (map wrote x).
  - intros s k y v I W H. destruct (whole_rule o s k c r _ _ I W Known Head H) as (L & E). split; [exact L|]. intro Ek. specialize (E Ek). rewrite (Alone s _ _ E H) in H. cbn [s_rule r_tagger value_rule] in H.
    apply PlainRules.tokens_added in H as (t' & Et & H). apply tag_field_spec in H as (_ & -> & _). apply (app_inv_tail (u " ")). rewrite Et, Tok, (bare_escape x B). unfold piece. rewrite <- !app_assoc. reflexivity.
  - intros z w. rewrite Tok. cbn [r_verbalizer value_rule]. rewrite tokens_inner. split.
    + intro H. destruct (vfield_cut false (u "value") g _ z w [] x [] B (fun I => I) H ltac:(rewrite !app_nil_r; reflexivity)) as (G & _). exact (Maps _ _ _ G).
    + intros (-> & ->). exact (vfield_i false (u "value") g x _ 0%Z B V Reads).
Qed.
End Said.

(** ** The characters of train numbers and number plates *)
Lemma pairs_all l (P : N * N -> bool) : forallb P l = true -> forall c d, In (c, d) l -> P (c, d) = true.
Proof. intros A c d I. rewrite forallb_forall in A. exact (A _ I). Qed.
Definition fit (q : N * N) : bool := kc (Datatypes.fst q) && (wrote (Datatypes.fst q) =? snd q)%N && kept (snd q).
Definition well (c d : N) : Prop := kc c = true /\ wrote c = d /\ kept d = true.
Lemma fit_well c d : fit (c, d) = true -> well c d.
Proof. unfold fit. cbn [Datatypes.fst snd]. rewrite !andb_true_iff, N.eqb_eq. unfold well. tauto. Qed.
Lemma digit_well c d : digit_named c d -> well c d.
Proof. intro I. unfold digit_named in I. assert (A : forallb fit digit_names = true) by (vm_compute; reflexivity). apply fit_well. rewrite forallb_forall in A. apply A. exact I. Qed.
Lemma kind_well c d : train_kind c d -> well c d.
Proof. intro I. unfold train_kind in I. assert (A : forallb fit train_kinds = true) by (vm_compute; reflexivity). apply fit_well. rewrite forallb_forall in A. apply A. exact I. Qed.
Lemma province_well c : province c -> well c c.
Proof. intro I. unfold province in I. apply fit_well. assert (A : forallb (fun c => fit (c, c)) provinces = true) by (vm_compute; reflexivity). rewrite forallb_forall in A. exact (A c I). Qed.
Lemma letter_in c : letter c -> In c letters.
Proof.
  assert (E : letters = map N.of_nat (seq 65 26) ++ map N.of_nat (seq 97 26)) by (vm_compute; reflexivity). rewrite E. intros [L|L]; apply in_app_iff; [left|right]; apply in_map_iff; exists (N.to_nat c); (split; [apply N2Nat.id|apply in_seq; lia]).
Qed.
Lemma letter_well c : letter c -> well c c.
Proof. intro I. apply letter_in in I. apply fit_well. assert (A : forallb (fun c => fit (c, c)) letters = true) by (vm_compute; reflexivity). rewrite forallb_forall in A. exact (A c I). Qed.
Lemma plate_well c d : plate_char c d -> well c d.
Proof. intros [(L & ->)|D]; [now apply letter_well|now apply digit_well]. Qed.
Lemma all_well cs ds : Forall2 well cs ds -> forallb kc cs = true /\ map wrote cs = ds /\ forallb kept ds = true.
Proof. intro F. induction F as [|c d cs ds (K & W & T) F (A & B & C)]; [auto|]. cbn [forallb map]. rewrite K, A, W, B, T, C. auto. Qed.
Lemma digit_read c d : digit_named c d -> denote TrainNumber.digits [c] [d] 0%Z.
Proof.
  intro I. unfold digit_named in I. assert (A : forallb (fun q => existsb (fun e => if list_eq_dec N.eq_dec (Datatypes.fst e) [Datatypes.fst q] then if list_eq_dec N.eq_dec (snd e) [snd q] then true else false else false) (map entry zh_itn_number_zero ++ map entry zh_itn_number_digit)) digit_names = true) by (vm_compute; reflexivity).
  pose proof (pairs_all _ _ A c d I) as X. apply existsb_exists in X as ([a b] & J & X). cbn [Datatypes.fst snd] in X. revert X. destruct (list_eq_dec N.eq_dec a [c]) as [->|]; [|discriminate]. destruct (list_eq_dec N.eq_dec b [d]) as [->|]; [|discriminate]. intros _. apply in_app_iff in J as [J|J]; [left|right]; (split; [exact J|reflexivity]).
Qed.
Lemma kind_read c d : train_kind c d -> denote TrainNumber.prefix [c] [d] 0%Z.
Proof.
  intro I. unfold train_kind in I. assert (A : forallb (fun q => existsb (fun e => if list_eq_dec N.eq_dec (Datatypes.fst e) [Datatypes.fst q] then if list_eq_dec N.eq_dec (snd e) [snd q] then true else false else false) (map entry zh_itn_train_number_prefix)) train_kinds = true) by (vm_compute; reflexivity).
  pose proof (pairs_all _ _ A c d I) as X. apply existsb_exists in X as ([a b] & J & X). cbn [Datatypes.fst snd] in X. revert X. destruct (list_eq_dec N.eq_dec a [c]) as [->|]; [|discriminate]. destruct (list_eq_dec N.eq_dec b [d]) as [->|]; [|discriminate]. intros _. split; [exact J|reflexivity].
Qed.
Lemma province_read c : province c -> denote LicensePlate.province [c] [c] 0%Z.
Proof.
  intro I. unfold province in I. assert (A : forallb (fun q => existsb (fun e => if list_eq_dec N.eq_dec (Datatypes.fst e) [q] then if list_eq_dec N.eq_dec (snd e) [q] then true else false else false) (map entry zh_itn_license_plate_province)) provinces = true) by (vm_compute; reflexivity).
  rewrite forallb_forall in A. specialize (A c I). apply existsb_exists in A as ([a b] & J & X). cbn [Datatypes.fst snd] in X. revert X. destruct (list_eq_dec N.eq_dec a [c]) as [->|]; [|discriminate]. destruct (list_eq_dec N.eq_dec b [c]) as [->|]; [|discriminate]. intros _. split; [exact J|reflexivity].
Qed.
Lemma letter_read c : letter c -> denote ALPHA [c] [c] 0%Z.
Proof. intro L. exists c. split; [reflexivity|]. split; [reflexivity|]. split; [|reflexivity]. unfold is_alpha, in_range. destruct L as [L|L]; apply orb_true_iff; [left|right]; apply andb_true_iff; split; apply N.leb_le; lia. Qed.
Lemma joined a b x y x' y' : denote a x y 0%Z -> denote b x' y' 0%Z -> denote (a + b)%fst (x ++ x') (y ++ y') 0%Z.
Proof. intros A B. exact (cat_i _ _ _ _ _ _ _ _ A B). Qed.
Lemma plate_read cs ds : Forall2 plate_char cs ds -> denote ((ALPHA ∪ LicensePlate.digits) ** List.length cs)%fst cs ds 0%Z.
Proof.
  intro F. induction F as [|c d cs ds P F IH]; [now cbn|].
  assert (H : denote (ALPHA ∪ LicensePlate.digits)%fst [c] [d] 0%Z) by (destruct P as [(L & ->)|D]; [left; now apply letter_read|right; now apply digit_read]).
  cbn [List.length power]. destruct cs as [|c' cs]; [inversion F; exact H|]. exact (joined _ _ [c] [d] _ _ H IH).
Qed.
Lemma first_apart c : (exists k, train_kind c k) -> held provinces_set c = false /\ rc c = false.
Proof. intros (k & I). unfold train_kind in I. assert (A : forallb (fun q => negb (held provinces_set (Datatypes.fst q)) && negb (rc (Datatypes.fst q))) train_kinds = true) by (vm_compute; reflexivity). pose proof (pairs_all _ _ A c k I) as X. cbn [Datatypes.fst] in X. rewrite andb_true_iff, !negb_true_iff in X. exact X. Qed.
Lemma province_apart c : province c -> held kinds_set c = false /\ rc c = false.
Proof. intro I. unfold province in I. assert (A : forallb (fun c => negb (held kinds_set c) && negb (rc c)) provinces = true) by (vm_compute; reflexivity). rewrite forallb_forall in A. specialize (A c I). cbn beta in A. rewrite andb_true_iff, !negb_true_iff in A. exact A. Qed.
Theorem train_said o c k ds Ds : train_kind c k -> Forall2 digit_named ds Ds -> 2 <= List.length ds <= 4 -> zh_itn_said o (c :: ds) (k :: Ds).
Proof.
  intros T F L. destruct (all_well (c :: ds) (k :: Ds)) as (K & W & Kp); [constructor; [now apply kind_well|]; clear -F; induction F; constructor; auto using digit_well|].
  rewrite <- W. destruct (first_apart c (ex_intro _ k T)) as (Np & Nr). apply (value_said o (u "trainnumber") TrainNumber.graph c ds); auto.
  - exact (only_train o).
  - exact maps_train.
  - rewrite W. apply (joined TrainNumber.prefix TrainNumber.number [c] [k]); [now apply kind_read|]. clear -F L. unfold TrainNumber.number.
    destruct F as [|c1 d1 ds Ds D1 F]; [cbn in L; lia|]. destruct F as [|c2 d2 ds Ds D2 F]; [cbn in L; lia|]. apply (joined _ _ ([c1] ++ [c2]) ([d1] ++ [d2])); [apply joined; now apply digit_read|].
    destruct F as [|c3 d3 ds Ds D3 F]; [right; now cbn|]. left. apply (joined _ _ [c3] [d3]); [now apply digit_read|]. destruct F as [|c4 d4 ds Ds D4 F]; [right; now cbn|]. left. destruct F as [|c5 d5 ds Ds D5 F]; [now apply digit_read|cbn in L; lia].
  - intros s y w [-> | ->] H; [exfalso|reflexivity]. assert (B : begins kc (held provinces_set) (r_tagger LicensePlate.rule) = true) by (vm_compute; reflexivity). pose proof (begins_sound kc _ kc_valid _ B _ _ _ K H) as X. cbn [headed] in X. congruence.
  - rewrite W. exact Kp.
Qed.
Theorem plate_said o c a cs ds : province c -> letter a -> Forall2 plate_char cs ds -> List.length cs = 5 \/ List.length cs = 6 -> zh_itn_said o (c :: a :: cs) (c :: a :: ds).
Proof.
  intros P A F L. destruct (all_well (c :: a :: cs) (c :: a :: ds)) as (K & W & Kp); [constructor; [now apply province_well|]; constructor; [now apply letter_well|]; clear -F; induction F; constructor; auto using plate_well|].
  rewrite <- W. destruct (province_apart c P) as (Np & Nr). apply (value_said o (u "licenseplate") LicensePlate.graph c (a :: cs)); auto.
  - exact (only_plate o).
  - exact maps_plate.
  - rewrite W. pose proof (plate_read cs ds F) as R. pose proof (joined _ _ _ _ _ _ (joined _ _ _ _ _ _ (province_read c P) (letter_read a A)) R) as X. destruct L as [L|L]; rewrite L in X; [left|right]; exact X.
  - intros s y w [-> | ->] H; [reflexivity|exfalso]. assert (B : begins kc (held kinds_set) (r_tagger TrainNumber.rule) = true) by (vm_compute; reflexivity). pose proof (begins_sound kc _ kc_valid _ B _ _ _ K H) as X. cbn [headed] in X. congruence.
  - rewrite W. exact Kp.
Qed.
