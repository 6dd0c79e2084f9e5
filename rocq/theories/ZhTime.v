(** Times of day of the Chinese normaliser (C70). *)
From Coq Require Import List NArith ZArith Bool String Lia Arith.
From Verif Require Import Text TextFacts TokenModel Fst FstFacts FstRun GrammarModel GrammarSpec GrammarAccept NumeralSpec EnglishNumeralSpec DataZhTn ZhTnModel ZhTnEndSpec ZhDateSpec ZhAmountSpec WholeSpec.
From Verif Require Import BoundaryChar Letters Apart OneToken TokenVerbal Fields ZhNumberProofs ZhTnRead ZhTnTag ZhTnPost PropsZhTnEnd ZhWhole ZhDate ZhDate2 ZhAmount ZhMoney.
From Verif Require EndToEnd EnNumberProofs5 PlainRules FstEval.
Import ListNotations.
Local Open Scope list_scope.

(** ** The parts *)
Definition hours : list (text * text) := Eval vm_compute in map entry zh_tn_time_hour.
Definition minutes : list (text * text) := Eval vm_compute in map entry zh_tn_time_minute.
Definition seconds : list (text * text) := Eval vm_compute in map entry zh_tn_time_second.
Definition noons : list (text * text) := Eval vm_compute in map entry zh_tn_time_noon.
Lemma hours_eq : map entry zh_tn_time_hour = hours.
Proof. vm_compute. reflexivity. Qed.
Lemma minutes_eq : map entry zh_tn_time_minute = minutes.
Proof. vm_compute. reflexivity. Qed.
Lemma seconds_eq : map entry zh_tn_time_second = seconds.
Proof. vm_compute. reflexivity. Qed.
Lemma noons_eq : map entry zh_tn_time_noon = noons.
Proof. vm_compute. reflexivity. Qed.
Lemma one_table a l x y w : map entry a = l -> denote (string_file a) x y w <-> In (x, y) l /\ w = 0%Z.
Proof. intros <-. reflexivity. Qed.
Lemma table_just a l p d : map entry a = l -> lists l p d = true -> just (string_file a) p d.
Proof. intros E L z w. rewrite (one_table a l _ _ _ E), (lists_sound _ _ _ L). reflexivity. Qed.
Definition hour_check (p : text) : bool := ((List.length p =? 1)%nat && negb (text_eqb p (u "0")) || (List.length p =? 2)%nat) && (decimal_value p <=? 24)%N.
Definition minute_check (p : text) : bool := (List.length p =? 2)%nat && (decimal_value p <=? 59)%N.
Lemma hour_reads p : hour_text p -> just Time.hour p (hour_words p).
Proof.
  intros (L & F & B). apply (table_just _ _ _ _ hours_eq).
  assert (A : implb (hour_check p) (lists hours p (hour_words p)) = true).
  { apply (short_all (fun p => implb (hour_check p) (lists hours p (hour_words p)))); [vm_compute; reflexivity|tauto|exact F]. }
  assert (W : hour_check p = true).
  { unfold hour_check. apply andb_true_iff. split; [|now apply N.leb_le]. apply orb_true_iff. destruct L as [(L & N)|L]; [left|right; now apply Nat.eqb_eq]. rewrite L. destruct (text_eqb_spec p (u "0")); [contradiction|reflexivity]. }
  rewrite W in A. exact A.
Qed.
Lemma minute_checked p : minute_text p -> minute_check p = true.
Proof. intros (L & F & B). unfold minute_check. rewrite L. now apply N.leb_le. Qed.
Lemma minute_reads p : minute_text p -> just Time.minute p (minute_words p).
Proof.
  intros M. pose proof (minute_checked p M) as W. destruct M as (L & F & B). apply (table_just _ _ _ _ minutes_eq).
  assert (A : implb (minute_check p) (lists minutes p (minute_words p)) = true).
  { apply (short_all (fun p => implb (minute_check p) (lists minutes p (minute_words p)))); [vm_compute; reflexivity|auto|exact F]. }
  rewrite W in A. exact A.
Qed.
Lemma second_reads p : minute_text p -> just Time.second p (second_words p).
Proof.
  intros M. pose proof (minute_checked p M) as W. destruct M as (L & F & B). apply (table_just _ _ _ _ seconds_eq).
  assert (A : implb (minute_check p) (lists seconds p (second_words p)) = true).
  { apply (short_all (fun p => implb (minute_check p) (lists seconds p (second_words p)))); [vm_compute; reflexivity|auto|exact F]. }
  rewrite W in A. exact A.
Qed.
Definition noon_texts : list text := Eval vm_compute in map u ["am"; "a m"; "a.m."; "AM"; "A M"; "pm"; "p m"; "p.m."; "PM"; "P M"]%string.
Lemma existsb_eqb p l : existsb (text_eqb p) l = true -> In p l.
Proof. intro H. apply existsb_exists in H as (q & I & E). destruct (text_eqb_spec p q) as [->|]; [exact I|discriminate]. Qed.
Lemma noon_in p m : noon_words p = Some m -> In p noon_texts.
Proof.
  unfold noon_words. intro H.
  assert (E : noon_texts = map u ["am"; "a m"; "a.m."; "AM"; "A M"]%string ++ map u ["pm"; "p m"; "p.m."; "PM"; "P M"]%string) by (vm_compute; reflexivity). rewrite E. apply in_app_iff.
  destruct (existsb (text_eqb p) (map u ["am"; "a m"; "a.m."; "AM"; "A M"]%string)) eqn:E1; [left; now apply existsb_eqb|].
  destruct (existsb (text_eqb p) (map u ["pm"; "p m"; "p.m."; "PM"; "P M"]%string)) eqn:E2; [right; now apply existsb_eqb|discriminate].
Qed.
Lemma noon_reads p m : noon_words p = Some m -> just Time.noon p m.
Proof.
  intro H. apply (table_just _ _ _ _ noons_eq). pose proof (noon_in p m H) as I.
  assert (A : forallb (fun p => match noon_words p with Some m => lists noons p m | None => false end) noon_texts = true) by (vm_compute; reflexivity).
  rewrite forallb_forall in A. specialize (A p I). cbn beta in A. rewrite H in A. exact A.
Qed.
(** ** The tagger *)
Definition colonless (c : N) : bool := negb ((c =? 58) || (c =? 65306))%N.
Lemma colon_codes c : colon_char c <-> (c = 58 \/ c = 65306)%N.
Proof. unfold colon_char. vm_compute u. split; intros [H|H]; [injection H as ->|injection H as ->|subst|subst]; auto. Qed.
Lemma colon_colonless c : colon_char c -> colonless c = false.
Proof. intro H. apply colon_codes in H as [-> | ->]; reflexivity. Qed.
Lemma colon_denote x y w : denote Time.colon x y w <-> exists c, x = [c] /\ colon_char c /\ y = [] /\ w = 0%Z.
Proof.
  unfold Time.colon, colon_char. split.
  - intros [(-> & -> & ->)|(-> & -> & ->)]; eexists; (split; [reflexivity|]); cbn; auto.
  - intros (c & -> & [-> | ->] & -> & ->); [left|right]; now cbn.
Qed.
Lemma table_fact (l : list (text * text)) (p : text -> bool) a z : forallb (fun e => p (Datatypes.fst e)) l = true -> In (a, z) l -> p a = true.
Proof. intros A I. rewrite forallb_forall in A. exact (A _ I). Qed.
Lemma hour_fact a : reads_as Time.hour a -> forallb colonless a = true.
Proof. intros (z & w & H). apply (one_table _ _ _ _ _ hours_eq) in H as (I & _). refine (table_fact hours (forallb colonless) a z _ I). vm_compute. reflexivity. Qed.
Lemma minute_fact a : reads_as Time.minute a -> List.length a = 2.
Proof. intros (z & w & H). apply (one_table _ _ _ _ _ minutes_eq) in H as (I & _). apply Nat.eqb_eq. refine (table_fact minutes (fun a => (List.length a =? 2)%nat) a z _ I). vm_compute. reflexivity. Qed.
Lemma second_fact a : reads_as Time.second a -> List.length a = 2.
Proof. intros (z & w & H). apply (one_table _ _ _ _ _ seconds_eq) in H as (I & _). apply Nat.eqb_eq. refine (table_fact seconds (fun a => (List.length a =? 2)%nat) a z _ I). vm_compute. reflexivity. Qed.
Definition letter_first (a : text) : bool := match a with [] => false | c :: _ => unspaced c && colonless c end.
Lemma noon_fact a : reads_as Time.noon a -> letter_first a = true.
Proof. intros (z & w & H). apply (one_table _ _ _ _ _ noons_eq) in H as (I & _). refine (table_fact noons letter_first a z _ I). vm_compute. reflexivity. Qed.
Definition second_text (so : option (N * text)) : text := match so with Some (c, s) => c :: s | None => [] end.
Definition noon_text (no : option text) : text := match no with Some t => t | None => [] end.
Definition time_fields (h m : text) (so : option (N * text)) (no : option text) : list (text * text) :=
  [(u "hour", h); (u "minute", m)] ++ match so with Some (_, s) => [(u "second", s)] | None => [] end ++ match no with Some t => [(u "noon", t)] | None => [] end.
Definition second_good (P : text -> Prop) (so : option (N * text)) : Prop := match so with Some (c, s) => colon_char c /\ P s | None => True end.
Definition noon_good (P : text -> Prop) (no : option text) : Prop := match no with Some t => P t | None => True end.
Record timed (x h : text) (c : N) (m : text) (so : option (N * text)) (g : text) (no : option text) : Prop := Timed {
  t_text : x = h ++ c :: m ++ second_text so ++ g ++ noon_text no;
  t_colon : colon_char c; t_gap : gap g;
  t_hour : reads_as Time.hour h; t_minute : reads_as Time.minute m; t_second : second_good (reads_as Time.second) so; t_noon : noon_good (reads_as Time.noon) no }.
Lemma time_inv x y w : denote Time.time x y w -> exists h c m so g no, timed x h c m so g no /\ y = shown (time_fields h m so no).
Proof.
  unfold Time.time. intro H. apply cat_inv in H as (x1 & y1 & w1 & xn & yn & wn & -> & -> & -> & H & Hn). apply cat_inv in H as (x2 & y2 & w2 & xg & yg & wg & -> & -> & -> & H & Hg).
  apply cat_inv in H as (x3 & y3 & w3 & xs & ys & ws & -> & -> & -> & H & Hs). apply cat_inv in H as (x4 & y4 & w4 & m & ym & wm & -> & -> & -> & H & Hm).
  apply cat_inv in H as (x5 & y5 & w5 & xc & yc & wc & -> & -> & -> & H & Hc). apply cat_inv in H as (h & yh & wh & xe & ye & we & -> & -> & -> & Hh & (-> & -> & ->)).
  apply colon_denote in Hc as (c & -> & Hc & -> & ->). apply rmspace_denote' in Hg as (Hg & -> & ->). apply tag_field_spec in Hm as (_ & -> & zm & Hm). apply tag_field_spec in Hh as (_ & -> & zh & Hh).
  assert (S : exists so, xs = second_text so /\ second_good (reads_as Time.second) so /\ ys = match so with Some (_, s) => u " " ++ piece (u "second") (escape_value s) | None => [] end).
  { destruct Hs as [Hs|(-> & -> & ->)]; [|now exists None]. apply cat_inv in Hs as (x6 & y6 & w6 & s & y7 & w7 & -> & -> & -> & Hs & Hs2). apply cat_inv in Hs as (x8 & y8 & w8 & x9 & y9 & w9 & -> & -> & -> & Hs & (-> & -> & ->)).
    apply colon_denote in Hs as (c' & -> & Hc' & -> & ->). apply tag_field_spec in Hs2 as (_ & -> & zs & Hs2). exists (Some (c', s)). split; [reflexivity|]. split; [split; [exact Hc'|now exists zs, w7]|reflexivity]. }
  destruct S as (so & -> & S & ->).
  assert (T : exists no, xn = noon_text no /\ noon_good (reads_as Time.noon) no /\ yn = match no with Some t => u " " ++ piece (u "noon") (escape_value t) | None => [] end).
  { destruct Hn as [Hn|(-> & -> & ->)]; [|now exists None]. apply cat_inv in Hn as (x6 & y6 & w6 & t & y7 & w7 & -> & -> & -> & (-> & -> & ->) & Ht).
    apply tag_field_spec in Ht as (_ & -> & zt & Ht). exists (Some t). split; [reflexivity|]. split; [now exists zt, w7|reflexivity]. }
  destruct T as (no & -> & T & ->). exists h, c, m, so, xg, no. split.
  - split; try assumption; [rewrite !app_nil_r, <- !app_assoc; reflexivity|now exists zh, wh|now exists zm, wm].
  - unfold shown, time_fields, piece. destruct so as [(c' & s)|], no as [t|]; cbn [map join app Datatypes.fst snd]; rewrite ?app_nil_r, <- ?app_assoc; reflexivity.
Qed.
Lemma time_i h c m so g no : forallb vchar h = true -> forallb vchar m = true -> second_good (fun s => forallb vchar s = true /\ exists z, denote Time.second s z 0%Z) so -> noon_good (fun t => forallb vchar t = true /\ exists z, denote Time.noon t z 0%Z) no ->
  colon_char c -> gap g -> (exists z, denote Time.hour h z 0%Z) -> (exists z, denote Time.minute m z 0%Z) ->
  denote Time.time (h ++ c :: m ++ second_text so ++ g ++ noon_text no) (shown (time_fields h m so no)) 0%Z.
Proof.
  intros Vh Vm S T C G Hh Hm.
  replace (h ++ c :: m ++ second_text so ++ g ++ noon_text no) with ((((((h ++ []) ++ [c]) ++ m) ++ second_text so) ++ g) ++ noon_text no) by (rewrite app_nil_r, <- !app_assoc; reflexivity).
  replace (shown (time_fields h m so no)) with ((((((piece (u "hour") (escape_value h) ++ u " ") ++ []) ++ piece (u "minute") (escape_value m)) ++
      match so with Some (_, s) => u " " ++ piece (u "second") (escape_value s) | None => [] end) ++ []) ++ match no with Some t => u " " ++ piece (u "noon") (escape_value t) | None => [] end)
    by (unfold shown, time_fields, piece; destruct so as [(c' & s)|], no as [t|]; cbn [map join app Datatypes.fst snd]; rewrite ?app_nil_r, <- ?app_assoc; reflexivity).
  change 0%Z with (((0 + 0) + 0 + 0) + 0 + 0 + 0)%Z. unfold Time.time. repeat apply cat_i.
  - now apply tagged.
  - now cbn.
  - apply colon_denote. eauto.
  - now apply tagged.
  - destruct so as [(c' & s)|]; [|right; now cbn]. left. destruct S as (C' & Vs & Hs).
    assert (X : denote (Time.colon + insert (u " ") + tag_field (u "second") Time.second)%fst (([c'] ++ []) ++ s) (([] ++ u " ") ++ piece (u "second") (escape_value s)) (0 + 0 + 0)%Z)
      by (apply cat_i; [apply cat_i; [apply colon_denote; eauto|now cbn]|now apply tagged]). exact X.
  - apply rmspace_denote'. auto.
  - destruct no as [t|]; [|right; now cbn]. left. destruct T as (Vt & Ht).
    assert (X : denote (insert (u " ") + tag_field (u "noon") Time.noon)%fst ([] ++ t) (u " " ++ piece (u "noon") (escape_value t)) (0 + 0)%Z) by (apply cat_i; [now cbn|now apply tagged]). exact X.
Qed.
Lemma same_length (a a' r r' : text) : List.length a = List.length a' -> a ++ r = a' ++ r' -> a = a' /\ r = r'.
Proof. revert a'. induction a as [|c a IH]; intros [|c' a'] L E; try discriminate L; [auto|]. injection E as -> E. injection L as L. destruct (IH a' L E) as (-> & ->). auto. Qed.
Lemma tail_unique so so' g g' no no' : second_good (reads_as Time.second) so -> second_good (reads_as Time.second) so' -> noon_good (reads_as Time.noon) no -> noon_good (reads_as Time.noon) no' -> gap g -> gap g' ->
  second_text so ++ g ++ noon_text no = second_text so' ++ g' ++ noon_text no' -> so = so' /\ no = no'.
Proof.
  assert (K : forall h n, gap h -> noon_good (reads_as Time.noon) n -> h ++ noon_text n = [] \/ exists e r, h ++ noon_text n = e :: r /\ colonless e = true).
  { intros h n [-> | ->] N; [|right; cbn; eauto]. destruct n as [t|]; [|now left]. right. apply noon_fact in N. destruct t as [|e r]; [discriminate|]. exists e, r. split; [reflexivity|]. cbn [letter_first] in N. now apply andb_true_iff in N. }
  assert (E2 : forall h h' n n', gap h -> gap h' -> noon_good (reads_as Time.noon) n -> noon_good (reads_as Time.noon) n' -> h ++ noon_text n = h' ++ noon_text n' -> n = n').
  { assert (Ns : forall n, noon_good (reads_as Time.noon) n -> forall r, noon_text n <> 32%N :: r) by (intros [t|] N r E; [cbn [noon_text] in E; subst t; apply noon_fact in N; discriminate N|discriminate E]).
    assert (Nn : forall n, noon_good (reads_as Time.noon) n -> noon_text n = [] -> n = None) by (intros [t|] N E; [cbn [noon_text] in E; subst t; apply noon_fact in N; discriminate N|reflexivity]).
    assert (Ne : forall n n', noon_good (reads_as Time.noon) n -> noon_good (reads_as Time.noon) n' -> noon_text n = noon_text n' -> n = n').
    { intros [t|] n' N N' E; [|symmetry in E; apply Nn in E; auto]. destruct n' as [t'|]; [cbn [noon_text] in E; now subst|]. apply Nn in E; auto. }
    intros h h' n n' [-> | ->] [-> | ->] N N' E; cbn [app] in E.
    - now apply Ne.
    - exfalso. exact (Ns n N _ E).
    - exfalso. symmetry in E. exact (Ns n' N' _ E).
    - apply (app_inv_head (u " ")) in E. now apply Ne. }
  intros S S' N N' G G' E. destruct so as [(c & s)|], so' as [(c' & s')|]; cbn [second_text second_good app] in *.
  - destruct S as (C & S), S' as (C' & S'). injection E as -> E. apply same_length in E as (-> & E); [|apply second_fact in S, S'; congruence]. split; [reflexivity|exact (E2 _ _ _ _ G G' N N' E)].
  - exfalso. destruct S as (C & _). destruct (K g' no' G' N') as [E'|(e & r & E' & F)]; rewrite E' in E; [discriminate E|]. injection E as -> _. rewrite (colon_colonless _ C) in F. discriminate F.
  - exfalso. destruct S' as (C & _). destruct (K g no G N) as [E'|(e & r & E' & F)]; rewrite E' in E; [discriminate E|]. injection E as -> _. rewrite (colon_colonless _ C) in F. discriminate F.
  - split; [reflexivity|exact (E2 _ _ _ _ G G' N N' E)].
Qed.
Lemma timed_unique x h c m so g no h' c' m' so' g' no' : timed x h c m so g no -> timed x h' c' m' so' g' no' -> time_fields h m so no = time_fields h' m' so' no'.
Proof.
  intros [E C G H M S N] [E' C' G' H' M' S' N']. rewrite E in E'. apply (EnNumberProofs5.split_unique colonless) in E' as (-> & E'); [|exact (hour_fact _ H)|exact (hour_fact _ H')|exact (colon_colonless _ C)|exact (colon_colonless _ C')].
  injection E' as -> E'. apply same_length in E' as (-> & E'); [|rewrite (minute_fact _ M), (minute_fact _ M'); reflexivity]. apply tail_unique in E' as (-> & ->); try assumption. reflexivity.
Qed.
(** ** The verbaliser *)
Definition noon_part (no : option text) : text := match no with Some t => u "noon: """ ++ t ++ u """ " | None => [] end.
Definition second_part (so : option text) : text := match so with Some s => u " second: """ ++ s ++ u """" | None => [] end.
Lemma time_verbal no h m so dn dh dm ds : opt_reads Time.noon no dn -> opt_reads Time.hour (Some h) dh -> opt_reads Time.minute (Some m) dm -> opt_reads Time.second so ds -> forall z w,
  denote Time.verbalizer (noon_part no ++ (u "hour: """ ++ h ++ u """ ") ++ (u "minute: """ ++ m ++ u """") ++ second_part so) z w <-> z = dn ++ dh ++ dm ++ ds /\ w = 0%Z.
Proof.
  assert (Rn : reads unquoted Time.noon = true) by (vm_compute; reflexivity). assert (Rh : reads unquoted Time.hour = true) by (vm_compute; reflexivity).
  assert (Rm : reads unquoted Time.minute = true) by (vm_compute; reflexivity). assert (Rs : reads unquoted Time.second = true) by (vm_compute; reflexivity).
  intros N (Uh & H0) (Um & M) S z w. unfold Time.verbalizer. split.
  - intro H. apply cat_inv in H as (x1 & y1 & w1 & xs & ys & ws & E & -> & -> & H & Hs). apply cat_inv in H as (x2 & y2 & w2 & xm & ym & wm & -> & -> & -> & H & Hm). apply cat_inv in H as (xn & yn & wn & xh & yh & wh & -> & -> & -> & Hn & Hh).
    apply shed_denote in Hm as (vm & -> & Hm). apply shed_denote in Hh as (vh & -> & Hh). pose proof (reads_sound _ _ Rm _ _ _ Hm) as Vm. pose proof (reads_sound _ _ Rh _ _ _ Hh) as Vh.
    assert (R : forall r r', (u "hour: """ ++ h ++ u """ ") ++ (u "minute: """ ++ m ++ u """") ++ r = ((u "hour: """ ++ vh ++ u """ ") ++ (u "minute: """ ++ vm ++ u """")) ++ r' -> vh = h /\ vm = m /\ r' = r).
    { intros r r' E'. rewrite <- !app_assoc in E'. change (u """ ") with (34%N :: u " ") in E'. change (u """") with (34%N :: []) in E'. cbn [app] in E'.
      apply value_split in E' as (<- & E'); [|exact Uh|exact Vh]. injection E' as E'. apply (value_split []) in E' as (<- & <-); [|exact Um|exact Vm]. auto. }
    assert (T : xn = noon_part no /\ vh = h /\ vm = m /\ xs = second_part so).
    { destruct Hn as [Hn|(-> & -> & ->)].
      - apply shed_denote in Hn as (vn & -> & Hn). pose proof (reads_sound _ _ Rn _ _ _ Hn) as Vn. destruct no as [a|]; [|exfalso; clear -E; cbn [noon_part] in E; rewrite <- !app_assoc in E; discriminate E].
        destruct N as (Ua & N). unfold noon_part in E. rewrite <- !app_assoc in E. change (u """ ") with (34%N :: u " ") in E. rewrite <- !app_comm_cons in E.
        apply value_split in E as (<- & E); [|exact Ua|exact Vn]. apply app_inv_head in E. destruct (R (second_part so) xs) as (-> & -> & ->); [rewrite <- !app_assoc; exact E|]. auto.
      - destruct no as [a|]; [exfalso; clear -E; cbn [noon_part app] in E; rewrite <- !app_assoc in E; discriminate E|]. cbn [noon_part app] in *. destruct (R (second_part so) xs) as (-> & -> & ->); [rewrite <- !app_assoc in *; exact E|]. auto. }
    destruct T as (-> & -> & -> & ->). apply M in Hm as (-> & ->). apply H0 in Hh as (-> & ->).
    assert (Tn : yn = dn /\ wn = 0%Z).
    { destruct Hn as [Hn|(E' & -> & ->)].
      - apply shed_denote in Hn as (vn & E' & Hn). pose proof (reads_sound _ _ Rn _ _ _ Hn) as Vn. destruct no as [a|]; [|discriminate E']. destruct N as (Ua & N). unfold noon_part in E'.
        change (u """ ") with (34%N :: u " ") in E'. apply value_split in E' as (<- & _); [|exact Ua|exact Vn]. now apply N in Hn.
      - destruct no as [a|]; [discriminate E'|]. now rewrite N. }
    assert (Ts : ys = ds /\ ws = 0%Z).
    { destruct Hs as [Hs|(E' & -> & ->)].
      - apply shed_denote in Hs as (vs & E' & Hs). pose proof (reads_sound _ _ Rs _ _ _ Hs) as Vs. destruct so as [a|]; [|discriminate E']. destruct S as (Ua & S). unfold second_part in E'.
        change (u """") with (34%N :: []) in E'. apply value_split in E' as (<- & _); [|exact Ua|exact Vs]. now apply S in Hs.
      - destruct so as [a|]; [discriminate E'|]. now rewrite S. }
    destruct Tn as (-> & ->), Ts as (-> & ->). rewrite <- !app_assoc. auto.
  - intros (-> & ->).
    replace (noon_part no ++ (u "hour: """ ++ h ++ u """ ") ++ (u "minute: """ ++ m ++ u """") ++ second_part so) with (((noon_part no ++ (u "hour: """ ++ h ++ u """ ")) ++ (u "minute: """ ++ m ++ u """")) ++ second_part so) by now rewrite <- !app_assoc.
    replace (dn ++ dh ++ dm ++ ds) with (((dn ++ dh) ++ dm) ++ ds) by now rewrite <- !app_assoc. change 0%Z with (0 + 0 + 0 + 0)%Z. repeat apply cat_i.
    + destruct no as [a|]; [left; apply shed_denote; exists a; split; [reflexivity|now apply N]|right; cbn; auto].
    + apply shed_denote. exists h. split; [reflexivity|now apply H0].
    + apply shed_denote. exists m. split; [reflexivity|now apply M].
    + destruct so as [a|]; [left; apply shed_denote; exists a; split; [reflexivity|now apply S]|right; cbn; auto].
Qed.
(** ** The whole *)
Definition time_char (c : N) : bool := dig c || negb (colonless c) || existsb (N.eqb c) (u " apmAPM.").
Lemma only_time o : name_only (rules o) (u "time") (RuleSpec (Time.rule (r_tagger Range.rule)) (Some 10500%Z) true).
Proof. destruct o as [i [] t p f v]; PlainRules.only_tac. Qed.
Definition colon_free (e : fst) : bool := Datatypes.fst (avoidsb 58 e) && Datatypes.fst (avoidsb 65306 e).
Lemma colon_free_sound e x y w c : colon_free e = true -> colon_char c -> In c x -> ~ denote e x y w.
Proof. unfold colon_free. intros F C I H. apply andb_true_iff in F as (F1 & F2). apply colon_codes in C as [-> | ->]; [exact (proj1 (avoidsb_sound _ _) F1 _ _ _ H I)|exact (proj1 (avoidsb_sound _ _) F2 _ _ _ H I)]. Qed.
Lemma time_first o s k x y v c : forallb time_char x = true -> colon_char c -> In c x -> In s (rules o) -> s_weight s = Some k -> denote (r_tagger (s_rule s)) x y v ->
  s = RuleSpec (Time.rule (r_tagger Range.rule)) (Some 10500%Z) true \/ (10500 < k)%Z.
Proof.
  intros K C J I W H. unfold rules in I. cbn [In] in I.
  assert (Ad : colon_free (r_tagger (Date.rule (r_tagger Range.rule))) = true) by (vm_compute; reflexivity).
  assert (Aw : forall b, colon_free (r_tagger (Whitelist.rule b)) = true) by (intros []; vm_compute; reflexivity).
  assert (As : apart time_char (r_tagger Sport.rule) = true) by (vm_compute; reflexivity).
  assert (Af : colon_free (r_tagger Fraction.rule) = true) by (vm_compute; reflexivity).
  assert (Ae : colon_free (r_tagger Measure.rule) = true) by (vm_compute; reflexivity).
  assert (Am : colon_free (r_tagger Money.rule) = true) by (vm_compute; reflexivity).
  destruct I as [<-|[<-|[<-|[<-|[<-|[<-|[<-|[<-|[<-|[<-|[<-|[]]]]]]]]]]]]; cbn [s_weight s_rule] in W, H; try (injection W as <-); try discriminate W; auto; try (right; lia); exfalso; revert H.
  - now apply colon_free_sound with c.
  - now apply colon_free_sound with c.
  - now apply apart_known with time_char.
  - now apply colon_free_sound with c.
  - now apply colon_free_sound with c.
  - now apply colon_free_sound with c.
Qed.
Definition time_said_chars : text := Eval vm_compute in u "零一二三四五六七八九十两点分秒上下午".
Definition time_word (c : N) : bool := existsb (N.eqb c) time_said_chars.
Lemma time_words_safe : safe_all_at_once time_said_chars = true.
Proof. vm_compute. reflexivity. Qed.
Lemma time_word_safe c : time_word c = true -> safe c = true.
Proof. unfold time_word. intro H. apply existsb_exists in H as (a & I & E). apply N.eqb_eq in E. subst a. exact (safe_at_once _ time_words_safe c I). Qed.
Lemma short_time p : List.length p = 1 \/ List.length p = 2 -> Forall digit_char p -> (forallb time_word (hour_words p) && (forallb time_word (minute_words p) && forallb time_word (second_words p)))%bool = true.
Proof. apply (short_all (fun p => forallb time_word (hour_words p) && (forallb time_word (minute_words p) && forallb time_word (second_words p)))%bool). vm_compute. reflexivity. Qed.
Lemma noon_said p m : noon_words p = Some m -> forallb time_word m = true /\ forallb time_char p = true /\ forallb vchar p = true /\ forallb bare p = true.
Proof.
  intro H. pose proof (noon_in p m H) as I.
  assert (A : forallb (fun p => match noon_words p with Some m => forallb time_word m && (forallb time_char p && (forallb vchar p && forallb bare p)) | None => false end) noon_texts = true) by (vm_compute; reflexivity).
  rewrite forallb_forall in A. specialize (A p I). cbn beta in A. rewrite H in A. rewrite !andb_true_iff in A. exact A.
Qed.
Lemma digits_fine a : Forall digit_char a -> forallb vchar a = true /\ forallb bare a = true /\ forallb time_char a = true.
Proof.
  assert (A : forallb (fun c => vchar c && (bare c && time_char c)) ten = true) by (vm_compute; reflexivity). rewrite forallb_forall in A. rewrite !forallb_forall, Forall_forall. intro F.
  repeat apply conj; intros c I; specialize (A c (ten_digits c (F c I))); rewrite !andb_true_iff in A; tauto.
Qed.
Definition opt_second (so : option (N * text)) : option text := match so with Some (_, s) => Some s | None => None end.
Definition second_said (so : option (N * text)) : text := match so with Some (_, s) => second_words s | None => [] end.
Lemma just_some g a d : just g a d -> exists z, denote g a z 0%Z.
Proof. intro J. exists d. now apply J. Qed.
Section Said.
Variables (h : text) (c : N) (m : text) (so : option (N * text)) (g : text) (no : option text) (dn : text).
Hypothesis Hour : hour_text h.
Hypothesis Colon : colon_char c.
Hypothesis Minute : minute_text m.
Hypothesis Second : second_good minute_text so.
Hypothesis Gap : gap g.
Hypothesis Noon : match no with Some t => noon_words t = Some dn | None => dn = [] end.
Let x : text := h ++ c :: m ++ second_text so ++ g ++ noon_text no.
Let d : text := dn ++ hour_words h ++ minute_words m ++ second_said so.
Let fs' : list (text * text) := match no with Some t => [(u "noon", t)] | None => [] end ++ [(u "hour", h); (u "minute", m)] ++ match so with Some (_, s) => [(u "second", s)] | None => [] end.
Lemma hour_fine : forallb vchar h = true /\ forallb bare h = true /\ forallb time_char h = true.
Proof. apply digits_fine. now destruct Hour as (_ & F & _). Qed.
Lemma minute_fine : forallb vchar m = true /\ forallb bare m = true /\ forallb time_char m = true.
Proof. apply digits_fine. now destruct Minute as (_ & F & _). Qed.
Lemma second_fine : forallb vchar (second_text so) = true /\ forallb time_char (second_text so) = true /\ match so with Some (_, s) => forallb vchar s = true /\ forallb bare s = true | None => True end.
Proof.
  destruct so as [(c' & s)|]; [|auto]. destruct Second as (C' & _ & F & _). apply digits_fine in F as (V & B & T). cbn [second_text forallb]. rewrite V, T. apply colon_codes in C' as [-> | ->]; auto.
Qed.
Lemma noon_fine : forallb vchar (noon_text no) = true /\ forallb time_char (noon_text no) = true /\ forallb bare (noon_text no) = true /\ forallb time_word dn = true.
Proof. destruct no as [t|]; [apply noon_said in Noon as (A & B & C & D); auto|rewrite Noon; auto]. Qed.
Lemma time_chars : forallb time_char x = true.
Proof.
  unfold x. rewrite forallb_app, (proj2 (proj2 hour_fine)). cbn [forallb andb]. rewrite !forallb_app, (proj2 (proj2 minute_fine)), (proj1 (proj2 second_fine)), (proj1 (proj2 noon_fine)).
  apply colon_codes in Colon as [-> | ->]; destruct Gap as [-> | ->]; reflexivity.
Qed.
Lemma time_has_colon : In c x.
Proof. unfold x. apply in_app_iff. right. now left. Qed.
Lemma time_not_phone : ~ phone_text x.
Proof. intro P. apply phone_texts in P. rewrite forallb_forall in P. specialize (P c time_has_colon). apply colon_codes in Colon as [E|E]; rewrite E in P; vm_compute in P; discriminate P. Qed.
Lemma time_valid : forallb vchar x = true.
Proof.
  unfold x. rewrite forallb_app, (proj1 hour_fine). cbn [forallb andb]. rewrite !forallb_app, (proj1 minute_fine), (proj1 second_fine), (proj1 noon_fine), (proj2 (gap_amount _ Gap)).
  apply colon_codes in Colon as [-> | ->]; reflexivity.
Qed.
Lemma time_safe : forallb safe d = true.
Proof.
  assert (A : forallb time_word d = true).
  { unfold d. rewrite !forallb_app, (proj2 (proj2 (proj2 noon_fine))). assert (L : List.length h = 1 \/ List.length h = 2) by (destruct Hour as ([(L & _)|L] & _); auto).
    pose proof (short_time h L (proj1 (proj2 Hour))) as H1. pose proof (short_time m (or_intror (proj1 Minute)) (proj1 (proj2 Minute))) as H2. rewrite !andb_true_iff in H1, H2. rewrite (proj1 H1), (proj1 (proj2 H2)). cbn [andb].
    destruct so as [(c' & s)|]; [|reflexivity]. destruct Second as (_ & Ls & Fs & _). pose proof (short_time s (or_intror Ls) Fs) as H3. rewrite !andb_true_iff in H3. exact (proj2 (proj2 H3)). }
  generalize A. apply all_imp. exact time_word_safe.
Qed.
Lemma time_reads : timed x h c m so g no.
Proof.
  split; try assumption; [reflexivity| | | |].
  - exists (hour_words h), 0%Z. apply (hour_reads h Hour). split; reflexivity.
  - exists (minute_words m), 0%Z. apply (minute_reads m Minute). split; reflexivity.
  - destruct so as [(c' & s)|]; [|exact I]. destruct Second as (C' & S). split; [exact C'|]. exists (second_words s), 0%Z. apply (second_reads s S). split; reflexivity.
  - destruct no as [t|]; [|exact I]. exists dn, 0%Z. apply (noon_reads t dn Noon). split; reflexivity.
Qed.
Lemma time_tagged : denote Time.time x (shown (time_fields h m so no)) 0%Z.
Proof.
  unfold x. apply time_i; try assumption; [exact (proj1 hour_fine)|exact (proj1 minute_fine)| | |exact (just_some _ _ _ (hour_reads h Hour))|exact (just_some _ _ _ (minute_reads m Minute))].
  - pose proof second_fine as (_ & _ & V). destruct so as [(c' & s)|]; [|exact I]. destruct Second as (C' & S). split; [exact C'|]. split; [exact (proj1 V)|exact (just_some _ _ _ (second_reads s S))].
  - pose proof noon_fine as (V & _). destruct no as [t|]; [|exact I]. split; [exact V|exact (just_some _ _ _ (noon_reads t dn Noon))].
Qed.
Lemma time_token y v : denote (Time.tagger (r_tagger Range.rule)) x (y ++ u " ") v -> y = fields_token (u "time") (time_fields h m so no).
Proof.
  intros H. unfold Time.tagger in H. apply cat_inv in H as (x1 & y1 & w1 & x2 & y2 & w2 & Ex & Ey & -> & H1 & H2). apply PlainRules.tokens_added in H1 as (z & -> & H1). destruct H2 as [H2|(-> & -> & ->)].
  - exfalso. apply cat_inv in H2 as (x3 & y3 & w3 & x4 & y4 & w4 & -> & -> & -> & H3 & H4).
    apply PlainRules.tokens_added in H3 as (z3 & _ & H3). apply tag_field_spec in H3 as (_ & _ & z' & H3). pose proof time_chars as T. rewrite Ex, !forallb_app in T. rewrite !andb_true_iff in T. destruct T as (_ & T & _).
    destruct H3 as [(-> & _)|(-> & _)]; vm_compute in T; discriminate T.
  - rewrite app_nil_r in *. subst x1. apply time_inv in H1 as (h' & c' & m' & so' & g' & no' & T & ->). rewrite <- (timed_unique _ _ _ _ _ _ _ _ _ _ _ _ _ time_reads T) in Ey.
    unfold fields_token. change (u " } ") with (u " }" ++ u " ") in Ey. unfold shown in Ey. rewrite !app_assoc in Ey. apply app_inv_tail in Ey. rewrite Ey, <- !app_assoc. reflexivity.
Qed.
Lemma time_verb z w : denote (delete_tokens Time.name Time.verbalizer) (fields_token (u "time") fs') z w <-> z = d /\ w = 0%Z.
Proof.
  pose proof hour_fine as (_ & Bh & _). pose proof minute_fine as (_ & Bm & _). pose proof second_fine as (_ & _ & Bs). pose proof noon_fine as (_ & _ & Bn & _).
  assert (E : fields_token (u "time") fs' = Time.name ++ u " { " ++ (noon_part no ++ (u "hour: """ ++ h ++ u """ ") ++ (u "minute: """ ++ m ++ u """") ++ second_part (opt_second so)) ++ u " }").
  { unfold fields_token, fs', piece. destruct no as [t|], so as [(c' & s)|]; cbn [app map join Datatypes.fst snd noon_part second_part opt_second noon_text] in *; rewrite ?(bare_escape _ Bh), ?(bare_escape _ Bm), ?(bare_escape _ Bn), ?(bare_escape _ (proj2 Bs)), <- ?app_assoc; reflexivity. }
  rewrite E, tokens_inner. unfold d. apply time_verbal.
  - destruct no as [t|]; [|exact Noon]. split; [exact (bare_unquoted _ Bn)|exact (noon_reads t dn Noon)].
  - split; [exact (bare_unquoted _ Bh)|exact (hour_reads h Hour)].
  - split; [exact (bare_unquoted _ Bm)|exact (minute_reads m Minute)].
  - destruct so as [(c' & s)|]; [|reflexivity]. cbn [opt_second second_said opt_reads]. split; [exact (bare_unquoted _ (proj2 Bs))|exact (second_reads s (proj2 Second))].
Qed.
Lemma time_said : said_as x d.
Proof.
  apply (said_fields (u "time") (Time.rule (r_tagger Range.rule)) 10500 x d (time_fields h m so no) fs' only_time); try reflexivity.
  - exact time_valid.
  - exact time_not_phone.
  - unfold time_fields. destruct so as [(c' & s)|], no as [t|]; reflexivity.
  - pose proof hour_fine as (Vh & _). pose proof minute_fine as (Vm & _). pose proof second_fine as (_ & _ & Vs). pose proof noon_fine as (Vn & _).
    unfold good_values, time_fields. destruct so as [(c' & s)|], no as [t|]; cbn [app forallb Datatypes.fst snd noon_text] in *; rewrite Vh, Vm, ?Vn, ?(proj1 Vs); reflexivity.
  - unfold time_fields. destruct so as [(c' & s)|], no as [t|]; cbn [app map Datatypes.fst]; repeat constructor; cbn [In]; intuition discriminate.
  - discriminate.
  - unfold time_fields, fs'. destruct so as [(c' & s)|], no as [t|]; reflexivity.
  - unfold fs'. destruct so as [(c' & s)|], no as [t|]; reflexivity.
  - unfold fs'. destruct so as [(c' & s)|], no as [t|]; discriminate.
  - exact time_safe.
  - unfold Time.rule. cbn [r_tagger]. unfold Time.tagger. rewrite <- (app_nil_r x), <- (app_nil_r (fields_token _ _ ++ _)). change 0%Z with (0 + 0)%Z. apply cat_i; [|right; cbn; auto].
    apply PlainRules.tokens_added. exists (shown (time_fields h m so no)). split; [|exact time_tagged]. unfold fields_token, shown. rewrite <- !app_assoc. reflexivity.
  - intros o s k y v I W H. pose proof (whole_no_less o s x _ v I time_not_phone H) as P. destruct (time_first o s k x _ v c time_chars Colon time_has_colon I W H) as [-> |L]; [|split; lia].
    cbn [s_weight s_rule] in W, H. injection W as <-. split; [lia|]. intros _. exact (time_token y v H).
  - exact time_verb.
Qed.
End Said.
