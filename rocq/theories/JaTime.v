(** Times of day of the Japanese normaliser (C75). *)
From Coq Require Import List NArith ZArith Bool String Lia Arith.
From Verif Require Import Text TextFacts TokenModel Fst FstFacts FstRun GrammarModel GrammarSpec GrammarAccept NumeralSpec EnglishNumeralSpec DataJaTn JaTnModel ZhTnEndSpec ZhDateSpec ZhAmountSpec JaNumeralSpec JaAmountSpec WholeSpec.
From Verif Require Import BoundaryChar Letters Apart OneToken TokenVerbal Fields ZhNumberProofs ZhTnRead ZhTnPost ZhDate ZhDate2 ZhAmount ZhMoney ZhTime JaApart JaHead JaPost JaNumber JaNumber2 JaDate JaDate2 JaDate3 JaTnRead JaTnRead2 PropsJaDate PropsJaNumber JaFraction JaMoney.
From Verif Require EndToEnd EnNumberProofs5 PlainRules FstEval Whole PipelineModel.
Import ListNotations.
Local Open Scope list_scope.

(** ** The parts *)
Definition jhours : list (text * text) := Eval vm_compute in map entry ja_tn_time_hour.
Definition jminutes : list (text * text) := Eval vm_compute in map entry ja_tn_time_minute.
Definition jseconds : list (text * text) := Eval vm_compute in map entry ja_tn_time_second.
Definition jnoons : list (text * text) := Eval vm_compute in map entry ja_tn_time_noon.
Lemma jhours_eq : map entry ja_tn_time_hour = jhours.
Proof. vm_compute. reflexivity. Qed.
Lemma jminutes_eq : map entry ja_tn_time_minute = jminutes.
Proof. vm_compute. reflexivity. Qed.
Lemma jseconds_eq : map entry ja_tn_time_second = jseconds.
Proof. vm_compute. reflexivity. Qed.
Lemma jnoons_eq : map entry ja_tn_time_noon = jnoons.
Proof. vm_compute. reflexivity. Qed.
Definition jhour_check (p : text) : bool := (decimal_value p <=? 24)%N.
Definition tchar (c : N) : bool := dig c || (c =? 58)%N || existsb (N.eqb c) (u " apmAPM.").
Lemma tchar_cases c : tchar c = true -> ((48 <= c <= 57) \/ c = 58 \/ In c (u " apmAPM."))%N.
Proof.
  unfold tchar, dig. rewrite !orb_true_iff, andb_true_iff, !N.leb_le, N.eqb_eq. intros [[H|H]|H]; auto. right. right. apply existsb_exists in H as (a & I & E). apply N.eqb_eq in E. now subst a.
Qed.
Lemma tchar_valid c : tchar c = true -> vchar c = true.
Proof.
  intro H. apply tchar_cases in H as [H|[->|H]]; [|reflexivity|].
  - apply vchar_spec. unfold valid_char. lia.
  - assert (A : forallb vchar (u " apmAPM.") = true) by reflexivity. rewrite forallb_forall in A. exact (A c H).
Qed.
Lemma tapp a b : forallb tchar (a ++ b) = true <-> forallb tchar a = true /\ forallb tchar b = true.
Proof. rewrite forallb_app. apply andb_true_iff. Qed.
Lemma digits_tchar a : Forall digit_char a -> forallb tchar a = true /\ forallb vchar a = true /\ forallb bare a = true.
Proof.
  assert (A : forallb (fun c => vchar c && (bare c && tchar c)) ten = true) by (vm_compute; reflexivity). rewrite forallb_forall in A. rewrite !forallb_forall, Forall_forall. intro F.
  repeat apply conj; intros c I; specialize (A c (ten_digits c (F c I))); rewrite !andb_true_iff in A; tauto.
Qed.
Lemma jnoon_in p m : ja_noon_words p = Some m -> In p noon_texts.
Proof.
  unfold ja_noon_words. intro H.
  assert (E : noon_texts = map u ["am"; "a m"; "a.m."; "AM"; "A M"]%string ++ map u ["pm"; "p m"; "p.m."; "PM"; "P M"]%string) by (vm_compute; reflexivity). rewrite E. apply in_app_iff.
  destruct (existsb (text_eqb p) (map u ["am"; "a m"; "a.m."; "AM"; "A M"]%string)) eqn:E1; [left; now apply existsb_eqb|].
  destruct (existsb (text_eqb p) (map u ["pm"; "p m"; "p.m."; "PM"; "P M"]%string)) eqn:E2; [right; now apply existsb_eqb|discriminate].
Qed.
Definition jtime_said : text := Eval vm_compute in u "〇一二三四五六七八九十時分秒午前後".
Definition jtime_word (c : N) : bool := existsb (N.eqb c) jtime_said.
Lemma jtime_words_safe : jsafe_all_at_once jtime_said = true.
Proof. vm_compute. reflexivity. Qed.
Lemma jtime_word_safe x : forallb jtime_word x = true -> forallb jsafe x = true.
Proof. apply all_imp. unfold jtime_word. intros c H. apply existsb_exists in H as (a & I & E). apply N.eqb_eq in E. subst a. exact (jsafe_at_once _ jtime_words_safe c I). Qed.
Lemma jnoon_said p m : ja_noon_words p = Some m -> forallb jtime_word m = true /\ forallb tchar p = true /\ forallb vchar p = true /\ forallb bare p = true /\ lists jnoons p m = true /\ letter_first p = true.
Proof.
  intro H. pose proof (jnoon_in p m H) as I.
  assert (A : forallb (fun p => match ja_noon_words p with Some m => forallb jtime_word m && (forallb tchar p && (forallb vchar p && (forallb bare p && (lists jnoons p m && letter_first p)))) | None => false end) noon_texts = true) by (vm_compute; reflexivity).
  rewrite forallb_forall in A. specialize (A p I). cbn beta in A. rewrite H in A. rewrite !andb_true_iff in A. exact A.
Qed.
Section Opt.
Variable o : options.
Lemma tpre_still : still tchar (preprocessor o) = true.
Proof. destruct o as [t i p [] v]; vm_compute; reflexivity. Qed.
Lemma tpre_reads g x y w : forallb tchar x = true -> (denote (JaTnModel.pre o g) x y w <-> denote g x y w).
Proof. apply (still_pre tchar tchar_valid (preprocessor o) g tpre_still). Qed.
Lemma pre_just g a d : forallb tchar a = true -> just g a d -> just (JaTnModel.pre o g) a d.
Proof. intros K J z w. rewrite (tpre_reads _ _ _ _ K). exact (J z w). Qed.
Lemma jhour_reads p : ja_hour_text p -> just (Time.g_hour o) p (ja_hour_words p).
Proof.
  intros (L & F & B). apply pre_just; [exact (proj1 (digits_tchar p F))|]. apply (table_just _ _ _ _ jhours_eq).
  assert (A : implb (jhour_check p) (lists jhours p (ja_hour_words p)) = true).
  { apply (short_all (fun p => implb (jhour_check p) (lists jhours p (ja_hour_words p)))); [vm_compute; reflexivity|exact L|exact F]. }
  assert (W : jhour_check p = true) by now apply N.leb_le. rewrite W in A. exact A.
Qed.
Lemma jminute_reads p : minute_text p -> just (Time.g_minute o) p (ja_minute_words p).
Proof.
  intros M. pose proof (minute_checked p M) as W. destruct M as (L & F & B). apply pre_just; [exact (proj1 (digits_tchar p F))|]. apply (table_just _ _ _ _ jminutes_eq).
  assert (A : implb (minute_check p) (lists jminutes p (ja_minute_words p)) = true).
  { apply (short_all (fun p => implb (minute_check p) (lists jminutes p (ja_minute_words p)))); [vm_compute; reflexivity|auto|exact F]. }
  rewrite W in A. exact A.
Qed.
Lemma jsecond_reads p : minute_text p -> just (Time.g_second o) p (ja_second_words p).
Proof.
  intros M. pose proof (minute_checked p M) as W. destruct M as (L & F & B). apply pre_just; [exact (proj1 (digits_tchar p F))|]. apply (table_just _ _ _ _ jseconds_eq).
  assert (A : implb (minute_check p) (lists jseconds p (ja_second_words p)) = true).
  { apply (short_all (fun p => implb (minute_check p) (lists jseconds p (ja_second_words p)))); [vm_compute; reflexivity|auto|exact F]. }
  rewrite W in A. exact A.
Qed.
Lemma jnoon_reads p m : ja_noon_words p = Some m -> just (Time.g_noon o) p m.
Proof. intro H. apply jnoon_said in H as (_ & K & _ & _ & L & _). apply (pre_just _ _ _ K). exact (table_just _ _ _ _ jnoons_eq L). Qed.
(** ** The tagger *)
Definition uncoloned (c : N) : bool := negb (c =? 58)%N.
Lemma jcolon_denote x y w : forallb tchar x = true -> (denote (Time.colon o) x y w <-> x = u ":" /\ y = [] /\ w = 0%Z).
Proof.
  intro K. unfold Time.colon. rewrite (tpre_reads _ _ _ _ K). split.
  - intros [H|(-> & _)]; [exact H|]. vm_compute in K. discriminate K.
  - intro H. left. exact H.
Qed.
Lemma jhour_fact a : forallb tchar a = true -> reads_as (Time.g_hour o) a -> forallb dig a = true /\ a <> [].
Proof.
  intros K (z & w & H). apply (proj1 (tpre_reads _ _ _ _ K)) in H. apply (one_table _ _ _ _ _ jhours_eq) in H as (I & _).
  assert (X : forallb dig a && match a with [] => false | _ => true end = true) by (refine (table_fact jhours (fun a => forallb dig a && match a with [] => false | _ => true end) a z _ I); vm_compute; reflexivity).
  apply andb_true_iff in X as (X & Y). split; [exact X|]. now destruct a.
Qed.
Lemma jminute_fact a : forallb tchar a = true -> reads_as (Time.g_minute o) a -> List.length a = 2.
Proof. intros K (z & w & H). apply (proj1 (tpre_reads _ _ _ _ K)) in H. apply (one_table _ _ _ _ _ jminutes_eq) in H as (I & _). apply Nat.eqb_eq. refine (table_fact jminutes (fun a => (List.length a =? 2)%nat) a z _ I). vm_compute. reflexivity. Qed.
Lemma jsecond_fact a : forallb tchar a = true -> reads_as (Time.g_second o) a -> List.length a = 2.
Proof. intros K (z & w & H). apply (proj1 (tpre_reads _ _ _ _ K)) in H. apply (one_table _ _ _ _ _ jseconds_eq) in H as (I & _). apply Nat.eqb_eq. refine (table_fact jseconds (fun a => (List.length a =? 2)%nat) a z _ I). vm_compute. reflexivity. Qed.
Definition letter_head (a : text) : bool := match a with [] => false | c :: _ => negb (dig c) && unspaced c && uncoloned c end.
Lemma jnoon_fact a : forallb tchar a = true -> reads_as (Time.g_noon o) a -> letter_head a = true /\ existsb (text_eqb a) noon_texts = true.
Proof.
  intros K (z & w & H). apply (proj1 (tpre_reads _ _ _ _ K)) in H. apply (one_table _ _ _ _ _ jnoons_eq) in H as (I & _). apply andb_true_iff.
  refine (table_fact jnoons (fun a => letter_head a && existsb (text_eqb a) noon_texts) a z _ I). vm_compute. reflexivity.
Qed.
Definition jsec (so : option text) : text := match so with Some s => u ":" ++ s | None => [] end.
Definition jnoon (no : option (text * text)) : text := match no with Some (g, t) => g ++ t | None => [] end.
Definition jtime_fields (h m : text) (so : option text) (no : option (text * text)) : list (text * text) :=
  [(u "hour", h); (u "minute", m)] ++ match so with Some s => [(u "second", s)] | None => [] end ++ match no with Some (_, t) => [(u "noon", t)] | None => [] end.
Definition good_sec (P : text -> Prop) (so : option text) : Prop := match so with Some s => P s | None => True end.
Definition good_noon (P : text -> Prop) (no : option (text * text)) : Prop := match no with Some (g, t) => gap g /\ P t | None => True end.
Record jtimed (x h m : text) (so : option text) (no : option (text * text)) : Prop := Jtimed {
  jt_text : x = h ++ u ":" ++ m ++ jsec so ++ jnoon no;
  jt_chars : forallb tchar x = true;
  jt_hour : reads_as (Time.g_hour o) h; jt_minute : reads_as (Time.g_minute o) m; jt_second : good_sec (reads_as (Time.g_second o)) so; jt_noon : good_noon (reads_as (Time.g_noon o)) no }.
Lemma h_noon_inv x y w : denote (Time.h_noon o) x y w -> exists h t, x = h ++ t /\ reads_as (Time.g_hour o) h /\ reads_as (Time.g_noon o) t /\ y = shown [(u "hour", h); (u "noon", t)].
Proof.
  intro H. unfold Time.h_noon in H. apply cat_inv in H as (x1 & y1 & w1 & t & y2 & w2 & -> & -> & -> & H & Ht). apply cat_inv in H as (h & yh & wh & xe & ye & we & -> & -> & -> & Hh & (-> & -> & ->)).
  apply tag_field_spec in Ht as (_ & -> & zt & Ht). apply tag_field_spec in Hh as (_ & -> & zh & Hh). exists h, t. rewrite app_nil_r. split; [reflexivity|]. split; [now exists zh, wh|]. split; [now exists zt, w2|].
  unfold shown, piece. cbn [map join Datatypes.fst snd]. rewrite <- !app_assoc. reflexivity.
Qed.
Lemma jtime_inv x y w : forallb tchar x = true -> denote (Time.time o) x y w ->
  (exists h m so no, jtimed x h m so no /\ y = shown (jtime_fields h m so no)) \/
  (exists h t, x = h ++ t /\ reads_as (Time.g_hour o) h /\ reads_as (Time.g_noon o) t /\ y = shown [(u "hour", h); (u "noon", t)]).
Proof.
  intros K [H|H]; [left|right; exact (h_noon_inv _ _ _ H)].
  apply cat_inv in H as (x1 & y1 & w1 & xn & yn & wn & -> & -> & -> & H & Hn). apply cat_inv in H as (x3 & y3 & w3 & xs & ys & ws & -> & -> & -> & H & Hs). apply cat_inv in H as (x4 & y4 & w4 & m & ym & wm & -> & -> & -> & H & Hm).
  apply cat_inv in H as (x5 & y5 & w5 & xc & yc & wc & -> & -> & -> & H & Hc). apply cat_inv in H as (h & yh & wh & xe & ye & we & -> & -> & -> & Hh & (-> & -> & ->)).
  pose proof K as K0. rewrite !tapp in K. destruct K as (((((Kh & _) & Kc) & Km) & Ks) & Kn). apply (jcolon_denote _ _ _ Kc) in Hc as (-> & -> & ->). apply tag_field_spec in Hm as (_ & -> & zm & Hm). apply tag_field_spec in Hh as (_ & -> & zh & Hh).
  assert (S : exists so, xs = jsec so /\ good_sec (reads_as (Time.g_second o)) so /\ ys = match so with Some s => u " " ++ piece (u "second") (escape_value s) | None => [] end).
  { destruct Hs as [Hs|(-> & -> & ->)]; [|now exists None]. apply cat_inv in Hs as (x6 & y6 & w6 & s & y7 & w7 & -> & -> & -> & Hs & Hs2). apply cat_inv in Hs as (x8 & y8 & w8 & x9 & y9 & w9 & -> & -> & -> & Hs & (-> & -> & ->)).
    rewrite !tapp in Ks. apply jcolon_denote in Hs as (-> & -> & ->); [|tauto]. apply tag_field_spec in Hs2 as (_ & -> & zs & Hs2). exists (Some s). split; [reflexivity|]. split; [now exists zs, w7|reflexivity]. }
  destruct S as (so & -> & S & ->).
  assert (T : exists no, xn = jnoon no /\ good_noon (reads_as (Time.g_noon o)) no /\ yn = match no with Some (_, t) => u " " ++ piece (u "noon") (escape_value t) | None => [] end).
  { destruct Hn as [Hn|(-> & -> & ->)]; [|now exists None]. apply cat_inv in Hn as (x6 & y6 & w6 & t & y7 & w7 & -> & -> & -> & Hn & Ht). apply cat_inv in Hn as (g & y8 & w8 & x9 & y9 & w9 & -> & -> & -> & Hg & (-> & -> & ->)).
    apply rmspace_denote' in Hg as (Hg & -> & ->). apply tag_field_spec in Ht as (_ & -> & zt & Ht). exists (Some (g, t)). rewrite app_nil_r. split; [reflexivity|]. split; [split; [exact Hg|now exists zt, w7]|reflexivity]. }
  destruct T as (no & -> & T & ->). exists h, m, so, no. split.
  - split; try assumption; [rewrite !app_nil_r, <- !app_assoc; reflexivity|now exists zh, wh|now exists zm, wm].
  - unfold shown, jtime_fields, piece. destruct so as [s|], no as [(g & t)|]; cbn [map join app Datatypes.fst snd]; rewrite ?app_nil_r, <- ?app_assoc; reflexivity.
Qed.
Lemma jtime_i h m so no : forallb vchar h = true -> forallb vchar m = true -> good_sec (fun s => forallb vchar s = true /\ exists z, denote (Time.g_second o) s z 0%Z) so -> good_noon (fun t => forallb vchar t = true /\ exists z, denote (Time.g_noon o) t z 0%Z) no ->
  (exists z, denote (Time.g_hour o) h z 0%Z) -> (exists z, denote (Time.g_minute o) m z 0%Z) ->
  denote (Time.time o) (h ++ u ":" ++ m ++ jsec so ++ jnoon no) (shown (jtime_fields h m so no)) 0%Z.
Proof.
  intros Vh Vm S T Hh Hm.
  replace (h ++ u ":" ++ m ++ jsec so ++ jnoon no) with (((((h ++ []) ++ u ":") ++ m) ++ jsec so) ++ jnoon no) by (rewrite app_nil_r, <- !app_assoc; reflexivity).
  replace (shown (jtime_fields h m so no)) with (((((piece (u "hour") (escape_value h) ++ u " ") ++ []) ++ piece (u "minute") (escape_value m)) ++
      match so with Some s => u " " ++ piece (u "second") (escape_value s) | None => [] end) ++ match no with Some (_, t) => u " " ++ piece (u "noon") (escape_value t) | None => [] end)
    by (unfold shown, jtime_fields, piece; destruct so as [s|], no as [(g & t)|]; cbn [map join app Datatypes.fst snd]; rewrite ?app_nil_r, <- ?app_assoc; reflexivity).
  left. change 0%Z with (((0 + 0) + 0 + 0) + 0 + 0)%Z. repeat apply cat_i.
  - now apply tagged.
  - now cbn.
  - apply jcolon_denote; [reflexivity|auto].
  - now apply tagged.
  - destruct so as [s|]; [|right; now cbn]. left. destruct S as (Vs & Hs).
    assert (X : denote (Time.colon o + insert (u " ") + tag_field (u "second") (Time.g_second o))%fst ((u ":" ++ []) ++ s) (([] ++ u " ") ++ piece (u "second") (escape_value s)) (0 + 0 + 0)%Z)
      by (apply cat_i; [apply cat_i; [apply jcolon_denote; [reflexivity|auto]|now cbn]|now apply tagged]). exact X.
  - destruct no as [(g & t)|]; [|right; now cbn]. left. destruct T as (G & Vt & Ht).
    assert (X : denote (ques (delete (u " ")) + insert (u " ") + tag_field (u "noon") (Time.g_noon o))%fst ((g ++ []) ++ t) (([] ++ u " ") ++ piece (u "noon") (escape_value t)) (0 + 0 + 0)%Z)
      by (apply cat_i; [apply cat_i; [apply rmspace_denote'; auto|now cbn]|now apply tagged]). rewrite app_nil_r in X. exact X.
Qed.
Lemma jnoon_unique no no' : forallb tchar (jnoon no) = true -> forallb tchar (jnoon no') = true -> good_noon (reads_as (Time.g_noon o)) no -> good_noon (reads_as (Time.g_noon o)) no' -> jnoon no = jnoon no' -> no = no'.
Proof.
  assert (F : forall g t, forallb tchar (g ++ t) = true -> reads_as (Time.g_noon o) t -> exists c r, t = c :: r /\ (c =? 32)%N = false).
  { intros g t K R. apply tapp in K as (_ & K). apply (jnoon_fact t K) in R as (R & _). destruct t as [|c r]; [discriminate R|]. exists c, r. split; [reflexivity|]. cbn [letter_head] in R. unfold unspaced in R. destruct (c =? 32)%N; [|reflexivity]. rewrite andb_false_r in R. discriminate R. }
  destruct no as [(g & t)|], no' as [(g' & t')|]; cbn [jnoon good_noon]; intros K K' N N' E; [| | |reflexivity].
  - destruct N as (G & N), N' as (G' & N'). destruct (F _ _ K N) as (c & r & -> & C), (F _ _ K' N') as (c' & r' & -> & C'). destruct G as [-> | ->], G' as [-> | ->]; cbn [app] in E.
    + now rewrite E.
    + injection E as -> _. discriminate C.
    + injection E as <- _. discriminate C'.
    + injection E as -> ->. reflexivity.
  - destruct N as (G & N). destruct (F _ _ K N) as (c & r & -> & C). destruct G as [-> | ->]; discriminate E.
  - destruct N' as (G & N1). destruct (F _ _ K' N1) as (c & r & -> & C). destruct G as [-> | ->]; discriminate E.
Qed.
Lemma noon_no_colon no r : forallb tchar (jnoon no) = true -> good_noon (reads_as (Time.g_noon o)) no -> jnoon no <> 58%N :: r.
Proof.
  destruct no as [(g & t)|]; [|discriminate]. cbn [jnoon good_noon]. intros K (G & N) E. apply tapp in K as (_ & K). apply (jnoon_fact t K) in N as (N & _). destruct G as [-> | ->]; [|discriminate E]. cbn [app] in E. subst t. discriminate N.
Qed.
Lemma jtimed_unique x h m so no h' m' so' no' : jtimed x h m so no -> jtimed x h' m' so' no' -> jtime_fields h m so no = jtime_fields h' m' so' no'.
Proof.
  intros [E K H M S N] [E' K' H' M' S' N']. rewrite E, !tapp in K. rewrite E', !tapp in K'. rewrite E in E'. destruct K as (Kh & _ & Km & Ks & Kn), K' as (Kh' & _ & Km' & Ks' & Kn').
  apply (jhour_fact _ Kh) in H as (H & _). apply (jhour_fact _ Kh') in H' as (H' & _). apply (EnNumberProofs5.split_unique dig) in E' as (-> & E'); [|exact H|exact H'|reflexivity|reflexivity].
  apply app_inv_head in E'. apply same_length in E' as (-> & E'); [|rewrite (jminute_fact _ Km M), (jminute_fact _ Km' M'); reflexivity].
  destruct so as [s|], so' as [s'|]; cbn [jsec good_sec] in *.
  - rewrite <- !app_assoc in E'. apply app_inv_head in E'. apply tapp in Ks as (_ & Ks), Ks' as (_ & Ks'). apply same_length in E' as (-> & E'); [|rewrite (jsecond_fact _ Ks S), (jsecond_fact _ Ks' S'); reflexivity]. apply jnoon_unique in E' as ->; try assumption. reflexivity.
  - exfalso. cbn [app] in E'. symmetry in E'. exact (noon_no_colon _ _ Kn' N' E').
  - exfalso. cbn [app] in E'. exact (noon_no_colon _ _ Kn N E').
  - apply jnoon_unique in E' as ->; try assumption. reflexivity.
Qed.
End Opt.
