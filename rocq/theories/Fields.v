(** A text that becomes one token of several fields: from its cheapest tagging to the one answer (C67). *)
From Coq Require Import List NArith ZArith Bool String Lia Arith.
From Verif Require Import Text TextFacts TokenModel TokenSpec TokenProofs TokenProofs2 Fst FstFacts GrammarModel GrammarShape GrammarAccept EnglishNumeralSpec.
From Verif Require Import BoundarySpec TokenRun Boundary BoundaryRules TokenVerbal BoundaryChar Letters OneToken.
From Verif Require Import EndToEnd.
From Verif Require EnNumberProofs5 PlainRules.
Import ListNotations.
Local Open Scope list_scope.

(** The token with the fields [fs]. *)
Definition piece (k v : text) : text := k ++ u ": """ ++ v ++ u """".
Definition fields_token (name : text) (fs : list (text * text)) : text :=
  name ++ u " { " ++ join (u " ") (map (fun kv => piece (Datatypes.fst kv) (escape_value (snd kv))) fs) ++ u " }".
Lemma join_pieces fs : fs <> [] ->
  u " " ++ join (u " ") (map (fun kv => piece (Datatypes.fst kv) (escape_value (snd kv))) fs) = flat_map (fun kv => format_field (Datatypes.fst kv) (snd kv)) fs.
Proof.
  induction fs as [|kv fs IH]; [contradiction|]. intros _. cbn [map flat_map]. destruct fs as [|kv' fs].
  - cbn [map join flat_map]. rewrite app_nil_r. reflexivity.
  - rewrite <- IH by discriminate. set (r := kv' :: fs). change (join (u " ") (piece (Datatypes.fst kv) (escape_value (snd kv)) :: map (fun kv => piece (Datatypes.fst kv) (escape_value (snd kv))) r))
      with (piece (Datatypes.fst kv) (escape_value (snd kv)) ++ u " " ++ join (u " ") (map (fun kv => piece (Datatypes.fst kv) (escape_value (snd kv))) r)).
    unfold format_field, piece. rewrite <- !app_assoc. reflexivity.
Qed.
Lemma fields_string name fs : fs <> [] -> fields_token name fs = name ++ [SP; LBRACE] ++ flat_map (fun kv => format_field (Datatypes.fst kv) (snd kv)) fs ++ [SP; RBRACE].
Proof. intro N. rewrite <- (join_pieces fs N). unfold fields_token. rewrite <- !app_assoc. reflexivity. Qed.
Definition good_keys (fs : list (text * text)) : bool := forallb (fun kv : text * text => namechars (Datatypes.fst kv)) fs.
Lemma fields_text_of name fs : namechars name = true -> good_keys fs = true -> NoDup (map Datatypes.fst fs) -> fs <> [] -> token_text (fields_token name fs) name fs.
Proof.
  intros N K D E. apply token_text_canonical; [now apply namechars_spec| |exact D|].
  - apply Forall_forall. intros kv I. apply namechars_spec. unfold good_keys in K. rewrite forallb_forall in K. exact (K _ I).
  - exists (flat_map (fun kv => format_field (Datatypes.fst kv) (snd kv)) fs). split; [now apply canonical_fields_iff|]. exact (fields_string name fs E).
Qed.
Lemma fields_reordered os name fs fs' : namechars name = true -> good_keys fs = true -> NoDup (map Datatypes.fst fs) -> fs <> [] -> fs' <> [] -> emitted os name fs = fs' ->
  reorder os (fields_token name fs) = Ok (fields_token name fs').
Proof.
  intros N K D E E' M. pose proof (fields_text_of name fs N K D E) as T.
  assert (S : TokenSpec.stream 0 (fields_token name fs) [SToken name (0 + 0) (0 + 0 + List.length (fields_token name fs)) fs]).
  { replace (fields_token name fs) with (repeat 32%N 0 ++ fields_token name fs ++ repeat 32%N 0) at 1 by (cbn [repeat app]; apply app_nil_r).
    exact (stream_cons 0 0 _ name _ _ [] T (stream_nil _ 0)). }
  rewrite (reorder_join _ _ _ (parse_complete _ _ (token_text_nonempty _ _ _ T) S)). f_equal.
  cbn [map join]. rewrite token_string_emitted. cbn [st_name st_fields]. rewrite M. symmetry. exact (fields_string name fs' E').
Qed.
Lemma fields_run name fs : namechars name = true -> good_keys fs = true -> fs <> [] -> run Init (fields_token name fs) = Done.
Proof.
  intros N K E. rewrite (fields_string name fs E), !run_app, (key_out Init name (namechars_spec _ N) (or_introl eq_refl)). change (run Out [SP; LBRACE]) with Out.
  replace (run Out (flat_map (fun kv => format_field (Datatypes.fst kv) (snd kv)) fs)) with Out; [reflexivity|]. clear E. induction fs as [|kv fs IH]; [reflexivity|].
  unfold good_keys in K. cbn [forallb] in K. apply andb_true_iff in K as (K & Ks). cbn [flat_map]. rewrite run_app. unfold format_field at 1. rewrite !run_app.
  change (run Out [SP]) with Out. rewrite (key_out Out (Datatypes.fst kv) (namechars_spec _ K) (or_intror eq_refl)). change (run Out [COLON; SP; QUOTE]) with Quo. rewrite value_quo. change (run Quo [QUOTE]) with Out. exact (IH Ks).
Qed.
Lemma escape_vchar v : forallb vchar v = true -> forallb vchar (escape_value v) = true.
Proof.
  intro V. induction v as [|c v IH]; [reflexivity|]. cbn [forallb] in V. apply andb_true_iff in V as (Vc & V).
  rewrite escape_step, forallb_app, (IH V), andb_true_r. destruct (N.eqb c 34); [reflexivity|]. destruct (N.eqb c 92); [reflexivity|]. cbn. now rewrite Vc.
Qed.
Definition good_values (fs : list (text * text)) : bool := forallb (fun kv : text * text => forallb vchar (Datatypes.fst kv) && forallb vchar (snd kv)) fs.
Lemma fields_valid name fs : forallb vchar name = true -> good_values fs = true -> forallb vchar (fields_token name fs) = true.
Proof.
  intros N V. destruct fs as [|kv fs]; [unfold fields_token; rewrite forallb_app, N; reflexivity|]. rewrite fields_string by discriminate. rewrite !forallb_app, N. cbn [forallb]. change (vchar SP && (vchar LBRACE && true))%bool with true. cbn [andb].
  rewrite andb_true_r. revert V. generalize (kv :: fs). clear. intro fs. induction fs as [|kv fs IH]; [reflexivity|]. unfold good_values. cbn [forallb flat_map]. intro V. apply andb_true_iff in V as (V & Vs). apply andb_true_iff in V as (Vk & V).
  rewrite forallb_app, (IH Vs), andb_true_r. unfold format_field. rewrite !forallb_app. rewrite Vk, (escape_vchar _ V). reflexivity.
Qed.
(** ** The verbaliser of a field *)
Lemma shed_denote k q g x y w : denote (delete k + g + delete q)%fst x y w <-> exists v, x = k ++ v ++ q /\ denote g v y w.
Proof.
  split.
  - intro H. apply cat_inv in H as (x1 & y1 & w1 & x2 & y2 & w2 & -> & -> & -> & H & (-> & -> & ->)).
    apply cat_inv in H as (x3 & y3 & w3 & x4 & y4 & w4 & -> & -> & -> & (-> & -> & ->) & H). exists x4. cbn [app]. rewrite <- app_assoc, app_nil_r, Z.add_0_r, Z.add_0_l. auto.
  - intros (v & -> & H). rewrite app_assoc, <- (app_nil_r y). replace w with (0 + w + 0)%Z by lia. apply cat_i; [|now cbn]. change y with ([] ++ y). apply cat_i; [now cbn|exact H].
Qed.
Definition unquoted (c : N) : bool := negb (c =? 34)%N.
(** Two values between the same quotes. *)
Lemma value_split k v r v' r' : forallb unquoted v = true -> forallb unquoted v' = true -> k ++ v ++ (34%N :: r) = k ++ v' ++ (34%N :: r') -> v = v' /\ r = r'.
Proof.
  intros A B E. apply app_inv_head in E. apply (EnNumberProofs5.split_unique unquoted) in E as (-> & E); [|exact A|exact B|reflexivity|reflexivity]. now injection E as ->.
Qed.
Lemma unquoted_in v : forallb unquoted v = true -> ~ In 34%N v.
Proof. intros F I. rewrite forallb_forall in F. specialize (F _ I). discriminate F. Qed.
Definition bare (c : N) : bool := negb (c =? 34)%N && negb (c =? 92)%N.
Lemma bare_escape v : forallb bare v = true -> escape_value v = v.
Proof. intro F. rewrite forallb_forall in F. apply escape_plain; intro I; specialize (F _ I); discriminate F. Qed.
Lemma bare_unquoted v : forallb bare v = true -> forallb unquoted v = true.
Proof. intro F. rewrite forallb_forall in *. intros c I. specialize (F c I). unfold bare in F. now apply andb_true_iff in F as (F & _). Qed.

Section One.
Variables (rs : list rule_spec) (name : text) (s : rule_spec) (e v post : fst) (os : orders) (x m d : text) (k : Z) (fs fs' : list (text * text)).
Hypothesis Name : namechars name = true.
Hypothesis Word : one_word name = true.
Hypothesis Only : name_only rs name s.
Hypothesis Checks : cut_rules rs = true.
Hypothesis Vu : verbalizer_union rs = Some v.
Hypothesis Keys' : good_keys fs' = true.
Hypothesis Some' : fs' <> [].
Hypothesis Verb : forall z w, denote (r_verbalizer (s_rule s)) (fields_token name fs') z w <-> z = m /\ w = k.
Hypothesis Post : forall z w, denote post m z w <-> z = d /\ w = 0%Z.
Lemma fields_verbalized z w : denote (Star (v @ post)%fst) (fields_token name fs') z w <-> z = d /\ w = k.
Proof.
  rewrite (one_denote _ _ _ _ (post_closed rs v post Checks Vu) (fields_run name fs' Name Keys' Some')).
  assert (U : forall z w, denote v (fields_token name fs') z w <-> z = m /\ w = k).
  { intros z0 w0. rewrite <- Verb. unfold fields_token. exact (name_union rs name s v Word Only Vu _ z0 w0). }
  split.
  - intros (m' & w1 & w2 & -> & H & K). apply U in H as (-> & ->). apply Post in K as (-> & ->). rewrite Z.add_0_r. auto.
  - intros (-> & ->). exists m, k, 0%Z. split; [lia|]. split; [now apply U|now apply Post].
Qed.
Hypothesis Keys : good_keys fs = true.
Hypothesis Once : NoDup (map Datatypes.fst fs).
Hypothesis Any : fs <> [].
Hypothesis Order : emitted os name fs = fs'.
Hypothesis Tag : cheapest (denote (trim_end e)) x (fields_token name fs).
Theorem fields_sole : only_answer os (trim_end e) (Star (v @ post)%fst) x d.
Proof.
  apply (cheapest_only os _ _ x (fields_token name fs) (fields_token name fs') d).
  - exact Tag.
  - exact (fields_reordered os name fs fs' Name Keys Once Any Some' Order).
  - exists k. split; [now apply fields_verbalized|]. intros z w H. apply fields_verbalized in H as (-> & ->). split; [lia|reflexivity].
Qed.
End One.
(** The verbaliser reads what is between the braces. *)
Lemma tokens_inner name v z d w : denote (delete_tokens name v) (name ++ u " { " ++ z ++ u " }") d w <-> denote v z d w.
Proof.
  rewrite tokens_denote. split.
  - intros (z' & c & E & C & H). do 2 apply app_inv_head in E. destruct C as [->| ->].
    + rewrite app_nil_r in E. apply app_inv_tail in E. now subst.
    + exfalso. change (u " }" ++ u " ") with (u " } ") in E. apply (f_equal (fun t => hd 0%N (rev t))) in E. rewrite !rev_app_distr in E. discriminate E.
  - intro H. exists z, []. rewrite app_nil_r. auto.
Qed.
