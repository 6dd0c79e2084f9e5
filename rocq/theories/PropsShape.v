(** Properties C42 and C43: what the taggers of the shipped grammars write.

    Vocabulary: [denote t x y w] (Fst.v) says that the graph [t] turns [x] into [y] at cost
    [w]; [parse] is the token parser (TokenModel.v); the tables of token names and keys,
    [known] and [pieces] are in ShapeSpec.v.  [ZhTnModel.tagger o] is the tagger graph built
    with the constructor's options [o], [None] standing for the ValueError of an empty rule
    list; the other three likewise. *)
From Coq Require Import List NArith ZArith Bool String Lia.
From Verif Require Import Text TextFacts TokenModel TokenSpec TokenProofs3.
From Verif Require Import Fst GrammarModel GrammarSpec FstFacts ShapeSpec GrammarShape.
From Verif Require Import DataZhTn DataJaTn.
From Verif Require ZhTnModel ZhItnModel JaTnModel JaItnModel.
From Verif Require ZhTnShape ZhItnShape JaTnShape JaItnShape.
Import ListNotations.
Local Open Scope list_scope.

(** ** C42 *)
Fixpoint keys_eqb (a b : list text) : bool :=
  match a, b with
  | [], [] => true
  | x :: r, y :: q => text_eqb x y && keys_eqb r q
  | _, _ => false
  end.
Lemma keys_eqb_sound a : forall b, keys_eqb a b = true -> a = b.
Proof.
  induction a as [|x r IH]; intros [|y q]; cbn; try discriminate; [reflexivity|].
  rewrite andb_true_iff. intros (E & H). destruct (text_eqb_spec x y) as [->|]; [|discriminate]. now rewrite (IH _ H).
Qed.
Definition in_table (table : token_table) (s : token_shape) : bool :=
  existsb (fun row => text_eqb (Datatypes.fst s) (u (Datatypes.fst row)) &&
             existsb (fun k => keys_eqb (map Datatypes.fst (snd s)) (words (u k))) (snd row)) table.
Lemma known_shape table A : forallb (in_table table) A = true -> forall t, shape_token A t -> known table t.
Proof.
  intros F t (s & I & En & M & Eo). rewrite forallb_forall in F. specialize (F s I).
  apply existsb_exists in F as ((n & rows) & Ir & F). cbn [Datatypes.fst snd] in F. apply andb_true_iff in F as (E & X).
  apply existsb_exists in X as (k & Ik & Ek). apply keys_eqb_sound in Ek.
  destruct (text_eqb_spec (Datatypes.fst s) (u n)) as [E'|]; [|discriminate].
  exists n, rows, k. split; [exact Ir|]. split; [exact Ik|]. split; [congruence|].
  split; [congruence|]. now rewrite <- (fields_keys _ _ M).
Qed.
(** Each tagging is a list of known tokens.  Nothing is written for the empty text only. *)
Definition well_formed (table : token_table) (tagger : option fst) : Prop :=
  exists t, tagger = Some t /\ forall x y w, denote t x y w ->
    (x = [] /\ y = []) \/ exists toks, parse y = Ok toks /\ toks <> [] /\ Forall (known table) toks.
Lemma well_formed_i table A t :
  (forall x y w, denote t x y w -> (x = [] /\ y = []) \/ writes A x y) ->
  forallb (in_table table) A = true -> well_formed table (Some t).
Proof.
  intros H F. exists t. split; [reflexivity|]. intros x y w D. destruct (H _ _ _ D) as [E|W]; [now left|right].
  apply writes_parse in W as (toks & Pa & N & Sh). exists toks. split; [exact Pa|]. split; [exact N|].
  eapply Forall_impl; [|exact Sh]. exact (known_shape _ _ F).
Qed.
Theorem C42_zh_tn : forall o, well_formed zh_tn_tokens (ZhTnModel.tagger o).
Proof.
  intro o. eapply well_formed_i.
  - intros x y w H. refine (ZhTnShape.zh_tn_writes o _ x y w eq_refl H).
  - lazy; reflexivity.
Qed.
Print Assumptions C42_zh_tn.
Theorem C42_zh_itn : forall o, well_formed zh_itn_tokens (ZhItnModel.tagger o).
Proof.
  intro o. eapply well_formed_i.
  - intros x y w H. refine (ZhItnShape.zh_itn_writes o _ x y w eq_refl H).
  - lazy; reflexivity.
Qed.
Print Assumptions C42_zh_itn.
Theorem C42_ja_tn : forall o, well_formed ja_tn_tokens (JaTnModel.tagger o).
Proof.
  intro o. destruct (JaTnModel.tagger o) as [t|] eqn:E; [|destruct o as [[] ? ? ? ?]; discriminate].
  eapply well_formed_i.
  - intros x y w H. refine (JaTnShape.ja_tn_writes o _ x y w E H).
  - unfold JaTnShape.ja_tn_shapes. destruct (JaTnModel.transliterate o); lazy; reflexivity.
Qed.
Print Assumptions C42_ja_tn.
Theorem C42_ja_itn : forall o, well_formed ja_itn_tokens (JaItnModel.tagger o).
Proof.
  intro o. eapply well_formed_i.
  - intros x y w H. refine (JaItnShape.ja_itn_writes o _ x y w eq_refl H).
  - lazy; reflexivity.
Qed.
Print Assumptions C42_ja_itn.

(** ** C43 *)
(** Whatever the text contains, each character token stands for one character of it and
    has that character as its value; every other token's values are parts of its own piece
    of the text, in order. *)
Definition faithful (tagger : option fst) : Prop :=
  exists t, tagger = Some t /\ forall x y w toks, denote t x y w -> parse y = Ok toks -> pieces x toks.
Theorem C43_zh_tn : forall o, faithful (ZhTnModel.tagger o).
Proof. intro o. eexists. split; [reflexivity|]. intros x y w toks. now apply ZhTnShape.zh_tn_pieces with (o := o). Qed.
Print Assumptions C43_zh_tn.
Theorem C43_zh_itn : forall o, faithful (ZhItnModel.tagger o).
Proof. intro o. eexists. split; [reflexivity|]. intros x y w toks. now apply ZhItnShape.zh_itn_pieces with (o := o). Qed.
Print Assumptions C43_zh_itn.
Theorem C43_ja_tn : forall o, faithful (JaTnModel.tagger o).
Proof.
  intro o. destruct (JaTnModel.tagger o) as [t|] eqn:E; [|destruct o as [[] ? ? ? ?]; discriminate].
  exists t. split; [reflexivity|]. intros x y w toks. now apply JaTnShape.ja_tn_pieces with (o := o).
Qed.
Print Assumptions C43_ja_tn.
Theorem C43_ja_itn : forall o, faithful (JaItnModel.tagger o).
Proof. intro o. eexists. split; [reflexivity|]. intros x y w toks. now apply JaItnShape.ja_itn_pieces with (o := o). Qed.
Print Assumptions C43_ja_itn.
(** A tagging of character tokens only is the text, character by character. *)
Theorem C43_all_chars : forall x toks, pieces x toks -> (forall t, In t toks -> tk_name t = u "char") ->
  Forall2 (fun c t => tk_members t = [(u "value", [c])]) x toks.
Proof.
  intros x toks (ps & F & -> & ->). induction F as [|p ps (N & _ & C) F IH]; intro A; [constructor|].
  cbn [map List.concat] in *. destruct (snd p) as [|t l] eqn:E; [now destruct N|].
  destruct (C t) as (c & Ex & El & Ef); [cbn; auto|apply A; cbn; auto|]. injection El as ->. rewrite Ex. cbn [app].
  constructor; [exact Ef|]. apply IH. intros t' I. apply A. cbn. auto.
Qed.
Print Assumptions C43_all_chars.

(** The files read as character sets have one character per line (GrammarModel.characters). *)
Definition one_character (line : string) : bool := match u line with [_] => true | _ => false end.
Example character_files : forallb (forallb one_character)
  [zh_tn_char_charset_national_standard_2013_8105; zh_tn_char_charset_extension; zh_tn_char_punctuations_zh;
   ja_tn_char_hiragana_and_katakana; ja_tn_char_common_chinese_char; ja_tn_char_punctuations_ja] = true.
Proof. vm_compute; reflexivity. Qed.
