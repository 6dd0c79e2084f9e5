(** Property C66: a text one rule reads whole is not cut in two (WholeSpec.v). *)
From Coq Require Import List NArith ZArith Bool String Lia.
From Verif Require Import Text TextFacts TokenModel Fst GrammarModel GrammarSpec BoundarySpec BoundaryLaw WholeSpec.
From Verif Require Import FstFacts FstEval BoundaryRules GrammarEngine Whole.
From Verif Require ZhTnModel JaTnModel JaItnModel.
Import ListNotations.
Local Open Scope list_scope.

(** Chinese: the rules cost 10200 and more, but a telephone number costs 600. *)
Theorem C66_zh_tn o : whole_law (zh_tn o) 10800 phone_text.
Proof.
  pose proof (zh_tn_tagger_loopfree o) as Lf. destruct (tagger_union (ZhTnModel.rules o)) as [e|] eqn:E; [|discriminate].
  assert (Tg : ZhTnModel.tagger o = Some (trim_end e)) by (unfold ZhTnModel.tagger; now rewrite E). rewrite Tg in Lf.
  apply (whole_law_i (zh_tn o) e 10800 phone_text (zh_tn_rules o) E Tg Lf).
  apply (steps_two _ _ E phone_char 10200 600); [lia|]. destruct o as [i r t p f v]; destruct r; vm_compute; reflexivity.
Qed.
Print Assumptions C66_zh_tn.
Theorem C66_ja_tn o : whole_law (ja_tn o) 20400 (fun _ => False).
Proof.
  pose proof (ja_tn_tagger_loopfree o) as Lf. destruct (tagger_union (JaTnModel.rules o)) as [e|] eqn:E; [|destruct o as [[] i p f v]; discriminate E].
  assert (Tg : JaTnModel.tagger o = Some (trim_end e)) by (unfold JaTnModel.tagger; now rewrite E). rewrite Tg in Lf.
  apply (whole_law_i (ja_tn o) e 20400 _ (ja_tn_rules o) E Tg Lf).
  apply (floor_two _ _ E 10200); [lia|]. destruct o as [t i p f v]; destruct t, f; vm_compute; reflexivity.
Qed.
Print Assumptions C66_ja_tn.
Lemma ja_itn_floor o : forallb (floor 10100) (JaItnModel.rules o) = true.
Proof. destruct o as [f s n m]. destruct f, s, n, m; vm_compute; reflexivity. Qed.
Theorem C66_ja_itn o : whole_law (ja_itn o) 20200 (fun _ => False).
Proof.
  pose proof (ja_itn_tagger_loopfree o) as Lf. destruct (tagger_union (JaItnModel.rules o)) as [e|] eqn:E; [|discriminate E].
  assert (Tg : JaItnModel.tagger o = Some (trim_end e)) by (unfold JaItnModel.tagger; now rewrite E). rewrite Tg in Lf.
  apply (whole_law_i (ja_itn o) e 20200 _ (ja_itn_rules o) E Tg Lf).
  apply (floor_two _ _ E 10100); [lia|]. exact (ja_itn_floor o).
Qed.
Print Assumptions C66_ja_itn.

(** The hypotheses are met: a date is read whole by the date rule (Chinese and Japanese normalisers), a
    spoken fraction by the fraction rule (Japanese inverse normaliser), each for less than the limit. *)
Lemma read_whole rs x y w s k v : valid_text y -> In s rs -> s_weight s = Some k -> loopfree (r_tagger (s_rule s)) = true ->
  In (y ++ u " ", v) (outputs_of (r_tagger (s_rule s)) x) -> w = (k + v)%Z -> whole_reading rs x y w.
Proof. intros V I K L O E. split; [exact V|]. exists s, k, v. split; [exact I|]. split; [exact K|]. split; [|exact E]. now apply outputs_of_spec. Qed.
Example C66_witness_zh_tn o : ~ phone_text (u "2024/01/05") /\
  whole_reading (g_rules (zh_tn o)) (u "2024/01/05") (u "date { year: ""2024"" month: ""01"" day: ""05"" }") 10200%Z.
Proof.
  split; [intro H; apply Forall_inv_tail, Forall_inv_tail, Forall_inv_tail, Forall_inv_tail, Forall_inv in H; discriminate H|].
  apply (read_whole _ _ _ _ (RuleSpec (ZhTnModel.Date.rule (r_tagger ZhTnModel.Range.rule)) (Some 10200%Z) true) 10200%Z 0%Z); [|..|reflexivity]; [| |reflexivity|vm_compute; reflexivity|].
  - apply vtext_spec. vm_compute; reflexivity.
  - left; reflexivity.
  - vm_compute. left. reflexivity.
Qed.
Definition ja_tn_o := JaTnModel.Options false false false true false.
Example C66_witness_ja_tn : whole_reading (g_rules (ja_tn ja_tn_o)) (u "2024/01/05") (u "date { year: ""2024"" month: ""01"" day: ""05"" }") 10200%Z.
Proof.
  apply (read_whole _ _ _ _ (RuleSpec (JaTnModel.Date.rule ja_tn_o (r_tagger (JaTnModel.Range.rule ja_tn_o))) (Some 10200%Z) true) 10200%Z 0%Z); [|..|reflexivity]; [| |reflexivity|vm_compute; reflexivity|].
  - apply vtext_spec. vm_compute; reflexivity.
  - do 2 right. left; reflexivity.
  - vm_compute. left. reflexivity.
Qed.
Definition ja_itn_o := JaItnModel.Options false true false false.
Example C66_witness_ja_itn : whole_reading (g_rules (ja_itn ja_itn_o)) (u "三分の一") (u "fraction { denominator: ""三分の"" numerator: ""一"" }") 10500%Z.
Proof.
  apply (read_whole _ _ _ _ (RuleSpec (JaItnModel.Fraction.rule ja_itn_o) (Some 10500%Z) true) 10500%Z 0%Z); [|..|reflexivity]; [| |reflexivity|vm_compute; reflexivity|].
  - apply vtext_spec. vm_compute; reflexivity.
  - do 3 right. left; reflexivity.
  - vm_compute. left. reflexivity.
Qed.
