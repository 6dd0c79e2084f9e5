(** The reading of Chinese numbers (C45), continued. *)
From Coq Require Import List NArith ZArith Bool String Lia Arith.
From Verif Require Import Text TextFacts Fst FstFacts FstRun GrammarModel DataZhTn ZhTnModel NumeralSpec ZhNumberProofs.
Import ListNotations.
Local Open Scope list_scope.
Local Open Scope fst_scope.

Lemma just_full e t l y : simple e = true -> outs e t = l ->
  filter (fun i : item => match snd (Datatypes.fst i) with [] => true | _ => false end) l = [(y, [], 0%Z)] -> just e t y.
Proof.
  intros S E F z w. rewrite (outs_all e S), E.
  transitivity (In (z, [], w) (filter (fun i : item => match snd (Datatypes.fst i) with [] => true | _ => false end) l)).
  - rewrite filter_In. cbn. tauto.
  - rewrite F. cbn. split.
    + intros [[= -> ->]|[]]. auto.
    + intros (-> & ->). auto.
Qed.
Lemma tw_one : tw 49 = []. Proof. reflexivity. Qed.
Ltac by_full T :=
  eexists; eexists; split;
  [eapply just_full; [reflexivity|open_graphs; leaf; reflexivity|rewrite ?T; reflexivity]|];
  split; [lits; step_read; reflexivity|];
  split; [|reflexivity]; split; [reflexivity|]; split; [reflexivity|]; eexists; split; [reflexivity|]; finish.
Lemma head_spec p : Forall digit_char p -> hd 48%N p <> 48%N -> (List.length p <= 4)%nat ->
  exists y s, just head p y /\ read_words rd_start y = Some s /\
    (counted 0 None s (decimal_value p) /\ rd_open s = false).
Proof.
  intros F H L. unfold rd_start.
  destruct p as [|a p]; [now destruct H|]. cbn [hd] in H.
  apply Forall_cons_iff in F as (Ha & F). apply digit_cases in Ha as [->|Ha]; [now destruct H|]. clear H.
  destruct p as [|b p]; [by_full tw_one|].
  apply Forall_cons_iff in F as (Hb & F).
  destruct p as [|c p].
  { destruct (N.eq_dec a 49) as [->|Na].
    - apply digit_cases in Hb as [->|Hb]; by_full tw_one.
    - assert (T : tw a = [dw a]) by (unfold tw; now rewrite (proj2 (N.eqb_neq _ _) Na)).
      apply digit_cases in Hb as [->|Hb]; by_full T. }
  apply Forall_cons_iff in F as (Hc & F).
  destruct p as [|d p].
  { apply digit_cases in Hb as [->|Hb], Hc as [->|Hc]; by_full tw_one. }
  apply Forall_cons_iff in F as (Hd & F).
  destruct p as [|e p]; [|cbn in L; lia].
  apply digit_cases in Hb as [->|Hb], Hc as [->|Hc], Hd as [->|Hd]; by_full tw_one.
Qed.
