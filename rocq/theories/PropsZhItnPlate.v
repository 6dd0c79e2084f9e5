(** Property C87: train numbers and number plates through the whole Chinese inverse normaliser.

    Vocabulary (ZhItnPlateSpec.v): [train_kind c k]: the kind of train said [c] is written [k];
    [digit_named c d]: the digit said [c] is written [d]; [province c]; [letter c]; [plate_char c d]:
    [c] is a letter and [d] the same, or a said digit and [d] the digit.
    [zh_itn_said o w d] (ZhItnSaid.v): the inverse normaliser with the options [o] answers [d] for [w],
    alone or among characters that no rule but the one of single characters reads, whatever the engine. *)
From Coq Require Import List NArith ZArith Bool String Lia Arith.
From Verif Require Import Text TextFacts ZhItnModel ZhItnPlateSpec ZhItnSaid ZhItnPlate.
Import ListNotations.
Local Open Scope list_scope.

(** A kind of train and two to four digits are written letter and digits, whatever the options. *)
Theorem C87_train o c k ds Ds : train_kind c k -> Forall2 digit_named ds Ds -> 2 <= List.length ds <= 4 -> zh_itn_said o (c :: ds) (k :: Ds).
Proof. exact (train_said o c k ds Ds). Qed.
Print Assumptions C87_train.
(** A province, a letter and five or six letters or digits: the letters stay, the digits are written. *)
Theorem C87_plate o c a cs ds : province c -> letter a -> Forall2 plate_char cs ds -> List.length cs = 5 \/ List.length cs = 6 -> zh_itn_said o (c :: a :: cs) (c :: a :: ds).
Proof. exact (plate_said o c a cs ds). Qed.
Print Assumptions C87_plate.
(** The hypotheses are met: 高一二三 is the train G123, and 京A幺二三四B the plate 京A1234B. *)
Lemma named a b : forallb (fun q => existsb (fun e => (Datatypes.fst e =? Datatypes.fst q)%N && (snd e =? snd q)%N) digit_names) (combine a b) = true -> List.length a = List.length b -> Forall2 digit_named a b.
Proof.
  revert b. induction a as [|x a IH]; intros [|y b] H L; try discriminate L; constructor; cbn [combine forallb] in H; apply andb_true_iff in H as (H & T).
  - apply existsb_exists in H as ([p q] & I & E). cbn [Datatypes.fst snd] in E. apply andb_true_iff in E as (E1 & E2). apply N.eqb_eq in E1, E2. subst p q. exact I.
  - apply IH; [exact T|now injection L].
Qed.
Example C87_witness_train (o : options) : zh_itn_said o (u "高一二三") (u "G123").
Proof. refine (C87_train o (hd 0%N (u "高")) (hd 0%N (u "G")) (u "一二三") (u "123") _ (named _ _ _ _) _); [vm_compute; tauto|vm_compute; reflexivity|reflexivity|cbn; lia]. Qed.
Example C87_witness_plate (o : options) : zh_itn_said o (u "京A幺二三四B") (u "京A1234B").
Proof.
  refine (C87_plate o (hd 0%N (u "京")) 65%N (u "幺二三四" ++ u "B") (u "1234" ++ u "B") _ _ _ (or_introl eq_refl)); [vm_compute; tauto|unfold letter; lia|].
  apply Forall2_app; [|constructor; [left; split; [unfold letter; cbv; left; split; discriminate|reflexivity]|constructor]].
  assert (F : Forall2 digit_named (u "幺二三四") (u "1234")) by (apply named; [vm_compute; reflexivity|reflexivity]). revert F. generalize (u "幺二三四") (u "1234"). intros a b F. induction F; constructor; [right; assumption|assumption].
Qed.
