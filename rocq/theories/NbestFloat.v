(** Python adds weights as binary64 floats; the model uses integers.  On a grid
    that the shipped weights stay on, the two agree; in general they do not. *)
From Coq Require Import ZArith Reals Lia Lra.
From Coq Require Import Floats.SpecFloat.
From Flocq Require Import Core.

(** Rounding to binary64 (round to nearest even; bounds below exclude overflow). *)
Definition b64 (x : R) : R := round radix2 (FLT_exp (-1074) 53) ZnearestE x.
(** The weight [z] grid units of 2^-e. *)
Definition units (e z : Z) : R := (IZR z * bpow radix2 (- e))%R.
(** _NormalizationCandidate.weight, processor.py:61-65: tagger_weight +
    verbalizer_weight - best_verbalizer_weight, in floats. *)
Definition float_weight (tw vw best : R) : R := b64 (b64 (tw + vw) - best).

Lemma units_format : forall e z, (e <= 1074)%Z -> (Z.abs z <= 2 ^ 53)%Z -> generic_format radix2 (FLT_exp (-1074) 53) (units e z).
Proof.
  intros e z He Hz. unfold units. destruct (Z.eq_dec (Z.abs z) (2 ^ 53)) as [E|N].
  - assert (Hb : generic_format radix2 (FLT_exp (-1074) 53) (bpow radix2 (53 - e))).
    { apply generic_format_bpow. unfold FLT_exp. lia. }
    assert (Ez : (z = 2 ^ 53 \/ z = - 2 ^ 53)%Z) by lia.
    destruct Ez as [->| ->].
    + replace (IZR (2 ^ 53) * bpow radix2 (- e))%R with (bpow radix2 (53 - e)); [exact Hb|].
      replace (IZR (2 ^ 53)) with (bpow radix2 53) by reflexivity. rewrite <- bpow_plus. f_equal.
    + replace (IZR (- 2 ^ 53) * bpow radix2 (- e))%R with (- bpow radix2 (53 - e))%R; [apply generic_format_opp, Hb|].
      rewrite opp_IZR. replace (IZR (2 ^ 53)) with (bpow radix2 53) by reflexivity.
      replace (53 - e)%Z with (53 + - e)%Z by lia. rewrite bpow_plus. lra.
  - apply generic_format_FLT. exists (Float radix2 z (- e)); cbn [Fnum Fexp]; [reflexivity| |lia].
    change (Zpower radix2 53) with (2 ^ 53)%Z. lia.
Qed.

Theorem float_weight_exact : forall e tw vw best, (e <= 1074)%Z ->
  (Z.abs (tw + vw) <= 2 ^ 53)%Z -> (Z.abs (tw + vw - best) <= 2 ^ 53)%Z ->
  float_weight (units e tw) (units e vw) (units e best) = units e (tw + vw - best).
Proof.
  intros e tw vw best He H1 H2. unfold float_weight, b64.
  assert (E1 : (units e tw + units e vw)%R = units e (tw + vw)) by (unfold units; rewrite plus_IZR; ring).
  rewrite E1, (round_generic _ _ _ (units e (tw + vw))) by (apply units_format; assumption).
  assert (E2 : (units e (tw + vw) - units e best)%R = units e (tw + vw - best)) by (unfold units; rewrite minus_IZR; ring).
  rewrite E2. apply round_generic; [apply valid_rnd_N|]. apply units_format; assumption.
Qed.
(** The order of float weights is then the order of the integers. *)
Theorem units_order : forall e a b, (units e a <= units e b)%R <-> (a <= b)%Z.
Proof.
  intros e a b. unfold units. pose proof (bpow_gt_0 radix2 (- e)) as P. split.
  - intros H. apply le_IZR. apply Rmult_le_reg_r in H; assumption.
  - intros H. apply Rmult_le_compat_r; [lra|apply IZR_le, H].
Qed.

(** In general (tw + b) - b is not tw: with tw = 1 and b = 2^53 it is 0. *)
Definition f_one : spec_float := binary_normalize 53 1024 1 0 false.
Definition f_big : spec_float := binary_normalize 53 1024 1 53 false.
Lemma float_weight_rounds :
  SFltb (SFsub 53 1024 (SFadd 53 1024 f_one f_big) f_big) f_one = true.
Proof. vm_compute; reflexivity. Qed.
