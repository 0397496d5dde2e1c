(** * C68, C72, C74: atan, asin and log1p of numbers whose square underflows *)

From Coq Require Import ZArith List Bool Reals Lra Lia.
From Verif Require Import Model Spec Value Decide AddExtra OrderProofs PowExtra ModelElem SeriesFloat ExpFloat LdexpProofs StrAny TinyNan.
Import ListNotations.
Open Scope R_scope.

(** Refutes C68 near zero: atan(x) is NaN, not close to x, for every nonzero x with
    |x| < 10^-1073741807, all of which are regular numbers.  x * x underflows to zero, and
    the series at zero never reaches its stopping test. *)
Theorem C68_atan_tiny_refuted :
  forall d env x, valid_digits d -> (d <= 4967)%Z -> finite d x -> value x <> 0 -> Rabs (value x) < powerRZ 10 (-1073741807) -> isnan (atan d env x) = true.
Proof. intros d env x Hd D F N B. exact (atan_tiny d Hd D env x F N B). Qed.
Print Assumptions C68_atan_tiny_refuted.

(** Refutes C74 near zero: asin(x) is NaN for the same numbers. *)
Theorem C74_asin_tiny_refuted :
  forall d env x, valid_digits d -> (d <= 4967)%Z -> finite d x -> value x <> 0 -> Rabs (value x) < powerRZ 10 (-1073741807) -> isnan (asin d env x) = true.
Proof. intros d env x Hd D F N B. exact (asin_tiny d Hd D env x F N B). Qed.
Print Assumptions C74_asin_tiny_refuted.

(** Refutes C72 near zero: log1p(x) is NaN for the same numbers. *)
Theorem C72_log1p_tiny_refuted :
  forall d x, valid_digits d -> (d <= 4967)%Z -> finite d x -> value x <> 0 -> Rabs (value x) < powerRZ 10 (-1073741807) -> isnan (log1p d x) = true.
Proof. intros d x Hd D F N B. exact (log1p_tiny d Hd D x F N B). Qed.
Print Assumptions C72_log1p_tiny_refuted.

(** The hypotheses of the three theorems hold for x = 10^-1100000000 with 30 digits. *)
Example C68_tiny_hypotheses_met : exists x, finite 30 x /\ value x <> 0 /\ Rabs (value x) < powerRZ 10 (-1073741807).
Proof.
  assert (V : valid_digits 30) by exact valid_30.
  destruct (of_limbs1 30 1 (-1100000000) V ltac:(lia) ltac:(reflexivity)) as (F & _ & E). exists (of_limbs 30 [1%Z] (-1100000000) false).
  split; [exact F|]. pose proof (p10_pos (-1100000000)) as P. rewrite E. split; [lra|].
  rewrite Rmult_1_l, Rabs_pos_eq by lra. apply p10_lt. lia.
Qed.
