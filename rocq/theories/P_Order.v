(** * Properties C01, C02, C03, C21, C22. *)

From Coq Require Import ZArith List Bool Lia Reals Lra.
From Verif Require Import Model Spec Limbs Value CmpProofs AddProofs Decide OrderProofs.
Import ListNotations.
Open Scope R_scope.

(** C01: the six comparison operators decide the order of the represented
    real numbers. *)
Theorem C01_comparison_is_numeric_order :
  forall d u v, valid_digits d -> finite d u -> finite d v ->
  (op_lt u v = true <-> value u < value v) /\
  (op_le u v = true <-> value u <= value v) /\
  (op_eq u v = true <-> value u = value v) /\
  (op_ne u v = true <-> value u <> value v) /\
  (op_ge u v = true <-> value u >= value v) /\
  (op_gt u v = true <-> value u > value v).
Proof. exact cmp_all_ops. Qed.
Print Assumptions C01_comparison_is_numeric_order.

Example C01_hypotheses_met :
  valid_digits 30 /\ finite 30 (of_sll 30 (-5)) /\ finite 30 (half 30).
Proof. meets. Qed.

(** C01, second half: numbers comparing equal are indistinguishable. *)
Theorem C01_equal_numbers_have_equal_digits :
  forall d u v, valid_digits d -> finite d u -> finite d v ->
  op_eq u v = true -> value u <> 0 ->
  data u = data v /\ exp u = exp v /\ neg u = neg v.
Proof. exact eq_repr. Qed.
Print Assumptions C01_equal_numbers_have_equal_digits.

Example C01_equal_hypotheses_met :
  op_eq (of_sll 30 (-5)) (of_sll 30 (-5)) = true /\ value (of_sll 30 (-5)) <> 0.
Proof. exact eq_repr_example. Qed.

(** C02: infinities are the extremes, NaN equals nothing. *)
Theorem C02_comparison_with_infinities_and_nan :
  forall d x y, valid_digits d -> wf d x -> wf d y ->
  (is_inf x false -> cls y = Finite -> op_gt x y = true /\ op_lt y x = true /\ op_eq x y = false /\ op_eq y x = false) /\
  (is_inf x true -> cls y = Finite -> op_lt x y = true /\ op_gt y x = true /\ op_eq x y = false /\ op_eq y x = false) /\
  (forall b, is_inf x b -> is_inf y b -> op_eq x y = true /\ op_lt x y = false /\ op_gt x y = false) /\
  (is_inf x true -> is_inf y false -> op_lt x y = true /\ op_gt y x = true /\ op_eq x y = false /\ op_eq y x = false) /\
  (is_nan x \/ is_nan y -> op_eq x y = false) /\
  op_ne x y = negb (op_eq x y).
Proof. exact cmp_special. Qed.
Print Assumptions C02_comparison_with_infinities_and_nan.

Example C02_hypotheses_met :
  wf 30 (signed_inf 30 true) /\ is_inf (signed_inf 30 true) true /\
  wf 30 (value_nan 30) /\ is_nan (value_nan 30) /\ finite 30 (one 30).
Proof. meets. Qed.

(** C03: negation and absolute value. *)
Theorem C03_negation_and_absolute_value_exact :
  forall d x, valid_digits d -> finite d x ->
  finite d (negate x) /\ value (negate x) = - value x /\ negate (negate x) = x /\
  finite d (fabs x) /\ value (fabs x) = Rabs (value x) /\
  prec (negate x) = prec x /\ prec (fabs x) = prec x /\
  (value x = 0 -> isneg (negate x) = false).
Proof. exact negate_spec. Qed.
Print Assumptions C03_negation_and_absolute_value_exact.

Theorem C03_negation_of_special_values :
  forall x b, (is_inf x b -> is_inf (negate x) (negb b)) /\ (is_nan x -> is_nan (negate x)).
Proof. exact negate_special. Qed.
Print Assumptions C03_negation_of_special_values.

Example C03_hypotheses_met : finite 30 (of_sll 30 (-5)) /\ isneg (of_sll 30 (-5)) = true.
Proof. meets. Qed.

(** C21: iszero and isneg are right; isone is not (see the refutation), so
    this is only part of the property. *)
Theorem C21_iszero_isneg_partial :
  forall d x, valid_digits d -> finite d x ->
  (iszero x = true <-> value x = 0) /\ (isneg x = true <-> value x < 0).
Proof. exact iszero_isneg_spec. Qed.
Print Assumptions C21_iszero_isneg_partial.

(** The number 1 is not recognised ... *)
Theorem C21_isone_refuted :
  exists x, finite 30 x /\ value x = 1 /\ isone x = false.
Proof. exact isone_refuted. Qed.
Print Assumptions C21_isone_refuted.

(** ... in fact the only finite number for which isone() is true is
    1 - 10^(-8N). *)
Theorem C21_isone_accepts_only_all_nines :
  forall d x, valid_digits d -> finite d x ->
  (isone x = true <-> value x = 1 - powerRZ 10 (- (8 * elem_number d))).
Proof. exact isone_spec. Qed.
Print Assumptions C21_isone_accepts_only_all_nines.

Example C21_hypotheses_met :
  finite 30 (mkef (repeat 99999999%Z 7) (-8) false Finite 7) /\
  isone (mkef (repeat 99999999%Z 7) (-8) false Finite 7) = true.
Proof. meets. Qed.

(** C22: precision(p) keeps enough limbs for p digits and no more than one
    limb too many, within [2, N]; the number itself is unchanged. *)
Theorem C22_precision_clamped :
  forall d x p, valid_digits d -> (-2147483648 <= p <= 2147483647)%Z ->
  let y := precision d x p in
  (2 <= prec y <= elem_number d)%Z /\
  (p <= 8 * prec y \/ prec y = elem_number d)%Z /\
  (8 * (prec y - 1) < p \/ prec y = 2)%Z /\
  data y = data x /\ exp y = exp x /\ neg y = neg x /\ cls y = cls x.
Proof. exact precision_spec. Qed.
Print Assumptions C22_precision_clamped.

Example C22_example : prec (precision 100 (one 100) 34) = 5%Z.
Proof. vm_compute. reflexivity. Qed.
