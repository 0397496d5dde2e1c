(** * Properties C14, C31, C32, C37: division. *)

From Coq Require Import ZArith List Bool Lia Reals Lra.
From Verif Require Import Model Spec Limbs Value CmpProofs AddProofs Decide OrderProofs MulValue MulCor IntProofs ModelDiv InvProofs.
Import ListNotations.
Open Scope R_scope.

(** C14: division by a built-in integer below 10^8.  The error bound is the
    full claim; the quotient is cut exactly when the leading limb does not
    vanish (missing: the other case, which is false, see the refutation). *)
Theorem C14_div_unsigned_partial :
  forall d x n, valid_digits d -> finite d x -> full d x -> value x <> 0 -> (1 <= n < 100000000)%Z ->
  let r := div_ull d x n in
  finite d r /\ full d r /\ 0 < value r * value x /\
  Rabs (value r - value x / IZR n) <= powerRZ 10 (- (d + 1)) * Rabs (value x / IZR n) /\
  ((n <= nth 0 (data x) 0)%Z -> cut_to (ulp d (exp r)) (value x / IZR n) (value r)).
Proof. exact div_ull_small. Qed.
Print Assumptions C14_div_unsigned_partial.

Example C14_hypotheses_met :
  finite 30 (of_sll 30 (-123456789012)) /\ prec (of_sll 30 (-123456789012)) = elem_number 30 /\
  value (of_sll 30 (-123456789012)) <> 0 /\ (7 <=? nth 0 (data (of_sll 30 (-123456789012))) 0)%Z = true /\
  op_eq (div_ull 30 (of_sll 30 (-84)) 7) (of_sll 30 (-12)) = true.
Proof. meets. Qed.

(** C14: special operands (the case of a negative number divided by zero is
    missing: it is false). *)
Theorem C14_div_unsigned_special_partial :
  forall d x n, valid_digits d -> wf d x -> (0 <= n < 18446744073709551616)%Z ->
  (is_nan x -> is_nan (div_ull d x n)) /\
  (forall b, is_inf x b -> is_inf (div_ull d x n) b) /\
  (finite d x -> 0 < value x -> n = 0%Z -> is_inf (div_ull d x n) false) /\
  (finite d x -> value x = 0 -> n = 0%Z -> is_nan (div_ull d x n)) /\
  (finite d x -> value x = 0 -> n <> 0%Z -> finite d (div_ull d x n) /\ value (div_ull d x n) = 0).
Proof. exact div_ull_special. Qed.
Print Assumptions C14_div_unsigned_special_partial.

Example C14_special_hypotheses_met :
  wf 30 (value_nan 30) /\ cls (value_nan 30) = NaN /\ wf 30 (signed_inf 30 true) /\ cls (signed_inf 30 true) = Inf /\
  finite 30 (half 30) /\ finite 30 (zero 30).
Proof. meets. Qed.

(** C14: one divided by seven is not the exact quotient cut at the last limb:
    the last limb but one keeps a stale value. *)
Theorem C14_truncation_refuted :
  div_ull 30 (one 30) 7 =
    mkef [14285714; 28571428; 57142857; 14285714; 28571428; 28571428; 14285714]%Z (-8) false Finite 7 /\
  ~ cut_to (ulp 30 (exp (div_ull 30 (one 30) 7))) (value (one 30) / 7) (value (div_ull 30 (one 30) 7)).
Proof. exact div_ull_stale_limb. Qed.
Print Assumptions C14_truncation_refuted.

(** C14: -5/0 is plus infinity. *)
Theorem C14_negative_by_zero_refuted :
  value (of_sll 30 (-5)) = -5 /\ div_ull 30 (of_sll 30 (-5)) 0 = signed_inf 30 false.
Proof. exact div_ull_negative_by_zero. Qed.
Print Assumptions C14_negative_by_zero_refuted.

(** C31: the reciprocal of every finite number whose magnitude keeps 26 decades
    distance from the ends of the exponent range, up to 65000 digits.
    Missing: the remaining decades and larger precisions. *)
Theorem C31_reciprocal_partial :
  forall d x, valid_digits d -> (d <= 65000)%Z -> finite d x -> in_range (value x) ->
  finite d (inv d x) /\ 0 < value (inv d x) * value x /\
  Rabs (value x * value (inv d x) - 1) < powerRZ 10 (- d) /\
  ((d <= 4967)%Z -> Rabs (value x * value (inv d x) - 1) <= powerRZ 10 (- (d + 2))) /\
  (full d x -> full d (inv d x)).
Proof. exact inv_accurate. Qed.
Print Assumptions C31_reciprocal_partial.

Example C31_hypotheses_met :
  valid_digits 30 /\ finite 30 (of_sll 30 (-3)) /\ in_range (value (of_sll 30 (-3))).
Proof.
  assert (F : finite 30 (of_sll 30 (-3))) by (apply wfb_finite; vm_compute; reflexivity).
  split; [apply valid_30|]. split; [exact F|].
  apply (in_range_of_exp 30); [apply valid_30|exact F|vm_compute; discriminate|vm_compute; split; discriminate].
Qed.

Theorem C31_reciprocal_special :
  forall d x, valid_digits d -> wf d x ->
  (is_nan x -> is_nan (inv d x)) /\
  (finite d x -> value x = 0 -> is_inf (inv d x) false) /\
  (forall b, is_inf x b -> finite d (inv d x) /\ value (inv d x) = 0).
Proof. exact inv_special. Qed.
Print Assumptions C31_reciprocal_special.

Example C31_special_hypotheses_met :
  wf 30 (value_nan 30) /\ cls (value_nan 30) = NaN /\ wf 30 (signed_inf 30 true) /\ finite 30 (zero 30).
Proof. meets. Qed.

(** C32: division of numbers of different magnitude, or of a positive number
    by one of the same magnitude. *)
Theorem C32_division_partial :
  forall d u v, valid_digits d -> (d <= 65000)%Z -> finite d u -> finite d v -> full d u -> full d v ->
  in_range (value v) -> in_range (value u / value v) ->
  Rabs (value u) <> Rabs (value v) \/ 0 < value u ->
  finite d (div d u v) /\ full d (div d u v) /\ 0 < value (div d u v) * (value u / value v) /\
  Rabs (value (div d u v) - value u / value v) < powerRZ 10 (- d) * Rabs (value u / value v) /\
  ((d <= 4967)%Z -> Rabs (value (div d u v) - value u / value v) <= powerRZ 10 (- (d + 1)) * Rabs (value u / value v)).
Proof. exact div_accurate. Qed.
Print Assumptions C32_division_partial.

Example C32_hypotheses_met :
  finite 30 (of_sll 30 (-22)) /\ finite 30 (of_sll 30 7) /\ full 30 (of_sll 30 (-22)) /\ full 30 (of_sll 30 7) /\
  in_range (value (of_sll 30 7)) /\ in_range (value (of_sll 30 (-22)) / value (of_sll 30 7)) /\
  Rabs (value (of_sll 30 (-22))) <> Rabs (value (of_sll 30 7)).
Proof.
  assert (F1 : finite 30 (of_sll 30 (-22))) by (apply wfb_finite; vm_compute; reflexivity).
  assert (F2 : finite 30 (of_sll 30 7)) by (apply wfb_finite; vm_compute; reflexivity).
  split; [exact F1|]. split; [exact F2|]. split; [reflexivity|]. split; [reflexivity|].
  split. { apply (in_range_of_exp 30); [apply valid_30|exact F2|vm_compute; discriminate|vm_compute; split; discriminate]. }
  split. { apply (in_range_quot 30); auto; [apply valid_30|vm_compute; discriminate|vm_compute; discriminate|vm_compute; split; discriminate]. }
  destruct (of_sll_spec 30 (-22) valid_30 ltac:(lia)) as (_ & _ & -> & _).
  destruct (of_sll_spec 30 7 valid_30 ltac:(lia)) as (_ & _ & -> & _).
  rewrite Rabs_left by lra. rewrite Rabs_pos_eq by lra. lra.
Qed.

(** C32: special operands. *)
Theorem C32_division_special_partial :
  forall d u v, valid_digits d -> wf d u -> wf d v ->
  (is_nan u \/ is_nan v -> is_nan (div d u v)) /\
  (forall b c, is_inf u b -> is_inf v c -> is_nan (div d u v)) /\
  (forall c, finite d u -> is_inf v c -> finite d (div d u v) /\ value (div d u v) = 0) /\
  (forall b, is_inf u b -> finite d v -> in_range (value v) -> is_inf (div d u v) (xorb b (neg v))) /\
  (finite d u -> finite d v -> value u <> 0 -> value v = 0 -> is_inf (div d u v) (neg u)) /\
  (finite d u -> finite d v -> value u = 0 -> in_range (value v) -> finite d (div d u v) /\ value (div d u v) = 0).
Proof. exact div_special. Qed.
Print Assumptions C32_division_special_partial.

Example C32_special_hypotheses_met :
  wf 30 (value_nan 30) /\ wf 30 (signed_inf 30 true) /\ finite 30 (of_sll 30 (-22)) /\ finite 30 (zero 30) /\
  value (of_sll 30 (-22)) <> 0.
Proof. meets. Qed.

(** C32: operands of the same magnitude: (-3)/(-3) is -1, (-3)/3 is 1 and 0/0
    is 1. *)
Theorem C32_division_refuted :
  value (of_sll 30 (-3)) = -3 /\ value (of_sll 30 3) = 3 /\
  value (div 30 (of_sll 30 (-3)) (of_sll 30 (-3))) = -1 /\
  value (div 30 (of_sll 30 (-3)) (of_sll 30 3)) = 1 /\
  value (zero 30) = 0 /\ value (div 30 (zero 30) (zero 30)) = 1.
Proof. exact div_sign_refuted. Qed.
Print Assumptions C32_division_refuted.

(** C37: division by any built-in signed integer other than LLONG_MIN. *)
Theorem C37_div_builtin_partial :
  forall d x n, valid_digits d -> (d <= 65000)%Z -> finite d x -> full d x -> value x <> 0 ->
  in_range (value x / IZR n) -> (-9223372036854775808 < n < 9223372036854775808)%Z -> n <> 0%Z ->
  Rabs (value x) <> Rabs (IZR n) \/ 0 < value x ->
  exists r, div_sll d x n = Defined r /\ finite d r /\ 0 < value r * (value x / IZR n) /\
  Rabs (value r - value x / IZR n) < powerRZ 10 (- d) * Rabs (value x / IZR n).
Proof. exact div_sll_accurate. Qed.
Print Assumptions C37_div_builtin_partial.

Example C37_div_hypotheses_met :
  finite 30 (of_sll 30 (-22)) /\ full 30 (of_sll 30 (-22)) /\ value (of_sll 30 (-22)) <> 0 /\
  in_range (value (of_sll 30 (-22)) / IZR (-700000000000)).
Proof.
  assert (F1 : finite 30 (of_sll 30 (-22))) by (apply wfb_finite; vm_compute; reflexivity).
  assert (F2 : finite 30 (of_sll 30 (-700000000000))) by (apply wfb_finite; vm_compute; reflexivity).
  destruct (of_sll_spec 30 (-700000000000) valid_30 ltac:(lia)) as (_ & _ & E & _).
  split; [exact F1|]. split; [reflexivity|]. split; [destruct (of_sll_spec 30 (-22) valid_30 ltac:(lia)) as (_ & _ & -> & _); lra|].
  rewrite <- E. apply (in_range_quot 30); auto; [apply valid_30|vm_compute; discriminate|vm_compute; discriminate|vm_compute; split; discriminate].
Qed.

(** C37: division by the most negative integer is undefined behaviour. *)
Theorem C37_div_minimum_refuted :
  forall d x, div_sll d x (-9223372036854775808) = Undefined.
Proof. exact div_sll_min_undefined. Qed.
Print Assumptions C37_div_minimum_refuted.

(** C37: x + n and x - n with unsigned n: within two units of the 17th digit
    after digits10, and exact on integers that fit. *)
Theorem C37_unsigned_sums_partial :
  forall d x n, valid_digits d -> finite d x -> (0 <= n < 18446744073709551616)%Z ->
  Rabs (value x) <= powerRZ 10 2147483590 ->
  finite d (add_ull d x n) /\ finite d (sub_ull d x n) /\
  Rabs (value (add_ull d x n) - (value x + IZR n)) <= 2 * powerRZ 10 (- (d + 17)) * Rmax (Rabs (value x)) (IZR n) /\
  Rabs (value (sub_ull d x n) - (value x - IZR n)) <= 2 * powerRZ 10 (- (d + 17)) * Rmax (Rabs (value x)) (IZR n).
Proof. exact ull_sums. Qed.
Print Assumptions C37_unsigned_sums_partial.

Theorem C37_unsigned_sums_exact :
  forall d x n a, valid_digits d -> finite d x -> (0 <= n < 18446744073709551616)%Z -> value x = IZR a ->
  (Z.abs a + n < 10 ^ (8 * (elem_number d - 1)))%Z ->
  value (add_ull d x n) = IZR (a + n) /\ value (sub_ull d x n) = IZR (a - n).
Proof. exact ull_sums_exact. Qed.
Print Assumptions C37_unsigned_sums_exact.

Example C37_unsigned_hypotheses_met :
  finite 30 (of_sll 30 (-5)) /\ value (of_sll 30 (-5)) = IZR (-5) /\
  (Z.abs (-5) + 18446744073709551615 < 10 ^ (8 * (elem_number 30 - 1)))%Z /\
  op_eq (sub_ull 30 (of_sll 30 (-5)) 7) (of_sll 30 (-12)) = true.
Proof.
  split; [apply wfb_finite; vm_compute; reflexivity|]. split; [apply (of_sll_spec 30 (-5) valid_30); lia|].
  split; vm_compute; reflexivity.
Qed.
