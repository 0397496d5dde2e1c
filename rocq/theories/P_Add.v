(** * Properties C04 - C08: addition and subtraction. *)

From Coq Require Import ZArith List Bool Lia Reals Lra.
From Verif Require Import Model Spec Limbs Value CmpProofs AddProofs Decide OrderProofs AddExtra.
Import ListNotations.
Open Scope R_scope.

(** C04: a finite sum is the exactly rounded one described by [sum_rounded]. *)
Theorem C04_addition_rounding :
  forall d u v, valid_digits d -> finite d u -> finite d v -> cls (add d u v) = Finite ->
  finite d (add d u v) /\ sum_rounded d u v (add d u v).
Proof. exact add_rounding. Qed.
Print Assumptions C04_addition_rounding.

(** C04: error bound relative to the larger operand. *)
Theorem C04_addition_error :
  forall d u v, valid_digits d -> finite d u -> finite d v -> cls (add d u v) = Finite ->
  Rabs (value (add d u v) - (value u + value v)) <=
  2 * powerRZ 10 (- (d + 17)) * Rmax (Rabs (value u)) (Rabs (value v)).
Proof. exact add_error. Qed.
Print Assumptions C04_addition_error.

(** C04: exact when the sum is a whole number of units in the last limb. *)
Theorem C04_addition_exact :
  forall d u v k, valid_digits d -> finite d u -> finite d v -> cls (add d u v) = Finite ->
  value u + value v = IZR k * ulp d (Z.max (exp (add d u v)) (Z.max (exp u) (exp v))) ->
  value (add d u v) = value u + value v.
Proof. exact add_exact. Qed.
Print Assumptions C04_addition_exact.

Example C04_hypotheses_met :
  finite 30 (of_sll 30 (-123456789012)) /\ finite 30 (half 30) /\
  cls (add 30 (of_sll 30 (-123456789012)) (half 30)) = Finite.
Proof. meets. Qed.

Example C04_exact_hypotheses_met :
  value (one 30) + value (one 30) = IZR (2 * 10 ^ 48) * ulp 30 (Z.max (exp (add 30 (one 30) (one 30))) (Z.max (exp (one 30)) (exp (one 30)))).
Proof. exact add_exact_example. Qed.

(** C05: with operands in range the sum is infinite exactly when the rounded
    sum exceeds max(), with its sign. *)
Theorem C05_addition_overflow :
  forall d u v, valid_digits d -> finite d u -> finite d v ->
  Rabs (value u) <= max_value d -> Rabs (value v) <= max_value d ->
  exists r, finite d r /\ sum_rounded d u v r /\
  (Rabs (value r) <= max_value d -> add d u v = r) /\
  (max_value d < Rabs (value r) -> cls (add d u v) = Inf /\ neg (add d u v) = neg r).
Proof. exact add_overflow. Qed.
Print Assumptions C05_addition_overflow.

Example C05_hypotheses_met :
  finite 30 (value_max 30) /\ Rabs (value (value_max 30)) <= max_value 30 /\
  cls (add 30 (value_max 30) (value_max 30)) = Inf.
Proof. meets. Qed.

(** C05: addition of finite numbers never yields NaN, and is well formed. *)
Theorem C05_sum_never_nan :
  forall d u v, valid_digits d -> finite d u -> finite d v ->
  wf d (add d u v) /\ ~ is_nan (add d u v).
Proof. exact add_not_nan. Qed.
Print Assumptions C05_sum_never_nan.

(** C06: what holds: a special left operand, or a zero left operand. *)
Theorem C06_nonfinite_addition_partial :
  forall d u v, valid_digits d -> wf d u -> wf d v ->
  (is_nan u -> is_nan (add d u v)) /\
  (forall b, is_inf u b -> cls v = Finite -> is_inf (add d u v) b) /\
  (forall b, is_inf u b -> is_inf v b -> is_inf (add d u v) b) /\
  (forall b, is_inf u b -> is_inf v (negb b) -> is_nan (add d u v)) /\
  (cls u = Finite -> value u = 0 -> add d u v = v).
Proof. exact add_nonfinite. Qed.
Print Assumptions C06_nonfinite_addition_partial.

Example C06_hypotheses_met :
  wf 30 (signed_inf 30 true) /\ is_inf (signed_inf 30 true) true /\ wf 30 (one 30) /\ cls (one 30) = Finite.
Proof. meets. Qed.

(** C06: what fails: a non-finite right operand is swallowed. *)
Theorem C06_nonfinite_addition_refuted :
  wf 30 (signed_inf 30 true) /\ wf 30 (signed_inf 30 false) /\ wf 30 (value_nan 30) /\
  (* 1 + NaN = 1, 1 + inf = 1 *)
  add 30 (one 30) (value_nan 30) = one 30 /\
  add 30 (one 30) (signed_inf 30 false) = one 30 /\
  (* inf + NaN = inf *)
  add 30 (signed_inf 30 false) (value_nan 30) = signed_inf 30 false /\
  (* 0.5 + inf = 0, 0.5 + (-inf) = -(10^8 - 0.5) *)
  add 30 (half 30) (signed_inf 30 false) = zero 30 /\
  cls (add 30 (half 30) (signed_inf 30 true)) = Finite /\
  value (add 30 (half 30) (signed_inf 30 true)) = - (100000000 - / 2).
Proof. exact add_nonfinite_refuted. Qed.
Print Assumptions C06_nonfinite_addition_refuted.

(** C07: subtraction of two objects rounds like the sum with the negated
    operand; overflow as in C05; x - y = 0 for equal numbers. *)
Theorem C07_subtraction_partial :
  forall d u v, valid_digits d -> finite d u -> finite d v ->
  wf d (sub d u v) /\
  (exists r, finite d r /\ sum_rounded d u (negate v) r /\
    ((sub d u v = r /\ (Rabs (value r) <= max_value d \/ r = u \/ r = negate v)) \/
     (max_value d < Rabs (value r) /\ is_inf (sub d u v) (neg r)))) /\
  (value u = value v -> cls (sub d u v) = Finite /\ value (sub d u v) = 0).
Proof. exact sub_all. Qed.
Print Assumptions C07_subtraction_partial.

Example C07_hypotheses_met :
  finite 30 (of_sll 30 (-123456789012)) /\ value (of_sll 30 (-123456789012)) = value (of_sll 30 (-123456789012)).
Proof. meets. Qed.

(** C07: x -= x doubles x instead of giving zero, for every non-zero x. *)
Theorem C07_self_subtraction_refuted :
  exists x, finite 30 x /\ value x = 1 /\ value (sub_self 30 x) = 2.
Proof. exact sub_self_refuted. Qed.
Print Assumptions C07_self_subtraction_refuted.

(** ... and it does so for all non-zero x. *)
Theorem C07_self_subtraction_never_zero :
  forall d x, valid_digits d -> finite d x -> value x <> 0 ->
  cls (sub_self d x) = Finite -> sum_rounded d x x (sub_self d x).
Proof. exact sub_self_doubles. Qed.
Print Assumptions C07_self_subtraction_never_zero.

(** C08, addition: operand order does not matter. *)
Theorem C08_addition_commutes :
  forall d u v, valid_digits d -> finite d u -> finite d v -> prec u = prec v ->
  cls (add d u v) = cls (add d v u) /\ neg (add d u v) = neg (add d v u) /\
  value (add d u v) = value (add d v u).
Proof. exact add_comm_value. Qed.
Print Assumptions C08_addition_commutes.

Theorem C08_addition_commutes_bitwise :
  forall d u v, valid_digits d -> finite d u -> finite d v -> value u <> 0 -> value v <> 0 ->
  prec u = prec v -> add d u v = add d v u.
Proof. exact add_comm_bits. Qed.
Print Assumptions C08_addition_commutes_bitwise.

Example C08_hypotheses_met :
  finite 30 (of_sll 30 (-123456789012)) /\ finite 30 (half 30) /\
  prec (of_sll 30 (-123456789012)) = prec (half 30) /\ value (half 30) <> 0.
Proof. meets. Qed.
