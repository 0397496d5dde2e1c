(** * Properties C08 - C13, C47: multiplication. *)

From Coq Require Import ZArith List Bool Lia Reals Lra.
From Verif Require Import Model Spec Limbs Value CmpProofs AddProofs Decide OrderProofs MulProofs FftProofs MulValue MulExtra MulCor IntProofs IntConv MixedProofs IntCor.
Import ListNotations.
Open Scope R_scope.

(** C08, multiplication: the product does not depend on the order, bit for
    bit, special values included. *)
Theorem C08_multiplication_commutes :
  forall d u v, valid_digits d -> wf d u -> wf d v -> full d u -> full d v -> mul d u v = mul d v u.
Proof. exact mul_comm. Qed.
Print Assumptions C08_multiplication_commutes.

Example C08_mul_hypotheses_met :
  wf 30 (of_sll 30 (-123456789012)) /\ wf 30 (value_max 30) /\ prec (value_max 30) = elem_number 30.
Proof. meets. Qed.

(** C08: squaring an object in place is the product of two copies. *)
Theorem C08_square_is_product :
  forall d x, mul_self d x = mul d x x.
Proof. exact mul_self_eq. Qed.
Print Assumptions C08_square_is_product.

(** C09: the product of two numbers is cut towards zero with relative error at
    most 10^-(digits10+6), up to 4967 digits. *)
Theorem C09_multiplication_accuracy :
  forall d u v, valid_digits d -> (d <= 4967)%Z -> finite d u -> finite d v -> full d u -> full d v ->
  value u <> 0 -> value v <> 0 -> (-2147483616 < exp u + exp v < 2147483616)%Z ->
  finite d (mul d u v) /\ full d (mul d u v) /\ 0 < value (mul d u v) * (value u * value v) /\
  Rabs (value (mul d u v)) <= Rabs (value u * value v) /\
  Rabs (value u * value v) - Rabs (value (mul d u v)) <= powerRZ 10 (- (d + 6)) * Rabs (value u * value v).
Proof. exact mul_accuracy. Qed.
Print Assumptions C09_multiplication_accuracy.

(** C09: at any number of digits (FFT multiplication keeps fewer guard digits). *)
Theorem C09_multiplication_accuracy_any_precision :
  forall d u v, valid_digits d -> finite d u -> finite d v -> full d u -> full d v ->
  value u <> 0 -> value v <> 0 -> (-2147483616 < exp u + exp v < 2147483616)%Z ->
  finite d (mul d u v) /\ full d (mul d u v) /\ 0 < value (mul d u v) * (value u * value v) /\
  Rabs (value (mul d u v)) <= Rabs (value u * value v) /\
  Rabs (value u * value v) - Rabs (value (mul d u v)) <=
    IZR (2500 * (d + 32)) * powerRZ 10 (- (d + 9)) * Rabs (value u * value v).
Proof. exact mul_accuracy_large. Qed.
Print Assumptions C09_multiplication_accuracy_any_precision.

Example C09_hypotheses_met :
  finite 30 (of_sll 30 (-123456789012)) /\ finite 30 (half 30) /\
  prec (of_sll 30 (-123456789012)) = elem_number 30 /\ prec (half 30) = elem_number 30 /\
  value (half 30) <> 0 /\ value (of_sll 30 (-123456789012)) <> 0 /\
  (-2147483616 <? exp (of_sll 30 (-123456789012)) + exp (half 30))%Z = true.
Proof. meets. Qed.

(** C10: products of numbers with [a] and [b] significant limbs are exact when
    a + b limbs are available. *)
Theorem C10_multiplication_exact :
  forall d u v k1 i1 a k2 i2 b, valid_digits d -> finite d u -> finite d v -> full d u -> full d v ->
  (-2147483616 < exp u + exp v < 2147483616)%Z ->
  value u = IZR k1 * powerRZ 10 (8 * i1) -> (Z.abs k1 < 10 ^ (8 * a))%Z ->
  value v = IZR k2 * powerRZ 10 (8 * i2) -> (Z.abs k2 < 10 ^ (8 * b))%Z ->
  (0 <= a)%Z -> (0 <= b)%Z -> (a + b <= elem_number d)%Z ->
  value (mul d u v) = value u * value v.
Proof. exact mul_exact'. Qed.
Print Assumptions C10_multiplication_exact.

Example C10_hypotheses_met :
  value (of_ull 30 123456789012345678) = IZR 123456789012345678 * powerRZ 10 (8 * 0) /\
  (Z.abs 123456789012345678 < 10 ^ (8 * 3))%Z /\ (3 + 3 <= elem_number 30)%Z.
Proof.
  split; [|split; vm_compute; congruence].
  destruct (of_ull_spec 30 123456789012345678 valid_30 ltac:(lia)) as (_ & _ & V & _).
  rewrite V. replace (8 * 0)%Z with 0%Z by reflexivity. rewrite p10_0. ring.
Qed.

(** C11: special operands. *)
Theorem C11_special_values :
  forall d u v, valid_digits d -> wf d u -> wf d v ->
  (is_nan u \/ is_nan v -> is_nan (mul d u v)) /\
  (forall b, is_inf u b -> finite d v -> value v = 0 -> is_nan (mul d u v)) /\
  (forall b, is_inf v b -> finite d u -> value u = 0 -> is_nan (mul d u v)) /\
  (forall b, is_inf u b -> finite d v -> value v <> 0 -> is_inf (mul d u v) (xorb b (neg v))) /\
  (forall b, is_inf v b -> finite d u -> value u <> 0 -> is_inf (mul d u v) (xorb (neg u) b)) /\
  (forall b c, is_inf u b -> is_inf v c -> is_inf (mul d u v) (xorb b c)) /\
  (finite d u -> finite d v -> value u = 0 \/ value v = 0 -> finite d (mul d u v) /\ value (mul d u v) = 0).
Proof. exact mul_special. Qed.
Print Assumptions C11_special_values.

(** C11: exponents out of range, and only those, give infinity or zero. *)
Theorem C11_out_of_range :
  forall d u v, valid_digits d -> finite d u -> finite d v -> value u <> 0 -> value v <> 0 ->
  (exponents_overflow u v -> is_inf (mul d u v) (xorb (neg u) (neg v))) /\
  (exponents_underflow u v -> finite d (mul d u v) /\ value (mul d u v) = 0) /\
  (~ exponents_overflow u v -> ~ exponents_underflow u v -> finite d (mul d u v) /\ value (mul d u v) <> 0).
Proof. exact mul_out_of_range. Qed.
Print Assumptions C11_out_of_range.

Example C11_hypotheses_met :
  finite 30 (value_max 30) /\ value (value_max 30) <> 0 /\ exponents_overflow (value_max 30) (value_max 30).
Proof.
  split; [meets|]. split; [meets|]. unfold exponents_overflow.
  replace (exp (value_max 30)) with 2147483616%Z by (vm_compute; reflexivity). lia.
Qed.

(** C11: the exponent test is coarser than a comparison with max(): max()*1 is
    infinite, and a finite product can exceed max(). *)
Theorem C11_max_limit_refuted :
  is_inf (mul 30 (value_max 30) (one 30)) false /\
  finite 30 (mul 30 big_u big_v) /\ finite 30 big_u /\ finite 30 big_v /\
  value big_u < max_value 30 /\ value big_v < max_value 30 /\
  max_value 30 < value (mul 30 big_u big_v).
Proof. exact max_limit_refuted. Qed.
Print Assumptions C11_max_limit_refuted.

(** C12: the 64-bit column sums of the schoolbook loop never wrap around: the
    loop computes what the same loop computes with unbounded integers. *)
Theorem C12_machine_arithmetic_exact :
  forall d u v, valid_digits d -> wf d u -> wf d v ->
  let p := Z.to_nat (Z.min (prec u) (prec v)) in
  (Z.min (prec u) (prec v) * 8 < 5000)%Z ->
  mul_loop_uv p (data u) (data v) 0 = exact_school p (data u) (data v) 0.
Proof. exact mul_machine_arithmetic. Qed.
Print Assumptions C12_machine_arithmetic_exact.

Example C12_hypotheses_met :
  wf 100 (value_max 100) /\ (Z.min (prec (value_max 100)) (prec (value_max 100)) * 8 <? 5000)%Z = true /\
  (10 ^ 60 <? column (data (all_nines 100)) (data (all_nines 100)) 12)%Z = false.
Proof. meets. Qed.

(** C47: carry release of the FFT multiplication: the limbs are proper and the
    stored digits are the product cut off with an error of less than
    20000*N units of the last limb. *)
Theorem C47_fft_product :
  forall d u v, valid_digits d -> wf d u -> wf d v -> full d u -> full d v ->
  let r := mul_loop_fft (data u) (data v) (Nn d) in
  length r = length (data u) /\ Forall is_limb r /\
  (0 <= digits_to_Z (data u) * digits_to_Z (data v) - digits_to_Z r * 10 ^ (8 * elem_number d)
     < 20000 * elem_number d * 10 ^ (8 * elem_number d))%Z.
Proof. exact fft_product. Qed.
Print Assumptions C47_fft_product.

Example C47_hypotheses_met :
  wf 5000 (of_ull 5000 123456789012345678) /\ prec (of_ull 5000 123456789012345678) = elem_number 5000.
Proof. meets. Qed.

(** C13: x * n for n below 10^8 is the exact product cut off at the last limb. *)
Theorem C13_mul_unsigned_truncated :
  forall d x n, valid_digits d -> finite d x -> full d x -> value x <> 0 -> (0 < n < 100000000)%Z ->
  let r := mul_ull d x n in
  finite d r /\ full d r /\ cut_to (ulp d (exp r)) (value x * IZR n) (value r).
Proof. exact mul_ull_small_spec. Qed.
Print Assumptions C13_mul_unsigned_truncated.

(** C13: larger n. *)
Theorem C13_mul_unsigned_large :
  forall d x n, valid_digits d -> (d <= 4967)%Z -> finite d x -> full d x -> value x <> 0 ->
  (100000000 <= n < 18446744073709551616)%Z -> (-2147483616 < exp x < 2147483600)%Z ->
  let r := mul_ull d x n in
  finite d r /\ full d r /\ 0 < value r * (value x * IZR n) /\ Rabs (value r) <= Rabs (value x * IZR n) /\
  Rabs (value x * IZR n) - Rabs (value r) <= powerRZ 10 (- (d + 6)) * Rabs (value x * IZR n).
Proof. exact mul_ull_large_spec. Qed.
Print Assumptions C13_mul_unsigned_large.

(** C13: special operands. *)
Theorem C13_mul_unsigned_special :
  forall d x n, valid_digits d -> wf d x -> (0 <= n < 18446744073709551616)%Z ->
  (is_nan x -> is_nan (mul_ull d x n)) /\
  (forall b, is_inf x b -> n = 0%Z -> is_nan (mul_ull d x n)) /\
  (forall b, is_inf x b -> n <> 0%Z -> is_inf (mul_ull d x n) b) /\
  (cls x = Finite -> value x = 0 \/ n = 0%Z -> cls (mul_ull d x n) = Finite /\ value (mul_ull d x n) = 0).
Proof. exact mul_ull_special. Qed.
Print Assumptions C13_mul_unsigned_special.

Example C13_hypotheses_met :
  finite 30 (half 30) /\ value (half 30) <> 0 /\ prec (half 30) = elem_number 30 /\ (0 < 77 < 100000000)%Z.
Proof. split; [meets|split; [meets|split; [meets|lia]]]. Qed.

(** C13: no overflow check: max()*2u is a finite number above max(). *)
Theorem C13_overflow_refuted :
  finite 30 (value_max 30) /\ finite 30 (mul_ull 30 (value_max 30) 2) /\
  max_value 30 < value (mul_ull 30 (value_max 30) 2).
Proof. exact mul_ull_overflow_refuted. Qed.
Print Assumptions C13_overflow_refuted.
