(** * Properties C15 - C20, C36, C37: built-in integers and integer parts. *)

From Coq Require Import ZArith List Bool Lia Reals Lra.
From Verif Require Import Model Spec Limbs Value CmpProofs AddProofs Decide OrderProofs AddExtra MulProofs MulValue MulExtra MulCor IntProofs IntPartProofs IntConv MixedProofs IntCor.
Import ListNotations.
Open Scope R_scope.

(** C15: construction from any 64-bit integer is exact. *)
Theorem C15_unsigned_construction_exact :
  forall d n, valid_digits d -> (0 <= n < 18446744073709551616)%Z ->
  finite d (of_ull d n) /\ full d (of_ull d n) /\ value (of_ull d n) = IZR n /\ neg (of_ull d n) = false /\
  (0 <= exp (of_ull d n) <= 16)%Z.
Proof. exact of_ull_spec. Qed.
Print Assumptions C15_unsigned_construction_exact.

Theorem C15_signed_construction_exact :
  forall d n, valid_digits d -> (-9223372036854775808 <= n < 9223372036854775808)%Z ->
  finite d (of_sll d n) /\ full d (of_sll d n) /\ value (of_sll d n) = IZR n /\ neg (of_sll d n) = (n <? 0)%Z /\
  (0 <= exp (of_sll d n) <= 16)%Z.
Proof. exact of_sll_spec. Qed.
Print Assumptions C15_signed_construction_exact.

Example C15_hypotheses_met :
  valid_digits 30 /\ (-9223372036854775808 <= -9223372036854775808 < 9223372036854775808)%Z /\
  data (of_sll 30 (-9223372036854775808)) = [922; 33720368; 54775808; 0; 0; 0; 0]%Z.
Proof. split; [meets|]. split; [lia|]. vm_compute. reflexivity. Qed.

(** C16: conversion to a signed integer truncates and saturates, except for
    the single value -2^63. *)
Theorem C16_to_signed_partial :
  forall d x, valid_digits d -> finite d x ->
  (value x <> -9223372036854775808 ->
     extract_sll d x = Defined (clamp (-9223372036854775808) 9223372036854775807 (Ztrunc (value x)))) /\
  (value x = -9223372036854775808 -> extract_sll d x = Undefined).
Proof. exact extract_sll_spec. Qed.
Print Assumptions C16_to_signed_partial.

(** C16: conversion of a non-negative number to an unsigned integer. *)
Theorem C16_to_unsigned_partial :
  forall d x, valid_digits d -> finite d x -> 0 <= value x ->
  extract_ull d x = Defined (clamp 0 18446744073709551615 (Ztrunc (value x))).
Proof. exact extract_ull_spec. Qed.
Print Assumptions C16_to_unsigned_partial.

(** C16: infinities saturate. *)
Theorem C16_infinities_saturate :
  forall d x, valid_digits d -> wf d x ->
  (is_inf x false -> extract_sll d x = Defined 9223372036854775807%Z /\ extract_ull d x = Defined 18446744073709551615%Z) /\
  (is_inf x true -> extract_sll d x = Defined (-9223372036854775808)%Z).
Proof. exact extract_special. Qed.
Print Assumptions C16_infinities_saturate.

Example C16_hypotheses_met :
  finite 30 (value_max 30) /\ finite 30 (negate (half 30)) /\ value (value_max 30) <> 0 /\
  wf 30 (signed_inf 30 true) /\ is_inf (signed_inf 30 true) true.
Proof. meets. Qed.

(** C16: what fails: -2^63 is undefined behaviour, and a negative number does
    not saturate at 0 in the unsigned conversion. *)
Theorem C16_conversion_refuted :
  (forall d, valid_digits d -> extract_sll d (of_sll d (-9223372036854775808)) = Undefined) /\
  extract_ull 30 (of_sll 30 (-1)) = Defined 18446744073709551615%Z /\
  extract_ull 30 (of_sll 30 (-9223372036854775808)) = Undefined.
Proof. exact conversion_refuted. Qed.
Print Assumptions C16_conversion_refuted.

(** C16: negative numbers wrap around like the signed conversion result. *)
Theorem C16_negative_to_unsigned :
  forall d x, valid_digits d -> finite d x -> value x < 0 ->
  extract_ull d x =
    match extract_sll d x with Defined n => Defined (n mod 18446744073709551616)%Z | Undefined => Undefined end.
Proof. exact extract_ull_neg. Qed.
Print Assumptions C16_negative_to_unsigned.

(** C17: integer round trips; all but INT64_MIN. *)
Theorem C17_signed_round_trip_partial :
  forall d n, valid_digits d -> (-9223372036854775808 < n < 9223372036854775808)%Z ->
  extract_sll d (of_sll d n) = Defined n.
Proof. exact sll_round_trip. Qed.
Print Assumptions C17_signed_round_trip_partial.

Theorem C17_unsigned_round_trip :
  forall d n, valid_digits d -> (0 <= n < 18446744073709551616)%Z -> extract_ull d (of_ull d n) = Defined n.
Proof. exact ull_round_trip. Qed.
Print Assumptions C17_unsigned_round_trip.

Theorem C17_minimum_round_trip_refuted :
  forall d, valid_digits d -> extract_sll d (of_sll d (-9223372036854775808)) = Undefined.
Proof. exact sll_round_trip_min. Qed.
Print Assumptions C17_minimum_round_trip_refuted.

Example C17_hypotheses_met :
  valid_digits 100 /\ extract_sll 100 (of_sll 100 (-1234567890123)) = Defined (-1234567890123)%Z.
Proof. meets. Qed.

(** C18: isint decides integrality of every finite number. *)
Theorem C18_isint_decides :
  forall d x, valid_digits d -> finite d x -> (isint d x = true <-> exists k, value x = IZR k).
Proof. exact isint_spec. Qed.
Print Assumptions C18_isint_decides.

Theorem C18_isint_nonfinite : forall d x, cls x <> Finite -> isint d x = false.
Proof. exact isint_nonfinite. Qed.
Print Assumptions C18_isint_nonfinite.

Example C18_hypotheses_met :
  finite 30 (half 30) /\ isint 30 (half 30) = false /\ finite 30 (value_max 30) /\ isint 30 (value_max 30) = true.
Proof. meets. Qed.

(** C19: integer and decimal part of numbers below 10^(digits10-1), and of
    integers of any size. *)
Theorem C19_integer_part_partial :
  forall d x, valid_digits d -> finite d x -> Rabs (value x) < powerRZ 10 (d - 1) ->
  finite d (integer_part d x) /\ value (integer_part d x) = IZR (Ztrunc (value x)).
Proof. exact integer_part_value. Qed.
Print Assumptions C19_integer_part_partial.

Theorem C19_decimal_part_partial :
  forall d x, valid_digits d -> finite d x -> Rabs (value x) < powerRZ 10 (d - 1) ->
  value (decimal_part d x) = value x - IZR (Ztrunc (value x)).
Proof. exact decimal_part_value. Qed.
Print Assumptions C19_decimal_part_partial.

Theorem C19_parts_of_integers :
  forall d x k, valid_digits d -> finite d x -> value x = IZR k ->
  value (integer_part d x) = IZR k /\ value (decimal_part d x) = 0.
Proof. exact parts_of_integers. Qed.
Print Assumptions C19_parts_of_integers.

Example C19_hypotheses_met :
  finite 30 (negate (half 30)) /\ Rabs (value (negate (half 30))) < powerRZ 10 (30 - 1).
Proof.
  split; [meets|]. rewrite (value_abs_mv 30).
  - replace (mv (data (negate (half 30)))) with (50000000 * 10 ^ 48)%Z by (vm_compute; reflexivity).
    replace (exp (negate (half 30))) with (-8)%Z by (vm_compute; reflexivity). unfold ulp.
    replace (-8 - 8 * (elem_number 30 - 1))%Z with (-(56))%Z by reflexivity.
    rewrite p10_inv. apply Rmult_lt_reg_r with (p10 56); [apply p10_pos|].
    rewrite Rmult_assoc, Rinv_l, Rmult_1_r by apply p10_neq0. rewrite <- p10_add, p10_nonneg by lia. apply IZR_lt. reflexivity.
  - vm_compute; reflexivity.
  - apply (wf_limbs 30), wfb_wf. vm_compute. reflexivity.
Qed.

(** C19: what fails: 10^32 + 0.5 at 30 digits keeps its fraction in the integer
    part, and its decimal part is 0. *)
Theorem C19_parts_refuted :
  finite 30 big_half /\ value big_half = powerRZ 10 32 + /2 /\ isint 30 big_half = false /\
  integer_part 30 big_half = big_half /\ value (decimal_part 30 big_half) = 0 /\
  floor 30 big_half = big_half.
Proof. exact big_half_parts. Qed.
Print Assumptions C19_parts_refuted.

(** C20: floor and ceil. *)
Theorem C20_floor_partial :
  forall d x, valid_digits d -> finite d x -> Rabs (value x) < powerRZ 10 (d - 1) - 1 ->
  finite d (floor d x) /\ is_floor (value x) (value (floor d x)).
Proof. exact floor_spec. Qed.
Print Assumptions C20_floor_partial.

Theorem C20_ceil_partial :
  forall d x, valid_digits d -> finite d x -> Rabs (value x) < powerRZ 10 (d - 1) - 1 ->
  finite d (ceil d x) /\ is_ceil (value x) (value (ceil d x)).
Proof. exact ceil_spec. Qed.
Print Assumptions C20_ceil_partial.

Theorem C20_floor_ceil_of_integers :
  forall d x k, valid_digits d -> finite d x -> value x = IZR k -> floor d x = x /\ ceil d x = x.
Proof. exact floor_ceil_int. Qed.
Print Assumptions C20_floor_ceil_of_integers.

Theorem C20_floor_ceil_nonfinite :
  forall d x, cls x <> Finite -> floor d x = x /\ ceil d x = x.
Proof. exact floor_ceil_nonfinite. Qed.
Print Assumptions C20_floor_ceil_nonfinite.

Example C20_hypotheses_met :
  finite 30 (negate (half 30)) /\ op_eq (floor 30 (negate (half 30))) (of_sll 30 (-1)) = true /\
  op_eq (ceil 30 (half 30)) (one 30) = true.
Proof. meets. Qed.

(** C20: floor of 10^32 + 0.5 at 30 digits is not an integer. *)
Theorem C20_floor_refuted :
  finite 30 big_half /\ floor 30 big_half = big_half /\ ~ exists k, value big_half = IZR k.
Proof. exact floor_refuted. Qed.
Print Assumptions C20_floor_refuted.

(** C36: swap exchanges, ++ and -- are exact on integers that fit, and round
    like an addition of one otherwise. *)
Theorem C36_swap : forall x y, swap x y = (y, x).
Proof. exact (fun x y => eq_refl). Qed.
Print Assumptions C36_swap.

Theorem C36_increment_integers :
  forall d x k, valid_digits d -> finite d x -> value x = IZR k ->
  (Z.abs k < 10 ^ (8 * (elem_number d - 1)) - 1)%Z ->
  value (pre_inc d x) = IZR (k + 1) /\ value (pre_dec d x) = IZR (k - 1) /\
  post_inc d x = (x, pre_inc d x) /\ post_dec d x = (x, pre_dec d x).
Proof. exact inc_dec_int. Qed.
Print Assumptions C36_increment_integers.

Theorem C36_increment_rounding :
  forall d x, valid_digits d -> finite d x -> cls (pre_inc d x) = Finite ->
  exists w, finite d w /\ value w = 1 /\ finite d (pre_inc d x) /\ sum_rounded d x w (pre_inc d x).
Proof. exact inc_rounding. Qed.
Print Assumptions C36_increment_rounding.

Example C36_hypotheses_met :
  finite 30 (of_sll 30 (-5)) /\ cls (pre_inc 30 (half 30)) = Finite /\ op_eq (pre_inc 30 (of_sll 30 (-5))) (of_sll 30 (-4)) = true.
Proof. meets. Qed.

(** C37: integer arithmetic with e_float is exact as long as it fits. *)
Theorem C37_integer_sums_exact :
  forall d u v a b, valid_digits d -> finite d u -> finite d v -> value u = IZR a -> value v = IZR b ->
  (Z.abs a + Z.abs b < 10 ^ (8 * (elem_number d - 1)))%Z ->
  finite d (add d u v) /\ value (add d u v) = IZR (a + b) /\ finite d (sub d u v) /\ value (sub d u v) = IZR (a - b).
Proof. exact add_int_exact. Qed.
Print Assumptions C37_integer_sums_exact.

(** C37: x + n and x - n with built-in n. *)
Theorem C37_add_builtin_partial :
  forall d x n, valid_digits d -> finite d x -> (-9223372036854775808 < n < 9223372036854775808)%Z ->
  add_sll d x n = Defined (add d x (of_sll d n)).
Proof. exact add_sll_spec. Qed.
Print Assumptions C37_add_builtin_partial.

Theorem C37_sub_builtin_partial :
  forall d x n, valid_digits d -> finite d x -> (-9223372036854775808 < n < 9223372036854775808)%Z ->
  sub_sll d x n = Defined (sub d x (of_sll d n)).
Proof. exact sub_sll_spec. Qed.
Print Assumptions C37_sub_builtin_partial.

(** C37: x * n with unsigned n: the same object as x * e_float(n). *)
Theorem C37_mul_unsigned_partial :
  forall d x n, valid_digits d -> (elem_number d * 8 < 5000)%Z -> finite d x -> full d x ->
  (0 <= n < 18446744073709551616)%Z -> (exp x < 2147483616)%Z ->
  mul_ull d x n = mul d x (of_ull d n).
Proof. exact mul_ull_is_mul. Qed.
Print Assumptions C37_mul_unsigned_partial.

(** C37: x * n with signed n. *)
Theorem C37_mul_builtin_partial :
  forall d x n, valid_digits d -> (elem_number d * 8 < 5000)%Z -> finite d x -> full d x ->
  (-9223372036854775808 < n < 9223372036854775808)%Z -> (exp x < 2147483616)%Z ->
  cls (mul d x (of_sll d n)) = Finite ->
  (Rabs (value (mul d x (of_sll d n))) <= max_value d -> mul_sll d x n = Defined (mul d x (of_sll d n))) /\
  (max_value d < Rabs (value (mul d x (of_sll d n))) ->
     exists y, mul_sll d x n = Defined y /\ is_inf y (neg (mul d x (of_sll d n)))).
Proof. exact mul_sll_spec. Qed.
Print Assumptions C37_mul_builtin_partial.

Example C37_hypotheses_met :
  finite 30 (negate (half 30)) /\ prec (negate (half 30)) = elem_number 30 /\
  (elem_number 30 * 8 <? 5000)%Z = true /\ cls (mul 30 (half 30) (of_sll 30 (-7))) = Finite /\
  (exp (half 30) <? 2147483616)%Z = true.
Proof. meets. Qed.

(** C37: what fails: the most negative integer is undefined behaviour, NaN
    times an integer is infinite, and max()*1 differs from max()*e_float(1). *)
Theorem C37_mixed_refuted :
  add_sll 30 (one 30) (-9223372036854775808) = Undefined /\
  sub_sll 30 (one 30) (-9223372036854775808) = Undefined /\
  mul_sll 30 (one 30) (-9223372036854775808) = Undefined /\
  mul_sll 30 (value_nan 30) 2 = Defined (signed_inf 30 false) /\
  mul_ull 30 (value_max 30) 1 = value_max 30 /\ mul 30 (value_max 30) (of_ull 30 1) = signed_inf 30 false.
Proof. exact mixed_refuted. Qed.
Print Assumptions C37_mixed_refuted.
