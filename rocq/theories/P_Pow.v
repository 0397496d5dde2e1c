(** * Properties C34, C41, C52, C53: integer powers, ldexp, frexp, sgn, fmod. *)

From Coq Require Import ZArith List Bool Lia Reals Lra.
From Verif Require Import Model Spec Limbs Value CmpProofs AddProofs Decide OrderProofs MulValue MulCor IntProofs ModelDiv
  InvProofs ModelPow PowGen PowProofs PowExtra LdexpProofs FmodProofs.
Import ListNotations.
Open Scope R_scope.
Local Notation exp := Model.exp.

(** C34: both algorithms, over every type of numbers with an associative product
    and a unit: [b] multiplied [p] times, for every 64-bit exponent but the most
    negative one. *)
Theorem C34_any_monoid :
  forall (T : Type) (one : T) (mul : T -> T -> T) (sq : T -> T) (div : T -> T -> T) (b : T),
  (forall x, mul one x = x) -> (forall x, mul x one = x) ->
  (forall x y z, mul (mul x y) z = mul x (mul y z)) -> (forall x, sq x = mul x x) ->
  let power n := Nat.iter n (mul b) one in
  (forall p, (0 <= p < 9223372036854775808)%Z ->
     pow_gen one one mul sq div b p = Defined (power (Z.to_nat p)) /\
     pown_gen one one mul sq div b p = Defined (power (Z.to_nat p))) /\
  (forall p, (-9223372036854775808 < p < 0)%Z ->
     pow_gen one one mul sq div b p = Defined (div one (power (Z.to_nat (- p)))) /\
     pown_gen one one mul sq div b p = Defined (div one (power (Z.to_nat (- p))))).
Proof. exact pow_gen_monoid. Qed.
Print Assumptions C34_any_monoid.

Example C34_monoid_hypotheses_met :
  (forall x, 1 * x = x)%Z /\ (forall x, x * 1 = x)%Z /\ (forall x y z, (x * y) * z = x * (y * z))%Z /\
  pow_gen 1%Z 1%Z Z.mul (fun x => x * x)%Z Z.div 3%Z 21 = Defined (3 ^ 21)%Z /\
  pown_gen 1%Z 1%Z Z.mul (fun x => x * x)%Z Z.div (-3)%Z 22 = Defined (3 ^ 22)%Z.
Proof. split; [|split; [|split; [|split]]]; try (intros; ring); vm_compute; reflexivity. Qed.

(** C34: positive exponents, e_float.  Between 10^-2147483599 and 10^2147483616
    the relative error is at most n times that of one product, and the result
    is not larger than the power; above 10^2147483625 the result is infinite,
    below 10^-2147483608 it is zero. *)
Theorem C34_power :
  forall d b n, valid_digits d -> finite d b -> full d b -> value b <> 0 -> (-2147483616 < exp b <= 2147483616)%Z ->
  (1 <= n < 9223372036854775808)%Z ->
  forall r, pow_int d b n = Defined r \/ pown d b n = Defined r ->
  (powerRZ 10 2147483625 <= Rabs (powerRZ (value b) n) -> is_inf r (neg b && Z.odd n)) /\
  (Rabs (powerRZ (value b) n) < powerRZ 10 (-2147483608) -> finite d r /\ value r = 0) /\
  (powerRZ 10 (-2147483599) < Rabs (powerRZ (value b) n) < powerRZ 10 2147483616 ->
     finite d r /\ full d r /\ 0 < value r * powerRZ (value b) n /\
     Rabs (value r) <= Rabs (powerRZ (value b) n) /\
     Rabs (powerRZ (value b) n) - Rabs (value r) <= IZR n * product_error d * Rabs (powerRZ (value b) n)).
Proof. exact pow_leaves_range. Qed.
Print Assumptions C34_power.

(** C34: the functions return for every exponent but the most negative one;
    exponent 0 gives 1 whatever the base is. *)
Theorem C34_defined :
  forall d b,
  (forall n, (-9223372036854775808 < n < 9223372036854775808)%Z ->
     (exists r, pow_int d b n = Defined r) /\ (exists r, pown d b n = Defined r)) /\
  (valid_digits d -> forall r, pow_int d b 0 = Defined r \/ pown d b 0 = Defined r -> finite d r /\ value r = 1).
Proof. exact pow_defined. Qed.
Print Assumptions C34_defined.

Example C34_power_hypotheses_met :
  valid_digits 30 /\ finite 30 (of_sll 30 (-3)) /\ full 30 (of_sll 30 (-3)) /\ iszero (of_sll 30 (-3)) = false /\
  exp (of_sll 30 (-3)) = 0%Z /\
  pow_int 30 (of_sll 30 (-3)) 7 = Defined (of_sll 30 (-2187)) /\ pown 30 (of_sll 30 (-3)) 7 = Defined (of_sll 30 (-2187)).
Proof. meets. Qed.

(** C34: exact when the power of the decimal mantissa has at most d+3 digits. *)
Theorem C34_exact :
  forall d b n K i, valid_digits d -> finite d b -> full d b -> value b <> 0 -> (0 <= n < 9223372036854775808)%Z ->
  in_range (powerRZ (value b) n) -> value b = IZR K * powerRZ 10 i -> (Z.abs K ^ n < 10 ^ (d + 3))%Z ->
  forall r, pow_int d b n = Defined r \/ pown d b n = Defined r -> value r = powerRZ (value b) n.
Proof. exact pow_exact. Qed.
Print Assumptions C34_exact.

Example C34_exact_hypotheses_met :
  finite 30 (of_sll 30 12) /\ full 30 (of_sll 30 12) /\ value (of_sll 30 12) = IZR 12 * powerRZ 10 0 /\
  (Z.abs 12 ^ 30 < 10 ^ (30 + 3))%Z /\ in_range (powerRZ (value (of_sll 30 12)) 30).
Proof.
  destruct (of_sll_spec 30 12 valid_30 ltac:(lia)) as (F & L & V & _).
  split; [exact F|]. split; [exact L|]. rewrite V. split; [rewrite powerRZ_O; ring|]. split; [reflexivity|].
  apply in_range_65000. rewrite (powerRZ_pow 12 30) by lia. change (Z.to_nat 30) with 30%nat. rewrite pow_IZR.
  change (12 ^ Z.of_nat 30)%Z with (12 ^ 30)%Z. rewrite Rabs_right by (apply Rle_ge, IZR_le; vm_compute; discriminate). split.
  - apply Rle_trans with (powerRZ 10 0); [apply p10_le; lia|rewrite powerRZ_O; apply IZR_le; vm_compute; discriminate].
  - apply Rle_trans with (powerRZ 10 40); [rewrite (p10_nonneg 40) by lia; apply IZR_le; vm_compute; discriminate|apply p10_le; lia].
Qed.

(** C34: negative exponents give the reciprocal power.  Missing: the last 36
    decades of the exponent range and more than 65000 digits. *)
Theorem C34_negative_partial :
  forall d b n, valid_digits d -> (d <= 65000)%Z -> finite d b -> full d b -> value b <> 0 ->
  (0 < n < 9223372036854775808)%Z -> well_in_range (powerRZ (value b) n) ->
  forall r, pow_int d b (- n) = Defined r \/ pown d b (- n) = Defined r ->
  finite d r /\ full d r /\ 0 < value r * powerRZ (value b) n /\
  Rabs (value r * powerRZ (value b) n - 1) <= 2 * (powerRZ 10 (- d) + IZR n * product_error d).
Proof. exact pow_negative. Qed.
Print Assumptions C34_negative_partial.

Example C34_negative_hypotheses_met :
  finite 30 (of_sll 30 (-3)) /\ full 30 (of_sll 30 (-3)) /\ well_in_range (powerRZ (value (of_sll 30 (-3))) 5) /\
  exists r, pow_int 30 (of_sll 30 (-3)) (-5) = Defined r.
Proof.
  destruct (of_sll_spec 30 (-3) valid_30 ltac:(lia)) as (F & L & V & _).
  split; [exact F|]. split; [exact L|]. rewrite V. split.
  - unfold well_in_range. rewrite (powerRZ_pow (-3) 5) by lia. change (Z.to_nat 5) with 5%nat. simpl pow.
    replace (-3 * (-3 * (-3 * (-3 * (-3 * 1))))) with (-243) by ring. rewrite Rabs_left by lra.
    pose proof (p10_le (-2147483580) 0 ltac:(lia)) as A. rewrite powerRZ_O in A.
    pose proof (p10_le 3 2147483580 ltac:(lia)) as B. rewrite (p10_nonneg 3) in B by lia. change (10 ^ 3)%Z with 1000%Z in B. lra.
  - exact (proj1 (proj1 (pow_defined 30 (of_sll 30 (-3))) (-5)%Z (conj eq_refl eq_refl))).
Qed.

(** C34: bases NaN, infinity and zero. *)
Theorem C34_special :
  forall d b n, valid_digits d -> wf d b -> (0 < n < 9223372036854775808)%Z ->
  (forall r, pow_int d b n = Defined r \/ pown d b n = Defined r ->
     (is_nan b -> is_nan r) /\
     (forall s, is_inf b s -> is_inf r (s && Z.odd n)) /\
     (finite d b -> value b = 0 -> finite d r /\ value r = 0)) /\
  (forall r, pow_int d b (- n) = Defined r \/ pown d b (- n) = Defined r ->
     (is_nan b -> is_nan r) /\
     (forall s, is_inf b s -> finite d r /\ value r = 0) /\
     (finite d b -> value b = 0 -> is_inf r false)).
Proof. exact pow_special. Qed.
Print Assumptions C34_special.

Example C34_special_hypotheses_met :
  wf 30 (signed_inf 30 true) /\ pow_int 30 (signed_inf 30 true) 3 = Defined (signed_inf 30 true) /\
  wf 30 (zero 30) /\ pown 30 (zero 30) (-2) = Defined (signed_inf 30 false).
Proof. meets. Qed.

(** C34: the most negative 64-bit exponent is undefined behaviour, whatever the
    type and the base are. *)
Theorem C34_minimum_refuted :
  forall (T : Type) (one one_s : T) mul sq div (b : T),
  pow_gen one one_s mul sq div b (-9223372036854775808) = Undefined /\
  pown_gen one one_s mul sq div b (-9223372036854775808) = Undefined.
Proof. exact pow_gen_min. Qed.
Print Assumptions C34_minimum_refuted.

(** C41: ldexp for every int exponent: v*2^e with a relative error of at most
    |e|+1 products, never larger in magnitude. *)
Theorem C41_ldexp :
  forall d v e, valid_digits d -> finite d v -> full d v -> (-2147483648 <= e <= 2147483647)%Z ->
  exists r, ldexp d v e = Defined r /\
  (value v = 0 -> finite d r /\ value r = 0) /\
  (in_range (value v * powerRZ 2 e) ->
     finite d r /\ full d r /\ 0 < value r * value v /\
     Rabs (value r) <= Rabs (value v * powerRZ 2 e) /\
     Rabs (value v * powerRZ 2 e) - Rabs (value r) <= IZR (Z.abs e + 1) * product_error d * Rabs (value v * powerRZ 2 e)).
Proof. exact ldexp_accurate. Qed.
Print Assumptions C41_ldexp.

(** C41: ldexp is exact when the product of the decimal mantissa with 2^e (5^-e
    for negative e) has at most d+3 digits. *)
Theorem C41_ldexp_exact :
  forall d v e K i, valid_digits d -> finite d v -> full d v -> (-2147483648 <= e <= 2147483647)%Z ->
  in_range (value v * powerRZ 2 e) -> value v = IZR K * powerRZ 10 i ->
  ((0 <= e)%Z /\ (Z.abs K * 2 ^ e < 10 ^ (d + 3))%Z) \/ ((e < 0)%Z /\ (Z.abs K * 5 ^ (- e) < 10 ^ (d + 3))%Z) ->
  exists r, ldexp d v e = Defined r /\ value r = value v * powerRZ 2 e.
Proof. exact ldexp_exact. Qed.
Print Assumptions C41_ldexp_exact.

Example C41_ldexp_hypotheses_met :
  finite 30 (of_sll 30 7) /\ full 30 (of_sll 30 7) /\ in_range (value (of_sll 30 7) * powerRZ 2 (-3)) /\
  value (of_sll 30 7) = IZR 7 * powerRZ 10 0 /\ (Z.abs 7 * 5 ^ (- (-3)) < 10 ^ (30 + 3))%Z /\
  ldexp 30 (of_sll 30 7) 3 = Defined (of_sll 30 56).
Proof.
  destruct (of_sll_spec 30 7 valid_30 ltac:(lia)) as (F & L & V & _).
  split; [exact F|]. split; [exact L|]. rewrite V. split.
  - apply in_range_65000. replace (powerRZ 2 (-3)) with (/ 8).
    + rewrite Rabs_right by lra. pose proof (p10_le (-65000) (- (1)) ltac:(lia)) as A. rewrite p10_inv, powerRZ_1 in A.
      pose proof (p10_le 0 65000 ltac:(lia)) as B. rewrite powerRZ_O in B. lra.
    + change (-3)%Z with (- (3))%Z. rewrite p2_inv, (powerRZ_pow 2 3) by lia. change (Z.to_nat 3) with 3%nat. simpl. f_equal. ring.
  - split; [rewrite powerRZ_O; ring|]. split; [reflexivity|vm_compute; reflexivity].
Qed.

(** C41: ldexp of NaN and of the infinities. *)
Theorem C41_ldexp_special :
  forall d v e, valid_digits d -> wf d v -> (-2147483648 <= e <= 2147483647)%Z ->
  exists r, ldexp d v e = Defined r /\ (is_nan v -> is_nan r) /\ (forall s, is_inf v s -> is_inf r s).
Proof. exact ldexp_special. Qed.
Print Assumptions C41_ldexp_special.

Example C41_ldexp_special_hypotheses_met :
  wf 30 (signed_inf 30 true) /\ ldexp 30 (signed_inf 30 true) (-5) = Defined (signed_inf 30 true) /\ wf 30 (value_nan 30).
Proof. meets. Qed.

(** C41: what holds of frexp is that m*2^e is v up to rounding.  Missing: m
    between 1/2 and 1, which is false. *)
Theorem C41_frexp_partial :
  forall d v, valid_digits d -> finite d v -> full d v -> value v <> 0 ->
  (-2147483647 <= parts_exponent v <= 2147483648)%Z -> in_range (value v * powerRZ 2 (- parts_exponent v)) ->
  exists m e, frexp d v = Defined (m, e) /\ finite d m /\ 0 < value m * value v /\
  Rabs (value m * powerRZ 2 e) <= Rabs (value v) /\
  Rabs (value v) - Rabs (value m * powerRZ 2 e) <= IZR (Z.abs e + 1) * product_error d * Rabs (value v).
Proof. exact frexp_product. Qed.
Print Assumptions C41_frexp_partial.

Example C41_frexp_hypotheses_met :
  finite 30 (of_sll 30 8) /\ full 30 (of_sll 30 8) /\ iszero (of_sll 30 8) = false /\ parts_exponent (of_sll 30 8) = 0%Z /\
  in_range (value (of_sll 30 8) * powerRZ 2 (- 0)).
Proof.
  destruct (of_sll_spec 30 8 valid_30 ltac:(lia)) as (F & L & V & _).
  split; [exact F|]. split; [exact L|]. split; [reflexivity|]. split; [reflexivity|].
  rewrite V. change (- 0)%Z with 0%Z. rewrite powerRZ_O. apply in_range_65000. rewrite Rabs_right by lra.
  pose proof (p10_le (-65000) 0 ltac:(lia)) as A. rewrite powerRZ_O in A.
  pose proof (p10_le 1 65000 ltac:(lia)) as B. rewrite powerRZ_1 in B. lra.
Qed.

(** C41: frexp(8) has mantissa 8 and exponent 0, frexp(1000) has 125 and 3. *)
Theorem C41_frexp_refuted :
  (exists m, frexp 30 (of_sll 30 8) = Defined (m, 0%Z) /\ value m = 8) /\
  (exists m, frexp 30 (of_sll 30 1000) = Defined (m, 3%Z) /\ value m = 125).
Proof. exact (conj frexp_eight frexp_thousand). Qed.
Print Assumptions C41_frexp_refuted.

(** C52: sgn. *)
Theorem C52_sgn :
  forall d x, valid_digits d -> finite d x ->
  (value x < 0 -> sgn x = (-1)%Z) /\ (value x = 0 -> sgn x = 0%Z) /\ (0 < value x -> sgn x = 1%Z).
Proof. exact sgn_spec. Qed.
Print Assumptions C52_sgn.

Example C52_hypotheses_met :
  finite 30 (of_sll 30 (-7)) /\ sgn (of_sll 30 (-7)) = (-1)%Z /\ finite 30 (zero 30) /\ sgn (zero 30) = 0%Z /\ sgn (one 30) = 1%Z.
Proof. meets. Qed.

(** C53: fmod of integers of up to d-2 digits, positive divisor that does not
    divide the argument: exactly the C remainder.  Missing: exact multiples and
    negative divisors, both of which are false, and fractions. *)
Theorem C53_fmod_partial :
  forall d u v a b, valid_digits d -> (d <= 65000)%Z -> finite d u -> finite d v -> full d u -> full d v ->
  value u = IZR a -> value v = IZR b -> (0 < b)%Z -> ~ (b | a)%Z ->
  (Z.abs a < 10 ^ (d - 2))%Z -> (b < 10 ^ (d - 2))%Z ->
  finite d (fmod d u v) /\ value (fmod d u v) = IZR (Z.rem a b).
Proof. exact fmod_integers. Qed.
Print Assumptions C53_fmod_partial.

Example C53_hypotheses_met :
  finite 30 (of_sll 30 (-1000)) /\ full 30 (of_sll 30 (-1000)) /\ finite 30 (of_sll 30 7) /\ full 30 (of_sll 30 7) /\
  ~ (7 | -1000)%Z /\ op_eq (fmod 30 (of_sll 30 (-1000)) (of_sll 30 7)) (of_sll 30 (-6)) = true.
Proof.
  destruct (of_sll_spec 30 7 valid_30 ltac:(lia)) as (F & L & V & _).
  destruct (of_sll_spec 30 (-1000) valid_30 ltac:(lia)) as (F' & L' & V' & _).
  split; [exact F'|]. split; [exact L'|]. split; [exact F|]. split; [exact L|].
  split; [intros [k Hk]; lia|vm_compute; reflexivity].
Qed.

(** C53: fmod(6,3) is 3, fmod(-3,3) is -6 and fmod(7,-3) is -2. *)
Theorem C53_fmod_refuted :
  value (of_sll 30 6) = 6 /\ value (of_sll 30 3) = 3 /\ value (of_sll 30 7) = 7 /\ value (of_sll 30 (-3)) = -3 /\
  value (fmod 30 (of_sll 30 6) (of_sll 30 3)) = 3 /\
  value (fmod 30 (of_sll 30 (-3)) (of_sll 30 3)) = -6 /\
  value (fmod 30 (of_sll 30 7) (of_sll 30 (-3))) = -2.
Proof. exact fmod_refuted. Qed.
Print Assumptions C53_fmod_refuted.

(** C10: a product is exact when the product of the decimal mantissas has at
    most d+3 digits. *)
Theorem C10_exact_products :
  forall d u v K1 i1 K2 i2, valid_digits d -> finite d u -> finite d v -> full d u -> full d v ->
  (-2147483616 < exp u + exp v < 2147483616)%Z ->
  value u = IZR K1 * powerRZ 10 i1 -> value v = IZR K2 * powerRZ 10 i2 -> (Z.abs (K1 * K2) < 10 ^ (d + 3))%Z ->
  value (mul d u v) = value u * value v.
Proof. exact mul_exact_digits. Qed.
Print Assumptions C10_exact_products.

Example C10_exact_products_hypotheses_met :
  finite 30 (of_sll 30 123456789012) /\ full 30 (of_sll 30 123456789012) /\
  value (of_sll 30 123456789012) = IZR 123456789012 * powerRZ 10 0 /\
  (Z.abs (123456789012 * 987654321) < 10 ^ (30 + 3))%Z /\
  mul 30 (of_sll 30 123456789012) (of_sll 30 10) = of_sll 30 1234567890120.
Proof.
  destruct (of_sll_spec 30 123456789012 valid_30 ltac:(lia)) as (F & L & V & _).
  split; [exact F|]. split; [exact L|]. split; [rewrite V, powerRZ_O; ring|]. split; [reflexivity|vm_compute; reflexivity].
Qed.
