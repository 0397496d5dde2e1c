(** * C38: std::numeric_limits<e_float> *)

From Coq Require Import ZArith List Bool Ascii String Reals Lia.
From Verif Require Import Model Spec SpecText Decide ModelStr ModelLimits LimitsProofs.
Import ListNotations.
Open Scope R_scope.
Local Notation length := List.length.
Local Notation chars := list_ascii_of_string.

(** C38, max(): it is the number 9.99...9 (digits10 + 2 nines) times
    10^max_exponent10, and every finite sum of numbers up to max() is again at
    most max(). *)
Theorem C38_max_partial :
  forall d, valid_digits d ->
  (exists r, limits_max d = Ok r /\ finite d r /\ full d r /\ value r = max_value d /\ r = value_max d) /\
  (forall u v, finite d u -> finite d v -> Rabs (value u) <= max_value d -> Rabs (value v) <= max_value d -> cls (add d u v) = Finite ->
   Rabs (value (add d u v)) <= max_value d).
Proof. exact max_cor. Qed.
Print Assumptions C38_max_partial.

(** C38, min(): it is 10^min_exponent10, and no valid literal is read as a
    number other than zero of smaller magnitude. *)
Theorem C38_min :
  forall d, valid_digits d ->
  exists m, limits_min d = Ok m /\ finite d m /\ value m = powerRZ 10 (-2147483616) /\
  forall l r, valid_literal l -> (Z.of_nat (length (text l)) < 2147483600)%Z -> (Z.abs (l_exponent l) <= 9000000000000000000)%Z ->
  of_string d (text l) = Ok r -> cls r = Finite -> value r <> 0 -> value m <= Rabs (value r).
Proof. exact min_cor. Qed.
Print Assumptions C38_min.

(** C38, epsilon(): it is 10^(1 - digits10), and adding it to 1 gives exactly
    1 + epsilon(), which compares greater than 1. *)
Theorem C38_epsilon :
  forall d, valid_digits d ->
  exists e, limits_epsilon d = Ok e /\ value e = powerRZ 10 (- (d - 1)) /\
  op_gt (add d (one d) e) (one d) = true /\ finite d (add d (one d) e) /\ value (add d (one d) e) = 1 + powerRZ 10 (- (d - 1)).
Proof. exact eps_add. Qed.
Print Assumptions C38_epsilon.

(** C38, infinity(), quiet_NaN() and round_error(): infinity() exceeds every
    finite number, quiet_NaN() equals nothing, round_error() is 1/2. *)
Theorem C38_special :
  forall d, valid_digits d ->
  (forall u, finite d u -> op_lt u (limits_infinity d) = true /\ op_gt (limits_infinity d) u = true) /\
  (forall u, wf d u -> op_eq (limits_quiet_nan d) u = false) /\
  finite d (limits_round_error d) /\ value (limits_round_error d) = 1 / 2.
Proof. exact limits_special. Qed.
Print Assumptions C38_special.

Example C38_hypotheses_met :
  valid_digits 30 /\ max_text 30 = chars "9.9999999999999999999999999999999e+2147483616" /\
  min_text = chars "1.0e-2147483616" /\ eps_text 30 = chars "1E-29" /\ finite 30 (of_sll 30 12) /\
  (let l := mkliteral None [3]%Z false [] (Some (false, Some true, [2; 1; 4; 7; 4; 8; 3; 6; 0; 0]%Z)) in
   valid_literal l /\ text l = chars "3e-2147483600" /\
   exists r, of_string 30 (text l) = Ok r /\ cls r = Finite /\ iszero r = false).
Proof.
  split; [unfold valid_digits; lia|]. split; [reflexivity|]. split; [reflexivity|]. split; [reflexivity|]. split; [apply wfb_finite; vm_compute; reflexivity|].
  cbv zeta. split; [|split; [reflexivity|eexists; split; [vm_compute; reflexivity|split; reflexivity]]].
  unfold valid_literal, is_decimal; cbn. repeat split; try discriminate; repeat constructor; try lia.
  all: try (injection H as <- <- <-; repeat constructor; try lia; discriminate).
Qed.

(** C38: lowest() is zero, so every negative number is below it; and a number
    above max() can be read.  (For products see C11_max_limit_refuted.) *)
Theorem C38_limits_refuted :
  (forall d, valid_digits d -> finite d (of_sll d (-1)) /\ op_lt (of_sll d (-1)) (limits_lowest d) = true) /\
  (exists r, of_string 30 (chars "1e2147483620") = Ok r /\ finite 30 r /\ op_gt r (value_max 30) = true).
Proof. exact limits_wrong. Qed.
Print Assumptions C38_limits_refuted.
