(** * C51, C57, C58: symmetry and special arguments of the elementary functions

    The constants and the double precision first estimates are parameters
    ([env] of ModelElem.v); nothing is assumed about the estimates. *)

From Coq Require Import ZArith List Bool Reals Lra Lia.
From Verif Require Import Model Spec Decide OrderProofs WfProofs IntProofs LdexpProofs ModelDiv ModelPow ModelElem ElemProofs ElemSpecial.
Import ListNotations.
Open Scope R_scope.

(** C51 for asin, for arguments of magnitude at least 10^-6 or so (small_arg is
    the condition order(x) < -max(tolerance/10, 6)): the results for x and -x are
    exact opposites (or both NaN).  Missing: small arguments. *)
Theorem C51_asin_partial :
  forall d env x, valid_digits d -> finite d x -> (- Z.max (Z.quot (tolerance d) 10) 6 <= order x)%Z ->
  asin d env (negate x) = negate (asin d env x) \/ (isnan (asin d env (negate x)) = true /\ isnan (asin d env x) = true).
Proof.
  intros d env x Hd [W C] L. apply asin_odd_not_small; auto. apply Z.ltb_ge. exact L.
Qed.
Print Assumptions C51_asin_partial.

(** C51 for atan, unless 10^limit <= |x| < 10^tolerance with the same limit. *)
Theorem C51_atan_partial :
  forall d env x, valid_digits d -> finite d x -> (order x <= Z.max (Z.quot (tolerance d) 10) 6 \/ order x > tolerance d)%Z ->
  atan d env (negate x) = negate (atan d env x) \/ (isnan (atan d env (negate x)) = true /\ isnan (atan d env x) = true).
Proof.
  intros d env x Hd F L. apply atan_odd; auto. destruct L as [L|L]; [left|right; exact L].
  unfold large_arg, arg_limit. rewrite Z.gtb_ltb. apply Z.ltb_ge. exact L.
Qed.
Print Assumptions C51_atan_partial.

(** C51 is false for small arguments of asin, where the function is even: for
    every such x the result for -x is that for x ... *)
Theorem C51_asin_small_refuted :
  (forall d env x, valid_digits d -> finite d x -> value x <> 0 -> (order x < - Z.max (Z.quot (tolerance d) 10) 6)%Z ->
   asin d env (negate x) = asin d env x \/ (isnan (asin d env (negate x)) = true /\ isnan (asin d env x) = true)) /\
  (exists d env x, valid_digits d /\ pi_sane d env /\
   finite d x /\ 0 < value x < 1 /\ asin d env (negate x) = asin d env x /\ finite d (asin d env x) /\ 0 < value (asin d env x)).
Proof.
  split; [|exact asin_wrong_sign]. intros d env x Hd F V L. apply asin_even_small; auto.
  - destruct (iszero x) eqn:Z; [|reflexivity]. apply (iszero_isneg_spec d x Hd F) in Z. contradiction.
  - apply Z.ltb_lt. exact L.
Qed.
Print Assumptions C51_asin_small_refuted.

(** ... and for large arguments of atan, where the result for a negative
    argument can be positive. *)
Theorem C51_atan_refuted :
  exists d env x, valid_digits d /\ pi_sane d env /\ finite d x /\
  finite d (atan d env x) /\ 0 < value (atan d env x) /\ finite d (atan d env (negate x)) /\ 0 < value (atan d env (negate x)).
Proof. exact atan_wrong_sign. Qed.
Print Assumptions C51_atan_refuted.

Example C51_hypotheses_met :
  let x := div_int 30 (of_sll 30 (-2)) 3 in let y := of_limbs 30 [1000000]%Z (-16) true in let z := of_sll 30 (-1234567) in
  valid_digits 30 /\ finite 30 x /\ (- Z.max (Z.quot (tolerance 30) 10) 6 <= order x)%Z /\
  finite 30 y /\ value y <> 0 /\ (order y < - Z.max (Z.quot (tolerance 30) 10) 6)%Z /\
  finite 30 z /\ (order z <= Z.max (Z.quot (tolerance 30) 10) 6)%Z.
Proof.
  cbv zeta. split; [exact valid_30|]. split; [meets|]. split; [vm_compute; congruence|]. split; [meets|]. split; [meets|].
  split; [vm_compute; reflexivity|]. split; [meets|]. vm_compute; congruence.
Qed.

(** C57: the sine is exactly odd and the cosine exactly even, for every value of
    the constant pi between 3 and 4; the tangent is odd unless the computed sine
    and cosine agree in magnitude (then the quotient has the wrong sign, see
    C32_division_refuted). *)
Theorem C57_sine_odd :
  forall d env x, valid_digits d -> pi_sane d env -> finite d x ->
  sin d env (negate x) = negate (sin d env x) /\ cos d env (negate x) = cos d env x.
Proof. intros d env x Hd Hp F. split; [apply sin_odd; auto|apply cos_even; apply F]. Qed.
Print Assumptions C57_sine_odd.

Theorem C57_tangent_partial :
  forall d env x, valid_digits d -> pi_sane d env -> env_ok d env -> finite d x ->
  same_magnitude (sin d env x) (cos d env x) = false ->
  tan d env (negate x) = negate (tan d env x) \/ (isnan (tan d env (negate x)) = true /\ isnan (tan d env x) = true).
Proof. intros. apply tan_odd; auto. Qed.
Print Assumptions C57_tangent_partial.

Theorem C57_asinh_odd :
  forall d env x, valid_digits d -> finite d x ->
  match asinh d env x with Defined r => asinh d env (negate x) = Defined (negate r) | Undefined => asinh d env (negate x) = Undefined end.
Proof. intros d env x Hd F. rewrite asinh_odd by auto. destruct (asinh d env x); reflexivity. Qed.
Print Assumptions C57_asinh_odd.

(** The values of the trigonometric functions satisfy the representation
    invariant, whatever the estimates are. *)
Theorem C57_well_formed :
  forall d env x y, valid_digits d -> env_ok d env -> wfz d x -> wfz d y ->
  wfz d (sin d env x) /\ wfz d (cos d env x) /\ wfz d (tan d env x) /\ wfz d (asin d env x) /\ wfz d (acos d env x) /\
  wfz d (atan d env x) /\ wfz d (atan2 d env y x).
Proof. intros. repeat apply conj; [apply Z_sin|apply Z_cos|apply Z_tan|apply Z_asin|apply Z_acos|apply Z_atan|apply Z_atan2]; auto. Qed.
Print Assumptions C57_well_formed.

Example C57_hypotheses_met :
  let x := of_sll 30 (-40) in
  valid_digits 30 /\ pi_sane 30 env_30 /\ env_ok 30 env_30 /\ finite 30 x /\ same_magnitude (sin 30 env_30 x) (cos 30 env_30 x) = false.
Proof.
  cbv zeta. split; [exact valid_30|]. split; [exact pi_30_sane|]. split; [|split; [meets|vm_compute; reflexivity]].
  assert (W : forall x, wfb 30 x = true -> wfz 30 x) by (intros x H; left; apply wfb_wf; exact H).
  repeat apply conj; try (intros; assumption); apply W; vm_compute; reflexivity.
Qed.

(** C58: NaN in, NaN out; the limits at infinity; the values at zero; NaN outside
    the domain.  (result v: the call has a result, which is NaN.) *)
Theorem C58_special_partial :
  forall d env x, valid_digits d ->
  let result v := exists r, v = Defined r /\ isnan r = true in
  (isnan x = true ->
   result (ModelElem.exp d env x) /\ result (log d env x) /\ result (log10 d env x) /\
   isnan (sin d env x) = true /\ isnan (cos d env x) = true /\ isnan (tan d env x) = true /\
   isnan (asin d env x) = true /\ isnan (acos d env x) = true /\ isnan (atan d env x) = true /\
   result (sinh d env x) /\ result (cosh d env x) /\ result (asinh d env x) /\ result (acosh d env x) /\
   (forall a, result (pow d env x a))) /\
  (isinf x = true ->
   (isneg x = false -> ModelElem.exp d env x = Defined (value_inf d)) /\ (isneg x = true -> ModelElem.exp d env x = Defined (zero d)) /\
   sinh d env x = Defined x /\ (isneg x = false -> cosh d env x = Defined x) /\
   isnan (sin d env x) = true /\ isnan (cos d env x) = true /\ isnan (asin d env x) = true /\ isnan (acos d env x) = true /\
   (isneg x = true -> result (log d env x) /\ result (acosh d env x))) /\
  (finite d x -> value x = 0 ->
   ModelElem.exp d env x = Defined (one d) /\ log d env x = Defined (negate (value_inf d)) /\
   sinh d env x = Defined (zero d) /\ cosh d env x = Defined (one d) /\ asinh d env x = Defined (zero d) /\
   (pi_sane d env -> sin d env x = zero d /\ cos d env x = one d) /\ asin d env x = zero d /\ atan d env x = zero d /\ acos d env x = pi_half d env) /\
  (finite d x ->
   (value x < 0 -> result (log d env x)) /\
   (1 < Rabs (value x) -> isnan (asin d env x) = true /\ isnan (acos d env x) = true) /\
   (value x < 1 -> result (acosh d env x))).
Proof.
  intros d env x Hd. cbv zeta. repeat apply conj; intros; [apply nan_in_nan_out|apply at_infinity|apply at_zero|apply outside]; auto.
Qed.
Print Assumptions C58_special_partial.

Example C58_hypotheses_met :
  isnan (value_nan 30) = true /\ isinf (negate (value_inf 30)) = true /\ isneg (negate (value_inf 30)) = true /\
  finite 30 (zero 30) /\ value (zero 30) = 0 /\ finite 30 (of_sll 30 (-7)) /\ value (of_sll 30 (-7)) = -7 /\ pi_sane 30 env_30.
Proof.
  split; [reflexivity|]. split; [reflexivity|]. split; [reflexivity|]. split; [meets|]. split; [apply (AddProofs.value_zero 30 valid_30)|].
  split; [meets|]. split; [apply (of_sll_spec 30 (-7) valid_30); lia|exact pi_30_sane].
Qed.

(** C58 is false for several functions at infinity (atan and tanh and log and
    asinh give NaN, cosh(-inf) = -inf, inf^-2 = inf), for 0^2 = 1 ... *)
Theorem C58_limits_refuted :
  forall d env, valid_digits d ->
  isnan (atan d env (value_inf d)) = true /\
  (exists r, log d env (value_inf d) = Defined r /\ isnan r = true) /\
  cosh d env (negate (value_inf d)) = Defined (negate (value_inf d)) /\
  (exists r, tanh d env (value_inf d) = Defined r /\ isnan r = true) /\
  (exists r, asinh d env (value_inf d) = Defined r /\ isnan r = true) /\
  pow d env (value_inf d) (of_sll d (-2)) = Defined (value_inf d) /\
  pow d env (zero d) (of_sll d 2) = Defined (one d).
Proof. exact at_infinity_wrong. Qed.
Print Assumptions C58_limits_refuted.

(** ... and exp gives infinity for arguments whose exponential is far below max(). *)
Theorem C58_exp_overflow_refuted :
  forall d env, valid_digits d ->
  let x := of_sll d 2147483618 in finite d x /\ value x = 2147483618 /\
  ModelElem.exp d env x = Defined (value_inf d) /\ Rtrigo_def.exp (value x) < powerRZ 10 1073741809.
Proof. exact exp_too_early. Qed.
Print Assumptions C58_exp_overflow_refuted.
