(** * Specification: functions of a complex number *)

From Coq Require Import Reals.
From Coquelicot Require Import Complex.
Open Scope R_scope.

(** e^z = e^x (cos y + i sin y) for z = x + iy *)
Definition cexp (z : C) : C := (exp (Re z) * cos (Im z), exp (Re z) * sin (Im z)).

(** The trigonometric and hyperbolic functions by Euler's formulas *)
Definition csin (z : C) : C := ((cexp (Ci * z) - cexp (- (Ci * z))) / (2 * Ci))%C.
Definition ccos (z : C) : C := ((cexp (Ci * z) + cexp (- (Ci * z))) / 2)%C.
Definition ctan (z : C) : C := (csin z / ccos z)%C.
Definition csinh (z : C) : C := ((cexp z - cexp (- z)) / 2)%C.
Definition ccosh (z : C) : C := ((cexp z + cexp (- z)) / 2)%C.
Definition ctanh (z : C) : C := (csinh z / ccosh z)%C.

(** w is the principal value of the logarithm of z *)
Definition principal_log (z w : C) : Prop := cexp w = z /\ - PI < Im w <= PI.

(** the powers of z with a natural exponent *)
Fixpoint cpow (z : C) (n : nat) : C := match n with O => 1 | S k => z * cpow z k end%C.
