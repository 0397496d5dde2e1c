(** * Specification for the inverse trigonometric functions *)

From Coq Require Import ZArith Reals.
From Verif Require Import Model Spec.
Open Scope R_scope.

(** t is the angle of the point (x, y), in the half open interval from -pi to pi *)
Definition is_angle (x y t : R) : Prop :=
  - PI < t <= PI /\ exists rho, 0 < rho /\ x = rho * cos t /\ y = rho * sin t.

(** e is a finite number of full precision that approximates the positive real
    number r as well as the double precision functions of a mathematical library do:
    the relative error is at most 4 * 10^-15 *)
Definition estimates (d10 : Z) (e : ef) (r : R) : Prop :=
  finite d10 e /\ full d10 e /\ Rabs (value e - r) <= 4 / 1000000000000000 * r.
