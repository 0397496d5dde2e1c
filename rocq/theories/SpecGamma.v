(** * Specification of gamma functions: what the recurrence and the reflection say *)

From Coq Require Import Reals.
From Coquelicot Require Import Complex.
From Verif Require Import SpecCplx.
Open Scope R_scope.

(** x is not an integer *)
Definition fractional (x : R) : Prop := forall k : Z, x <> IZR k.

(** The recurrence for positive arguments, and the reflection formula that gives
    the values at negative ones.  The gamma function has both. *)
Definition gamma_like (G : R -> R) : Prop :=
  G 1 = 1 /\ (forall x, 0 < x -> G (x + 1) = x * G x) /\
  (forall x, 0 < x -> fractional x -> G (- x) = - PI / (x * G x * sin (PI * x))).

(** The same for complex arguments. *)
Definition gamma_like_C (G : C -> C) : Prop :=
  (forall z, 0 < Re z -> G z <> 0%C) /\ (forall z, 0 < Re z -> G (z + 1)%C = (z * G z)%C) /\
  (forall z, 0 < Re z -> fractional (Re z) -> G (- z)%C = (- RtoC PI / (z * G z * csin (RtoC PI * z)))%C).
