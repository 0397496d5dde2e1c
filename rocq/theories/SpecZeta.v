(** * Specification of the Riemann zeta function *)

From Coq Require Import Reals.
From Coquelicot Require Import Coquelicot.
Open Scope R_scope.

(** z = 1 + 1/2^s + 1/3^s + ... *)
Definition is_zeta (s z : R) : Prop := is_series (fun k : nat => Rpower (INR (S k)) (- s)) z.
