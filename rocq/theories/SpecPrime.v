(** * Specification: primes and factorisations, with [prime] from Coq's library. *)

From Coq Require Import ZArith List Znumtheory Sorted.
Import ListNotations.
Open Scope Z_scope.

(** An initial part of the sequence of all primes: increasing, only primes, and
    with a prime also every smaller one. *)
Definition first_primes (l : list Z) : Prop :=
  StronglySorted Z.lt l /\ (forall p, In p l -> prime p) /\
  (forall p q, In q l -> prime p -> p < q -> In p l).

(** Product of powers. *)
Fixpoint product (l : list (Z * Z)) : Z :=
  match l with
  | [] => 1
  | (p, k) :: t => p ^ k * product t
  end.

(** Increasing primes with positive multiplicities, product [n]. *)
Definition factorization (n : Z) (l : list (Z * Z)) : Prop :=
  StronglySorted Z.lt (map fst l) /\ (forall p k, In (p, k) l -> prime p /\ 1 <= k) /\ product l = n.

(** A logarithm for doubles with an error of at most 1/100. *)
From Coq Require Import Reals.
From Flocq Require Import BinarySingleNaN.
Definition usable_log (log : binary_float 53 1024 -> binary_float 53 1024) : Prop :=
  forall x, is_finite x = true -> (1 <= B2R x <= 4294967295)%R ->
  is_finite (log x) = true /\ (Rabs (B2R (log x) - ln (B2R x)) <= / 100)%R.
