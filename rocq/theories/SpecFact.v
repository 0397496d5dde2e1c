(** * Specification: double factorials

    n! is Coq's [fact], binomial coefficients are Coq's [Binomial.C]. *)

From Coq Require Import Arith Reals.

(** 0!! = 1!! = 1 and (n+2)!! = (n+2) n!! *)
Fixpoint double_fact (n : nat) : nat :=
  match n with
  | O => 1
  | S O => 1
  | S (S m as p) => n * double_fact m
  end.

(** (-(2k+1))!! = (-1)^k / (2k-1)!!, where (-1)!! = 1: the continuation of
    (n+2)!! = (n+2) n!! to negative odd numbers *)
Definition negative_double_fact (k : nat) : R :=
  ((-1) ^ k / INR (double_fact (2 * k - 1)))%R.
