(** * Specification of the Bernoulli numbers *)

From Coq Require Import Reals.
Open Scope R_scope.

(* b is the sequence of Bernoulli numbers, with B_1 = -1/2: B_0 = 1 and, for
   n >= 1, the sum over k <= n of C(n+1,k) B_k is 0 *)
Definition is_bernoulli (b : nat -> R) : Prop :=
  b 0%nat = 1 /\
  forall n, (1 <= n)%nat -> sum_f_R0 (fun k => Binomial.C (S n) k * b k) n = 0.
