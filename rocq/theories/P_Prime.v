(** * C42 (prime) and C43 (prime_factors) *)

From Coq Require Import ZArith List Znumtheory Reals Lia.
From Flocq Require Import BinarySingleNaN.
From Verif Require Import ModelDiv ModelPrime SpecPrime PrimeProofs PrimeFloat.
Import ListNotations.
Open Scope Z_scope.

(** C42 for the static table: for every logarithm of doubles with an error of at
    most 1/100, the call with [n < 6550] ends and gives the first [n] primes. *)
Theorem C42_prime_table_partial :
  forall log fuel n, usable_log log -> sieve_limit log 6550 <= Z.of_nat fuel -> 0 <= n < 6550 ->
  exists l, prime_list log fuel n = Some l /\ first_primes l /\ Z.of_nat (length l) = n.
Proof. exact prime_list_small. Qed.
Print Assumptions C42_prime_table_partial.

(** C42 above the table: whatever limit the floating-point estimate gives, if it
    is at most 65535^2 and there are at least [n] primes below it, the result
    consists of the first [n] primes.  Missing from C42: that the estimate is
    large enough (a theorem of Robin about the n-th prime, not formalised), and
    the limits between 65535^2 and 2^32. *)
Theorem C42_prime_partial :
  forall log fuel n m, 6550 <= n -> 2 <= sieve_limit log n <= 65535 * 65535 -> sieve_limit log n <= Z.of_nat fuel ->
  NoDup m -> (forall p, In p m -> prime p /\ p < sieve_limit log n) -> n <= Z.of_nat (length m) ->
  exists l, prime_list log fuel n = Some l /\ first_primes l /\ Z.of_nat (length l) = n.
Proof. exact prime_list_large. Qed.
Print Assumptions C42_prime_partial.

(** There is such a logarithm, and for it the limit for [n = 6550] is large
    enough and at most 65535^2. *)
Example C42_hypotheses_met :
  exists log, usable_log log /\ 2 <= sieve_limit log 6550 <= 65535 * 65535 /\
  exists fuel m, sieve_limit log 6550 <= Z.of_nat fuel /\ NoDup m /\ (forall p, In p m -> prime p /\ p < sieve_limit log 6550) /\
  6550 <= Z.of_nat (length m).
Proof.
  exists some_log. pose proof (limit_table some_log some_log_usable) as L. split; [exact some_log_usable|]. split; [lia|].
  destruct (primes_below 65582 ltac:(lia)) as (m & S & Q & C). rewrite count_65582 in C.
  exists (Z.to_nat (sieve_limit some_log 6550)), m. split; [lia|]. split; [apply sorted_NoDup; exact S|]. split; [|lia].
  intros p I. apply Q in I. split; [apply I|lia].
Qed.

(** C42 without a bound on [n] is false: from [n = 250000000] on the limit is
    2^32 - 1 and the loop that crosses out the even numbers wraps around; no
    number of steps is enough. *)
Theorem C42_prime_refuted :
  forall log n, usable_log log -> 250000000 <= n <= 4294967295 -> forall fuel, prime_list log fuel n = None.
Proof. exact prime_list_forever. Qed.
Print Assumptions C42_prime_refuted.

(** C43: for every 32-bit [n >= 2] the call ends, and the result is the
    factorisation of [n], in some cases followed by the pair (1, 1), which
    does not change the product.  Missing: that pair should not be there. *)
Theorem C43_prime_factors_partial :
  forall log fuel, usable_log log -> sieve_limit log 6550 <= Z.of_nat fuel ->
  exists data, prime_data log fuel = Some data /\
  forall n, 2 <= n < 4294967296 ->
  exists r f, prime_factors data n = Some r /\ factorization n f /\ (r = f \/ r = f ++ [(1, 1)]).
Proof. exact prime_factors_all. Qed.
Print Assumptions C43_prime_factors_partial.

Example C43_hypotheses_met :
  exists log fuel, usable_log log /\ sieve_limit log 6550 <= Z.of_nat fuel.
Proof. exists some_log, (Z.to_nat (sieve_limit some_log 6550)). split; [exact some_log_usable|]. pose proof (limit_table some_log some_log_usable). lia. Qed.

(** C43 as stated is false for 0, 1 and 4. *)
Theorem C43_prime_factors_refuted :
  forall log fuel, usable_log log -> sieve_limit log 6550 <= Z.of_nat fuel ->
  exists data, prime_data log fuel = Some data /\
  prime_factors data 0 = Some [(0, 1)] /\ prime_factors data 1 = Some [(1, 1)] /\ prime_factors data 4 = Some [(2, 2); (1, 1)] /\
  ~ prime 0 /\ ~ factorization 1 [(1, 1)] /\ ~ factorization 4 [(2, 2); (1, 1)].
Proof. exact prime_factors_wrong. Qed.
Print Assumptions C43_prime_factors_refuted.
