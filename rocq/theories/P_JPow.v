(** * C75: powers of integers from tables of prime powers *)

From Coq Require Import ZArith List Bool Reals Lra Lia.
From Flocq Require Import BinarySingleNaN.
From Verif Require Import Model ModelPow ModelPrime SpecPrime SpecJPow ModelJPow JPowProofs P_Prime.
Import ListNotations.
Local Open Scope Z_scope.

(** C75, tables: for numbers of any type with any operations, in every history
    of calls (a new table of prime powers for every x, one table of logarithms
    for all) each call gives exactly the result of a call with empty tables. *)
Theorem C75_history :
  forall (T E : Type) one mul sq of_n pown exp (scale : T -> E -> T) log_n integer_of factors_of (h : list (T * list Z)),
  session one mul sq of_n pown exp scale log_n integer_of factors_of h [] =
  all_some (map (fun '(x, js) => all_some (map (fun j => j_pow_x_fresh one mul sq of_n pown exp scale log_n integer_of factors_of j x) js)) h).
Proof. intros. apply session_ok. apply nil_lm. Qed.
Print Assumptions C75_history.

(** C75, values: over the real numbers, with the library's tables of primes, a call
    returns j^x for every positive 32-bit j and every real x.  integer_of is
    any function that finds the int64 exponents of integers. *)
Theorem C75_value :
  forall log fuel, usable_log log -> sieve_limit log 6550 <= Z.of_nat fuel ->
  exists data, prime_data log fuel = Some data /\
  forall integer_of, (forall x k, integer_of x = Some k -> x = IZR k /\ -9223372036854775808 < k < 9223372036854775808) ->
  forall j x, 1 <= j < 4294967296 ->
  j_pow_x_fresh 1%R Rmult (fun x => (x * x)%R) IZR r_pown (fun x => Some (Rtrigo_def.exp x)) Rmult (fun n => Some (ln (IZR n))) integer_of (prime_factors data) j x
    = Some (Rpower (IZR j) x).
Proof.
  intros log fuel U L. destruct (C43_prime_factors_partial log fuel U L) as (data & D & H). exists data. split; [exact D|]. intros integer_of I j x J.
  destruct (Z.eq_dec j 1) as [->|N].
  - apply (fresh_value integer_of I (prime_factors data) x 1 [(1, 1)] []); [lia|reflexivity| |right; reflexivity].
    split; [constructor|]. split; [intros p k []|reflexivity].
  - destruct (H j ltac:(lia)) as (r & f & R & F & E). exact (fresh_value integer_of I (prime_factors data) x j r f J R F E).
Qed.
Print Assumptions C75_value.

(** Both together: with usable tables of primes every call of every history
    returns j^x. *)
Theorem C75_powers :
  forall log fuel data integer_of (h : list (R * list Z)), usable_log log -> sieve_limit log 6550 <= Z.of_nat fuel -> prime_data log fuel = Some data ->
  (forall x k, integer_of x = Some k -> x = IZR k /\ -9223372036854775808 < k < 9223372036854775808) ->
  (forall x js j, In (x, js) h -> In j js -> 1 <= j < 4294967296) ->
  session 1%R Rmult (fun x => (x * x)%R) IZR r_pown (fun x => Some (Rtrigo_def.exp x)) Rmult (fun n => Some (ln (IZR n))) integer_of (prime_factors data) h []
    = Some (map (fun '(x, js) => map (fun j => Rpower (IZR j) x) js) h).
Proof.
  intros log fuel data integer_of h U L D I H. destruct (C75_value log fuel U L) as (data' & D' & V). rewrite D in D'. injection D' as <-. specialize (V integer_of I).
  rewrite C75_history. induction h as [|(x, js) r IH]; [reflexivity|]. cbn [map all_some].
  assert (A : forall js, (forall j, In j js -> 1 <= j < 4294967296) -> all_some (map (fun j => j_pow_x_fresh 1%R Rmult (fun x => (x * x)%R) IZR r_pown (fun x => Some (Rtrigo_def.exp x)) Rmult
     (fun n => Some (ln (IZR n))) integer_of (prime_factors data) j x) js) = Some (map (fun j => Rpower (IZR j) x) js)).
  { clear H IH. induction js0 as [|j js0 IHj]; intro H; [reflexivity|]. cbn [map all_some]. rewrite V by (apply H; left; reflexivity). rewrite IHj by (intros; apply H; right; assumption). reflexivity. }
  rewrite A by (intros j J; apply (H x js j); [left; reflexivity|exact J]). rewrite IH by (intros; apply (H x0 js0 j); [right; assumption|assumption]). reflexivity.
Qed.
Print Assumptions C75_powers.

(** Powers with exponents 1/2 and 2, of numbers that share prime factors *)
Example C75_hypotheses_met :
  exists log fuel data integer_of, let h := [((/ 2)%R, [12; 18; 1]); (2%R, [12; 4294967295; 12])] in
  usable_log log /\ sieve_limit log 6550 <= Z.of_nat fuel /\ prime_data log fuel = Some data /\
  (forall x k, integer_of x = Some k -> x = IZR k /\ -9223372036854775808 < k < 9223372036854775808) /\ integer_of 2%R = Some 2 /\
  (forall x js j, In (x, js) h -> In j js -> 1 <= j < 4294967296).
Proof.
  destruct C43_hypotheses_met as (log & fuel & U & L). destruct (C43_prime_factors_partial log fuel U L) as (data & D & _).
  exists log, fuel, data, (fun x => if Req_EM_T x 2 then Some 2 else None). cbv zeta. split; [exact U|]. split; [exact L|]. split; [exact D|]. split; [|split].
  - intros x k. destruct (Req_EM_T x 2) as [->|]; [intro E; injection E as <-; split; [reflexivity|lia]|discriminate].
  - destruct (Req_EM_T 2 2); [reflexivity|lra].
  - intros x js j [E|[E|[]]]; injection E as <- <-; cbn [In]; intuition lia.
Qed.
