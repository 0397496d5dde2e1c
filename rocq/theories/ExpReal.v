(** * Remainders of the power series of exp, sin and cos (proofs only) *)

From Coq Require Import ZArith Reals Lra Lia Psatz.
Open Scope R_scope.

Section Remainder.
Variables (U : nat -> R) (l : R) (n : nat).
Hypothesis HU : infinite_sum U l.
Hypothesis Hn : (1 <= n)%nat.
Hypothesis Hr : forall k, (n <= k)%nat -> Rabs (U (S k)) <= Rabs (U k) / 2.

Lemma tail_bound k : Rabs (sum_f_R0 U (n - 1 + k) - sum_f_R0 U (n - 1)) <= 2 * Rabs (U n) - 2 * Rabs (U (n + k)%nat).
Proof.
  induction k as [|k IH].
  - rewrite !Nat.add_0_r. replace (_ - _) with 0 by ring. rewrite Rabs_R0. lra.
  - rewrite Nat.add_succ_r. rewrite tech5. replace (S (n - 1 + k)) with (n + k)%nat by lia. rewrite Nat.add_succ_r.
    pose proof (Hr (n + k)%nat ltac:(lia)). replace (sum_f_R0 U (n - 1 + k) + U (n + k)%nat - sum_f_R0 U (n - 1)) with ((sum_f_R0 U (n - 1 + k) - sum_f_R0 U (n - 1)) + U (n + k)%nat) by ring.
    eapply Rle_trans; [apply Rabs_triang|]. lra.
Qed.

Lemma remainder : Rabs (l - sum_f_R0 U (n - 1)) <= 2 * Rabs (U n).
Proof.
  apply Rnot_lt_le. intro C. destruct (HU (Rabs (l - sum_f_R0 U (n - 1)) - 2 * Rabs (U n)) ltac:(lra)) as [N HN].
  specialize (HN (n - 1 + N)%nat ltac:(lia)). unfold R_dist in HN. pose proof (tail_bound N) as B. pose proof (Rabs_pos (U (n + N)%nat)).
  pose proof (Rabs_triang (l - sum_f_R0 U (n - 1 + N)) (sum_f_R0 U (n - 1 + N) - sum_f_R0 U (n - 1))) as Tr.
  replace (l - sum_f_R0 U (n - 1 + N) + (sum_f_R0 U (n - 1 + N) - sum_f_R0 U (n - 1))) with (l - sum_f_R0 U (n - 1)) in Tr by ring.
  rewrite Rabs_minus_sym in HN. lra.
Qed.
End Remainder.

Lemma exp_series x : infinite_sum (fun i => / INR (fact i) * x ^ i) (exp x).
Proof. unfold exp. destruct (exist_exp x) as [e He]. exact He. Qed.

(** The n-th term and the sum of the first n terms. *)
Definition exp_term (x : R) (n : Z) : R := / INR (fact (Z.to_nat n)) * x ^ (Z.to_nat n).
Definition exp_part (x : R) (n : Z) : R := sum_f_R0 (fun i => / INR (fact i) * x ^ i) (Z.to_nat n - 1).

Lemma exp_term_step x n : (1 <= n)%Z -> exp_term x n = exp_term x (n - 1) * x / IZR n.
Proof.
  intro H. unfold exp_term. replace (Z.to_nat n) with (S (Z.to_nat (n - 1))) by lia. set (k := Z.to_nat (n - 1)).
  rewrite fact_simpl, mult_INR. rewrite <- tech_pow_Rmult. replace (IZR n) with (INR (S k)) by (unfold k; rewrite INR_IZR_INZ; f_equal; lia).
  field. split; [apply INR_fact_neq_0|apply not_0_INR; lia].
Qed.

Lemma exp_term_1 x : exp_term x 1 = x.
Proof. unfold exp_term. change (Z.to_nat 1) with 1%nat. cbn [fact pow Nat.mul Nat.add]. cbn [INR]. field. Qed.

Lemma exp_part_1 x : exp_part x 1 = 1.
Proof. unfold exp_part. change (Z.to_nat 1 - 1)%nat with 0%nat. cbn. field. Qed.

Lemma exp_part_step x n : (1 <= n)%Z -> exp_part x (n + 1) = exp_part x n + exp_term x n.
Proof.
  intro H. unfold exp_part, exp_term. replace (Z.to_nat (n + 1) - 1)%nat with (S (Z.to_nat n - 1)) by lia.
  rewrite tech5. replace (S (Z.to_nat n - 1)) with (Z.to_nat n) by lia. reflexivity.
Qed.

Lemma exp_term_ratio x n : (1 <= n)%Z -> Rabs (exp_term x (n + 1)) <= Rabs (exp_term x n) * Rabs x / 2.
Proof.
  intro H. rewrite exp_term_step by lia. replace (n + 1 - 1)%Z with n by ring. unfold Rdiv. rewrite !Rabs_mult.
  rewrite !Rmult_assoc. apply Rmult_le_compat_l; [apply Rabs_pos|]. apply Rmult_le_compat_l; [apply Rabs_pos|].
  assert (2 <= IZR (n + 1)) by (apply IZR_le; lia). rewrite Rabs_pos_eq by (left; apply Rinv_0_lt_compat; lra). apply Rinv_le_contravar; lra.
Qed.

Lemma exp_term_nonzero x n : x <> 0 -> exp_term x n <> 0.
Proof. intro N. unfold exp_term. apply Rmult_integral_contrapositive. split; [apply Rinv_neq_0_compat, INR_fact_neq_0|apply pow_nonzero; exact N]. Qed.

Lemma exp_remainder x n : (1 <= n)%Z -> Rabs x <= 1 -> Rabs (exp x - exp_part x n) <= 2 * Rabs (exp_term x n).
Proof.
  intros H Hx. apply (remainder _ (exp x) (Z.to_nat n) (exp_series x)); [lia|].
  intros k Hk. pose proof (exp_term_ratio x (Z.of_nat k) ltac:(lia)) as R. unfold exp_term in R.
  replace (Z.to_nat (Z.of_nat k + 1)) with (S k) in R by lia. rewrite Nat2Z.id in R.
  pose proof (Rabs_pos (/ INR (fact k) * x ^ k)). nra.
Qed.

(** Bounds for the exponential function near zero. *)
Lemma exp_near_0 x : Rabs x <= 1 -> Rabs (exp x - 1) <= 2 * Rabs x.
Proof. intro H. pose proof (exp_remainder x 1 ltac:(lia) H) as R. rewrite exp_part_1, exp_term_1 in R. exact R. Qed.

Lemma exp_term_2 x : exp_term x 2 = x ^ 2 / 2. Proof. rewrite (exp_term_step x 2) by lia. change (2-1)%Z with 1%Z. rewrite exp_term_1. field. Qed.
Lemma exp_term_3 x : exp_term x 3 = x ^ 3 / 6. Proof. rewrite (exp_term_step x 3) by lia. change (3-1)%Z with 2%Z. rewrite exp_term_2. field. Qed.
Lemma exp_term_4 x : exp_term x 4 = x ^ 4 / 24. Proof. rewrite (exp_term_step x 4) by lia. change (4-1)%Z with 3%Z. rewrite exp_term_3. field. Qed.
Lemma exp_term_5 x : exp_term x 5 = x ^ 5 / 120. Proof. rewrite (exp_term_step x 5) by lia. change (5-1)%Z with 4%Z. rewrite exp_term_4. field. Qed.
Lemma exp_part_5 x : exp_part x 5 = 1 + x + x ^ 2 / 2 + x ^ 3 / 6 + x ^ 4 / 24.
Proof. change 5%Z with (4 + 1)%Z. rewrite exp_part_step by lia. change 4%Z with (3 + 1)%Z at 1. rewrite exp_part_step by lia. change 3%Z with (2 + 1)%Z at 1. rewrite exp_part_step by lia.
 change 2%Z with (1 + 1)%Z at 1. rewrite exp_part_step, exp_part_1, exp_term_1, exp_term_2, exp_term_3, exp_term_4 by lia. field. Qed.
Lemma ln2_bounds : 69 / 100 < ln 2 < 70 / 100.
Proof.
  split; apply exp_lt_inv; rewrite exp_ln by lra.
  - pose proof (exp_remainder (69 / 100) 5 ltac:(lia) ltac:(rewrite Rabs_pos_eq; lra)) as R. rewrite exp_part_5, exp_term_5 in R.
    rewrite (Rabs_pos_eq ((69 / 100) ^ 5 / 120)) in R by (apply Rmult_le_pos; [apply pow_le; lra|lra]).
    revert R. unfold Rabs. destruct (Rcase_abs _); cbn [pow]; lra.
  - pose proof (exp_remainder (70 / 100) 5 ltac:(lia) ltac:(rewrite Rabs_pos_eq; lra)) as R. rewrite exp_part_5, exp_term_5 in R.
    rewrite (Rabs_pos_eq ((70 / 100) ^ 5 / 120)) in R by (apply Rmult_le_pos; [apply pow_le; lra|lra]).
    revert R. unfold Rabs. destruct (Rcase_abs _); cbn [pow]; lra.
Qed.
