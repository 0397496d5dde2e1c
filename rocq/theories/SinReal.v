(** * Power series of sine and cosine, and their inequalities (proofs only) *)

From Coq Require Import ZArith Reals Lra Lia Psatz.
From Verif Require Import ExpReal.
Open Scope R_scope.

(** The terms of the series 0F1(; b; z) = sum of z^n / (n! (b)_n). *)
Fixpoint ftn (b z : R) (n : nat) : R :=
  match n with O => 1 | S k => ftn b z k * z / (INR (S k) * (b + INR k)) end.

Lemma cos_n_step n : cos_n (S n) = cos_n n * (- 1) / ((2 * INR n + 1) * (2 * INR n + 2)).
Proof.
  unfold cos_n. replace (2 * S n)%nat with (S (S (2 * n))) by lia. rewrite !fact_simpl, !mult_INR, !S_INR, mult_INR. cbn [INR pow].
  pose proof (pos_INR n). field. repeat split; first [lra|apply INR_fact_neq_0].
Qed.

Lemma sin_n_step n : sin_n (S n) = sin_n n * (- 1) / ((2 * INR n + 2) * (2 * INR n + 3)).
Proof.
  unfold sin_n. replace (2 * S n + 1)%nat with (S (S (2 * n + 1))) by lia. rewrite !fact_simpl, !mult_INR, !S_INR, plus_INR, mult_INR. cbn [INR pow].
  pose proof (pos_INR n). field. repeat split; first [lra|apply INR_fact_neq_0].
Qed.

Lemma ftn_cos x n : cos_n n * (Rsqr x) ^ n = ftn (/ 2) (- (x * x) / 4) n.
Proof.
  induction n as [|n IH].
  - unfold cos_n. cbn. field.
  - rewrite cos_n_step. cbn [ftn pow]. rewrite <- IH, S_INR. unfold Rsqr. pose proof (pos_INR n). field. lra.
Qed.

Lemma ftn_sin x n : sin_n n * (Rsqr x) ^ n = ftn (3 / 2) (- (x * x) / 4) n.
Proof.
  induction n as [|n IH].
  - unfold sin_n. cbn. field.
  - rewrite sin_n_step. cbn [ftn pow]. rewrite <- IH, S_INR. unfold Rsqr. pose proof (pos_INR n). field. lra.
Qed.

Lemma infinite_sum_ext U V l : (forall n, U n = V n) -> infinite_sum U l -> infinite_sum V l.
Proof.
  intros E H e He. destruct (H e He) as [N HN]. exists N. intros n Hn. specialize (HN n Hn).
  replace (sum_f_R0 V n) with (sum_f_R0 U n) by (apply sum_eq; intros; apply E). exact HN.
Qed.

Lemma cos_series x : infinite_sum (ftn (/ 2) (- (x * x) / 4)) (cos x).
Proof.
  unfold cos. destruct (exist_cos (Rsqr x)) as [l Hl]. apply (infinite_sum_ext (fun i => cos_n i * (Rsqr x) ^ i)); [apply ftn_cos|exact Hl].
Qed.

Lemma sin_series x : exists l, infinite_sum (ftn (3 / 2) (- (x * x) / 4)) l /\ sin x = x * l.
Proof.
  unfold sin. destruct (exist_sin (Rsqr x)) as [l Hl]. exists l. split; [|reflexivity].
  apply (infinite_sum_ext (fun i => sin_n i * (Rsqr x) ^ i)); [apply ftn_sin|exact Hl].
Qed.

(** The n-th term and the sum of the first n terms. *)
Definition f_term (b z : R) (n : Z) : R := ftn b z (Z.to_nat n).
Definition f_part (b z : R) (n : Z) : R := sum_f_R0 (ftn b z) (Z.to_nat n - 1).

Lemma f_term_step b z n : (1 <= n)%Z -> f_term b z n = f_term b z (n - 1) * z / (IZR n * (b + IZR (n - 1))).
Proof.
  intro H. unfold f_term. replace (Z.to_nat n) with (S (Z.to_nat (n - 1))) by lia. cbn [ftn].
  rewrite !INR_IZR_INZ. replace (Z.of_nat (S (Z.to_nat (n - 1)))) with n by lia. replace (Z.of_nat (Z.to_nat (n - 1))) with (n - 1)%Z by lia. reflexivity.
Qed.

Lemma f_term_1 b z : f_term b z 1 = z / b.
Proof. unfold f_term. change (Z.to_nat 1) with 1%nat. cbn [ftn INR]. f_equal; [ring|]. f_equal. ring. Qed.

Lemma f_part_1 b z : f_part b z 1 = 1.
Proof. reflexivity. Qed.

Lemma f_part_step b z n : (1 <= n)%Z -> f_part b z (n + 1) = f_part b z n + f_term b z n.
Proof.
  intro H. unfold f_part, f_term. replace (Z.to_nat (n + 1) - 1)%nat with (S (Z.to_nat n - 1)) by lia.
  rewrite tech5. replace (S (Z.to_nat n - 1)) with (Z.to_nat n) by lia. reflexivity.
Qed.

Lemma f_term_ratio b z n : / 2 <= b -> (1 <= n)%Z -> Rabs (f_term b z (n + 1)) <= Rabs (f_term b z n) * (Rabs z / 2).
Proof.
  intros Hb H. rewrite f_term_step by lia. replace (n + 1 - 1)%Z with n by ring. unfold Rdiv. rewrite !Rabs_mult, Rmult_assoc.
  apply Rmult_le_compat_l; [apply Rabs_pos|]. apply Rmult_le_compat_l; [apply Rabs_pos|].
  assert (1 <= IZR n) by (apply IZR_le; lia). rewrite plus_IZR. assert (2 <= (IZR n + 1) * (b + IZR n)) by nra.
  rewrite Rabs_pos_eq by (left; apply Rinv_0_lt_compat; lra). apply Rinv_le_contravar; lra.
Qed.

Lemma ftn_nonzero b z n : / 2 <= b -> z <> 0 -> ftn b z n <> 0.
Proof.
  intros Hb N. induction n as [|n IH]; cbn [ftn]; [lra|]. pose proof (pos_INR n). pose proof (S_INR n).
  apply Rmult_integral_contrapositive. split; [apply Rmult_integral_contrapositive; auto|]. apply Rinv_neq_0_compat.
  apply Rmult_integral_contrapositive; lra.
Qed.

Lemma f_term_nonzero b z n : / 2 <= b -> z <> 0 -> f_term b z n <> 0.
Proof. intros. apply ftn_nonzero; auto. Qed.

Lemma f_remainder b z l n : / 2 <= b -> infinite_sum (ftn b z) l -> (1 <= n)%Z -> Rabs z <= 1 -> Rabs (l - f_part b z n) <= 2 * Rabs (f_term b z n).
Proof.
  intros Hb Hl H Hz. apply (remainder _ l (Z.to_nat n) Hl); [lia|].
  intros k Hk. pose proof (f_term_ratio b z (Z.of_nat k) Hb ltac:(lia)) as R. unfold f_term in R.
  replace (Z.to_nat (Z.of_nat k + 1)) with (S k) in R by lia. rewrite Nat2Z.id in R.
  pose proof (Rabs_pos (ftn b z k)). nra.
Qed.

(** ** Inequalities *)

Lemma sin_le x : Rabs (sin x) <= Rabs x.
Proof.
  destruct (Rtotal_order x 0) as [H|[->|H]].
  - rewrite (Rabs_left x) by exact H. rewrite <- (Rabs_Ropp (sin x)), <- sin_neg. destruct (Rle_dec (- x) 1) as [L|L].
    + rewrite Rabs_pos_eq; [left; apply sin_lt_x; lra|]. left. apply sin_gt_0; [lra|]. pose proof PI_RGT_0. pose proof PI2_1. lra.
    + pose proof (SIN_bound (- x)). apply Rabs_le. lra.
  - rewrite sin_0, Rabs_R0. lra.
  - rewrite (Rabs_pos_eq x) by lra. destruct (Rle_dec x 1) as [L|L].
    + rewrite Rabs_pos_eq; [left; apply sin_lt_x; lra|]. left. apply sin_gt_0; [lra|]. pose proof PI_RGT_0. pose proof PI2_1. lra.
    + pose proof (SIN_bound x). apply Rabs_le. lra.
Qed.

Lemma sin_lipschitz a b : Rabs (sin a - sin b) <= Rabs (a - b).
Proof.
  rewrite form4, !Rabs_mult, (Rabs_pos_eq 2) by lra. pose proof (sin_le ((a - b) / 2)) as S. unfold Rdiv in S at 2. rewrite Rabs_mult, (Rabs_pos_eq (/ 2)) in S by lra.
  assert (C : Rabs (cos ((a + b) / 2)) <= 1) by (apply Rabs_le; pose proof (COS_bound ((a + b) / 2)); lra).
  pose proof (Rabs_pos (sin ((a - b) / 2))). pose proof (Rabs_pos (cos ((a + b) / 2))). nra.
Qed.

Lemma cos_lipschitz a b : Rabs (cos a - cos b) <= Rabs (a - b).
Proof. rewrite !cos_sin. eapply Rle_trans; [apply sin_lipschitz|]. right. f_equal. ring. Qed.

Lemma sin_3 t : sin (3 * t) = 3 * sin t - 4 * sin t ^ 3.
Proof.
  replace (3 * t) with (2 * t + t) by ring. rewrite sin_plus, sin_2a, cos_2a. pose proof (sin2_cos2 t) as P. unfold Rsqr in P.
  replace (cos t * cos t) with (1 - sin t * sin t) by lra. replace (2 * sin t * cos t * cos t) with (2 * sin t * (cos t * cos t)) by ring.
  replace (cos t * cos t) with (1 - sin t * sin t) by lra. ring.
Qed.

Lemma cos_3 t : cos (3 * t) = 4 * cos t ^ 3 - 3 * cos t.
Proof.
  replace (3 * t) with (2 * t + t) by ring. rewrite cos_plus, sin_2a, cos_2a. pose proof (sin2_cos2 t) as P. unfold Rsqr in P.
  replace (2 * sin t * cos t * sin t) with (2 * cos t * (sin t * sin t)) by ring.
  replace (sin t * sin t) with (1 - cos t * cos t) by lra. ring.
Qed.

(** Multiples of pi. *)
Lemma sin_shift x k : sin (x + IZR (2 * k) * PI) = sin x /\ sin (x + IZR (2 * k + 1) * PI) = - sin x.
Proof.
  assert (E : forall y, sin (y + IZR (2 * k) * PI) = sin y).
  { intro y. destruct (Z_le_gt_dec 0 k) as [H|H].
    - replace (y + IZR (2 * k) * PI) with (y + 2 * INR (Z.to_nat k) * PI); [apply sin_period|]. rewrite INR_IZR_INZ, Z2Nat.id, mult_IZR by lia. ring.
    - rewrite <- (sin_period (y + IZR (2 * k) * PI) (Z.to_nat (- k))). f_equal. rewrite INR_IZR_INZ, Z2Nat.id, mult_IZR, opp_IZR by lia. ring. }
  split; [apply E|]. rewrite plus_IZR. replace (x + (IZR (2 * k) + 1) * PI) with ((x + PI) + IZR (2 * k) * PI) by ring. rewrite E, neg_sin. reflexivity.
Qed.

Lemma cos_shift x k : cos (x + IZR (2 * k) * PI) = cos x /\ cos (x + IZR (2 * k + 1) * PI) = - cos x.
Proof.
  rewrite !cos_sin. destruct (sin_shift (PI / 2 + x) k) as [A B]. split; [rewrite <- A|rewrite <- B]; f_equal; ring.
Qed.
