(** * Real-number meaning of limb lists (proofs only). *)

From Coq Require Import ZArith List Bool Lia Reals Lra Psatz.
From Verif Require Import Model Spec Limbs.
Import ListNotations.
Open Scope R_scope.

Ltac Zify.zify_post_hook ::= Z.div_mod_to_equations.

Notation p10 := (powerRZ 10).

Lemma p10_pos e : 0 < p10 e.
Proof. apply powerRZ_lt. lra. Qed.

Lemma p10_neq0 e : p10 e <> 0.
Proof. pose proof (p10_pos e). lra. Qed.

Lemma p10_add a b : p10 (a + b) = p10 a * p10 b.
Proof. apply powerRZ_add. lra. Qed.

Lemma p10_0 : p10 0 = 1. Proof. reflexivity. Qed.

Lemma p10_nat n : p10 (Z.of_nat n) = IZR (10 ^ Z.of_nat n).
Proof.
  rewrite <- pow_powerRZ, pow_IZR. reflexivity.
Qed.

Lemma p10_nonneg e : (0 <= e)%Z -> p10 e = IZR (10 ^ e).
Proof. intro. rewrite <- (Z2Nat.id e) by auto. apply p10_nat. Qed.

Lemma p10_inv e : p10 (- e) = / p10 e.
Proof.
  apply (Rmult_eq_reg_r (p10 e)); [|apply p10_neq0].
  rewrite <- p10_add. replace (- e + e)%Z with 0%Z by lia. rewrite p10_0.
  field. apply p10_neq0.
Qed.

Lemma p10_ge1 e : (0 <= e)%Z -> 1 <= p10 e.
Proof.
  intro. rewrite p10_nonneg by auto. apply IZR_le.
  pose proof (Z.pow_pos_nonneg 10 e). lia.
Qed.

Lemma p10_le a b : (a <= b)%Z -> p10 a <= p10 b.
Proof.
  intro H. replace b with (a + (b - a))%Z by lia. rewrite p10_add.
  pose proof (p10_pos a). pose proof (p10_ge1 (b - a) ltac:(lia)). nra.
Qed.

Lemma p10_lt a b : (a < b)%Z -> p10 a < p10 b.
Proof.
  intro H. replace b with (a + 1 + (b - a - 1))%Z by lia. rewrite !p10_add.
  pose proof (p10_pos a). pose proof (p10_ge1 (b - a - 1) ltac:(lia)).
  change (p10 1) with (10 * 1). nra.
Qed.

Lemma p10_Bp n : p10 (8 * Z.of_nat n) = IZR (Bp n).
Proof.
  rewrite p10_nonneg by lia. f_equal. rewrite Z.pow_mul_r by lia.
  change (10 ^ 8)%Z with mask. Transparent Bp. unfold Bp. reflexivity. Opaque Bp.
Qed.

Lemma limbs_value_mv l e :
  limbs_value l e = IZR (mv l) * p10 (e - 8 * (Z.of_nat (length l) - 1)).
Proof.
  revert e; induction l as [|d l IH]; intro e.
  - simpl. rewrite Rmult_0_l. reflexivity.
  - cbn [limbs_value]. rewrite IH, mv_cons. cbn [length].
    rewrite plus_IZR, mult_IZR, <- p10_Bp.
    replace (e - 8 * (Z.of_nat (S (length l)) - 1))%Z with (e - 8 * Z.of_nat (length l))%Z by lia.
    replace (e - 8 - 8 * (Z.of_nat (length l) - 1))%Z with (e - 8 * Z.of_nat (length l))%Z by lia.
    rewrite Rmult_plus_distr_r, Rmult_assoc, <- p10_add.
    do 3 f_equal. lia.
Qed.

(** Signed integer mantissa *)
Definition sv (x : ef) : Z := if neg x then (- mv (data x))%Z else mv (data x).

Lemma ulp_pos d e : 0 < ulp d e.
Proof. apply p10_pos. Qed.

Lemma value_sv d x : Z.of_nat (length (data x)) = elem_number d ->
  value x = IZR (sv x) * ulp d (exp x).
Proof.
  intro H. unfold value, ulp, sv. rewrite limbs_value_mv, H.
  unfold sign. destruct (neg x); rewrite ?opp_IZR; ring.
Qed.

Lemma value_abs_mv d x : Z.of_nat (length (data x)) = elem_number d -> limbs (data x) ->
  Rabs (value x) = IZR (mv (data x)) * ulp d (exp x).
Proof.
  intros H Hl. rewrite (value_sv d x H). rewrite Rabs_mult.
  rewrite (Rabs_pos_eq (ulp _ _)) by (apply Rlt_le, ulp_pos). f_equal.
  pose proof (mv_bound _ Hl). unfold sv. destruct (neg x).
  - rewrite opp_IZR, Rabs_Ropp. apply Rabs_pos_eq, IZR_le; lia.
  - apply Rabs_pos_eq, IZR_le; lia.
Qed.

(** elem_number *)
Lemma elem_number_bounds d : valid_digits d ->
  (7 <= elem_number d <= 134217733)%Z.
Proof. unfold valid_digits, elem_number, max_digits10. destruct (Z.eqb_spec ((d + 1) mod 8) 0); lia. Qed.

Lemma elem_number_digits d : valid_digits d ->
  (d + 25 <= 8 * elem_number d <= d + 32)%Z.
Proof. unfold valid_digits, elem_number, max_digits10. destruct (Z.eqb_spec ((d + 1) mod 8) 0); lia. Qed.

Lemma Nn_len d x : valid_digits d -> wf d x -> length (data x) = Nn d.
Proof.
  intros Hd H. unfold Nn, N. rewrite <- (wf_length _ _ H), Nat2Z.id. reflexivity.
Qed.

Lemma Nn_Z d : valid_digits d -> Z.of_nat (Nn d) = elem_number d.
Proof. intro H. unfold Nn, N. apply Z2Nat.id. pose proof (elem_number_bounds d H). lia. Qed.

Lemma Nn_ge7 d : valid_digits d -> (7 <= Nn d)%nat.
Proof. intro H. pose proof (elem_number_bounds d H). pose proof (Nn_Z d H). lia. Qed.

(** [Bp] of the full length times the ulp *)
Lemma ulp_Bp d e k : (k <= elem_number d)%Z -> (0 <= k)%Z ->
  IZR (Bp (Z.to_nat (elem_number d - k))) * ulp d e = p10 (e + 8 - 8 * k).
Proof.
  intros H Hk. rewrite <- p10_Bp. unfold ulp. rewrite <- p10_add. f_equal. lia.
Qed.

(** iszero *)
Lemma iszero_true x : cls x = Finite -> (iszero x = true <-> limb (data x) 0 = 0%Z).
Proof.
  intro H. unfold iszero, isfinite. rewrite H. simpl. apply Z.eqb_eq.
Qed.

Lemma iszero_false x : cls x = Finite -> (iszero x = false <-> limb (data x) 0 <> 0%Z).
Proof.
  intro H. unfold iszero, isfinite. rewrite H. simpl. apply Z.eqb_neq.
Qed.

Lemma finite_zero_value d x : finite d x -> limb (data x) 0 = 0%Z -> value x = 0.
Proof.
  intros [Hw Hc] H0. destruct (wf_zero _ _ Hw Hc H0) as [Hz _].
  unfold value. rewrite limbs_value_mv, mv_zeros by auto. ring.
Qed.

Lemma finite_mv_pos d x : valid_digits d -> finite d x -> limb (data x) 0 <> 0%Z ->
  (Bp (Nn d - 1) <= mv (data x) < Bp (Nn d))%Z.
Proof.
  intros Hd [Hw Hc] H0. pose proof (Nn_len d x Hd Hw) as Hlen. pose proof (Nn_ge7 d Hd).
  rewrite <- Hlen. split.
  - apply mv_ge_lead; auto. apply (wf_limbs _ _ Hw). intro E; rewrite E in Hlen; simpl in Hlen; lia.
  - apply mv_bound, (wf_limbs _ _ Hw).
Qed.

Lemma finite_abs_bounds d x : valid_digits d -> finite d x -> limb (data x) 0 <> 0%Z ->
  p10 (exp x) <= Rabs (value x) < p10 (exp x + 8).
Proof.
  intros Hd Hf H0. pose proof (finite_mv_pos d x Hd Hf H0) as [H1 H2].
  destruct Hf as [Hw Hc].
  rewrite (value_abs_mv d) by (apply Hw). pose proof (ulp_pos d (exp x)) as Hu.
  pose proof (elem_number_bounds d Hd).
  pose proof (ulp_Bp d (exp x) 1 ltac:(lia) ltac:(lia)) as E1.
  pose proof (ulp_Bp d (exp x) 0 ltac:(lia) ltac:(lia)) as E0.
  replace (exp x + 8 - 8 * 1)%Z with (exp x) in E1 by lia.
  replace (exp x + 8 - 8 * 0)%Z with (exp x + 8)%Z in E0 by lia.
  replace (Z.to_nat (elem_number d - 1)) with (Nn d - 1)%nat in E1 by (unfold Nn, N; lia).
  replace (Z.to_nat (elem_number d - 0)) with (Nn d) in E0 by (unfold Nn, N; f_equal; lia).
  rewrite <- E1, <- E0.
  apply IZR_le in H1. apply IZR_lt in H2. split.
  - apply Rmult_le_compat_r; lra.
  - apply Rmult_lt_compat_r; lra.
Qed.

Lemma finite_value_sign d x : valid_digits d -> finite d x -> limb (data x) 0 <> 0%Z ->
  if neg x then value x < 0 else 0 < value x.
Proof.
  intros Hd Hf H0. pose proof (finite_mv_pos d x Hd Hf H0) as [H1 H2].
  destruct Hf as [Hw Hc]. rewrite (value_sv d) by apply Hw.
  pose proof (ulp_pos d (exp x)) as Hu. pose proof (Bp_pos (Nn d - 1)).
  assert (0 < IZR (mv (data x))) by (apply IZR_lt; lia).
  unfold sv. destruct (neg x); rewrite ?opp_IZR; nra.
Qed.

Lemma finite_zero_iff d x : valid_digits d -> finite d x ->
  (limb (data x) 0 = 0%Z <-> value x = 0).
Proof.
  intros Hd Hf. split.
  - apply (finite_zero_value d); auto.
  - intro H. destruct (Z.eq_dec (limb (data x) 0) 0) as [|H0]; auto.
    pose proof (finite_value_sign d x Hd Hf H0). destruct (neg x); lra.
Qed.

Global Opaque powerRZ.
