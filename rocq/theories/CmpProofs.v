(** * cmp is the order of the represented numbers (proofs only). *)

From Coq Require Import ZArith List Bool Lia Reals Lra Psatz.
From Verif Require Import Model Spec Limbs Value.
Import ListNotations.
Open Scope R_scope.

Ltac Zify.zify_post_hook ::= Z.div_mod_to_equations.

(** cmp returns the sign of the difference *)
Lemma cmp_spec d x y : valid_digits d -> finite d x -> finite d y ->
  (cmp x y = 1%Z /\ value y < value x) \/
  (cmp x y = 0%Z /\ value x = value y) \/
  (cmp x y = (-1)%Z /\ value x < value y).
Proof.
  intros Hd Hx Hy. unfold cmp.
  pose proof (proj2 Hx) as Cx. pose proof (proj2 Hy) as Cy.
  replace (isfinite x) with true by (unfold isfinite; rewrite Cx; auto).
  replace (isfinite y) with true by (unfold isfinite; rewrite Cy; auto).
  simpl negb. cbv beta iota. simpl orb. cbv iota.
  destruct (iszero x) eqn:Zx; [rewrite iszero_true in Zx by auto | rewrite iszero_false in Zx by auto];
  (destruct (iszero y) eqn:Zy; [rewrite iszero_true in Zy by auto | rewrite iszero_false in Zy by auto]).
  - right; left. rewrite (finite_zero_value d x), (finite_zero_value d y) by auto. auto.
  - rewrite (finite_zero_value d x) by auto.
    pose proof (finite_value_sign d y Hd Hy Zy). destruct (neg y); auto.
  - rewrite (finite_zero_value d y) by auto.
    pose proof (finite_value_sign d x Hd Hx Zx). destruct (neg x); auto.
  - pose proof (finite_value_sign d x Hd Hx Zx) as Sx.
    pose proof (finite_value_sign d y Hd Hy Zy) as Sy.
    pose proof (finite_abs_bounds d x Hd Hx Zx) as Bx.
    pose proof (finite_abs_bounds d y Hd Hy Zy) as By.
    destruct (Z.eqb_spec (exp x) (exp y)) as [E|E].
    + simpl negb. cbv iota.
      pose proof (wf_length _ _ (proj1 Hx)) as Lx. pose proof (wf_length _ _ (proj1 Hy)) as Ly.
      rewrite (cmp_data_spec (data x) (data y)).
      2: apply (proj1 Hx). 2: apply (proj1 Hy).
      2: { apply Nat2Z.inj. rewrite Lx, Ly. reflexivity. }
      pose proof (value_sv d x Lx) as Vx. pose proof (value_sv d y Ly) as Vy.
      rewrite <- E in Vy. pose proof (ulp_pos d (exp x)) as Hu.
      unfold sv in Vx, Vy.
      destruct (neg x), (neg y); simpl Bool.eqb; simpl negb; cbv iota.
      * rewrite opp_IZR in Vx, Vy.
        destruct (Z.compare_spec (mv (data x)) (mv (data y))) as [C|C|C].
        -- right; left. rewrite Vx, Vy, C. auto.
        -- left. split; auto. apply IZR_lt in C. rewrite Vx, Vy. nra.
        -- right; right. split; auto. apply IZR_lt in C. rewrite Vx, Vy. nra.
      * right; right. split; auto. lra.
      * left. split; auto. lra.
      * destruct (Z.compare_spec (mv (data x)) (mv (data y))) as [C|C|C].
        -- right; left. rewrite Vx, Vy, C. auto.
        -- right; right. split; auto. apply IZR_lt in C. rewrite Vx, Vy. nra.
        -- left. split; auto. apply IZR_lt in C. rewrite Vx, Vy. nra.
    + simpl negb. cbv iota.
      destruct (neg x), (neg y); simpl Bool.eqb; simpl negb; cbv iota.
      * rewrite Rabs_left in Bx, By by lra. destruct (Z.ltb_spec (exp x) (exp y)) as [C|C].
        -- left; split; auto. pose proof (p10_le (exp x + 8) (exp y)).
           pose proof (wf_exp _ _ (proj1 Hx)). pose proof (wf_exp _ _ (proj1 Hy)).
           assert (exp x + 8 <= exp y)%Z by lia. specialize (H H2). lra.
        -- right; right; split; auto. pose proof (p10_le (exp y + 8) (exp x)).
           pose proof (wf_exp _ _ (proj1 Hx)). pose proof (wf_exp _ _ (proj1 Hy)).
           assert (exp y + 8 <= exp x)%Z by lia. specialize (H H2). lra.
      * right; right. split; auto. lra.
      * left. split; auto. lra.
      * rewrite Rabs_right in Bx, By by lra. destruct (Z.ltb_spec (exp x) (exp y)) as [C|C].
        -- right; right; split; auto. pose proof (p10_le (exp x + 8) (exp y)).
           pose proof (wf_exp _ _ (proj1 Hx)). pose proof (wf_exp _ _ (proj1 Hy)).
           assert (exp x + 8 <= exp y)%Z by lia. specialize (H H2). lra.
        -- left; split; auto. pose proof (p10_le (exp y + 8) (exp x)).
           pose proof (wf_exp _ _ (proj1 Hx)). pose proof (wf_exp _ _ (proj1 Hy)).
           assert (exp y + 8 <= exp x)%Z by lia. specialize (H H2). lra.
Qed.

Lemma op_gt_spec d x y : valid_digits d -> finite d x -> finite d y ->
  (op_gt x y = true <-> value x > value y).
Proof.
  intros Hd Hx Hy. unfold op_gt. destruct (cmp_spec d x y Hd Hx Hy) as [[-> H]|[[-> H]|[-> H]]];
  simpl; split; intro; try reflexivity; try discriminate; lra.
Qed.

Lemma cmp_all_ops d x y : valid_digits d -> finite d x -> finite d y ->
  (op_lt x y = true <-> value x < value y) /\
  (op_le x y = true <-> value x <= value y) /\
  (op_eq x y = true <-> value x = value y) /\
  (op_ne x y = true <-> value x <> value y) /\
  (op_ge x y = true <-> value x >= value y) /\
  (op_gt x y = true <-> value x > value y).
Proof.
  intros Hd Hx Hy. unfold op_lt, op_le, op_eq, op_ne, op_ge, op_gt.
  destruct (cmp_spec d x y Hd Hx Hy) as [[-> H]|[[-> H]|[-> H]]];
  simpl; repeat split; intros; try reflexivity; try discriminate; lra.
Qed.

(** Equal numbers with non-zero value have the same representation. *)
Lemma value_inj d x y : valid_digits d -> finite d x -> finite d y ->
  value x <> 0 -> value x = value y ->
  data x = data y /\ exp x = exp y /\ neg x = neg y.
Proof.
  intros Hd Hx Hy H0 H.
  assert (Zx : limb (data x) 0 <> 0%Z).
  { intro E. apply H0. apply (finite_zero_value d); auto. }
  assert (Zy : limb (data y) 0 <> 0%Z).
  { intro E. apply H0. rewrite H. apply (finite_zero_value d); auto. }
  pose proof (finite_abs_bounds d x Hd Hx Zx) as Bx.
  pose proof (finite_abs_bounds d y Hd Hy Zy) as By. rewrite <- H in By.
  pose proof (wf_exp _ _ (proj1 Hx)). pose proof (wf_exp _ _ (proj1 Hy)).
  assert (E : exp x = exp y).
  { destruct (Z.lt_trichotomy (exp x) (exp y)) as [C|[C|C]]; auto.
    - pose proof (p10_le (exp x + 8) (exp y) ltac:(lia)). lra.
    - pose proof (p10_le (exp y + 8) (exp x) ltac:(lia)). lra. }
  assert (Sg : neg x = neg y).
  { pose proof (finite_value_sign d x Hd Hx Zx). pose proof (finite_value_sign d y Hd Hy Zy).
    destruct (neg x), (neg y); auto; lra. }
  split; [|auto].
  pose proof (wf_length _ _ (proj1 Hx)) as Lx. pose proof (wf_length _ _ (proj1 Hy)) as Ly.
  apply mv_inj; try apply (proj1 Hx); try apply (proj1 Hy).
  - lia.
  - pose proof (value_sv d x Lx) as Vx. pose proof (value_sv d y Ly) as Vy.
    rewrite H, Vy, <- E in Vx. apply Rmult_eq_reg_r in Vx; [|pose proof (ulp_pos d (exp x)); lra].
    apply eq_IZR in Vx. unfold sv in Vx. rewrite Sg in Vx. destruct (neg y); lia.
Qed.
