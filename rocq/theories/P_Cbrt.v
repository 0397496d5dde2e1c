(** * C80: cube roots

    cbrt(x) = rootn(x, 3) and rootn_inverse(x, 3) by Newton's method for the
    reciprocal root, each step at twice the precision of the one before. *)

From Coq Require Import ZArith List Bool Lia Reals Lra.
From Verif Require Import Model Spec Value Decide MulCor OrderProofs CmpProofs ModelDiv ModelPow ModelElem NewtonProofs InvProofs CbrtProofs SeriesFloat LdexpProofs ElemSpecial.
From Verif Require LogSer.
Import ListNotations.
Open Scope R_scope.

(* the double precision estimate of 1 / c is right to about 13 digits *)
Definition root_estimate (d : Z) (env : env) (x : ef) (c : R) : Prop :=
  let e := est_rootn_inv env x 3 in finite d e /\ Rabs (value e * c - 1) <= powerRZ 10 (-13).

Lemma estimate_cube d env x c : 0 < c -> c * c * c = value x -> root_estimate d env x c ->
  let e := est_rootn_inv env x 3 in finite d e /\ 0 < value e /\ Rabs (1 - value e * value e * value e * value x) <= powerRZ 10 (-12).
Proof.
  intros C Ec [F E] e. fold e in F, E. split; [exact F|]. set (v := value e) in *.
  change (-13)%Z with (- (13))%Z in E. change (-12)%Z with (- (12))%Z. p10num H13 13%nat. p10num H12 12%nat. rewrite H13 in E. rewrite H12. cbn [Rpow_def.pow] in *.
  apply Rabs_le_inv in E. set (g := v * c - 1) in *.
  split. { apply Rmult_lt_reg_r with c; [exact C|]. unfold g in E. lra. }
  rewrite <- Ec. replace (1 - v * v * v * (c * c * c)) with (- (3 * g + 3 * (g * g) + g * (g * g))) by (unfold g; ring). rewrite Rabs_Ropp.
  assert (G2 : 0 <= g * g <= / 1000 * / 10000000000000) by nra. assert (G3 : - (/ 10000000000000) <= g * (g * g) <= / 10000000000000) by nra. apply Rabs_le. lra.
Qed.

(** C80: cbrt(x) for every x > 0 between 10^-2000000000 and 10^2000000000, up to
    4967 digits, whenever the double precision estimate of 1/cbrt(x) is right to
    13 digits.  Missing: the remaining decades, other roots, larger precisions. *)
Theorem C80_cbrt_partial :
  forall d env x c, valid_digits d -> (d <= 4967)%Z -> finite d x -> full d x ->
  powerRZ 10 (-2000000000) <= value x <= powerRZ 10 2000000000 ->
  0 < c -> c * c * c = value x -> root_estimate d env x c ->
  exists r, rootn d env x 3 = Defined r /\ finite d r /\ Rabs (value r - c) <= powerRZ 10 (- (d + 1)) * c.
Proof.
  intros d env x c Hd D F P B C Ec Es. destruct (estimate_cube d env x c C Ec Es) as (Fe & Ve & He).
  destruct (rootn_inv_cube d env x Hd D F P B Fe Ve He) as (s & E & Fs & Vs & Hs).
  assert (K : powerRZ 10 (- (d + 2)) <= / 1000). { apply Rle_trans with (powerRZ 10 (- (3))); [apply p10_le; destruct Hd; lia|]. rewrite p10_inv, p10_nonneg by lia. change (10 ^ 3)%Z with 1000%Z. lra. }
  pose proof (p10_pos (- (d + 2))) as K0.
  pose proof (cube_range d s (value x) Hd Fs Vs B ltac:(lra)) as R.
  destruct (inv_accurate d s Hd ltac:(lia) Fs R) as (Fi & Pi & _ & Hi & _). specialize (Hi D).
  assert (X0 : 0 < value x) by (rewrite <- Ec; apply Rmult_lt_0_compat; [apply Rmult_lt_0_compat|]; lra).
  exists (inv d s). split.
  { unfold rootn. assert (isfinite x = true) as -> by (unfold isfinite; rewrite (proj2 F); reflexivity). cbn [negb].
    change (3 <? 0)%Z with false. change (3 =? 0)%Z with false. change (3 =? 1)%Z with false. change (3 =? 2)%Z with false. cbv iota.
    assert (isneg x = false) as ->. { apply not_true_is_false. intro N. apply (iszero_isneg_spec d x Hd F) in N. lra. }
    cbn [orb]. rewrite E. reflexivity. }
  split; [exact Fi|].
  assert (Y : 0 < value (inv d s)) by (destruct (Rlt_le_dec 0 (value (inv d s))); [assumption|nra]).
  apply from_cube; [exact C|exact Y|]. rewrite Ec.
  eapply Rle_trans; [apply (cube_inverse (value s) (value (inv d s)) (value x) (value s * value (inv d s) - 1) (powerRZ 10 (- (d + 2)))); auto; lra|].
  apply Rmult_le_compat_r; [lra|]. replace (- (d + 1))%Z with (1 + - (d + 2))%Z by lia. rewrite p10_add, p10_1. lra.
Qed.
Print Assumptions C80_cbrt_partial.

(** C80: rootn_inverse(x, 3) is 1/cbrt(x), under the same conditions. *)
Theorem C80_inverse_cbrt_partial :
  forall d env x c, valid_digits d -> (d <= 4967)%Z -> finite d x -> full d x ->
  powerRZ 10 (-2000000000) <= value x <= powerRZ 10 2000000000 ->
  0 < c -> c * c * c = value x -> root_estimate d env x c ->
  exists r, rootn_inverse d env x 3 = Defined r /\ finite d r /\ Rabs (value r - / c) <= powerRZ 10 (- (d + 2)) * / c.
Proof.
  intros d env x c Hd D F P B C Ec Es. destruct (estimate_cube d env x c C Ec Es) as (Fe & Ve & He).
  destruct (rootn_inv_cube d env x Hd D F P B Fe Ve He) as (s & E & Fs & Vs & Hs).
  assert (X0 : 0 < value x) by (rewrite <- Ec; apply Rmult_lt_0_compat; [apply Rmult_lt_0_compat|]; lra).
  exists s. split.
  { unfold rootn_inverse. assert (isfinite x = true) as -> by (unfold isfinite; rewrite (proj2 F); reflexivity). cbn [negb].
    change (3 <? 0)%Z with false. change (3 =? 0)%Z with false. change (3 =? 1)%Z with false. change (3 =? 2)%Z with false. cbv iota.
    assert (isneg x = false) as ->. { apply not_true_is_false. intro N. apply (iszero_isneg_spec d x Hd F) in N. lra. }
    cbn [orb]. rewrite E. reflexivity. }
  split; [exact Fs|]. assert (Ic : 0 < / c) by (apply Rinv_0_lt_compat; exact C).
  apply from_cube; [exact Ic|exact Vs|].
  assert (I3 : / c * / c * / c = / value x) by (rewrite <- Ec; field; lra). rewrite I3.
  replace (value s * value s * value s - / value x) with (- ((1 - value s * value s * value s * value x) * / value x)) by (field; lra).
  rewrite Rabs_Ropp, Rabs_mult, (Rabs_pos_eq (/ value x)) by (left; apply Rinv_0_lt_compat; exact X0).
  apply Rmult_le_compat_r; [left; apply Rinv_0_lt_compat; exact X0|exact Hs].
Qed.
Print Assumptions C80_inverse_cbrt_partial.

(** C80: arguments for which the roots are NaN, the first and second root, and
    negative p; for the smallest int the negation -p overflows. *)
Theorem C80_rootn_special :
  forall d env x p, valid_digits d -> wf d x ->
  (cls x <> Finite -> rootn d env x p = Defined (value_nan d)) /\
  (finite d x -> (0 <= p)%Z -> value x < 0 -> rootn d env x p = Defined (value_nan d)) /\
  (finite d x -> rootn d env x 0 = Defined (value_nan d)) /\
  (finite d x -> 0 <= value x -> rootn d env x 1 = Defined x) /\
  (finite d x -> 0 <= value x -> rootn d env x 2 = Defined (sqrt d x)) /\
  (finite d x -> (-2147483648 < p < 0)%Z -> rootn d env x p = rootn d env (div d (one d) x) (- p)) /\
  (finite d x -> rootn d env x (-2147483648) = Undefined).
Proof.
  intros d env x p Hd W. unfold rootn.
  assert (Fi : finite d x -> isfinite x = true) by (intros [_ C]; unfold isfinite; rewrite C; reflexivity).
  assert (Ng : finite d x -> 0 <= value x -> isneg x = false). { intros F V. apply not_true_is_false. intro N. apply (iszero_isneg_spec d x Hd F) in N. lra. }
  split. { intro C. assert (isfinite x = false) as -> by (unfold isfinite; destruct (cls x); congruence). reflexivity. }
  split. { intros F Hp V. rewrite (Fi F). replace (p <? 0)%Z with false by (symmetry; apply Z.ltb_ge; lia). cbn [negb].
    assert (isneg x = true) as -> by (apply (iszero_isneg_spec d x Hd F); exact V). rewrite orb_true_r. reflexivity. }
  split. { intros F. rewrite (Fi F). reflexivity. }
  split. { intros F V. rewrite (Fi F), (Ng F V). reflexivity. }
  split. { intros F V. rewrite (Fi F), (Ng F V). reflexivity. }
  split. { intros F Hp. rewrite (Fi F). cbn [negb]. replace (p <? 0)%Z with true by (symmetry; apply Z.ltb_lt; lia). replace (p =? -2147483648)%Z with false by (symmetry; apply Z.eqb_neq; lia).
    replace (- p <? 0)%Z with false by (symmetry; apply Z.ltb_ge; lia). destruct (isfinite (div d (one d) x)) eqn:E; cbn [negb]; reflexivity. }
  intros F. rewrite (Fi F). reflexivity.
Qed.
Print Assumptions C80_rootn_special.

(** ... but rootn_inverse(x, 1) is x and not 1/x: with x = 2 the result is 2, not 1/2.  And for
    a negative order p the result is the power x^(-p) and not the root x^(1/-p); for the
    smallest int -p is undefined. *)
Theorem C80_rootn_inverse_refuted :
  forall d env x, valid_digits d -> finite d x ->
  (0 <= value x -> rootn_inverse d env x 1 = Defined x) /\
  (forall p, (-2147483648 < p < 0)%Z -> rootn_inverse d env x p = pown d x (- p)) /\
  rootn_inverse d env x (-2147483648) = Undefined.
Proof.
  intros d env x Hd F. unfold rootn_inverse. assert (isfinite x = true) as -> by (unfold isfinite; rewrite (proj2 F); reflexivity). cbn [negb]. split; [|split; [|reflexivity]].
  - intro V. assert (isneg x = false) as -> by (apply not_true_is_false; intro N; apply (iszero_isneg_spec d x Hd F) in N; lra). reflexivity.
  - intros p Hp. replace (p <? 0)%Z with true by (symmetry; apply Z.ltb_lt; lia). replace (p =? -2147483648)%Z with false by (symmetry; apply Z.eqb_neq; lia). reflexivity.
Qed.
Print Assumptions C80_rootn_inverse_refuted.

(* an estimate for the argument 8: 0.5 *)
Definition env_cbrt : env := mkenv (zero 30) (zero 30) (zero 30) (zero 30) (zero 30) (fun x => x) (fun x => x) (fun x => x) (fun _ _ => of_limbs 30 [50000000]%Z (-8) false).

Example C80_hypotheses_met :
  let x := of_limbs 30 [8]%Z 0 false in
  valid_digits 30 /\ (30 <= 4967)%Z /\ finite 30 x /\ full 30 x /\ powerRZ 10 (-2000000000) <= value x <= powerRZ 10 2000000000 /\
  0 < 2 /\ 2 * 2 * 2 = value x /\ root_estimate 30 env_cbrt x 2.
Proof.
  assert (Hd : valid_digits 30) by apply valid_30. intro x. destruct (of_limbs1 30 8 0 Hd ltac:(lia) eq_refl) as (F & P & V). fold x in F, P, V. rewrite p10_0, Rmult_1_r in V.
  destruct (of_limbs1 30 50000000 (-8) Hd ltac:(lia) eq_refl) as (F' & _ & V').
  split; [exact Hd|]. split; [lia|]. split; [exact F|]. split; [exact P|]. rewrite V. split.
  { split; [apply Rle_trans with (powerRZ 10 0); [apply p10_le; lia|rewrite p10_0; lra]|apply Rle_trans with (powerRZ 10 1); [rewrite p10_1; lra|apply p10_le; lia]]. }
  split; [lra|]. split; [lra|]. split; [exact F'|]. change (est_rootn_inv env_cbrt x 3) with (of_limbs 30 [50000000]%Z (-8) false). rewrite V'.
  change (-8)%Z with (- (8))%Z. rewrite p10_inv, p10_nonneg by lia. change (10 ^ 8)%Z with 100000000%Z. replace (50000000 * / 100000000 * 2 - 1) with 0 by field. rewrite Rabs_R0. left. apply p10_pos.
Qed.

Example C80_special_hypotheses_met : valid_digits 30 /\ wf 30 (of_limbs 30 [8]%Z 0 true) /\ finite 30 (of_limbs 30 [8]%Z 0 true) /\ wf 30 (signed_inf 30 true) /\ cls (signed_inf 30 true) <> Finite.
Proof. split; [apply valid_30|]. split; [apply wfb_wf; vm_compute; reflexivity|]. split; [apply wfb_finite; vm_compute; reflexivity|]. split; [apply wfb_wf; vm_compute; reflexivity|discriminate]. Qed.

Example C80_rootn_inverse_hypotheses_met : forall d, valid_digits d -> finite d (two d) /\ value (two d) = 2 /\ value (two d) <> / value (two d).
Proof. intros d Hd. destruct (LogSer.two_facts d Hd) as [O V]. split; [apply O|]. split; [exact V|]. rewrite V. lra. Qed.
