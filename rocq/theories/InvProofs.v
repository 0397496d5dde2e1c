(** * Reciprocal, division and division by a small integer (proofs only). *)

From Flocq Require Import Core Relative BinarySingleNaN.
From Coq Require Import ZArith List Bool Reals Lra Lia Psatz.
From Verif Require Import Model Spec Limbs Value CmpProofs AddProofs Decide OrderProofs MulProofs MulValue MulCor
  IntProofs IntPartProofs IntConv MixedProofs IntCor ModelDiv DivProofs NewtonProofs DoubleProofs SeedProofs.
Import ListNotations.
Open Scope R_scope.
Ltac Zify.zify_post_hook ::= Z.div_mod_to_equations.
Local Notation p10 := (powerRZ 10).
Local Notation exp := Model.exp.
Local Notation ulp := Spec.ulp.
Local Notation mag := AddProofs.mag.

Lemma p10_lt_inv a b : p10 a < p10 b -> (a < b)%Z.
Proof. intro H. destruct (Z.lt_ge_cases a b) as [|L]; auto. pose proof (p10_le b a L). lra. Qed.

Lemma set_neg_finite d x b : finite d x -> limb (data x) 0 <> 0%Z -> finite d (set_neg x b).
Proof.
  intros [W C] H0. split; [|exact C]. destruct W as [W1 W2 W3 W4 W5 W6]. constructor; cbn [set_neg data exp neg cls prec]; auto.
  - intros _ H. contradiction.
Qed.

Lemma value_set_neg x b : value (set_neg x b) = sign b * limbs_value (data x) (exp x).
Proof. reflexivity. Qed.

Lemma value_fabs d x : finite d x -> value (set_neg x false) = Rabs (value x).
Proof.
  intro F. rewrite (value_abs_mag d x F). unfold value, sign. cbn [set_neg neg data exp].
  pose proof (limbs_value_tail (data x) (exp x) (wf_limbs d x (proj1 F))).
  rewrite Rmult_1_l, <- (value_abs_mag d x F). unfold value. rewrite Rabs_mult, (Rabs_pos_eq (limbs_value _ _)) by lra.
  unfold sign. destruct (neg x); [rewrite Rabs_left by lra|rewrite Rabs_R1]; lra.
Qed.

Lemma sign_abs d x : valid_digits d -> finite d x -> value x = sign (neg x) * Rabs (value x).
Proof. intros Hd F. rewrite (value_abs_mag d x F). apply value_mag; auto. Qed.

Lemma in_range_exp d v : valid_digits d -> finite d v -> in_range (value v) -> inv_range v.
Proof.
  intros Hd F [H1 H2]. unfold inv_range.
  destruct (exp_between d v (-2147483590) 2147483591 Hd F) as [A B]; [|lia].
  split; auto. eapply Rle_lt_trans; [exact H2|]. apply p10_lt. lia.
Qed.

Lemma in_range_nonzero r : in_range r -> r <> 0.
Proof. intros [H _] ->. rewrite Rabs_R0 in H. pose proof (p10_pos (-2147483590)). lra. Qed.

Lemma inv_raw d x : valid_digits d -> finite d x -> value x <> 0 -> inv_range x ->
  finite d (inv d x) /\ 0 < value (inv d x) * value x /\ (prec (inv d x) = prec x \/ prec (inv d x) = elem_number d) /\
  exists m, (tolerance d < 12 * m)%Z /\ Rabs (1 - value (inv d x) * value x) <= bnd d m.
Proof.
  intros Hd F V R. assert (H0 : limb (data x) 0 <> 0%Z) by (apply (value_nonzero_lead d); auto).
  pose proof (elem_number_bounds d Hd) as HN.
  unfold inv. set (x' := set_neg x false).
  assert (F' : finite d x') by (apply set_neg_finite; auto).
  assert (V' : value x' = Rabs (value x)) by (apply (value_fabs d); auto).
  assert (P' : 0 < value x') by (rewrite V'; apply Rabs_pos_lt; auto).
  assert (R' : inv_range x') by exact R.
  destruct (finite_flags d x' F') as [Ni Nn]. rewrite (finite_nonzero_flag d x' Hd F') by lra. rewrite Ni, Nn.
  assert (SA := sign_abs d x Hd F). rewrite <- V' in SA.
  assert (SS : sign (neg x) * sign (neg x) = 1) by (unfold sign; destruct (neg x); lra).
  destruct (isone x') eqn:E1.
  - apply (isone_spec d x' Hd F') in E1.
    pose proof (of_ull_spec d 1 Hd ltac:(lia)) as (F1 & Fu1 & V1 & N1 & _). change (of_ull d 1) with (one d) in *.
    assert (Vr : forall b, value (if negb b then one d else negate (one d)) = sign b).
    { intros [|]; cbn [negb sign]; [rewrite (negate_value d); auto; rewrite V1; lra|exact V1]. }
    split. { destruct (negb (neg x)); auto. apply negate_finite; auto. }
    split. { rewrite Vr, SA. nra. }
    split. { right. destruct (negb (neg x)); [exact Fu1|]. unfold negate. destruct (iszero (one d)); exact Fu1. }
    exists (tolerance d + 1)%Z. split; [unfold tolerance, max_digits10, valid_digits in *; lia|].
    rewrite Vr, SA. replace (sign (neg x) * (sign (neg x) * value x')) with (value x') by nra. rewrite E1.
    replace (1 - (1 - p10 (- (8 * elem_number d)))) with (p10 (- (8 * elem_number d))) by ring.
    rewrite Rabs_pos_eq by (apply Rlt_le, p10_pos). unfold bnd. pose proof (p10_pos (- (11 * (tolerance d + 1)))).
    assert (p10 (- (8 * elem_number d)) <= Emul (elem_number d)); [|pose proof (Emul_pos (elem_number d) ltac:(lia)); lra].
    unfold Emul. pose proof (E0_nonneg (elem_number d) ltac:(lia)). assert (1 <= IZR (E0 (elem_number d) + 2)) by (apply IZR_le; lia).
    apply Rle_trans with (1 * p10 (16 - 8 * elem_number d)); [rewrite Rmult_1_l; apply p10_le; lia|].
    apply Rmult_le_compat_r; [apply Rlt_le, p10_pos|lra].
  - destruct (inv_seed_ok d x' Hd F' H0 eq_refl) as (Fs & Es).
    destruct (inv_loop_ok d x' Hd F' P' R' 40 (inv_seed d x') 1 Fs ltac:(lia)) as (m & Hm & Hm1 & Fy & Ey); auto.
    { unfold tolerance, max_digits10, valid_digits in *. change (2 ^ Z.of_nat 40)%Z with 1099511627776%Z. lia. }
    change (12 * 1)%Z with 12%Z in *. set (y := inv_loop d 40 x' (inv_seed d x') 12) in *.
    assert (Py : 0 < value y).
    { pose proof (bnd_small d m Hd Hm1). pose proof p10_m11. apply Rabs_le_inv in Ey. nra. }
    assert (Y0 : limb (data y) 0 <> 0%Z) by (apply (value_nonzero_lead d); auto; lra).
    assert (Fz : finite d (set_neg y (neg x))) by (apply set_neg_finite; auto).
    split. { apply set_prec_finite; auto. apply (wf_prec d x'), F'. }
    assert (Vz : value (set_prec (set_neg y (neg x)) (prec x')) = sign (neg x) * value y).
    { rewrite set_prec_value, value_set_neg.
      replace (value y) with (limbs_value (data y) (exp y)); auto.
      assert (neg y = false). { pose proof (finite_value_sign d y Hd Fy Y0) as S. destruct (neg y); auto. lra. }
      unfold value, sign. rewrite H. ring. }
    rewrite Vz, SA.
    replace (sign (neg x) * value y * (sign (neg x) * value x')) with ((sign (neg x) * sign (neg x)) * (value y * value x')) by ring.
    rewrite SS, Rmult_1_l. split; [nra|]. split; [left; reflexivity|]. exists m. auto.
Qed.

Lemma bnd_final_large d m : valid_digits d -> (d <= 65000)%Z -> (tolerance d < 12 * m)%Z ->
  bnd d m <= 7 / 10 * p10 (- d) /\ Emul (elem_number d) <= 2 / 10 * p10 (- d).
Proof.
  intros Hd Hd2 H. pose proof (tolerance_m d m Hd H) as Hm. pose proof (elem_number_digits d Hd) as HN.
  pose proof (elem_number_bounds d Hd) as HN'. unfold bnd.
  assert (A : p10 (- (11 * m)) <= / 100 * p10 (- d)).
  { replace (/ 100) with (p10 (-2)).
    - rewrite <- p10_add. apply p10_le. lia.
    - change (-2)%Z with (- (2))%Z. rewrite p10_inv, p10_nonneg by lia. reflexivity. }
  assert (B : Emul (elem_number d) <= 170 / 1000 * p10 (- d)).
  { unfold Emul.
    assert (X : p10 (16 - 8 * elem_number d) <= / 1000000000 * p10 (- d)).
    { replace (/ 1000000000) with (p10 (-9)).
      - rewrite <- p10_add. apply p10_le. lia.
      - change (-9)%Z with (- (9))%Z. rewrite p10_inv, p10_nonneg by lia. reflexivity. }
    assert (Y : 0 <= IZR (E0 (elem_number d) + 2) <= 170000000).
    { unfold E0. split; apply IZR_le; destruct (_ <? _)%Z; lia. }
    pose proof (p10_pos (- d)). pose proof (p10_pos (16 - 8 * elem_number d)).
    apply Rle_trans with (170000000 * (/ 1000000000 * p10 (- d))); [|lra].
    apply Rmult_le_compat; lra. }
  pose proof (p10_pos (- d)). split; lra.
Qed.

Lemma inv_accurate d x : valid_digits d -> (d <= 65000)%Z -> finite d x -> in_range (value x) ->
  finite d (inv d x) /\ 0 < value (inv d x) * value x /\
  Rabs (value x * value (inv d x) - 1) < p10 (- d) /\
  ((d <= 4967)%Z -> Rabs (value x * value (inv d x) - 1) <= p10 (- (d + 2))) /\
  (full d x -> full d (inv d x)).
Proof.
  intros Hd Hd2 F R. pose proof (in_range_nonzero _ R) as V.
  destruct (inv_raw d x Hd F V (in_range_exp d x Hd F R)) as (Fi & Pi & Pr & m & Hm & E).
  split; auto. split; auto.
  replace (value x * value (inv d x) - 1) with (- (1 - value (inv d x) * value x)) by ring. rewrite Rabs_Ropp.
  destruct (bnd_final_large d m Hd Hd2 Hm) as [B _]. pose proof (p10_pos (- d)).
  split; [lra|]. split.
  - intro L. eapply Rle_trans; [exact E|]. apply bnd_final; auto.
  - unfold full. intro Fu. destruct Pr; congruence.
Qed.

Lemma inv_special d x : valid_digits d -> wf d x ->
  (is_nan x -> is_nan (inv d x)) /\
  (finite d x -> value x = 0 -> is_inf (inv d x) false) /\
  (forall b, is_inf x b -> finite d (inv d x) /\ value (inv d x) = 0).
Proof.
  intros Hd W. split; [|split].
  - intro H. unfold inv. set (x' := set_neg x false). assert (N' : is_nan x') by exact H.
    assert (Z' : iszero x' = false). { unfold iszero, isfinite. unfold is_nan in N'. rewrite N'. reflexivity. }
    rewrite Z', (is_nan_isnan x' N'). exact N'.
  - intros F V. unfold inv. set (x' := set_neg x false).
    assert (H0 : limb (data x) 0 = 0%Z) by (apply (finite_zero_iff d x Hd F); auto).
    assert (Z' : iszero x' = true). { apply iszero_true; [apply F|]. exact H0. }
    rewrite Z'. assert (neg x = false) as ->. { apply (wf_zero d x W); [apply F|exact H0]. }
    apply signed_inf_is_inf.
  - intros b H. unfold inv. set (x' := set_neg x false). assert (I' : is_inf x' false) by (split; [apply H|reflexivity]).
    destruct (is_inf_isinf x' false I') as (A & B & C & _). rewrite C, B, A. split; [apply zero_finite; auto|apply value_zero; auto].
Qed.

(** ** operator/= *)

Lemma same_magnitude_spec d u v : valid_digits d -> finite d u -> finite d v -> value v <> 0 ->
  same_magnitude u v = true <-> Rabs (value u) = Rabs (value v).
Proof.
  intros Hd Fu Fv Hv.
  assert (Lv : limb (data v) 0 <> 0%Z) by (apply (value_nonzero_lead d); auto).
  unfold same_magnitude, isfinite. rewrite (proj2 Fu), (proj2 Fv). cbn [andb].
  pose proof (Nn_len d u Hd (proj1 Fu)) as Lu'. pose proof (Nn_len d v Hd (proj1 Fv)) as Lv'.
  assert (Eq : forall a b : list Z, length a = length b -> (cmp_data a b = 0%Z <-> a = b)).
  { induction a as [|x a IH]; intros [|y b] L; try discriminate; simpl; [tauto|].
    injection L as L. destruct (Z.eqb_spec x y) as [->|N].
    - rewrite (IH b L). split; congruence.
    - split; [|congruence]. destruct (x >? y)%Z; discriminate. }
  rewrite andb_true_iff, !Z.eqb_eq, Eq by congruence. split.
  - intros [E1 E2]. rewrite (value_abs_mag d u Fu), (value_abs_mag d v Fv). congruence.
  - intro H. assert (Nu : value u <> 0). { intro Z0. rewrite Z0, Rabs_R0 in H. pose proof (Rabs_pos_lt _ Hv). lra. }
    assert (Lu : limb (data u) 0 <> 0%Z) by (apply (value_nonzero_lead d); auto).
    destruct (value_inj d (set_neg u false) (set_neg v false) Hd) as (A & B & _); auto using set_neg_finite.
    + rewrite (value_fabs d u Fu). apply Rabs_no_R0; auto.
    + rewrite (value_fabs d u Fu), (value_fabs d v Fv). exact H.
Qed.

Lemma div_accurate d u v : valid_digits d -> (d <= 65000)%Z -> finite d u -> finite d v -> full d u -> full d v ->
  in_range (value v) -> in_range (value u / value v) ->
  Rabs (value u) <> Rabs (value v) \/ 0 < value u ->
  finite d (div d u v) /\ full d (div d u v) /\ 0 < value (div d u v) * (value u / value v) /\
  Rabs (value (div d u v) - value u / value v) < p10 (- d) * Rabs (value u / value v) /\
  ((d <= 4967)%Z -> Rabs (value (div d u v) - value u / value v) <= p10 (- (d + 1)) * Rabs (value u / value v)).
Proof.
  intros Hd Hd2 Fu Fv Pu Pv Rv Rq Hc. pose proof (in_range_nonzero _ Rv) as Nv. pose proof (in_range_nonzero _ Rq) as Nq.
  assert (Nu : value u <> 0). { intro Z0. apply Nq. rewrite Z0. field. auto. }
  pose proof (elem_number_bounds d Hd) as HN. pose proof (elem_number_digits d Hd) as HN'.
  set (q := value u / value v) in *.
  unfold div. destruct (same_magnitude u v) eqn:S.
  - apply (same_magnitude_spec d u v Hd Fu Fv Nv) in S.
    destruct Hc as [C|C]; [contradiction|].
    pose proof (of_ull_spec d 1 Hd ltac:(lia)) as (F1 & Fu1 & V1 & N1 & _). change (of_ull d 1) with (one d) in *.
    rewrite N1. rewrite (Rabs_pos_eq (value u)) in S by lra.
    assert (Lv : limb (data v) 0 <> 0%Z) by (apply (value_nonzero_lead d); auto).
    pose proof (finite_value_sign d v Hd Fv Lv) as Sv.
    assert (VV : value (if negb (eqb false (neg v)) then negate (one d) else one d) = q).
    { unfold q. destruct (neg v); cbn [eqb negb].
      - rewrite (negate_value d) by auto. rewrite V1. rewrite S, Rabs_left by auto. field. auto.
      - rewrite V1, S, Rabs_pos_eq by lra. field. auto. }
    rewrite VV. replace (q - q) with 0 by ring. rewrite Rabs_R0. pose proof (p10_pos (- d)). pose proof (Rabs_pos_lt q Nq).
    pose proof (p10_pos (- (d + 1))).
    split. { destruct (neg v); cbn [eqb negb]; auto. apply negate_finite; auto. }
    split. { destruct (neg v); cbn [eqb negb]; auto. unfold negate. destruct (iszero (one d)); exact Fu1. }
    split; [nra|]. split; [nra|]. intros _. nra.
  - clear Hc S. destruct (inv_raw d v Hd Fv Nv (in_range_exp d v Hd Fv Rv)) as (Fi & Pi & Pr & m & Hm & E).
    set (w := inv d v) in *. 
    assert (Pw : prec w = elem_number d) by (unfold full in *; destruct Pr; congruence).
    assert (Nw : value w <> 0). { intro Z0. rewrite Z0 in Pi. lra. }
    destruct (bnd_final_large d m Hd Hd2 Hm) as [B1 B2]. pose proof (p10_pos (- d)) as Pd.
    assert (Pd2 : p10 (- d) <= 1 / 1000).
    { apply Rle_trans with (p10 (-3)); [apply p10_le; unfold valid_digits in Hd; lia|]. change (-3)%Z with (- (3))%Z. rewrite p10_inv, p10_nonneg by lia.
      change (10 ^ 3)%Z with 1000%Z. lra. }
    set (eta := 1 - value w * value v) in *.
    assert (Eu : value u * value w = q * (1 - eta)). { unfold q, eta. field. auto. }
    apply Rabs_le_inv in E as E'.
    assert (Lu : limb (data u) 0 <> 0%Z) by (apply (value_nonzero_lead d); auto).
    assert (Lw : limb (data w) 0 <> 0%Z) by (apply (value_nonzero_lead d); auto).
    pose proof (finite_abs_bounds d u Hd Fu Lu) as [U1 U2]. pose proof (finite_abs_bounds d w Hd Fi Lw) as [W1 W2].
    assert (Ma : Rabs (value u * value w) = Rabs q * (1 - eta)) by (rewrite Eu, Rabs_mult, (Rabs_pos_eq (1 - eta)) by lra; reflexivity).
    rewrite Rabs_mult in Ma. destruct Rq as [Q1 Q2]. fold q in Q1, Q2.
    pose proof (p10_pos (exp u)). pose proof (p10_pos (exp w)). pose proof (Rabs_pos_lt q Nq).
    assert (Hx : (-2147483616 < exp u + exp w < 2147483616)%Z).
    { split.
      - assert (p10 (-2147483590 + -1) < p10 (exp u + 8 + (exp w + 8))).
        { rewrite !p10_add. apply Rle_lt_trans with (Rabs (value u) * Rabs (value w)).
          - rewrite Ma. change (-1)%Z with (- (1))%Z. rewrite p10_inv, p10_1. pose proof (p10_pos (-2147483590)).
            clear - Q1 H2 E' B1 Pd2 Pd. nra.
          - apply Rmult_le_0_lt_compat; auto using Rabs_pos. rewrite <- p10_add; auto. rewrite <- p10_add; auto. }
        apply p10_lt_inv in H2. lia.
      - assert (p10 (exp u + exp w) < p10 (2147483590 + 1)).
        { rewrite !p10_add. apply Rle_lt_trans with (Rabs (value u) * Rabs (value w)).
          - apply Rmult_le_compat; lra.
          - rewrite Ma, p10_1. pose proof (p10_pos 2147483590). clear - Q2 H2 E' B1 Pd2 Pd H1. nra. }
        apply p10_lt_inv in H2. lia. }
    apply in_range_exps in Hx as [Ho Hun].
    destruct (mul_ok d u w Hd Fu Fi Nu Nw Ho Hun) as (Fr & Nr & Prr & del & Hdel & Er).
    unfold full in Pu, Pv. rewrite Pu, Pw, Z.min_id in Hdel. apply Rabs_le_inv in Hdel as Hdel'.
    split; [exact Fr|]. split; [unfold full; congruence|].
    rewrite Er, Eu. 
    replace (q * (1 - eta) * (1 + del) - q) with (q * ((1 - eta) * (1 + del) - 1)) by ring.
    rewrite Rabs_mult.
    assert (Eq : Rabs ((1 - eta) * (1 + del) - 1) <= Rabs eta + Rabs del * (1001 / 1000)).
    { replace ((1 - eta) * (1 + del) - 1) with (- eta + del * (1 - eta)) by ring.
      eapply Rle_trans; [apply Rabs_triang|]. rewrite Rabs_Ropp, Rabs_mult, (Rabs_pos_eq (1 - eta)) by lra.
      pose proof (Rabs_pos del). clear - H2 E' B1 Pd2 Pd. nra. }
    split. { replace (q * (1 - eta) * (1 + del) * q) with ((q * q) * ((1 - eta) * (1 + del))) by ring. apply Rmult_lt_0_compat; [clear - Nq; nra|].
      assert (0 < 1 - eta /\ 0 < 1 + del) as [X1 X2] by lra. clear - X1 X2. nra. }
    split.
    + rewrite Rmult_comm. apply Rmult_lt_compat_r; [lra|]. lra.
    + intro L. rewrite Rmult_comm. apply Rmult_le_compat_r; [lra|].
      pose proof (bnd_final d m Hd L Hm) as B3.
      assert (Emul (elem_number d) <= p10 (- (d + 2))).
      { eapply Rle_trans; [|exact B3]. unfold bnd. pose proof (Emul_pos (elem_number d) ltac:(lia)). pose proof (p10_pos (- (11 * m))). lra. }
      replace (- (d + 1))%Z with (1 + - (d + 2))%Z by lia. rewrite p10_add, p10_1. pose proof (p10_pos (- (d + 2))). lra.
Qed.

Lemma div_special d u v : valid_digits d -> wf d u -> wf d v ->
  (is_nan u \/ is_nan v -> is_nan (div d u v)) /\
  (forall b c, is_inf u b -> is_inf v c -> is_nan (div d u v)) /\
  (forall c, finite d u -> is_inf v c -> finite d (div d u v) /\ value (div d u v) = 0) /\
  (forall b, is_inf u b -> finite d v -> in_range (value v) -> is_inf (div d u v) (xorb b (neg v))) /\
  (finite d u -> finite d v -> value u <> 0 -> value v = 0 -> is_inf (div d u v) (neg u)) /\
  (finite d u -> finite d v -> value u = 0 -> in_range (value v) -> finite d (div d u v) /\ value (div d u v) = 0).
Proof.
  intros Hd Wu Wv.
  assert (NF : forall x, cls x <> Finite -> isfinite x = false) by (intros x H; unfold isfinite; destruct (cls x); congruence).
  assert (SU : cls u <> Finite -> div d u v = mul d u (inv d v)).
  { intro H. unfold div, same_magnitude. rewrite (NF u H). reflexivity. }
  assert (SV : cls v <> Finite -> div d u v = mul d u (inv d v)).
  { intro H. unfold div, same_magnitude. rewrite (NF v H), andb_false_r. reflexivity. }
  destruct (inv_special d v Hd Wv) as (I1 & I2 & I3).
  split; [|split; [|split; [|split; [|split]]]].
  - intros [H|H].
    + rewrite SU by (rewrite H; discriminate). unfold mul, mul_gen. rewrite (is_nan_isnan u H). reflexivity.
    + rewrite SV by (rewrite H; discriminate). unfold mul, mul_gen. rewrite (is_nan_isnan _ (I1 H)), orb_true_r. reflexivity.
  - intros b c H H'. rewrite SU by (rewrite (proj1 H); discriminate). destruct (I3 c H') as [Fz Vz].
    destruct (mul_special d u (inv d v) Hd Wu (proj1 Fz)) as (_ & M & _). exact (M b H Fz Vz).
  - intros c F H. rewrite SV by (rewrite (proj1 H); discriminate). destruct (I3 c H) as [Fz Vz].
    destruct (mul_special d u (inv d v) Hd Wu (proj1 Fz)) as (_ & _ & _ & _ & _ & _ & M). auto.
  - intros b H F R. rewrite SU by (rewrite (proj1 H); discriminate).
    pose proof (in_range_nonzero _ R) as V.
    destruct (inv_raw d v Hd F V (in_range_exp d v Hd F R)) as (Fi & Pi & _).
    assert (Vi : value (inv d v) <> 0) by (intro Z0; rewrite Z0 in Pi; lra).
    replace (neg v) with (neg (inv d v)).
    + destruct (mul_special d u (inv d v) Hd Wu (proj1 Fi)) as (_ & _ & _ & M & _). auto.
    + pose proof (finite_value_sign d v Hd F (value_nonzero_lead d v Hd F V)) as S1.
      pose proof (finite_value_sign d _ Hd Fi (value_nonzero_lead d _ Hd Fi Vi)) as S2.
      destruct (neg v), (neg (inv d v)); auto; nra.
  - intros Fu Fv Nu Zv. destruct (I2 Fv Zv) as [I21 I22].
    assert (S : same_magnitude u v = false).
    { unfold same_magnitude, isfinite. rewrite (proj2 Fu), (proj2 Fv). cbn [andb].
      assert (H0 : limb (data v) 0 = 0%Z) by (apply (finite_zero_iff d v Hd Fv); auto).
      assert (H1 : limb (data u) 0 <> 0%Z) by (apply (value_nonzero_lead d); auto).
      pose proof (Nn_len d u Hd Wu) as Lu. pose proof (Nn_len d v Hd Wv) as Lv. pose proof (Nn_ge7 d Hd).
      destruct (data u) as [|a us]; [simpl in Lu; lia|]. destruct (data v) as [|b vs]; [simpl in Lv; lia|].
      unfold limb in H0, H1. cbn [nth] in H0, H1. cbn [cmp_data]. subst b.
      destruct (Z.eqb_spec a 0); [contradiction|]. destruct (a >? 0)%Z; rewrite andb_false_r; reflexivity. }
    unfold div. rewrite S.
    assert (Wi : wf d (inv d v)).
    { unfold inv. assert (Z' : iszero (set_neg v false) = true). { rewrite iszero_set_neg. apply finite_zero_flag with d; auto. }
      rewrite Z'. apply signed_inf_wf; auto. }
    destruct (mul_special d u (inv d v) Hd Wu Wi) as (_ & _ & _ & _ & M & _).
    specialize (M false (conj I21 I22) Fu Nu). rewrite xorb_false_r in M. exact M.
  - intros Fu Fv Zu R. pose proof (in_range_nonzero _ R) as V.
    destruct (inv_raw d v Hd Fv V (in_range_exp d v Hd Fv R)) as (Fi & Pi & _).
    assert (S : same_magnitude u v = false).
    { destruct (same_magnitude u v) eqn:E; auto. apply (same_magnitude_spec d u v Hd Fu Fv V) in E.
      rewrite Zu, Rabs_R0 in E. pose proof (Rabs_pos_lt _ V). lra. }
    unfold div. rewrite S. destruct (mul_special d u (inv d v) Hd Wu (proj1 Fi)) as (_ & _ & _ & _ & _ & _ & M). auto.
Qed.

(** ** Division by an integer *)

Lemma div_ull_small d x n : valid_digits d -> finite d x -> full d x -> value x <> 0 -> (1 <= n < 100000000)%Z ->
  let r := div_ull d x n in
  finite d r /\ full d r /\ 0 < value r * value x /\
  Rabs (value r - value x / IZR n) <= p10 (- (d + 1)) * Rabs (value x / IZR n) /\
  ((n <= limb (data x) 0)%Z -> cut_to (ulp d (exp r)) (value x / IZR n) (value r)).
Proof.
  intros Hd F Fu V Hn r. assert (L0 : limb (data x) 0 <> 0%Z) by (apply (value_nonzero_lead d); auto).
  pose proof (elem_number_bounds d Hd) as HN. pose proof (elem_number_digits d Hd) as HN'.
  assert (E : r = set_neg (if (n >? 1)%Z then div_small (set_neg x false) n else set_neg x false) (neg x)).
  { unfold r, div_ull. set (x' := set_neg x false). assert (F' : finite d x') by (apply set_neg_finite; auto).
    destruct (finite_flags d x' F') as [Ni Nn]. rewrite Ni, Nn.
    assert (iszero x' = false) as -> by (apply limbs_nonzero_iszero; [apply F|exact L0]).
    replace (n =? 0)%Z with false by lia. replace (n >=? mask)%Z with false by (unfold mask; lia).
    assert (Z1 : iszero (if (n >? 1)%Z then div_small x' n else x') = false).
    { destruct (Z.gtb_spec n 1) as [H|H].
      - destruct (div_small_spec d x' n Hd F' L0 ltac:(lia)) as (Fr & Lr & _). { unfold full in Fu. cbn. lia. }
        apply limbs_nonzero_iszero; [apply Fr|exact Lr].
      - apply limbs_nonzero_iszero; [apply F'|exact L0]. }
    rewrite Z1. reflexivity. }
  set (x' := set_neg x false) in *. assert (F' : finite d x') by (apply set_neg_finite; auto).
  assert (Rn : 1 <= IZR n) by (apply IZR_le; lia).
  set (y := if (n >? 1)%Z then div_small x' n else x') in *.
  assert (Y : finite d y /\ limb (data y) 0 <> 0%Z /\ prec y = prec x /\
     Rabs (IZR n * mag d (data y) (exp y) - mag d (data x) (exp x)) <= p10 (- (d + 1)) * mag d (data x) (exp x) /\
     ((n <= limb (data x) 0)%Z -> IZR n * mag d (data y) (exp y) <= mag d (data x) (exp x) < IZR n * (mag d (data y) (exp y) + ulp d (exp y)))).
  { assert (M0 : 0 <= mag d (data x) (exp x)) by (apply mag_nonneg, (wf_limbs d x), F).
    unfold y. destruct (Z.gtb_spec n 1) as [H|H].
    - destruct (div_small_spec d x' n Hd F' L0 ltac:(lia)) as (Fr & Lr & Pr & Nr & Er & Ar & Tr).
      { unfold full in Fu. cbn. lia. }
      split; auto. split; auto. split; [exact Pr|]. change (prec x') with (prec x) in Ar. change (data x') with (data x) in *. change (exp x') with (exp x) in *.
      unfold full in Fu. rewrite Fu in Ar. split.
      + eapply Rle_trans; [exact Ar|]. apply Rmult_le_compat_r; auto. apply p10_le. lia.
      + intro Hl. apply Tr; [|exact Fu]. 
        apply (div_small_exp d x'); auto; try lia. unfold x'. cbn [set_neg prec]. lia.
    - split; auto. split; auto. split; [reflexivity|]. replace n with 1%Z by lia. cbn [set_neg data exp x'].
      pose proof (ulp_pos d (exp x)). pose proof (p10_pos (- (d + 1))). rewrite Rmult_1_l, Rminus_diag_eq, Rabs_R0 by auto. split; [nra|].
      intros _. rewrite Rmult_1_l. lra. }
  destruct Y as (Fy & Ly & Py & Ay & Ty).
  assert (Fr : finite d r) by (rewrite E; apply set_neg_finite; auto).
  assert (Vr : value r = sign (neg x) * mag d (data y) (exp y)) by (rewrite (value_mag d r Fr), E; reflexivity).
  assert (Vx : value x = sign (neg x) * mag d (data x) (exp x)) by (apply value_mag; auto).
  assert (Ax : Rabs (value x) = mag d (data x) (exp x)) by (apply value_abs_mag; auto).
  assert (Py0 : 0 < mag d (data y) (exp y)).
  { rewrite <- (value_abs_mag d y Fy). apply Rabs_pos_lt. intro Z0. apply (finite_zero_iff d y Hd Fy) in Z0. contradiction. }
  assert (Px0 : 0 < mag d (data x) (exp x)) by (rewrite <- Ax; apply Rabs_pos_lt; auto).
  set (my := mag d (data y) (exp y)) in *. set (mx := mag d (data x) (exp x)) in *.
  assert (SS : sign (neg x) * sign (neg x) = 1) by (unfold sign; destruct (neg x); lra).
  assert (SA : Rabs (sign (neg x)) = 1). { unfold sign. destruct (neg x); [rewrite Rabs_left; lra|apply Rabs_R1]. }
  assert (In : 0 < / IZR n) by (apply Rinv_0_lt_compat; lra).
  split; [exact Fr|]. split. { unfold full in *. rewrite E. cbn [set_neg prec]. congruence. }
  split. { rewrite Vr, Vx. replace (sign (neg x) * my * (sign (neg x) * mx)) with ((sign (neg x) * sign (neg x)) * (my * mx)) by ring. rewrite SS. nra. }
  split.
  - replace (value r - value x / IZR n) with (sign (neg x) * ((IZR n * my - mx) / IZR n)) by (rewrite Vr, Vx; field; lra).
    unfold Rdiv. rewrite !Rabs_mult, SA, Ax, (Rabs_pos_eq (/ IZR n)) by lra. rewrite Rmult_1_l, <- Rmult_assoc.
    apply Rmult_le_compat_r; lra.
  - intro Hl. specialize (Ty Hl). assert (Er : exp r = exp y) by (rewrite E; reflexivity). rewrite Er. unfold cut_to.
    unfold Rdiv. rewrite Rabs_mult, Ax, (Rabs_pos_eq (/ IZR n)), Vr, Rabs_mult, SA, (Rabs_pos_eq my) by lra. rewrite Rmult_1_l.
    split; [split|split].
    + apply Rmult_le_reg_r with (IZR n); [lra|]. rewrite (Rmult_assoc mx), Rinv_l by lra. lra.
    + apply Rmult_lt_reg_r with (IZR n); [lra|]. rewrite (Rmult_assoc mx), Rinv_l by lra. lra.
    + rewrite Vx. replace (sign (neg x) * my * (sign (neg x) * mx * / IZR n)) with ((sign (neg x) * sign (neg x)) * (my * mx * / IZR n)) by ring.
      rewrite SS. assert (0 < my * mx) by nra. nra.
    + exists ((if neg x then -1 else 1) * mv (data y))%Z. unfold my, mag. rewrite mult_IZR.
      unfold sign. destruct (neg x); ring.
Qed.

Lemma div_ull_big d x n : valid_digits d -> (d <= 65000)%Z -> finite d x -> full d x -> value x <> 0 ->
  in_range (value x / IZR n) -> (0 < n < 18446744073709551616)%Z -> Rabs (value x) <> IZR n \/ 0 < value x ->
  let r := div_ull d x n in
  finite d r /\ full d r /\ 0 < value r * value x /\
  Rabs (value r - value x / IZR n) < p10 (- d) * Rabs (value x / IZR n).
Proof.
  intros Hd Hd2 F Fu V Rg Hn Hc r. assert (Rn : 0 < IZR n) by (apply IZR_lt; lia).
  assert (Hq : 0 < Rabs (value x / IZR n)) by (apply Rabs_pos_lt; apply in_range_nonzero; auto).
  destruct (Z.lt_ge_cases n 100000000) as [L|L].
  - destruct (div_ull_small d x n Hd F Fu V ltac:(lia)) as (A & B & C & D & _). fold r in A, B, C, D.
    split; auto. split; auto. split; auto. eapply Rle_lt_trans; [exact D|]. apply Rmult_lt_compat_r; auto. apply p10_lt. lia.
  - assert (L0 : limb (data x) 0 <> 0%Z) by (apply (value_nonzero_lead d); auto).
    assert (E : r = div d x (of_ull d n)).
    { unfold r, div_ull. set (x' := set_neg x false). assert (F' : finite d x') by (apply set_neg_finite; auto).
      destruct (finite_flags d x' F') as [Ni Nn]. rewrite Ni, Nn.
      assert (iszero x' = false) as -> by (apply limbs_nonzero_iszero; [apply F|exact L0]).
      replace (n =? 0)%Z with false by lia. replace (n >=? mask)%Z with true by (unfold mask; lia). reflexivity. }
    rewrite E. destruct (of_ull_spec d n Hd ltac:(lia)) as (Fn & Pn & Vn & _).
    assert (1 <= IZR n <= 18446744073709551616) by (split; apply IZR_le; lia).
    destruct (div_accurate d x (of_ull d n) Hd Hd2 F Fn Fu Pn) as (A & B & C & D & _).
    + rewrite Vn. unfold in_range. rewrite Rabs_pos_eq by lra. split.
      * apply Rle_trans with (p10 0); [apply p10_le; lia|]. rewrite p10_0. lra.
      * apply Rle_trans with (p10 20); [|apply p10_le; lia]. rewrite p10_nonneg by lia. change (10 ^ 20)%Z with 100000000000000000000%Z. lra.
    + rewrite Vn. exact Rg.
    + rewrite Vn, (Rabs_pos_eq (IZR n)) by lra. exact Hc.
    + rewrite Vn in *. split; auto. split; auto. split; auto.
      assert (0 < / IZR n) by (apply Rinv_0_lt_compat; lra). unfold Rdiv in C.
      apply Rmult_lt_reg_r with (/ IZR n); auto. lra.
Qed.

Lemma div_ull_special d x n : valid_digits d -> wf d x -> (0 <= n < 18446744073709551616)%Z ->
  (is_nan x -> is_nan (div_ull d x n)) /\
  (forall b, is_inf x b -> is_inf (div_ull d x n) b) /\
  (finite d x -> 0 < value x -> n = 0%Z -> is_inf (div_ull d x n) false) /\
  (finite d x -> value x = 0 -> n = 0%Z -> is_nan (div_ull d x n)) /\
  (finite d x -> value x = 0 -> n <> 0%Z -> finite d (div_ull d x n) /\ value (div_ull d x n) = 0).
Proof.
  intros Hd W Hn. unfold div_ull. set (x' := set_neg x false). split; [|split; [|split; [|split]]].
  - intro H. rewrite (is_nan_isnan x') by exact H. exact H.
  - intros b H. destruct (is_inf_isinf x' false) as (A & B & _). { split; [apply H|reflexivity]. }
    rewrite A, B. replace (neg x) with b by (symmetry; apply H). apply signed_inf_is_inf.
  - intros F V ->. destruct (finite_flags d x F) as [Ni Nn]. change (isinf x') with (isinf x). change (isnan x') with (isnan x). rewrite Ni, Nn.
    unfold x'. rewrite iszero_set_neg, (finite_nonzero_flag d x Hd F) by lra. apply signed_inf_is_inf.
  - intros F V ->. destruct (finite_flags d x F) as [Ni Nn]. change (isinf x') with (isinf x). change (isnan x') with (isnan x). rewrite Ni, Nn.
    unfold x'. rewrite iszero_set_neg, (finite_zero_flag d x Hd F) by lra. reflexivity.
  - intros F V Hn0. destruct (finite_flags d x F) as [Ni Nn]. change (isinf x') with (isinf x). change (isnan x') with (isnan x). rewrite Ni, Nn.
    assert (iszero x' = true) as -> by (unfold x'; rewrite iszero_set_neg; apply (finite_zero_flag d); auto).
    replace (n =? 0)%Z with false by lia.
    assert (neg x = false). { apply (wf_zero d x W); [apply F|]. apply (finite_zero_iff d x Hd F); auto. }
    unfold x'. rewrite <- H, set_neg_id. auto.
Qed.

Lemma div_sll_accurate d x n : valid_digits d -> (d <= 65000)%Z -> finite d x -> full d x -> value x <> 0 ->
  in_range (value x / IZR n) -> (-9223372036854775808 < n < 9223372036854775808)%Z -> n <> 0%Z ->
  Rabs (value x) <> Rabs (IZR n) \/ 0 < value x ->
  exists r, div_sll d x n = Defined r /\ finite d r /\ 0 < value r * (value x / IZR n) /\
  Rabs (value r - value x / IZR n) < p10 (- d) * Rabs (value x / IZR n).
Proof.
  intros Hd Hd2 F Fu V Rg Hn N0 Hc. unfold div_sll. replace (n =? sll_min)%Z with false by (unfold sll_min; lia).
  assert (Rn : IZR n <> 0) by (apply IZR_neq; auto).
  assert (Sq : forall v, v <> 0 -> 0 < v * v) by (intros; nra).
  destruct (Z.ltb_spec n 0) as [L|L]; cbn [negb].
  - rewrite u64_small by lia.
    assert (En : IZR (- n) = - IZR n) by apply opp_IZR. assert (Ln : IZR n < 0) by (apply IZR_lt; lia).
    assert (Eq : value x / IZR (- n) = - (value x / IZR n)) by (rewrite En; field; auto).
    destruct (div_ull_big d x (- n) Hd Hd2 F Fu V) as (A & B & C & D); try lia.
    { rewrite Eq. unfold in_range in *. rewrite Rabs_Ropp. exact Rg. }
    { rewrite En. rewrite (Rabs_left (IZR n)) in Hc by lra. exact Hc. }
    rewrite Eq in D. eexists. split; [reflexivity|]. split; [apply negate_finite; auto|].
    rewrite (negate_value d) by auto. set (r := value (div_ull d x (- n))) in *. split.
    + unfold Rdiv. assert (/ IZR n < 0) by (apply Rinv_lt_0_compat; lra). nra.
    + replace (- r - value x / IZR n) with (- (r - - (value x / IZR n))) by ring. rewrite Rabs_Ropp.
      rewrite (Rabs_Ropp (value x / IZR n)) in D. exact D.
  - rewrite u64_small by lia. assert (Ln : 0 < IZR n) by (apply IZR_lt; lia).
    destruct (div_ull_big d x n Hd Hd2 F Fu V) as (A & B & C & D); try lia; auto.
    { rewrite (Rabs_pos_eq (IZR n)) in Hc by lra. exact Hc. }
    eexists. split; [reflexivity|]. split; [auto|]. split; [|exact D].
    assert (0 < / IZR n) by (apply Rinv_0_lt_compat; lra). unfold Rdiv. nra.
Qed.

Lemma div_sll_min_undefined d x : div_sll d x (-9223372036854775808) = Undefined.
Proof. reflexivity. Qed.


(** ** Exhibits *)

Lemma in_range_of_exp d x : valid_digits d -> finite d x -> limb (data x) 0 <> 0%Z ->
  (-2147483590 <= exp x <= 2147483582)%Z -> in_range (value x).
Proof.
  intros Hd F L H. pose proof (finite_abs_bounds d x Hd F L) as [A B]. split.
  - eapply Rle_trans; [|exact A]. apply p10_le. lia.
  - apply Rlt_le. eapply Rlt_le_trans; [exact B|]. apply p10_le. lia.
Qed.

Lemma in_range_quot d u v : valid_digits d -> finite d u -> finite d v -> limb (data u) 0 <> 0%Z -> limb (data v) 0 <> 0%Z ->
  (-2147483582 <= exp u - exp v <= 2147483582)%Z -> in_range (value u / value v).
Proof.
  intros Hd Fu Fv Lu Lv H. pose proof (finite_abs_bounds d u Hd Fu Lu) as [A B]. pose proof (finite_abs_bounds d v Hd Fv Lv) as [A' B'].
  pose proof (p10_pos (exp v)). unfold in_range, Rdiv. rewrite Rabs_mult.
  assert (Nv : value v <> 0). { intro Z0. rewrite Z0, Rabs_R0 in A'. lra. }
  rewrite Rabs_inv by auto. split.
  - apply Rmult_le_reg_r with (Rabs (value v)); [lra|]. rewrite Rmult_assoc, Rinv_l by lra. rewrite Rmult_1_r.
    apply Rle_trans with (p10 (exp u)); auto. apply Rle_trans with (p10 (-2147483590) * p10 (exp v + 8)).
    + apply Rmult_le_compat_l; [apply Rlt_le, p10_pos|lra].
    + rewrite <- p10_add. apply p10_le. lia.
  - apply Rmult_le_reg_r with (Rabs (value v)); [lra|]. rewrite Rmult_assoc, Rinv_l by lra. rewrite Rmult_1_r.
    apply Rle_trans with (p10 (exp u + 8)); [lra|]. apply Rle_trans with (p10 2147483590 * p10 (exp v)).
    + rewrite <- p10_add. apply p10_le. lia.
    + apply Rmult_le_compat_l; [apply Rlt_le, p10_pos|lra].
Qed.

Lemma div_sign_refuted :
  value (of_sll 30 (-3)) = -3 /\ value (of_sll 30 3) = 3 /\
  value (div 30 (of_sll 30 (-3)) (of_sll 30 (-3))) = -1 /\
  value (div 30 (of_sll 30 (-3)) (of_sll 30 3)) = 1 /\
  value (zero 30) = 0 /\ value (div 30 (zero 30) (zero 30)) = 1.
Proof.
  assert (V : forall n, (-9223372036854775808 <= n < 9223372036854775808)%Z -> value (of_sll 30 n) = IZR n).
  { intros n Hn. apply (of_sll_spec 30 n valid_30 Hn). }
  split; [apply V; lia|]. split; [apply V; lia|].
  assert (div 30 (of_sll 30 (-3)) (of_sll 30 (-3)) = of_sll 30 (-1)) as -> by (vm_compute; reflexivity).
  assert (div 30 (of_sll 30 (-3)) (of_sll 30 3) = of_sll 30 1) as -> by (vm_compute; reflexivity).
  assert (div 30 (zero 30) (zero 30) = of_sll 30 1) as -> by (vm_compute; reflexivity).
  split; [apply V; lia|]. split; [apply V; lia|]. split; [apply value_zero, valid_30|apply V; lia].
Qed.

(* 1/7 with 56 stored digits: the sixth limb is wrong *)
Lemma div_ull_stale_limb :
  div_ull 30 (one 30) 7 =
    mkef [14285714; 28571428; 57142857; 14285714; 28571428; 28571428; 14285714]%Z (-8) false Finite 7 /\
  ~ cut_to (ulp 30 (exp (div_ull 30 (one 30) 7))) (value (one 30) / 7) (value (div_ull 30 (one 30) 7)).
Proof.
  assert (E : div_ull 30 (one 30) 7 =
    mkef [14285714; 28571428; 57142857; 14285714; 28571428; 28571428; 14285714]%Z (-8) false Finite 7) by (vm_compute; reflexivity).
  split; [exact E|]. rewrite E. set (r := mkef _ _ _ _ _).
  assert (F : finite 30 r) by (apply wfb_finite; vm_compute; reflexivity).
  rewrite (one_value 30 valid_30). intros [[_ H] _].
  rewrite (value_abs_mag 30 r F) in H. unfold mag in H. cbn [r exp data] in H.
  assert (M : (7 * (mv [14285714; 28571428; 57142857; 14285714; 28571428; 28571428; 14285714] + 1) <= 10 ^ 56)%Z) by (vm_compute; discriminate).
  rewrite Rabs_pos_eq in H by lra.
  set (m := mv _) in *. apply IZR_le in M. rewrite mult_IZR, plus_IZR, <- (p10_nonneg 56) in M by lia.
  assert (U : ulp 30 (-8) * p10 56 = 1). { unfold ulp. rewrite <- p10_add. reflexivity. }
  pose proof (ulp_pos 30 (-8)) as U0.
  assert (ulp 30 (-8) * (7 * (IZR m + 1)) <= ulp 30 (-8) * p10 56) by (apply Rmult_le_compat_l; lra).
  lra.
Qed.

Lemma div_ull_negative_by_zero :
  value (of_sll 30 (-5)) = -5 /\ div_ull 30 (of_sll 30 (-5)) 0 = signed_inf 30 false.
Proof. split; [apply (of_sll_spec 30 (-5) valid_30); lia|vm_compute; reflexivity]. Qed.

Lemma inv_negative_infinity :
  inv 30 (signed_inf 30 true) = zero 30.
Proof. vm_compute; reflexivity. Qed.

(** Sums with unsigned built-in integers. *)
Lemma ull_sums d x n : valid_digits d -> finite d x -> (0 <= n < 18446744073709551616)%Z ->
  Rabs (value x) <= p10 2147483590 ->
  finite d (add_ull d x n) /\ finite d (sub_ull d x n) /\
  Rabs (value (add_ull d x n) - (value x + IZR n)) <= 2 * p10 (- (d + 17)) * Rmax (Rabs (value x)) (IZR n) /\
  Rabs (value (sub_ull d x n) - (value x - IZR n)) <= 2 * p10 (- (d + 17)) * Rmax (Rabs (value x)) (IZR n).
Proof.
  intros Hd F Hn Hx. destruct (of_ull_spec d n Hd Hn) as (Fn & _ & Vn & _).
  assert (An : Rabs (value (of_ull d n)) = IZR n). { rewrite Vn. apply Rabs_pos_eq. apply IZR_le. lia. }
  assert (B : IZR n <= p10 2147483590).
  { apply Rle_trans with (p10 20); [|apply p10_le; lia]. rewrite (p10_nonneg 20) by lia. apply IZR_le.
    change (10 ^ 20)%Z with 100000000000000000000%Z. lia. }
  assert (C : 2 * (Rabs (value x) + Rabs (value (of_ull d n))) <= p10 max_exp10).
  { rewrite An. apply Rle_trans with (p10 (2147483590 + 1)); [|apply p10_le; unfold max_exp10; lia].
    rewrite p10_add, p10_1. pose proof (p10_pos 2147483590). set (q := p10 2147483590) in *. clearbody q. lra. }
  destruct (add_ok d x (of_ull d n) Hd F Fn C) as [A1 A2]. destruct (sub_ok d x (of_ull d n) Hd F Fn C) as [S1 S2].
  rewrite An, Vn in A2, S2. unfold add_ull, sub_ull. auto.
Qed.

Lemma ull_sums_exact d x n a : valid_digits d -> finite d x -> (0 <= n < 18446744073709551616)%Z -> value x = IZR a ->
  (Z.abs a + n < 10 ^ (8 * (elem_number d - 1)))%Z ->
  value (add_ull d x n) = IZR (a + n) /\ value (sub_ull d x n) = IZR (a - n).
Proof.
  intros Hd F Hn Hx Hb. destruct (of_ull_spec d n Hd Hn) as (Fn & _ & Vn & _).
  destruct (add_int_exact d x (of_ull d n) a n Hd F Fn Hx Vn ltac:(lia)) as (_ & A & _ & S). auto.
Qed.
