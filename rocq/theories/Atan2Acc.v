(** * Accuracy of atan2 (proofs only) *)

From Coq Require Import ZArith List Bool Reals Lra Lia Psatz.
From Verif Require Import Model Spec SpecGen Limbs Value CmpProofs AddProofs Decide OrderProofs OrderDec AddExtra MulProofs MulValue MulExtra MulCor
  IntProofs IntPartProofs IntConv MixedProofs IntCor ModelDiv DoubleProofs NewtonProofs InvProofs SqrtProofs ModelPow PowGen PowProofs PowExtra LdexpProofs
  StrAny FloatEval ModelGen ModelElem ElemProofs SeriesFloat ExpReal ExpFloat ExpAcc ConstReal SinReal SinFloat SinStep SinAcc HyperFloat AtanAcc AtanSer AtanTop
  ModelCplx CplxReal SpecTrig.
Import ListNotations.
Open Scope R_scope.
Ltac Zify.zify_post_hook ::= Z.div_mod_to_equations.
Local Notation p10 := (powerRZ 10).
Local Notation atan := Ratan.atan.
Local Notation sin := Rtrigo_def.sin.
Local Notation cos := Rtrigo_def.cos.
Local Notation sqrt := R_sqrt.sqrt.

(** ** Angles *)

Lemma angle_unique x y t t' : is_angle x y t -> is_angle x y t' -> t = t'.
Proof.
  intros (B & r & R0 & E1 & E2) (B' & s & S0 & F1 & F2). rewrite E1 in F1. rewrite E2 in F2. clear E1 E2 x y.
  assert (X : r = s).
  { assert (r * r = s * s).
    { replace (r * r) with ((r * cos t) * (r * cos t) + (r * sin t) * (r * sin t)) by (pose proof (sin2_cos2 t) as H; unfold Rsqr in H; nra).
      rewrite F1, F2. pose proof (sin2_cos2 t') as H. unfold Rsqr in H. nra. }
    nra. }
  subst s. assert (Cc : cos t = cos t') by (apply (Rmult_eq_reg_l r); lra). assert (Cs : sin t = sin t') by (apply (Rmult_eq_reg_l r); lra). pose proof PI_RGT_0 as Pp.
  assert (Z : cos (t - t') = 1). { rewrite cos_minus, Cc, Cs. pose proof (sin2_cos2 t') as H. unfold Rsqr in H. lra. }
  assert (K : forall w, 0 < w < 2 * PI -> cos w <> 1).
  { intros w Hw Ec. replace w with (2 * (w / 2)) in Ec by field. rewrite cos_2a_sin in Ec. assert (sin (w / 2) > 0) by (apply sin_gt_0; lra). nra. }
  destruct (Rtotal_order t t') as [L|[L|L]]; [|exact L|].
  - exfalso. apply (K (t' - t)); [lra|]. rewrite <- Z. rewrite <- cos_neg. f_equal; ring.
  - exfalso. apply (K (t - t')); [lra|]. exact Z.
Qed.

Lemma angle_nonzero x y t : is_angle x y t -> (x, y) <> (0, 0).
Proof.
  intros (_ & r & R0 & E1 & E2) E. inversion E as [[A B]]. rewrite A in E1. rewrite B in E2. pose proof (sin2_cos2 t) as H. unfold Rsqr in H.
  assert (cos t = 0) by (apply (Rmult_eq_reg_l r); lra). assert (sin t = 0) by (apply (Rmult_eq_reg_l r); lra). nra.
Qed.

Lemma angle_ratan2 x y t : is_angle x y t -> t = ratan2 y x.
Proof.
  intro A. apply (angle_unique x y); [exact A|]. pose proof (angle_nonzero x y t A) as N. destruct (ratan2_spec x y N) as (E1 & E2 & B).
  split; [exact B|]. exists (sqrt (x * x + y * y)). split; [|split; lra]. apply sqrt_lt_R0.
  pose proof (Rle_0_sqr x) as Q1. pose proof (Rle_0_sqr y) as Q2.
  destruct (Req_dec x 0) as [X|Nx]; [|pose proof (Rsqr_pos_lt x Nx) as Q; unfold Rsqr in *; lra].
  destruct (Req_dec y 0) as [Y|Ny]; [rewrite X, Y in N; congruence|pose proof (Rsqr_pos_lt y Ny) as Q; unfold Rsqr in *; lra].
Qed.

(** A relative change of the argument changes the arc tangent by at most half as much *)
Lemma atan_rel e a b : 0 <= e <= / 100 -> rel e a b -> Rabs (atan a - atan b) <= 6 / 10 * e.
Proof.
  intros He R. unfold rel in R.
  assert (K : forall c, 98 / 100 * (b * b) <= c * c -> / (1 + c ^ 2) * (e * Rabs b) <= 6 / 10 * e).
  { intros c Hc. replace (c ^ 2) with (c * c) by ring. assert (0 < 1 + c * c) by nra. apply (Rmult_le_reg_l (1 + c * c)); [lra|]. rewrite <- Rmult_assoc, Rinv_r by lra.
    assert (b2 : b * b = Rabs b * Rabs b) by (rewrite <- Rabs_mult, Rabs_pos_eq; [reflexivity|nra]). rewrite b2 in Hc. pose proof (Rabs_pos b). set (t := Rabs b) in *.
    rewrite Rmult_1_l. assert (t <= 6 / 10 * (1 + c * c)) by (pose proof (Rle_0_sqr (t - 1)) as Q; unfold Rsqr in Q; pose proof (Rle_0_sqr t) as Q'; unfold Rsqr in Q'; lra). rewrite (Rmult_comm (1 + c * c)). replace (6 / 10 * e * (1 + c * c)) with (e * (6 / 10 * (1 + c * c))) by ring. apply Rmult_le_compat_l; lra. }
  assert (M : forall x y, x < y -> (forall c, x < c < y -> 98 / 100 * (b * b) <= c * c) -> y - x <= e * Rabs b -> Rabs (atan y - atan x) <= 6 / 10 * e).
  { intros x y H Hc Hl. destruct (MVT_cor2 atan (fun t => / (1 + t ^ 2)) x y H) as (c & E & C). { intros t _. apply derivable_pt_lim_atan. }
    rewrite E, Rabs_mult, (Rabs_pos_eq (y - x)) by lra. assert (0 < 1 + c ^ 2) by (pose proof (pow2_ge_0 c); lra). rewrite Rabs_pos_eq by (left; apply Rinv_0_lt_compat; lra).
    eapply Rle_trans; [|apply (K c); apply Hc; exact C]. apply Rmult_le_compat_l; [left; apply Rinv_0_lt_compat; lra|exact Hl]. }
  assert (Eb : e * Rabs b <= / 100 * Rabs b) by (apply Rmult_le_compat_r; [apply Rabs_pos|lra]).
  apply Rabs_le_inv in R.
  destruct (Rtotal_order a b) as [H|[->|H]].
  - rewrite Rabs_minus_sym. apply M; [exact H| |]; unfold Rabs in *; destruct (Rcase_abs b); intros; nra.
  - rewrite Rminus_diag_eq by reflexivity. rewrite Rabs_R0. lra.
  - apply M; [exact H| |]; unfold Rabs in *; destruct (Rcase_abs b); intros; nra.
Qed.

Section FixedDigits.
Variable d : Z.
Hypothesis Hd : valid_digits d.
Hypothesis Hd' : (d <= 4967)%Z.
Variable env : env.
Local Notation u := (p10 (- d)).
Hypothesis Hpi : close_to d (c_pi env) PI.

Lemma mul_int_unit x (b : bool) : finite d x -> full d x -> 0 < value x <= 10 ->
  let r := mul_int d x (if b then -1 else 1) in finite d r /\ full d r /\ value r = if b then - value x else value x.
Proof.
  intros F P B r. assert (E : mul_ull d x 1 = x).
  { rewrite mul_ull_cases by (auto; lia). rewrite (finite_nonzero_flag d x Hd F) by lra. reflexivity. }
  assert (G : forall y, finite d y -> Rabs (value y) <= 10 -> op_gt (fabs y) (value_max d) = false).
  { intros y Fy By. apply not_true_is_false. intro G. apply (cmp_all_ops d _ _ Hd (fabs_finite d y Fy) (value_max_finite d Hd)) in G.
    rewrite (fabs_value d y Hd Fy), (value_max_value d Hd) in G. pose proof (max_value_ge d Hd) as Mg.
    pose proof (p10_le 2 max_exp10 ltac:(unfold max_exp10; lia)) as X. rewrite (p10_nonneg 2) in X by lia. change (10 ^ 2)%Z with 100%Z in X. lra. }
  destruct (negate_if d Hd b x F P) as (F1 & P1 & V1). assert (R : r = if b then negate x else x).
  { unfold r, mul_int, mul_sll. destruct b; cbn [Z.eqb sll_min negb Z.ltb Z.compare Z.opp].
    - change (-1 =? sll_min)%Z with false. change (u64 1) with 1%Z. rewrite E, G; [reflexivity|exact F1|rewrite V1, Rabs_Ropp, Rabs_pos_eq; lra].
    - change (1 =? sll_min)%Z with false. change (u64 1) with 1%Z. rewrite E, G; [reflexivity|exact F|rewrite Rabs_pos_eq; lra]. }
  rewrite R. auto.
Qed.

Lemma atan2_accurate y x t : finite d y -> full d y -> finite d x -> full d x ->
  value y = 0 \/ p10 (-190000) <= Rabs (value y) <= p10 190000 -> value x = 0 \/ p10 (-190000) <= Rabs (value x) <= p10 190000 ->
  (Rabs (value y) <> Rabs (value x) \/ 0 < value y) -> - 1000000 < value y / value x \/ value x = 0 ->
  (forall w, finite d w -> full d w -> value w = Rabs (value (div d y x)) -> p10 (- d) <= value w < 100 -> estimates d (est_atan env w) (atan (value w))) ->
  is_angle (value x) (value y) t ->
  let r := ModelElem.atan2 d env y x in finite d r /\ full d r /\ Rabs (value r - t) <= 5 / 2 * u.
Proof.
  intros Fy Py Fx Px Ry Rx Hne Hq Hest Ang r. pose proof (u_tiny d Hd) as U. rewrite (angle_ratan2 _ _ _ Ang). pose proof (angle_nonzero _ _ _ Ang) as N0. clear Ang t.
  unfold r, ModelElem.atan2. rewrite (finite_isfinite d x Fx), (finite_isfinite d y Fy). cbn [negb orb].
  destruct (iszero_isneg_spec d x Hd Fx) as [Zx Nx]. destruct (iszero_isneg_spec d y Hd Fy) as [Zy Ny].
  assert (Zx' : iszero x = ris0 (value x)) by (unfold ris0; destruct (Req_EM_T (value x) 0) as [E|E]; destruct (iszero x); intuition congruence).
  assert (Zy' : iszero y = ris0 (value y)) by (unfold ris0; destruct (Req_EM_T (value y) 0) as [E|E]; destruct (iszero y); intuition congruence).
  assert (Nx' : isneg x = ComplexReal.rlt0 (value x)) by (unfold ComplexReal.rlt0; destruct (Rlt_dec (value x) 0) as [E|E]; destruct (isneg x); intuition congruence).
  assert (Ny' : isneg y = ComplexReal.rlt0 (value y)) by (unfold ComplexReal.rlt0; destruct (Rlt_dec (value y) 0) as [E|E]; destruct (isneg y); intuition congruence).
  unfold ratan2, atan2_gen. rewrite Zx', Zy', Nx', Ny'.
  destruct (pi_facts d Hd env Hpi) as (Op & Ep & Vp). destruct (half_pi_facts d Hd env Hpi) as (Oh & Eh & Vh). destruct (zero_ok d Hd) as (Z1 & Z2 & Z3).
  destruct (ris0 (value y)) eqn:Y0.
  { destruct (ComplexReal.rlt0 (value x)).
    - split; [apply Op|]. split; [apply Op|]. lra.
    - split; [exact Z1|]. split; [exact Z2|]. rewrite Z3, Rminus_0_r, Rabs_R0. lra. }
  assert (Ny0 : value y <> 0) by (unfold ris0 in Y0; destruct (Req_EM_T (value y) 0); [discriminate|assumption]).
  destruct (ris0 (value x)) eqn:X0.
  { assert (S1 : sgn y = if ComplexReal.rlt0 (value y) then (-1)%Z else 1%Z) by (unfold sgn; rewrite Zy', Ny'; reflexivity). rewrite S1.
    destruct (mul_int_unit (pi_half d env) (ComplexReal.rlt0 (value y)) (proj1 Oh) (proj1 (proj2 Oh)) ltac:(lra)) as (F & P & V). split; [exact F|]. split; [exact P|]. rewrite V.
    destruct (ComplexReal.rlt0 (value y)); [replace (- value (pi_half d env) - - (PI / 2)) with (- (value (pi_half d env) - PI / 2)) by ring; rewrite Rabs_Ropp|]; lra. }
  assert (Nx0 : value x <> 0) by (unfold ris0 in X0; destruct (Req_EM_T (value x) 0); [discriminate|assumption]).
  destruct Ry as [|Ry]; [contradiction|]. destruct Rx as [|Rx]; [contradiction|]. destruct Hq as [Hq|]; [|contradiction].
  assert (Oy : ok d 190000 y) by (apply (ok_of_bounds d); assumption). assert (Ox : ok d 190000 x) by (apply (ok_of_bounds d); assumption).
  destruct (ok_div d Hd Hd' 190000 190000 y x ltac:(lia) ltac:(lia) ltac:(lia) Oy Ox Ny0 Nx0 Hne) as (Oq & Sq & Rq). set (q := div d y x) in *. change (190000 + 190000 + 1)%Z with 380001%Z in Oq.
  set (w := value y / value x) in *.
  assert (Nq : value q <> 0). { intro E. rewrite E, Rmult_0_l in Sq. lra. }
  assert (Qm : - 10000000 < value q).
  { unfold rel in Rq. pose proof (Rabs_pos w). assert (u / 10 * Rabs w <= / 10 * Rabs w) by (apply Rmult_le_compat_r; lra). destruct (Rle_dec 0 w) as [W|W].
    - rewrite (Rabs_pos_eq w) in * by lra. apply Rabs_le_inv in Rq. lra.
    - rewrite (Rabs_left w) in * by lra. apply Rabs_le_inv in Rq. lra. }
  assert (Lq : p10 (-400000) <= Rabs (value q)). { destruct Oq as (_ & _ & [|[A _]]); [contradiction|]. apply Rle_trans with (2 := A). apply p10_le. lia. }
  destruct (atan_accurate d Hd Hd' env Hpi q (proj1 Oq) (proj1 (proj2 Oq)) (or_intror Lq) Qm) as (Ft & Pt & Bt).
  { intros z Fz Pz Vz Bz. destruct (Hest z Fz Pz Vz) as (E1 & E2 & E3); [rewrite Vz; exact Bz|]. rewrite <- Vz. split; [exact E1|]. split; [exact E2|]. exact E3. }
  set (t := ModelElem.atan d env q) in *.
  pose proof pi_bounds as PB.
  assert (Aq : 0 < Rabs (atan (value q)) <= 1571 / 1000 /\ p10 (-400001) <= Rabs (atan (value q))).
  { assert (E : Rabs (atan (value q)) = atan (Rabs (value q))).
    { pose proof (Rabs_pos_lt _ Nq) as Pq. destruct (atan_facts _ Pq) as (T0 & _). unfold Rabs at 2. unfold Rabs in Pq, T0. destruct (Rcase_abs (value q)); [rewrite atan_opp in *; apply Rabs_left; lra|apply Rabs_pos_eq; lra]. }
    rewrite E. pose proof (Rabs_pos_lt _ Nq) as Pq. destruct (atan_facts _ Pq) as (T0 & T1 & T2 & T3 & T4 & T5 & T6). split; [lra|].
    assert (P0 : p10 (-400001) = p10 (-400000) / 10). { change (-400001)%Z with (-400000 + - (1))%Z. rewrite p10_add, (p10_inv 1), p10_1. lra. }
    pose proof (p10_pos (-400000)). destruct (Rle_dec (Rabs (value q)) 1) as [L|L].
    { assert ((1 + Rabs (value q)) * atan (Rabs (value q)) <= 2 * atan (Rabs (value q))) by (apply Rmult_le_compat_r; lra). lra. }
    destruct (atan_facts 1 ltac:(lra)) as (_ & _ & _ & _ & _ & _ & S6). assert (atan 1 < atan (Rabs (value q))) by (apply atan_increasing; lra).
    assert (p10 (-400000) <= 1) by (change 1 with (p10 0); apply p10_le; lia). lra. }
  destruct Aq as [Aq Aq2].
  assert (Bt' : Rabs (value t - atan (value q)) <= 22 / 10 * u). { eapply Rle_trans; [exact Bt|]. assert (14 / 10 * u * Rabs (atan (value q)) <= 14 / 10 * u * (1571 / 1000)) by (apply Rmult_le_compat_l; lra). lra. }
  pose proof (atan_rel (u / 10) (value q) w ltac:(lra) Rq) as Dq.
  assert (Bw : Rabs (value t - atan w) <= 227 / 100 * u). { replace (value t - atan w) with ((value t - atan (value q)) + (atan (value q) - atan w)) by ring. eapply Rle_trans; [apply Rabs_triang|]. lra. }
  assert (Ot : ok d 400002 t).
  { apply (ok_of_bounds d); [exact Ft|exact Pt|]. pose proof (p10_pos (-400001)) as Pp. assert (P0 : p10 (- (400002)) = p10 (-400001) / 10). { change (- (400002))%Z with (-400001 + - (1))%Z. rewrite p10_add, (p10_inv 1), p10_1. lra. }
    pose proof (Rabs_triang_inv (atan (value q)) (value t)) as T1. rewrite Rabs_minus_sym in T1. pose proof (Rabs_triang_inv (value t) (atan (value q))) as T2.
    assert (14 / 10 * u * Rabs (atan (value q)) <= / 10 * Rabs (atan (value q))) by (apply Rmult_le_compat_r; lra).
    pose proof (p10_le 1 400002 ltac:(lia)) as X. rewrite p10_1 in X. lra. }
  assert (Op' : ok d 400002 (c_pi env)) by (apply (ok_le d 1); [lia|exact Op]).
  assert (Tb : Rabs (value t) <= 2). { pose proof (Rabs_triang_inv (value t) (atan (value q))) as T2. lra. }
  assert (Mx : Rmax (Rabs (value t)) (Rabs (value (c_pi env))) <= 4) by (apply Rmax_lub; [lra|rewrite Rabs_pos_eq; lra]).
  assert (Mx' : 2 * p10 (- (d + 17)) * Rmax (Rabs (value t)) (Rabs (value (c_pi env))) <= / 1000 * u).
  { rewrite (p_17 d). apply Rle_trans with (2 * (u / 100000000000000000) * 4); [apply Rmult_le_compat_l; lra|lra]. }
  change (Ratan.atan w) with (atan w). cbv zeta.
  destruct (ok_sub d 400002 t (c_pi env) Hd ltac:(lia) ltac:(lia) Ot Op') as [Os Es]. destruct (ok_add d 400002 t (c_pi env) Hd ltac:(lia) ltac:(lia) Ot Op') as [Oa Ea].
  destruct (Bool.eqb (ComplexReal.rlt0 (value y)) (ComplexReal.rlt0 (value x))); destruct (ComplexReal.rlt0 (value x)).
  - split; [apply Os|]. split; [apply Os|]. apply Rabs_le_inv in Ep, Bw. assert (Es' := Rle_trans _ _ _ Es Mx'). apply Rabs_le_inv in Es'. apply Rabs_le. lra.
  - split; [exact Ft|]. split; [exact Pt|]. lra.
  - split; [apply Oa|]. split; [apply Oa|]. apply Rabs_le_inv in Ep, Bw. assert (Es' := Rle_trans _ _ _ Ea Mx'). apply Rabs_le_inv in Es'. apply Rabs_le. lra.
  - split; [exact Ft|]. split; [exact Pt|]. lra.
Qed.

(** The division y / x loses the sign of y when |y| = |x| *)
Lemma atan2_equal_magnitudes y x t : finite d y -> finite d x -> value y < 0 -> Rabs (value y) = Rabs (value x) ->
  (forall w, finite d w -> full d w -> value w = 1 -> estimates d (est_atan env w) (atan 1)) ->
  is_angle (value x) (value y) t ->
  let r := ModelElem.atan2 d env y x in finite d r /\ full d r /\ 3 / 2 < Rabs (value r - t).
Proof.
  intros Fy Fx Yn Eq Hest Ang r. pose proof (u_tiny d Hd) as U. rewrite (angle_ratan2 _ _ _ Ang). clear Ang t.
  assert (Nx : value x <> 0). { intro Z. rewrite Z, Rabs_R0, Rabs_left in Eq by lra. lra. }
  assert (S : same_magnitude y x = true) by (apply (same_magnitude_spec d y x Hd Fy Fx Nx); exact Eq).
  unfold r, ModelElem.atan2. rewrite (finite_isfinite d x Fx), (finite_isfinite d y Fy). cbn [negb orb].
  destruct (iszero_isneg_spec d x Hd Fx) as [Zx Sx]. destruct (iszero_isneg_spec d y Hd Fy) as [Zy Sy].
  assert (Y1 : iszero y = false) by (destruct (iszero y); [exfalso; assert (value y = 0) by (apply Zy; reflexivity); lra|reflexivity]).
  assert (Y2 : isneg y = true) by (apply Sy; exact Yn).
  assert (X1 : iszero x = false) by (destruct (iszero x); [exfalso; apply Nx, Zx; reflexivity|reflexivity]).
  rewrite Y1, Y2, X1. destruct (one_facts d Hd) as [O1 V1]. destruct (pi_facts d Hd env Hpi) as (Op & Ep & Vp). pose proof pi_bounds as PB.
  assert (N1 : neg (one d) = false) by (pose proof (of_ull_spec d 1 Hd ltac:(lia)) as (_ & _ & _ & N & _); exact N).
  assert (X3 : neg x = isneg x) by reflexivity.
  unfold ratan2, atan2_gen, ris0, ComplexReal.rlt0. destruct (Req_EM_T (value y) 0) as [E|_]; [lra|]. destruct (Req_EM_T (value x) 0) as [E|_]; [contradiction|].
  destruct (Rlt_dec (value y) 0) as [_|E]; [|contradiction]. rewrite (Rabs_left (value y)) in Eq by lra. unfold div. rewrite S, N1, X3. destruct (Rlt_dec (value x) 0) as [L|L].
  - assert (X2 : isneg x = true) by (apply Sx; exact L). rewrite X2. cbn [Bool.eqb negb]. rewrite (Rabs_left (value x)) in Eq by lra.
    destruct (ok_negate d 1 (one d) Hd O1) as [On Vn]. rewrite V1 in Vn. set (q := negate (one d)) in *.
    destruct (atan_accurate d Hd Hd' env Hpi q (proj1 On) (proj1 (proj2 On))) as (Ft & Pt & Bt).
    { right. rewrite Vn, Rabs_Ropp, Rabs_R1. change 1 with (p10 0). apply p10_le. lia. }
    { lra. }
    { intros z Fz Pz Vz Bz. rewrite Vn, Rabs_Ropp, Rabs_R1 in *. apply Hest; assumption. }
    set (t := ModelElem.atan d env q) in *. rewrite Vn, atan_opp, atan_1 in Bt.
    rewrite Rabs_Ropp, (Rabs_pos_eq (PI / 4)) in Bt by lra. assert (14 / 10 * u * (PI / 4) <= / 1000 * (PI / 4)) by (apply Rmult_le_compat_r; lra). assert (Bt' : Rabs (value t - - (PI / 4)) <= / 1000) by lra. apply Rabs_le_inv in Bt'.
    assert (Ot : ok d 1 t). { apply (ok_of_bounds d); [exact Ft|exact Pt|]. rewrite Rabs_left by lra. rewrite (p10_inv 1), p10_1. lra. }
    destruct (ok_sub d 1 t (c_pi env) Hd ltac:(lia) ltac:(lia) Ot Op) as [Os Es]. split; [apply Os|]. split; [apply Os|].
    assert (Mx : Rmax (Rabs (value t)) (Rabs (value (c_pi env))) <= 4) by (apply Rmax_lub; [rewrite Rabs_left; lra|rewrite Rabs_pos_eq; lra]).
    assert (Mx' : 2 * p10 (- (d + 17)) * Rmax (Rabs (value t)) (Rabs (value (c_pi env))) <= / 1000 * u).
    { rewrite (p_17 d). apply Rle_trans with (2 * (u / 100000000000000000) * 4); [apply Rmult_le_compat_l; lra|lra]. }
    assert (Es' := Rle_trans _ _ _ Es Mx'). apply Rabs_le_inv in Es'. replace (value y / value x) with 1 by (replace (value y) with (value x) by lra; field; lra). rewrite atan_1.
    apply Rabs_le_inv in Ep. rewrite Rabs_left by lra. lra.
  - assert (X2 : isneg x = false) by (destruct (isneg x) eqn:Q; [exfalso; apply L, Sx; reflexivity|reflexivity]). rewrite X2. cbn [Bool.eqb negb].
    rewrite (Rabs_pos_eq (value x)) in Eq by lra.
    destruct (atan_accurate d Hd Hd' env Hpi (one d) (proj1 O1) (proj1 (proj2 O1))) as (Ft & Pt & Bt).
    { right. rewrite V1, Rabs_R1. change 1 with (p10 0). apply p10_le. lia. }
    { lra. }
    { intros z Fz Pz Vz Bz. rewrite V1, Rabs_R1 in *. apply Hest; assumption. }
    set (t := ModelElem.atan d env (one d)) in *. rewrite V1, atan_1 in Bt. rewrite (Rabs_pos_eq (PI / 4)) in Bt by lra.
    assert (14 / 10 * u * (PI / 4) <= / 1000 * (PI / 4)) by (apply Rmult_le_compat_r; lra). assert (Bt' : Rabs (value t - PI / 4) <= / 1000) by lra. apply Rabs_le_inv in Bt'.
    split; [exact Ft|]. split; [exact Pt|]. replace (value y / value x) with (-1) by (replace (value y) with (- value x) by lra; field; lra).
    replace (-1) with (- (1)) by ring. rewrite atan_opp, atan_1. rewrite Rabs_pos_eq by lra. lra.
Qed.

End FixedDigits.
