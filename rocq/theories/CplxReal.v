(** * Complex functions over the real numbers *)

From Coq Require Import ZArith List Bool Lia Reals Lra Field.
From Coquelicot Require Import Complex.
From Verif Require Import Model SpecGen ModelPow ModelGen PowGen ComplexProofs ComplexReal ModelCplx SpecCplx.
Open Scope R_scope.

Local Notation exp := Rtrigo_def.exp.

Definition ris0 (x : R) : bool := if Req_EM_T x 0 then true else false.
Definition ratan2 : R -> R -> R := atan2_gen 0 PI (PI / 2) Rplus Rminus Rdiv Ropp atan ris0 rlt0.

(** ** The argument *)

Lemma sqrt_1_div x y : x <> 0 -> sqrt (x * x + y * y) = Rabs x * sqrt (1 + Rsqr (y / x)).
Proof.
  intro N. replace (x * x + y * y) with (Rsqr x * (1 + Rsqr (y / x))) by (unfold Rsqr; field; exact N).
  rewrite sqrt_mult_alt by apply Rle_0_sqr. rewrite sqrt_Rsqr_abs. reflexivity.
Qed.

Lemma ratan2_spec x y : (x, y) <> (0, 0) ->
  sqrt (x * x + y * y) * cos (ratan2 y x) = x /\ sqrt (x * x + y * y) * sin (ratan2 y x) = y /\ - PI < ratan2 y x <= PI.
Proof.
  intro N. pose proof PI_RGT_0 as Pp. unfold ratan2, atan2_gen, ris0, rlt0.
  destruct (Req_EM_T y 0) as [->|Ny].
  { assert (Nx : x <> 0) by (intros ->; auto). replace (x * x + 0 * 0) with (Rsqr x) by (unfold Rsqr; ring). rewrite sqrt_Rsqr_abs.
    destruct (Rlt_dec x 0) as [L|L].
    - rewrite (Rabs_left x L), cos_PI, sin_PI. repeat split; lra.
    - rewrite (Rabs_pos_eq x) by lra. rewrite cos_0, sin_0. repeat split; lra. }
  destruct (Req_EM_T x 0) as [->|Nx].
  { replace (0 * 0 + y * y) with (Rsqr y) by (unfold Rsqr; ring). rewrite sqrt_Rsqr_abs.
    destruct (Rlt_dec y 0) as [L|L].
    - rewrite (Rabs_left y L), cos_neg, sin_neg, cos_PI2, sin_PI2. repeat split; lra.
    - rewrite (Rabs_pos_eq y) by lra. rewrite cos_PI2, sin_PI2. repeat split; lra. }
  rewrite (sqrt_1_div x y Nx). set (t := y / x).
  assert (Q : 0 < sqrt (1 + Rsqr t)) by (apply sqrt_lt_R0; pose proof (Rle_0_sqr t); lra).
  assert (Hc : Rabs x * sqrt (1 + Rsqr t) * cos (atan t) = Rabs x) by (rewrite cos_atan; field; lra).
  assert (Hs : Rabs x * sqrt (1 + Rsqr t) * sin (atan t) = Rabs x * t) by (rewrite sin_atan; field; lra).
  pose proof (atan_bound t) as B.
  assert (Hyx : x * t = y) by (unfold t; field; exact Nx).
  destruct (Rlt_dec x 0) as [Lx|Lx].
  - assert (Cp : cos (atan t + PI) = - cos (atan t)) by apply neg_cos.
    assert (Sp : sin (atan t + PI) = - sin (atan t)) by apply neg_sin.
    assert (Cm : cos (atan t - PI) = - cos (atan t)) by (rewrite cos_minus, cos_PI, sin_PI; ring).
    assert (Sm : sin (atan t - PI) = - sin (atan t)) by (rewrite sin_minus, cos_PI, sin_PI; ring).
    rewrite (Rabs_left x Lx) in *.
    destruct (Rlt_dec y 0) as [Ly|Ly]; cbn [Bool.eqb].
    + rewrite Cm, Sm. assert (T : 0 < t) by (clear - Hyx Ly Lx; nra).
      assert (A0 : 0 < atan t) by (rewrite <- atan_0; apply atan_increasing; exact T).
      repeat split; lra.
    + rewrite Cp, Sp. assert (T : t < 0) by (clear - Hyx Ly Lx Ny; assert (0 < y) by lra; nra).
      assert (A0 : atan t < 0) by (rewrite <- atan_0; apply atan_increasing; exact T).
      repeat split; lra.
  - rewrite (Rabs_pos_eq x) in * by lra.
    destruct (Rlt_dec y 0) as [Ly|Ly]; cbn [Bool.eqb]; repeat split; lra.
Qed.

(** in the right half plane the argument is within [-pi/2, pi/2] *)
Lemma ratan2_right x y : 0 <= x -> - (PI / 2) <= ratan2 y x <= PI / 2.
Proof.
  intro N. pose proof PI_RGT_0 as Pp. unfold ratan2, atan2_gen, ris0, rlt0. pose proof (atan_bound (y / x)) as B.
  destruct (Req_EM_T y 0); destruct (Rlt_dec x 0); try lra. destruct (Req_EM_T x 0); destruct (Rlt_dec y 0); cbn [Bool.eqb]; try lra.
Qed.

(** ** The exponential function *)

Lemma cexp_plus (z w : C) : cexp (z + w)%C = (cexp z * cexp w)%C.
Proof.
  destruct z as [a b], w as [c d]. unfold cexp, Cplus, Cmult, Re, Im; cbn [fst snd]. rewrite exp_plus, cos_plus, sin_plus.
  apply injective_projections; cbn [fst snd]; ring.
Qed.

Lemma cexp_0 : cexp 0%C = 1%C.
Proof. unfold cexp, RtoC, Re, Im; cbn [fst snd]. rewrite exp_0, cos_0, sin_0. f_equal; ring. Qed.

Lemma cexp_inv (z : C) : (cexp z * cexp (- z))%C = 1%C.
Proof. rewrite <- cexp_plus. replace (z + - z)%C with (RtoC 0) by ring. apply cexp_0. Qed.

Lemma C1_neq_0 : RtoC 1 <> RtoC 0. Proof. intro E. apply (f_equal fst) in E. cbn in E. lra. Qed.
Lemma C2_neq_0 : RtoC 2 <> RtoC 0. Proof. intro E. apply (f_equal fst) in E. cbn in E. lra. Qed.
Lemma Ci_neq_0 : Ci <> RtoC 0. Proof. intro E. apply (f_equal snd) in E. cbn in E. lra. Qed.
Lemma Ci2 : (Ci * Ci)%C = (- (1))%C. Proof. unfold Ci, Cmult, Copp, RtoC; cbn [fst snd]. f_equal; ring. Qed.

Lemma cexp_neq_0 z : cexp z <> RtoC 0.
Proof. intro E. pose proof (cexp_inv z) as H. rewrite E in H. apply C1_neq_0. rewrite <- H. ring. Qed.

Lemma cexp_opp (z : C) : cexp (- z)%C = (/ cexp z)%C.
Proof.
  pose proof (cexp_neq_0 z) as N. pose proof (cexp_inv z) as H.
  replace (cexp (- z)%C) with (cexp z * cexp (- z) / cexp z)%C by (field; exact N). rewrite H. field. exact N.
Qed.

Lemma exp_neg_mul y : exp y * exp (- y) = 1.
Proof. rewrite <- exp_plus, Rplus_opp_r. apply exp_0. Qed.

Lemma csin_parts z : csin z = (sin (Re z) * cosh (Im z), cos (Re z) * sinh (Im z)).
Proof.
  destruct z as [x y]. unfold csin. apply eq_sym, Cdiv_unique.
  { apply Cmult_neq_0; [apply C2_neq_0|apply Ci_neq_0]. }
  unfold cexp, Cmult, Ci, Copp, Cminus, Cplus, RtoC, Re, Im, sinh, cosh; cbn [fst snd].
  replace (0 * x - 1 * y) with (- y) by ring. replace (0 * y + 1 * x) with x by ring. rewrite Ropp_involutive.
  rewrite cos_neg, sin_neg. apply injective_projections; unfold Cplus, Copp; cbn [fst snd]; field.
Qed.

Lemma ccos_parts z : ccos z = (cos (Re z) * cosh (Im z), - (sin (Re z) * sinh (Im z))).
Proof.
  destruct z as [x y]. unfold ccos. apply eq_sym, Cdiv_unique.
  { apply C2_neq_0. }
  unfold cexp, Cmult, Ci, Copp, Cminus, Cplus, RtoC, Re, Im, sinh, cosh; cbn [fst snd].
  replace (0 * x - 1 * y) with (- y) by ring. replace (0 * y + 1 * x) with x by ring. rewrite Ropp_involutive.
  rewrite cos_neg, sin_neg. apply injective_projections; unfold Cplus, Copp; cbn [fst snd]; field.
Qed.

Lemma csinh_parts z : csinh z = (cos (Im z) * sinh (Re z), cosh (Re z) * sin (Im z)).
Proof.
  destruct z as [x y]. unfold csinh. apply eq_sym, Cdiv_unique.
  { apply C2_neq_0. }
  unfold cexp, Cmult, Ci, Copp, Cminus, Cplus, RtoC, Re, Im, sinh, cosh; cbn [fst snd].
  rewrite cos_neg, sin_neg. apply injective_projections; unfold Cplus, Copp; cbn [fst snd]; field.
Qed.

Lemma ccosh_parts z : ccosh z = (cos (Im z) * cosh (Re z), sin (Im z) * sinh (Re z)).
Proof.
  destruct z as [x y]. unfold ccosh. apply eq_sym, Cdiv_unique.
  { apply C2_neq_0. }
  unfold cexp, Cmult, Ci, Copp, Cminus, Cplus, RtoC, Re, Im, sinh, cosh; cbn [fst snd].
  rewrite cos_neg, sin_neg. apply injective_projections; unfold Cplus, Copp; cbn [fst snd]; field.
Qed.

(** ** The logarithm *)

Lemma principal_log_unique z w w' : principal_log z w -> principal_log z w' -> w = w'.
Proof.
  destruct w as [a b], w' as [c d]. intros [E B] [E' B']. rewrite <- E' in E. clear E' z. unfold cexp, Re, Im in *; cbn [fst snd] in *.
  inversion E as [[E1 E2]].
  assert (X : exp a = exp c).
  { assert (S : exp a * exp a = exp c * exp c).
    { replace (exp a * exp a) with ((exp a * cos b) * (exp a * cos b) + (exp a * sin b) * (exp a * sin b)).
      2: { pose proof (sin2_cos2 b) as H. unfold Rsqr in H. nra. }
      rewrite E1, E2. pose proof (sin2_cos2 d) as H. unfold Rsqr in H. nra. }
    pose proof (exp_pos a). pose proof (exp_pos c). nra. }
  assert (Y : a = c) by (apply exp_inv; exact X). subst c.
  pose proof (exp_pos a) as P.
  assert (Cc : cos b = cos d) by (apply (Rmult_eq_reg_l (exp a)); lra).
  assert (Cs : sin b = sin d) by (apply (Rmult_eq_reg_l (exp a)); lra).
  f_equal. pose proof PI_RGT_0 as Pp.
  assert (Z : cos (b - d) = 1). { rewrite cos_minus, Cc, Cs. pose proof (sin2_cos2 d) as H. unfold Rsqr in H. lra. }
  assert (K : forall t, 0 < t < 2 * PI -> cos t <> 1).
  { intros t Ht Ec. replace t with (2 * (t / 2)) in Ec by field. rewrite cos_2a_sin in Ec.
    assert (sin (t / 2) > 0) by (apply sin_gt_0; lra). nra. }
  destruct (Rtotal_order b d) as [L|[L|L]]; [|exact L|].
  - exfalso. apply (K (d - b)); [lra|]. rewrite <- Z. rewrite <- cos_neg. f_equal; ring.
  - exfalso. apply (K (b - d)); [lra|]. exact Z.
Qed.
