(** * C74: accuracy of the arc sine and the arc cosine *)

From Coq Require Import ZArith List Bool Ascii String Reals Lra Lia.
From Verif Require Import Model Spec Limbs Value CmpProofs AddProofs Decide OrderProofs AddExtra IntProofs IntPartProofs IntConv PowExtra MulCor InvProofs LdexpProofs ModelDiv ModelPow ModelStr ModelConst ModelElem
  ElemProofs ElemSpecial SeriesFloat FloatEval ExpReal ExpFloat ExpAcc SinFloat SinAcc SinTiny P_Const P_Sin SpecTrig AtanSer AsinTop.
Import ListNotations.
Open Scope R_scope.
Local Notation Rasin := Ratan.asin.
Local Notation Racos := Ratan.acos.

(** C74, up to 1009 digits: for every finite x of full precision that is zero, between
    10^-400000 and 99/100 or between -99/100 and -10^-6, the relative error of
    asin(x) is at most 62/100 * 10^-digits10 / sqrt(1 - x^2).  The double precision
    estimate the Newton iteration starts from is assumed to have a relative error
    of at most 4 * 10^-15.  Missing: arguments of reduced precision, arguments of
    magnitude between 99/100 and 1, more digits, smaller arguments; the sign is wrong
    for small negative arguments (C51_asin_small_refuted). *)
Theorem C74_asin_partial :
  forall d env x, valid_digits d -> (d <= 1009)%Z -> const_pi d = Ok (c_pi env) -> finite d x -> full d x ->
  value x = 0 \/ powerRZ 10 (-400000) <= value x <= 99 / 100 \/ - (99 / 100) <= value x <= - (/ 1000000) ->
  (forall y, finite d y -> full d y -> value y = Rabs (value x) -> powerRZ 10 (- d) <= value y -> estimates d (est_asin env y) (Rasin (value y))) ->
  let r := asin d env x in
  finite d r /\ full d r /\ Rabs (value r - Rasin (value x)) <= 62 / 100 * powerRZ 10 (- d) * (Rabs (Rasin (value x)) / R_sqrt.sqrt (1 - value x * value x)).
Proof.
  intros d env x Hd D E F P L Hest. destruct (asin_accurate d Hd ltac:(lia) env (pi_close d env Hd D E) x F P L Hest) as (A & B & C & _). auto.
Qed.
Print Assumptions C74_asin_partial.

(** The absolute error of acos(x), for the same arguments. *)
Theorem C74_acos_partial :
  forall d env x, valid_digits d -> (d <= 1009)%Z -> const_pi d = Ok (c_pi env) -> finite d x -> full d x ->
  value x = 0 \/ powerRZ 10 (-400000) <= value x <= 99 / 100 \/ - (99 / 100) <= value x <= - (/ 1000000) ->
  (forall y, finite d y -> full d y -> value y = Rabs (value x) -> powerRZ 10 (- d) <= value y -> estimates d (est_asin env y) (Rasin (value y))) ->
  let r := acos d env x in
  finite d r /\ full d r /\
  Rabs (value r - Racos (value x)) <= (16 / 100 + 63 / 100 * (Rabs (Rasin (value x)) / R_sqrt.sqrt (1 - value x * value x))) * powerRZ 10 (- d).
Proof.
  intros d env x Hd D E F P L Hest. exact (acos_accurate d Hd ltac:(lia) env (pi_close d env Hd D E) x F P L Hest).
Qed.
Print Assumptions C74_acos_partial.

(** Both are NaN outside of [-1, 1], whatever the digits; acos(1) is 0 and
    acos(-1) is the constant pi. *)
Theorem C74_outside :
  forall d env x, valid_digits d -> finite d x ->
  (1 < Rabs (value x) -> isnan (asin d env x) = true /\ isnan (acos d env x) = true) /\
  (value x = 1 -> acos d env x = zero d) /\ (value x = -1 -> acos d env x = c_pi env).
Proof.
  intros d env x Hd F. destruct (iszero_isneg_spec d x Hd F) as [Zs Ns]. destruct (one_facts d Hd) as [O1 E1]. destruct (zero_ok d Hd) as (Z1 & _ & Z3).
  destruct (cmp_all_ops d x (zero d) Hd F Z1) as (L0 & _). rewrite Z3 in L0.
  set (xx := fun b : bool => if negb b then x else negate x). assert (Fx : forall b, finite d (xx b)) by (intro b; unfold xx; destruct b; cbn [negb]; [apply negate_finite|]; exact F).
  assert (Vx : forall b, value (xx b) = if b then - value x else value x) by (intro b; unfold xx; destruct b; cbn [negb]; [apply (negate_value d); auto|reflexivity]).
  assert (Cx : forall b, (op_lt (xx b) (one d) = true <-> value (xx b) < 1) /\ (op_gt (xx b) (one d) = true <-> value (xx b) > 1)).
  { intro b. destruct (cmp_all_ops d (xx b) (one d) Hd (Fx b) (proj1 O1)) as (C1 & _ & _ & _ & _ & C6). rewrite E1 in C1, C6. auto. }
  unfold asin, acos. rewrite (finite_isfinite d x F). cbn [negb]. cbv zeta. fold (xx (isneg x)). fold (xx (op_lt x (zero d))). split; [|split].
  - intro A. split.
    + assert (G : op_gt (xx (isneg x)) (one d) = true); [|rewrite G; reflexivity]. apply Cx. rewrite Vx. destruct (isneg x) eqn:G.
      * destruct Ns as [Ns _]. specialize (Ns eq_refl). rewrite Rabs_left in A by lra. lra.
      * rewrite Rabs_pos_eq in A; [lra|]. apply Rnot_lt_le. intro C. apply Ns in C. discriminate.
    + assert (G : op_gt (xx (op_lt x (zero d))) (one d) = true); [|rewrite G; reflexivity]. apply Cx. rewrite Vx. destruct (op_lt x (zero d)) eqn:G.
      * destruct L0 as [L0 _]. specialize (L0 eq_refl). rewrite Rabs_left in A by lra. lra.
      * rewrite Rabs_pos_eq in A; [lra|]. apply Rnot_lt_le. intro C. apply L0 in C. discriminate.
  - intro V. assert (B : op_lt x (zero d) = false) by (apply not_true_is_false; intro C; apply L0 in C; lra). rewrite B. destruct (Cx false) as [C1 C2]. rewrite (Vx false), V in C1, C2.
    assert (G1 : op_gt (xx false) (one d) = false) by (apply not_true_is_false; intro C; apply C2 in C; lra). assert (G2 : op_lt (xx false) (one d) = false) by (apply not_true_is_false; intro C; apply C1 in C; lra).
    rewrite G1, G2. reflexivity.
  - intro V. assert (B : op_lt x (zero d) = true) by (apply L0; lra). rewrite B. destruct (Cx true) as [C1 C2]. rewrite (Vx true), V in C1, C2.
    assert (G1 : op_gt (xx true) (one d) = false) by (apply not_true_is_false; intro C; apply C2 in C; lra). assert (G2 : op_lt (xx true) (one d) = false) by (apply not_true_is_false; intro C; apply C1 in C; lra).
    rewrite G1, G2. reflexivity.
Qed.
Print Assumptions C74_outside.

(** For acos, too, small negative arguments are treated as their absolute values:
    acos(-x) is below pi/2. *)
Theorem C74_acos_small_refuted :
  exists d env x, valid_digits d /\ pi_sane d env /\ finite d x /\ value x < 0 /\ op_lt (acos d env x) (pi_half d env) = true.
Proof.
  exists 30%Z, env_30, (negate (of_limbs 30 [1%Z] (-8) false)). split; [exact valid_30|]. split; [exact pi_30_sane|].
  assert (F : finite 30 (negate (of_limbs 30 [1%Z] (-8) false))) by (apply wfb_finite; vm_compute; reflexivity). split; [exact F|].
  destruct (iszero_isneg_spec 30 _ valid_30 F) as [_ N]. split; [apply N; vm_compute; reflexivity|]. vm_compute. reflexivity.
Qed.
Print Assumptions C74_acos_small_refuted.

(** ** Witnesses *)

(* an environment whose estimate of the arc sine is pi/6, right at 1/2 *)
Definition env_with_sixth (d : Z) (p : ef) : env :=
  mkenv p (zero d) (zero d) (zero d) (zero d) (fun _ => div_int d p 6) (fun _ => zero d) (fun _ => zero d) (fun _ _ => zero d).

Lemma asin_half : Rasin (/ 2) = PI / 6.
Proof. pose proof PI_RGT_0. rewrite <- (asin_sin (PI / 6)) by lra. f_equal. rewrite sin_PI6. lra. Qed.

Lemma sixth_pi d p : valid_digits d -> (d <= 1009)%Z -> const_pi d = Ok p -> estimates d (div_int d p 6) (Rasin (/ 2)).
Proof.
  intros Hd D E. pose proof (u_tiny d Hd) as U. pose proof (pi_close d (env_with_sixth d p) Hd D E) as C. cbn [c_pi env_with_sixth] in C.
  destruct (pi_facts d Hd (env_with_sixth d p) C) as (Op & Ep & Vp). cbn [c_pi env_with_sixth] in *. pose proof pi_bounds.
  destruct (ok_div_int d Hd 1 p 6 ltac:(lia) Op ltac:(lra) ltac:(lia)) as (O & _ & R). split; [apply O|]. split; [apply O|]. rewrite asin_half.
  unfold rel in R. rewrite (Rabs_pos_eq (value p / 6)) in R by lra. apply Rabs_le_inv in R. apply Rabs_le_inv in Ep.
  assert (powerRZ 10 (- d) / 10 * (value p / 6) <= powerRZ 10 (- d) / 10 * 1) by (apply Rmult_le_compat_l; lra).
  apply Rabs_le. lra.
Qed.

Example C74_hypotheses_met :
  exists env, const_pi 101 = Ok (c_pi env) /\ let x := negate (half 101) in finite 101 x /\ full 101 x /\ - (99 / 100) <= value x <= - (/ 1000000) /\
  forall y, finite 101 y -> full 101 y -> value y = Rabs (value x) -> powerRZ 10 (- 101) <= value y -> estimates 101 (est_asin env y) (Rasin (value y)).
Proof.
  assert (H : valid_digits 101) by (unfold valid_digits; lia). destruct (C60_constants_partial 101 _ _ H ltac:(lia) (is_pi 101 ltac:(lia))) as (p & L & _).
  exists (env_with_sixth 101 p). split; [exact L|]. destruct (SinStep.half_facts 101 H) as [O V]. destruct (ok_negate 101 1 (half 101) H O) as [On Vn]. cbv zeta.
  split; [apply On|]. split; [apply On|]. rewrite Vn, V. split; [lra|].
  intros y Fy Py Vy _. rewrite Rabs_Ropp, Rabs_pos_eq in Vy by lra. replace (value y) with (/ 2) by lra. apply sixth_pi; [exact H|lia|exact L].
Qed.

(** 1, -1 and 2 for C74_outside *)
Example C74_outside_hypotheses_met :
  valid_digits 101 /\ (finite 101 (of_sll 101 2) /\ 1 < Rabs (value (of_sll 101 2))) /\ (finite 101 (of_sll 101 1) /\ value (of_sll 101 1) = 1) /\ (finite 101 (of_sll 101 (-1)) /\ value (of_sll 101 (-1)) = -1).
Proof.
  assert (H : valid_digits 101) by (unfold valid_digits; lia). split; [exact H|].
  destruct (of_sll_spec 101 2 H ltac:(lia)) as (F1 & _ & V1 & _). destruct (of_sll_spec 101 1 H ltac:(lia)) as (F2 & _ & V2 & _). destruct (of_sll_spec 101 (-1) H ltac:(lia)) as (F3 & _ & V3 & _).
  rewrite V1, V2, V3. split; [split; [exact F1|rewrite Rabs_pos_eq; simpl; lra]|]. split; (split; [assumption|simpl; lra]).
Qed.
