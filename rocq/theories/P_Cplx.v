(** * Properties C64, C65, C66: functions of a complex number

    In every statement e tells the version of the class: true is
    complex<e_float>, false the class template; the components are real numbers. *)

From Coq Require Import ZArith List Bool Lia Reals Lra Field.
From Coquelicot Require Import Complex.
From Verif Require Import Model Spec IntProofs ModelDiv ModelPow ModelGen ComplexReal ModelCplx SpecCplx CplxReal CplxProofs Decide.
Open Scope R_scope.

(** ** C64: exp, sin, cos, tan, sinh, cosh, tanh, polar *)

(** C64: the functions are those given by Euler's formulas. *)
Theorem C64_euler :
  forall (e : bool) (z : cx R),
  toC (Rexp z) = cexp (toC z) /\
  toC (Rsin z) = csin (toC z) /\ toC (Rcos z) = ccos (toC z) /\
  toC (Rsinh z) = csinh (toC z) /\ toC (Rcosh z) = ccosh (toC z) /\
  (ccos (toC z) <> 0%C -> toC (Rtan e z) = ctan (toC z)) /\
  (ccosh (toC z) <> 0%C -> toC (Rtanh e z) = ctanh (toC z)).
Proof.
  intros e z. repeat split; [apply exp_ok|apply sin_ok|apply cos_ok|apply sinh_ok|apply cosh_ok|apply tan_ok|apply tanh_ok].
Qed.
Print Assumptions C64_euler.

Example C64_euler_hypotheses_met : ccos (toC (mkcx 0 1)) <> 0%C /\ ccosh (toC (mkcx 1 0)) <> 0%C.
Proof.
  assert (P : forall x, 0 < cosh x). { intro x. unfold cosh. pose proof (exp_pos x). pose proof (exp_pos (- x)). lra. }
  split.
  - rewrite ccos_parts. intro E. apply (f_equal fst) in E. cbn in E. rewrite cos_0 in E. specialize (P 1). lra.
  - rewrite ccosh_parts. intro E. apply (f_equal fst) in E. cbn in E. rewrite cos_0 in E. specialize (P 1). lra.
Qed.

(** C64: the functional equation of exp. *)
Theorem C64_exp_sum :
  forall z w : cx R, toC (Rexp (c_add Rplus z w)) = (toC (Rexp z) * toC (Rexp w))%C /\ toC (Rexp (mkcx 0 0)) = 1%C.
Proof.
  intros z w. rewrite !exp_ok. split; [|apply cexp_0]. rewrite <- cexp_plus. reflexivity.
Qed.
Print Assumptions C64_exp_sum.

(** C64: polar(rho, theta) is rho e^(i theta), and abs and arg undo it. *)
Theorem C64_polar :
  forall (e : bool),
  (forall rho theta, toC (Rpolar rho theta) = (rho * cexp (0, theta))%C) /\
  (forall z, toC z <> 0%C -> Rpolar (Rabs_c e z) (Rarg z) = z /\ - PI < Rarg z <= PI).
Proof. intro e. split; [apply polar_ok|apply polar_arg]. Qed.
Print Assumptions C64_polar.

Lemma cx_neq_0 a b : a <> 0 -> toC (mkcx a b) <> 0%C.
Proof. intros N E. apply N. apply (f_equal fst) in E. exact E. Qed.

Example C64_polar_hypotheses_met : toC (mkcx (-3) 4) <> 0%C /\ Rpolar (Rabs_c true (mkcx (-3) 4)) (Rarg (mkcx (-3) 4)) = mkcx (-3) 4.
Proof. assert (N : toC (mkcx (-3) 4) <> 0%C) by (apply cx_neq_0; lra). split; [exact N|]. apply (proj2 (C64_polar true)). exact N. Qed.

(** ** C65: log, log10, pow *)

(** C65: log is the principal value; there is no other. *)
Theorem C65_log :
  forall (e : bool) (z : cx R), toC z <> 0%C ->
  principal_log (toC z) (toC (Rlog e z)) /\ forall w, principal_log (toC z) w -> w = toC (Rlog e z).
Proof.
  intros e z N. split; [apply log_ok; exact N|]. intros w H. apply (principal_log_unique (toC z)); [exact H|apply log_ok; exact N].
Qed.
Print Assumptions C65_log.

Example C65_log_hypotheses_met : toC (mkcx (-1) 0) <> 0%C /\ toC (Rlog true (mkcx (-1) 0)) = (0, PI).
Proof.
  assert (N : toC (mkcx (-1) 0) <> 0%C) by (apply cx_neq_0; lra). split; [exact N|]. symmetry. apply (proj2 (C65_log true _ N)).
  unfold principal_log, cexp, toC, Re, Im; cbn [re im fst snd]. pose proof PI_RGT_0. rewrite exp_0, cos_PI, sin_PI. split; [f_equal; ring|lra].
Qed.

Theorem C65_log10 :
  forall (e : bool) (z : cx R), toC z <> 0%C -> cexp (toC (Rlog10 e z) * ln 10)%C = toC z /\ (toC (Rlog10 e z) * ln 10)%C = toC (Rlog e z).
Proof. intros e z N. split; [apply log10_ok; exact N|apply log10_log]. Qed.
Print Assumptions C65_log10.

(** C65: the three overloads of pow with a complex operand, the powers with
    natural exponents, and z^(a+b) = z^a z^b. *)
Theorem C65_pow :
  forall (e : bool) (z : cx R), toC z <> 0%C ->
  (forall a, toC (Rpow_c e z a) = cexp (toC a * toC (Rlog e z))%C) /\
  (forall a, toC (Rpow_r e z a) = cexp (a * toC (Rlog e z))%C) /\
  (forall x a, toC (Rrpow x a) = cexp (toC a * ln x)%C) /\
  (forall n, toC (Rpow_c e z (mkcx (INR n) 0)) = cpow (toC z) n /\ toC (Rpow_r e z (INR n)) = cpow (toC z) n) /\
  (forall a b, toC (Rpow_c e z (c_add Rplus a b)) = (toC (Rpow_c e z a) * toC (Rpow_c e z b))%C).
Proof.
  intros e z N. repeat split.
  - apply pow_ok.
  - apply pow_r_ok.
  - apply rpow_ok.
  - apply pow_nat; exact N.
  - apply pow_nat; exact N.
  - apply pow_add.
Qed.
Print Assumptions C65_pow.

Example C65_pow_hypotheses_met : toC (mkcx 1 1) <> 0%C /\ toC (Rpow_r true (mkcx 1 1) (INR 2)) = (0, 2).
Proof.
  assert (N : toC (mkcx 1 1) <> 0%C) by (apply cx_neq_0; lra). split; [exact N|].
  destruct (C65_pow true _ N) as (_ & _ & _ & P & _). rewrite (proj2 (P 2%nat)). unfold cpow, toC, Cmult, RtoC; cbn [re im fst snd]. f_equal; ring.
Qed.

(** ** C66: the inverse functions *)

(** C66: every function is a right inverse, with the principal value. *)
Theorem C66_inverses_partial :
  forall (e : bool) (z : cx R),
  ((toC z * toC z)%C <> 1%C ->
    (csin (toC (Rasin e z)) = toC z /\ - (PI / 2) <= Re (toC (Rasin e z)) <= PI / 2) /\
    (ccos (toC (Racos e z)) = toC z /\ 0 <= Re (toC (Racos e z)) <= PI) /\
    (ccosh (toC (Racosh e z)) = toC z /\ 0 <= Re (toC (Racosh e z)) /\ - PI < Im (toC (Racosh e z)) <= PI) /\
    (ctanh (toC (Ratanh e z)) = toC z /\ - (PI / 2) <= Im (toC (Ratanh e z)) <= PI / 2)) /\
  ((toC z * toC z)%C <> (- (1))%C ->
    (csinh (toC (Rasinh e z)) = toC z /\ - (PI / 2) <= Im (toC (Rasinh e z)) <= PI / 2) /\
    (ctan (toC (Ratan e z)) = toC z /\ - (PI / 2) <= Re (toC (Ratan e z)) <= PI / 2)).
Proof.
  intros e z. split; intro N.
  - split; [apply asin_ok; exact N|]. split; [apply acos_ok; exact N|]. split; [apply acosh_ok; exact N|]. apply atanh_ok; exact N.
  - split; [apply asinh_ok; exact N|]. apply atan_ok; exact N.
Qed.
Print Assumptions C66_inverses_partial.

Example C66_inverses_hypotheses_met : (toC (mkcx 2 1) * toC (mkcx 2 1))%C <> 1%C /\ (toC (mkcx 2 1) * toC (mkcx 2 1))%C <> (- (1))%C.
Proof. split; intro E; apply (f_equal snd) in E; cbn in E; lra. Qed.

(** C66: at the branch points complex<e_float> takes i for the square root of 0:
    the imaginary part of asin(1) is -log(4)/2 and the real part of acosh(1) is
    log(5)/2, whatever log computes; both should be 0. *)
Theorem C66_refuted :
  exists four five, value four = 4 /\ value five = 5 /\
  forall (rlog : ef -> ef) (ratan2 : ef -> ef -> ef),
  let lt0 x := op_lt x (zero 30) in
  im (x_asin (one 30) (add 30) (sub 30) (mul 30) (div 30) negate (twice_ef 30) (halve_ef 30) lt0 (sqrt 30) rlog ratan2 (ce_norm 30) (mkcx (one 30) (zero 30)))
    = negate (halve_ef 30 (rlog four)) /\
  re (x_acosh (one 30) (add 30) (sub 30) (mul 30) (div 30) negate (twice_ef 30) (halve_ef 30) lt0 (sqrt 30) rlog ratan2 (ce_norm 30) (ce_div 30 false) (mkcx (one 30) (zero 30)))
    = halve_ef 30 (rlog five).
Proof.
  assert (V : forall n, (-9223372036854775808 <= n < 9223372036854775808)%Z -> value (of_sll 30 n) = IZR n).
  { intros n Hn. assert (Hv : valid_digits 30) by (unfold valid_digits; lia). destruct (of_sll_spec 30 n Hv Hn) as (_ & _ & H & _). exact H. }
  exists (of_sll 30 4), (of_sll 30 5). split; [apply V; lia|]. split; [apply V; lia|]. intros rlog ratan2. cbv zeta. split.
  - assert (N : ce_norm 30 (c_add (add 30) (c_conj negate (mkcx (one 30) (zero 30)))
      (x_sqrt (add 30) (div 30) negate (twice_ef 30) (halve_ef 30) (fun x => op_lt x (zero 30)) (sqrt 30) (ce_norm 30)
        (rc_sub (sub 30) negate (one 30) (op_cmul (add 30) (sub 30) (mul 30) (twice_ef 30) (mkcx (one 30) (zero 30)) (mkcx (one 30) (zero 30)))))) = of_sll 30 4) by (vm_compute; reflexivity).
    unfold x_asin, x_log. rewrite N. reflexivity.
  - assert (N : ce_norm 30 (c_add (add 30) (mkcx (one 30) (zero 30)) (op_cmul (add 30) (sub 30) (mul 30) (twice_ef 30) (cr_add (add 30) (mkcx (one 30) (zero 30)) (one 30))
      (x_sqrt (add 30) (div 30) negate (twice_ef 30) (halve_ef 30) (fun x => op_lt x (zero 30)) (sqrt 30) (ce_norm 30)
        (ce_div 30 false (cr_sub (sub 30) (mkcx (one 30) (zero 30)) (one 30)) (cr_add (add 30) (mkcx (one 30) (zero 30)) (one 30)))))) = of_sll 30 5) by (vm_compute; reflexivity).
    unfold x_acosh, x_log. rewrite N. reflexivity.
Qed.
Print Assumptions C66_refuted.
