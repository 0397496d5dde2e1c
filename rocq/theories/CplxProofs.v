(** * Complex functions: the equations they satisfy *)

From Coq Require Import ZArith List Bool Lia Reals Lra Field.
From Coquelicot Require Import Complex.
From Verif Require Import Model SpecGen ModelPow ModelGen PowGen ComplexProofs ComplexReal ModelCplx SpecCplx CplxReal.
Open Scope R_scope.

Local Notation exp := Rtrigo_def.exp.

(** The two versions of the functions with real components: [true] is the one of
    complex<e_float>, [false] the class template. *)
Definition rnorm_of (e : bool) : cx R -> R := if e then e_norm Rplus Rmult else c_norm 1 Rplus Rmult Rdiv rltabs.
Definition rquot_of (e : bool) : cx R -> cx R -> cx R :=
  if e then e_div 0 1 Rplus Rminus Rmult Rinv false else c_div 0 1 Rplus Rminus Rmult Rdiv Ropp rltabs false.

Definition Rabs_c e := x_abs sqrt (rnorm_of e).
Definition Rarg := x_arg ratan2.
Definition Rpolar := x_polar Rmult sin cos.
Definition Rexp := x_exp Rmult exp sin cos.
Definition Rsin := x_sin Rmult sin cos sinh cosh.
Definition Rcos := x_cos Rmult Ropp sin cos sinh cosh.
Definition Rsinh := x_sinh Rmult sin cos sinh cosh.
Definition Rcosh := x_cosh Rmult sin cos sinh cosh.
Definition Rtan e := x_tan Rmult Ropp sin cos sinh cosh (rquot_of e).
Definition Rtanh e := x_tanh Rmult sin cos sinh cosh (rquot_of e).
Definition Rlog e := x_log rhalve ln ratan2 (rnorm_of e).
Definition Rlog10 e := x_log10 (ln 10) Rdiv rhalve ln ratan2 (rnorm_of e).
Definition Rpow_r e := x_pow_r Rmult rhalve exp ln sin cos ratan2 (rnorm_of e).
Definition Rpow_c e := x_pow Rplus Rminus Rmult rtwice rhalve exp ln sin cos ratan2 (rnorm_of e).
Definition Rrpow := x_rpow Rmult exp ln sin cos.
Definition Rsqrt_c e := x_sqrt Rplus Rdiv Ropp rtwice rhalve rlt0 sqrt (rnorm_of e).
Definition Rasin e := x_asin 1 Rplus Rminus Rmult Rdiv Ropp rtwice rhalve rlt0 sqrt ln ratan2 (rnorm_of e).
Definition Racos e := x_acos 0 1 (PI / 2) Rplus Rminus Rmult Rdiv Ropp rtwice rhalve rlt0 sqrt ln ratan2 (rnorm_of e).
Definition Ratan e := x_atan 0 1 Rplus Rminus Ropp rhalve ln ratan2 (rnorm_of e).
Definition Racosh e := x_acosh 1 Rplus Rminus Rmult Rdiv Ropp rtwice rhalve rlt0 sqrt ln ratan2 (rnorm_of e) (rquot_of e).
Definition Rasinh e := x_asinh 1 Rplus Rminus Rmult Rdiv Ropp rtwice rhalve rlt0 sqrt ln ratan2 (rnorm_of e).
Definition Ratanh e := x_atanh 0 1 Rplus Rminus Ropp rhalve ln ratan2 (rnorm_of e).

Lemma norm_of e z : toC z <> 0%C -> rnorm_of e z = Cmod (toC z) * Cmod (toC z).
Proof. intro N. destruct e; unfold rnorm_of; destruct (real_norm z) as [A B]; auto. Qed.

Lemma norm_parts e z : toC z <> 0%C -> rnorm_of e z = re z * re z + im z * im z.
Proof.
  intro N. rewrite (norm_of e z N). rewrite <- (proj1 (real_norm z)). reflexivity.
Qed.

Lemma quot_of e z w : toC w <> 0%C -> toC (rquot_of e z w) = (toC z / toC w)%C.
Proof. intro N. destruct (real_division z w N) as (A & B & _). destruct e; [exact B|exact A]. Qed.

Lemma parts_neq_0 z : toC z <> 0%C -> (re z, im z) <> (0, 0).
Proof. intros N E. apply N. exact E. Qed.

Lemma norm_pos z : toC z <> 0%C -> 0 < re z * re z + im z * im z.
Proof.
  intro N. apply parts_neq_0 in N. destruct (Req_dec (re z) 0) as [A|A]; [|nra].
  destruct (Req_dec (im z) 0) as [B|B]; [|nra]. exfalso. apply N. rewrite A, B. reflexivity.
Qed.

(** ** exp and the functions that follow from it *)

Lemma exp_ok z : toC (Rexp z) = cexp (toC z).
Proof.
  destruct z as [x y]. unfold Rexp, x_exp, cr_mul, toC, cexp, Re, Im; cbn [re im fst snd]. apply injective_projections; cbn [fst snd]; ring.
Qed.

Lemma sin_ok z : toC (Rsin z) = csin (toC z).
Proof. rewrite csin_parts. reflexivity. Qed.

Lemma cos_ok z : toC (Rcos z) = ccos (toC z).
Proof. rewrite ccos_parts. reflexivity. Qed.

Lemma sinh_ok z : toC (Rsinh z) = csinh (toC z).
Proof. rewrite csinh_parts. reflexivity. Qed.

Lemma cosh_ok z : toC (Rcosh z) = ccosh (toC z).
Proof. rewrite ccosh_parts. reflexivity. Qed.

Lemma tan_ok e z : ccos (toC z) <> 0%C -> toC (Rtan e z) = ctan (toC z).
Proof.
  intro N. unfold Rtan, x_tan. fold Rsin. fold Rcos. rewrite quot_of by (rewrite cos_ok; exact N). rewrite sin_ok, cos_ok. reflexivity.
Qed.

Lemma tanh_ok e z : ccosh (toC z) <> 0%C -> toC (Rtanh e z) = ctanh (toC z).
Proof.
  intro N. unfold Rtanh, x_tanh. fold Rsinh. fold Rcosh. rewrite quot_of by (rewrite cosh_ok; exact N). rewrite sinh_ok, cosh_ok. reflexivity.
Qed.

Lemma polar_ok rho theta : toC (Rpolar rho theta) = (rho * cexp (0, theta))%C.
Proof.
  unfold Rpolar, x_polar, toC, cexp, Re, Im, RtoC, Cmult; cbn [re im fst snd]. rewrite exp_0. apply injective_projections; cbn [fst snd]; ring.
Qed.

(** ** log *)

Lemma exp_half_ln n : 0 < n -> exp (ln n / 2) = sqrt n.
Proof.
  intro P. symmetry. apply sqrt_lem_1; [lra|left; apply exp_pos|]. rewrite <- exp_plus. replace (ln n / 2 + ln n / 2) with (ln n) by field. apply exp_ln. exact P.
Qed.

Lemma log_ok e z : toC z <> 0%C -> principal_log (toC z) (toC (Rlog e z)).
Proof.
  intro N. pose proof (norm_pos z N) as P. pose proof (norm_parts e z N) as E. apply parts_neq_0 in N.
  destruct (ratan2_spec _ _ N) as (A & B & R).
  unfold principal_log, Rlog, x_log, rhalve. rewrite E. unfold toC, cexp, Re, Im; cbn [re im fst snd].
  split; [|exact R]. rewrite exp_half_ln by exact P. rewrite A, B. reflexivity.
Qed.

Lemma polar_arg e z : toC z <> 0%C -> Rpolar (Rabs_c e z) (Rarg z) = z /\ - PI < Rarg z <= PI.
Proof.
  intro N. pose proof (norm_parts e z N) as E. apply parts_neq_0 in N. destruct (ratan2_spec _ _ N) as (A & B & R).
  split; [|exact R]. unfold Rpolar, x_polar, Rabs_c, x_abs, Rarg, x_arg. rewrite E, A, B. destruct z; reflexivity.
Qed.

Lemma ln10_pos : ln 10 <> 0.
Proof. assert (0 < ln 10) by (rewrite <- ln_1; apply ln_increasing; lra). lra. Qed.

Lemma log10_log e z : (toC (Rlog10 e z) * ln 10)%C = toC (Rlog e z).
Proof.
  unfold Rlog10, x_log10. fold (Rlog e).
  destruct (real_mixed (ln 10) (Rlog e z)) as (_ & _ & _ & _ & _ & _ & _ & D & _). rewrite (D ln10_pos).
  field. intro E. apply (f_equal fst) in E. exact (ln10_pos E).
Qed.

Lemma log10_ok e z : toC z <> 0%C -> cexp (toC (Rlog10 e z) * ln 10)%C = toC z.
Proof. intro N. rewrite log10_log. apply log_ok. exact N. Qed.

(** ** pow *)

Lemma pow_ok e z a : toC (Rpow_c e z a) = cexp (toC a * toC (Rlog e z))%C.
Proof.
  unfold Rpow_c, x_pow. fold Rexp. rewrite exp_ok. fold (Rlog e). reflexivity.
Qed.

Lemma pow_r_ok e z a : toC (Rpow_r e z a) = cexp (a * toC (Rlog e z))%C.
Proof.
  unfold Rpow_r, x_pow_r. fold Rexp. rewrite exp_ok. fold (Rlog e). f_equal.
  destruct (real_mixed a (Rlog e z)) as (_ & _ & _ & _ & _ & _ & X & _). exact X.
Qed.

Lemma rpow_ok x a : toC (Rrpow x a) = cexp (toC a * ln x)%C.
Proof.
  unfold Rrpow, x_rpow. fold Rexp. rewrite exp_ok. f_equal.
  destruct (real_mixed (ln x) a) as (_ & _ & X & _). exact X.
Qed.

Lemma cexp_nat n (w : C) : cexp (INR n * w)%C = cpow (cexp w) n.
Proof.
  induction n as [|n IH].
  - cbn [INR cpow]. replace (0%R * w)%C with (RtoC 0) by ring. apply cexp_0.
  - rewrite S_INR. cbn [cpow]. rewrite <- IH, <- cexp_plus. f_equal. rewrite RtoC_plus. ring.
Qed.

Lemma pow_nat e z n : toC z <> 0%C -> toC (Rpow_c e z (mkcx (INR n) 0)) = cpow (toC z) n /\ toC (Rpow_r e z (INR n)) = cpow (toC z) n.
Proof.
  intro N. destruct (log_ok e z N) as [L _]. rewrite pow_ok, pow_r_ok. change (toC (mkcx (INR n) 0)) with (RtoC (INR n)).
  rewrite cexp_nat, L. split; reflexivity.
Qed.

Lemma pow_add e z a b : toC (Rpow_c e z (c_add Rplus a b)) = (toC (Rpow_c e z a) * toC (Rpow_c e z b))%C.
Proof.
  rewrite !pow_ok, <- cexp_plus. f_equal. rewrite (proj1 (real_arith a b)). ring.
Qed.

(** ** The inverse functions *)

Lemma C2_eq : RtoC 2 = (1 + 1)%C.
Proof. rewrite <- RtoC_plus. reflexivity. Qed.
Lemma C11_neq_0 : (1 + 1)%C <> 0%C.
Proof. rewrite <- C2_eq. apply C2_neq_0. Qed.

Lemma csin_log (a s L : C) : (s * s)%C = (1 - a * a)%C -> cexp L = (Ci * a + s)%C -> csin (- (Ci * L))%C = a.
Proof.
  intros Hs HL. unfold csin. pose proof Ci2 as I2.
  replace (Ci * (- (Ci * L)))%C with L by (ring [I2]). rewrite cexp_opp, HL.
  assert (N : (Ci * a + s)%C <> 0%C) by (rewrite <- HL; apply cexp_neq_0).
  assert (V : (/ (Ci * a + s))%C = (s - Ci * a)%C).
  { replace (/ (Ci * a + s))%C with (1 / (Ci * a + s))%C by (field; exact N). symmetry. apply Cdiv_unique; [exact N|]. ring [I2 Hs]. }
  rewrite V, C2_eq. field. split; [apply Ci_neq_0|apply C11_neq_0].
Qed.

Lemma csinh_log (a s L : C) : (s * s)%C = (a * a + 1)%C -> cexp L = (a + s)%C -> csinh L = a.
Proof.
  intros Hs HL. unfold csinh. rewrite cexp_opp, HL.
  assert (N : (a + s)%C <> 0%C) by (rewrite <- HL; apply cexp_neq_0).
  assert (V : (/ (a + s))%C = (s - a)%C).
  { replace (/ (a + s))%C with (1 / (a + s))%C by (field; exact N). symmetry. apply Cdiv_unique; [exact N|]. ring [Hs]. }
  rewrite V, C2_eq. field. apply C11_neq_0.
Qed.

Lemma ccosh_log (a s L : C) : (s * s)%C = (a * a - 1)%C -> cexp L = (a + s)%C -> ccosh L = a.
Proof.
  intros Hs HL. unfold ccosh. rewrite cexp_opp, HL.
  assert (N : (a + s)%C <> 0%C) by (rewrite <- HL; apply cexp_neq_0).
  assert (V : (/ (a + s))%C = (a - s)%C).
  { replace (/ (a + s))%C with (1 / (a + s))%C by (field; exact N). symmetry. apply Cdiv_unique; [exact N|]. ring [Hs]. }
  rewrite V, C2_eq. field. apply C11_neq_0.
Qed.

Lemma ctanh_log (a t : C) (p q : C) : (1 + a)%C <> 0%C -> (1 - a)%C <> 0%C ->
  cexp p = (1 + a)%C -> cexp q = (1 - a)%C -> (2 * t)%C = (p - q)%C -> ccosh t <> 0%C /\ ctanh t = a.
Proof.
  intros Np Nm Hp Hq Ht.
  assert (E : (cexp t * cexp t)%C = ((1 + a) / (1 - a))%C).
  { rewrite <- cexp_plus. replace (t + t)%C with (p + - q)%C by (change (p + - q)%C with (p - q)%C; rewrite <- Ht, C2_eq; ring).
    rewrite cexp_plus, cexp_opp, Hp, Hq. reflexivity. }
  pose proof (cexp_neq_0 t) as N. unfold ctanh, csinh, ccosh. rewrite cexp_opp. set (g := cexp t) in *.
  assert (Dg : ((1 - a) * g)%C <> 0%C) by (apply Cmult_neq_0; assumption).
  assert (F : ((1 - a) * (g * g))%C = (1 + a)%C) by (rewrite E; field; exact Nm).
  assert (U : ((g + / g) / 2)%C = (1 / ((1 - a) * g))%C).
  { apply Cdiv_unique; [exact Dg|]. rewrite C2_eq. transitivity (((1 - a) * (g * g) + (1 - a)) / (1 + 1))%C.
    - field. split; [exact C11_neq_0|exact N].
    - rewrite F. field. exact C11_neq_0. }
  assert (V : ((g - / g) / 2)%C = (a / ((1 - a) * g))%C).
  { apply Cdiv_unique; [exact Dg|]. rewrite C2_eq. transitivity (((1 - a) * (g * g) - (1 - a)) / (1 + 1))%C.
    - field. split; [exact C11_neq_0|exact N].
    - rewrite F. field. exact C11_neq_0. }
  rewrite U, V. split.
  - intro Z. apply C1_neq_0. replace (RtoC 1) with (1 / ((1 - a) * g) * ((1 - a) * g))%C by (field; split; assumption). rewrite Z. ring.
  - field. repeat split; try assumption. apply C1_neq_0.
Qed.

Lemma ctan_ctanh (t : C) : ccosh (Ci * t)%C <> 0%C -> ccos t <> 0%C /\ ctan t = (- (Ci * ctanh (Ci * t)))%C.
Proof.
  intro N. assert (E : ccos t = ccosh (Ci * t)%C) by reflexivity.
  split; [rewrite E; exact N|]. unfold ctan, ctanh. rewrite E.
  assert (S : csin t = (- (Ci * csinh (Ci * t)))%C).
  { unfold csin, csinh. pose proof Ci2 as I2. apply eq_sym, Cdiv_unique; [apply Cmult_neq_0; [apply C2_neq_0|apply Ci_neq_0]|].
    set (x := cexp (Ci * t)%C). set (y := cexp (- (Ci * t))%C). transitivity ((x - y) * (- (Ci * Ci)))%C; [field; apply C2_neq_0|]. rewrite I2. ring. }
  rewrite S. field. exact N.
Qed.

Lemma ccos_csin (t : C) : ccos (RtoC (PI / 2) - t)%C = csin t.
Proof.
  rewrite ccos_parts, csin_parts. destruct t as [x y]. unfold Cminus, Cplus, Copp, RtoC, Re, Im; cbn [fst snd].
  replace (PI / 2 + - x) with (PI / 2 - x) by ring. rewrite cos_shift, sin_shift. replace (0 + - y) with (- y) by ring.
  unfold sinh, cosh. rewrite Ropp_involutive. apply injective_projections; cbn [fst snd]; field.
Qed.

Lemma csqrt_ok e z : toC z <> 0%C -> (toC (Rsqrt_c e z) * toC (Rsqrt_c e z))%C = toC z /\ 0 <= Re (toC (Rsqrt_c e z)).
Proof.
  intro N. unfold Rsqrt_c, x_sqrt. apply (real_sqrt z N). unfold x_abs. rewrite (norm_of e z N). apply sqrt_square. apply Cmod_ge_0.
Qed.

(** the real part of the square root of 1 + w^2 exceeds that of w *)
Lemma sqrt_right (s w : C) : (s * s)%C = (1 + w * w)%C -> 0 <= Re s -> Rabs (Re w) <= Re s.
Proof.
  destruct s as [p q], w as [a b]. unfold Cmult, Cplus, RtoC, Re; cbn [fst snd]. intros E P. inversion E as [[E1 E2]].
  assert (Sq : a * a <= p * p).
  { apply Rnot_lt_le. intro L. assert (F : p * p * (p * p - a * a - 1) = b * b * (a * a - p * p)).
    { assert (Q : p * q = a * b) by lra. replace (p * p * (p * p - a * a - 1)) with (p * p * (q * q - b * b)) by (rewrite <- (Rplus_0_r (p * p)); nra).
      replace (p * p * (q * q - b * b)) with ((p * q) * (p * q) - p * p * (b * b)) by ring. rewrite Q. ring. }
    assert (A : 0 <= b * b) by nra. assert (B : 0 <= p * p) by nra.
    assert (Z : p * p = 0) by nra. assert (Z' : b * b = 0) by nra. nra. }
  apply Rabs_le. split; nra.
Qed.

Lemma unit_neq (a s : C) : (s * s)%C = (1 + a * a)%C -> (a + s)%C <> 0%C.
Proof.
  intros E N. apply C1_neq_0. replace (RtoC 1) with ((a + s) * (s - a))%C by (ring [E]). rewrite N. ring.
Qed.

Lemma real_one_minus_sq z : toC (rc_sub Rminus Ropp 1 (op_cmul Rplus Rminus Rmult rtwice z z)) = (1 - toC z * toC z)%C.
Proof.
  destruct (real_mixed 1 (op_cmul Rplus Rminus Rmult rtwice z z)) as (_ & _ & _ & _ & X & _). rewrite X.
  reflexivity.
Qed.

Lemma real_sq_plus_one z : toC (cr_add Rplus (op_cmul Rplus Rminus Rmult rtwice z z) 1) = (toC z * toC z + 1)%C.
Proof.
  destruct (real_mixed 1 (op_cmul Rplus Rminus Rmult rtwice z z)) as (X & _). rewrite X.
  reflexivity.
Qed.

Lemma asin_ok e z : (toC z * toC z)%C <> 1%C ->
  csin (toC (Rasin e z)) = toC z /\ - (PI / 2) <= Re (toC (Rasin e z)) <= PI / 2.
Proof.
  intro N. unfold Rasin, x_asin. fold (Rsqrt_c e). fold (Rlog e).
  set (r := rc_sub Rminus Ropp 1 (op_cmul Rplus Rminus Rmult rtwice z z)). set (s := Rsqrt_c e r).
  set (u := c_add Rplus (c_conj Ropp z) s).
  assert (Er : toC r = (1 - toC z * toC z)%C) by apply real_one_minus_sq.
  assert (Nr : toC r <> 0%C). { rewrite Er. intro Z. apply N. replace (toC z * toC z)%C with (1 - (1 - toC z * toC z))%C by ring. rewrite Z. ring. }
  destruct (csqrt_ok e r Nr) as [Hs Ps]. fold s in Hs, Ps.
  assert (Eu : toC u = (Ci * toC z + toC s)%C) by (unfold u; rewrite (proj1 (real_arith _ _)), real_conj; reflexivity).
  assert (H1 : (toC s * toC s)%C = (1 + (Ci * toC z) * (Ci * toC z))%C) by (rewrite Hs, Er; pose proof Ci2 as I2; ring [I2]).
  assert (Nu : toC u <> 0%C) by (rewrite Eu; apply unit_neq; exact H1).
  destruct (log_ok e u Nu) as [HL RL].
  assert (Q : toC (c_neg Ropp (c_conj Ropp (Rlog e u))) = (- (Ci * toC (Rlog e u)))%C).
  { destruct (real_arith (c_conj Ropp (Rlog e u)) u) as (_ & _ & _ & _ & _ & X). rewrite X, real_conj. reflexivity. }
  split.
  - rewrite Q. apply csin_log with (toC s); [rewrite Hs; exact Er|]. rewrite HL. exact Eu.
  - assert (Pu : 0 <= re u).
    { pose proof (sqrt_right _ _ H1 Ps) as B. apply (f_equal fst) in Eu. cbn [fst toC] in Eu. rewrite Eu. unfold Cplus, Re in *; cbn [fst] in *.
       pose proof (Rle_abs (- (fst (Ci * toC z)%C))) as B'. rewrite Rabs_Ropp in B'. lra. }
    assert (Z : Re (toC (c_neg Ropp (c_conj Ropp (Rlog e u)))) = ratan2 (im u) (re u)).
    { unfold c_neg, c_conj, Rlog, x_log, toC, Re; cbn [re im fst]. ring. }
    rewrite Z. apply ratan2_right. exact Pu.
Qed.

Lemma acos_ok e z : (toC z * toC z)%C <> 1%C ->
  ccos (toC (Racos e z)) = toC z /\ 0 <= Re (toC (Racos e z)) <= PI.
Proof.
  intro N. destruct (asin_ok e z N) as [S B]. unfold Racos, x_acos. fold (Rasin e). unfold op_csub.
  destruct (real_arith (mkcx (PI / 2) 0) (Rasin e z)) as (_ & X & _). rewrite X. change (toC (mkcx (PI / 2) 0)) with (RtoC (PI / 2)).
  split; [rewrite ccos_csin; exact S|]. destruct (toC (Rasin e z)) as [p q]. unfold Cminus, Cplus, Copp, RtoC, Re in *; cbn [fst snd] in *. lra.
Qed.

Lemma asinh_ok e z : (toC z * toC z)%C <> (- (1))%C ->
  csinh (toC (Rasinh e z)) = toC z /\ - (PI / 2) <= Im (toC (Rasinh e z)) <= PI / 2.
Proof.
  intro N. unfold Rasinh, x_asinh. fold (Rsqrt_c e). fold (Rlog e).
  set (r := cr_add Rplus (op_cmul Rplus Rminus Rmult rtwice z z) 1). set (s := Rsqrt_c e r). set (u := c_add Rplus z s).
  assert (Er : toC r = (toC z * toC z + 1)%C) by apply real_sq_plus_one.
  assert (Nr : toC r <> 0%C). { rewrite Er. intro Z. apply N. replace (toC z * toC z)%C with ((toC z * toC z + 1) - 1)%C by ring. rewrite Z. ring. }
  destruct (csqrt_ok e r Nr) as [Hs Ps]. fold s in Hs, Ps.
  assert (Eu : toC u = (toC z + toC s)%C) by apply (proj1 (real_arith _ _)).
  assert (H1 : (toC s * toC s)%C = (1 + toC z * toC z)%C) by (rewrite Hs, Er; ring).
  assert (Nu : toC u <> 0%C) by (rewrite Eu; apply unit_neq; exact H1).
  destruct (log_ok e u Nu) as [HL RL]. split.
  - apply csinh_log with (toC s); [rewrite Hs; exact Er|]. rewrite HL. exact Eu.
  - assert (Pu : 0 <= re u).
    { pose proof (sqrt_right _ _ H1 Ps) as B. apply (f_equal fst) in Eu. cbn [fst toC] in Eu. rewrite Eu. unfold Cplus, Re in *; cbn [fst] in *.
      pose proof (Rle_abs (- (re z))) as B'. rewrite Rabs_Ropp in B'. unfold toC in *; cbn [fst] in *. lra. }
    unfold Rlog, x_log, toC, Im; cbn [re im snd]. apply ratan2_right. exact Pu.
Qed.

Lemma cmod_ge_1 (e : bool) u : toC u <> 0%C -> 1 <= re u * re u + im u * im u -> 0 <= Re (toC (Rlog e u)).
Proof.
  intros N H. unfold Rlog, x_log, toC, Re, rhalve; cbn [re fst]. rewrite (norm_parts e u N).
  assert (0 <= ln (re u * re u + im u * im u)). { rewrite <- ln_1. destruct (Rle_lt_or_eq_dec _ _ H) as [L|L]; [left; apply ln_increasing; lra|rewrite <- L; lra]. }
  lra.
Qed.

Lemma acosh_ok e z : (toC z * toC z)%C <> 1%C ->
  ccosh (toC (Racosh e z)) = toC z /\ 0 <= Re (toC (Racosh e z)) /\ - PI < Im (toC (Racosh e z)) <= PI.
Proof.
  intro N. unfold Racosh, x_acosh. fold (Rsqrt_c e). fold (Rlog e).
  set (zp := cr_add Rplus z 1). set (zm := cr_sub Rminus z 1). set (r := rquot_of e zm zp). set (s := Rsqrt_c e r).
  set (v := op_cmul Rplus Rminus Rmult rtwice zp s). set (u := c_add Rplus z v).
  assert (Ep : toC zp = (toC z + 1)%C) by (destruct (real_mixed 1 z) as (X & _); exact X).
  assert (Em : toC zm = (toC z - 1)%C) by (destruct (real_mixed 1 z) as (_ & X & _); exact X).
  assert (Np : toC zp <> 0%C).
  { rewrite Ep. intro Z. apply N. replace (toC z * toC z)%C with ((toC z + 1) * (toC z - 1) + 1)%C by ring. rewrite Z. ring. }
  assert (Nm : toC zm <> 0%C).
  { rewrite Em. intro Z. apply N. replace (toC z * toC z)%C with ((toC z + 1) * (toC z - 1) + 1)%C by ring. rewrite Z. ring. }
  assert (Er : toC r = (toC zm / toC zp)%C) by (apply quot_of; exact Np).
  assert (Nr : toC r <> 0%C). { rewrite Er. intro Z. apply Nm. replace (toC zm) with (toC zm / toC zp * toC zp)%C by (field; exact Np). rewrite Z. ring. }
  destruct (csqrt_ok e r Nr) as [Hs Ps]. fold s in Hs, Ps.
  assert (Ev : toC v = (toC zp * toC s)%C) by apply (proj1 (proj2 (proj2 (real_arith zp s)))).
  assert (Hv : (toC v * toC v)%C = (toC z * toC z - 1)%C).
  { rewrite Ev. replace (toC zp * toC s * (toC zp * toC s))%C with (toC zp * toC zp * (toC s * toC s))%C by ring. rewrite Hs, Er.
    replace (toC zp * toC zp * (toC zm / toC zp))%C with (toC zp * toC zm)%C by (field; exact Np). rewrite Ep, Em. ring. }
  assert (Eu : toC u = (toC z + toC v)%C) by apply (proj1 (real_arith _ _)).
  assert (U1 : ((toC z + toC v) * (toC z - toC v))%C = 1%C) by (ring [Hv]).
  assert (Nu : toC u <> 0%C). { rewrite Eu. intro Z. apply C1_neq_0. rewrite <- U1, Z. ring. }
  destruct (log_ok e u Nu) as [HL RL].
  split; [|split; [|exact RL]].
  - apply ccosh_log with (toC v); [exact Hv|]. rewrite HL. exact Eu.
  - apply cmod_ge_1; [exact Nu|].
    (* z = zp (1 + s^2) / 2 *)
    assert (Ez : (2 * toC z)%C = (toC zp * (1 + toC s * toC s))%C).
    { rewrite Hs, Er. replace (toC zp * (1 + toC zm / toC zp))%C with (toC zp + toC zm)%C by (field; exact Np). rewrite Ep, Em, C2_eq. ring. }
    assert (K : 0 <= re z * re v + im z * im v).
    { destruct z as [x y]. destruct s as [p q]. destruct zp as [a b]. destruct v as [c d]. unfold toC, Cmult, Cplus, RtoC, Re in *; cbn [re im fst snd] in *.
      inversion Ez as [[E1 E2]]. inversion Ev as [[E3 E4]]. subst c d.
      assert (X : 2 * (x * (a * p - b * q) + y * (a * q + b * p)) = (a * a + b * b) * p * (1 + p * p + q * q)).
      { replace (2 * (x * (a * p - b * q) + y * (a * q + b * p))) with ((2 * x - 0 * y) * (a * p - b * q) + (2 * y + 0 * x) * (a * q + b * p)) by ring. rewrite E1, E2. ring. }
      assert (0 <= (a * a + b * b) * p * (1 + p * p + q * q)). { apply Rmult_le_pos; [apply Rmult_le_pos|]; nra. }
      lra. }
    destruct z as [x y]. destruct v as [c d]. unfold u, toC, Cmult, Cplus, Cminus, Copp, RtoC, c_add in *; cbn [re im fst snd] in *.
    inversion U1 as [[F1 F2]].
    assert (M : ((x + c) * (x + c) + (y + d) * (y + d)) * ((x - c) * (x - c) + (y - d) * (y - d)) = 1).
    { replace 1 with (((x + c) * (x + - c) - (y + d) * (y + - d)) * ((x + c) * (x + - c) - (y + d) * (y + - d)) + ((x + c) * (y + - d) + (y + d) * (x + - c)) * ((x + c) * (y + - d) + (y + d) * (x + - c))).
      - ring.
      - rewrite F1, F2. ring. }
    set (P := (x + c) * (x + c) + (y + d) * (y + d)) in *. set (Q := (x - c) * (x - c) + (y - d) * (y - d)) in *.
    assert (PQ : P - Q = 4 * (x * c + y * d)) by (unfold P, Q; ring).
    assert (0 <= P) by (unfold P; nra). assert (0 <= Q) by (unfold Q; nra). nra.
Qed.

(** the difference of the arguments of 1 + w and 1 - w *)
Lemma ratan2_diff p p' q : 0 < p + p' -> (p, q) <> (0, 0) -> (p', - q) <> (0, 0) ->
  - PI <= ratan2 q p - ratan2 (- q) p' <= PI.
Proof.
  intros P N N'. pose proof PI_RGT_0 as Pp.
  destruct (ratan2_spec p q N) as (A & B & R). destruct (ratan2_spec p' (- q) N') as (A' & B' & R').
  set (t := ratan2 q p) in *. set (t' := ratan2 (- q) p') in *.
  set (m := sqrt (p * p + q * q)) in *. set (m' := sqrt (p' * p' + - q * - q)) in *.
  destruct (Req_dec q 0) as [Z|Z].
  { unfold t, t', ratan2, atan2_gen, ris0, rlt0. rewrite Z. destruct (Req_EM_T 0 0) as [_|F]; [|lra]. destruct (Req_EM_T (-0) 0) as [_|F]; [|lra].
    destruct (Rlt_dec p 0); destruct (Rlt_dec p' 0); lra. }
  assert (S : m * m' * sin (t - t') = q * (p + p')).
  { rewrite sin_minus. replace (m * m' * (sin t * cos t' - cos t * sin t')) with ((m * sin t) * (m' * cos t') - (m * cos t) * (m' * sin t')) by ring.
    rewrite A, B, A', B'. ring. }
  assert (M : 0 < m) by (apply sqrt_lt_R0; nra). assert (M' : 0 < m') by (apply sqrt_lt_R0; nra).
  destruct (Rtotal_order q 0) as [L|[L|L]]; [|contradiction|].
  - (* q < 0: t < 0 < t' *)
    assert (sin t < 0) by nra. assert (0 < sin t') by nra. assert (sin (t - t') < 0).
    { assert (0 < m * m') by nra. assert (m * m' * sin (t - t') < 0) by nra. nra. }
    assert (t < 0). { apply Rnot_le_lt. intro. assert (0 <= sin t) by (apply sin_ge_0; lra). lra. }
    assert (0 < t'). { apply Rnot_le_lt. intro. assert (0 <= sin (- t')) by (apply sin_ge_0; lra). rewrite sin_neg in *. lra. }
    split; [|lra]. apply Rnot_lt_le. intro. assert (0 < sin (t - t' + 2 * PI)) by (apply sin_gt_0; lra).
    rewrite (sin_plus (t - t') (2 * PI)), cos_2PI, sin_2PI in *. lra.
  - assert (0 < sin t) by nra. assert (sin t' < 0) by nra. assert (0 < sin (t - t')).
    { assert (0 < m * m') by nra. assert (0 < m * m' * sin (t - t')) by nra. nra. }
    assert (0 < t). { apply Rnot_le_lt. intro. assert (0 <= sin (- t)) by (apply sin_ge_0; lra). rewrite sin_neg in *. lra. }
    assert (t' < 0). { apply Rnot_le_lt. intro. assert (0 <= sin t') by (apply sin_ge_0; lra). lra. }
    split; [lra|]. apply Rnot_lt_le. intro. assert (0 < sin (- (t - t') + 2 * PI)) by (apply sin_gt_0; lra).
    rewrite (sin_plus (- (t - t')) (2 * PI)), cos_2PI, sin_2PI, sin_neg in *. lra.
Qed.

Lemma one_pm (a : C) : (a * a)%C <> 1%C -> (1 + a)%C <> 0%C /\ (1 - a)%C <> 0%C.
Proof.
  intro N. split; intro Z; apply N; replace (a * a)%C with (1 - (1 + a) * (1 - a))%C by ring; rewrite Z; ring.
Qed.

Lemma atanh_ok e z : (toC z * toC z)%C <> 1%C ->
  ccosh (toC (Ratanh e z)) <> 0%C /\ ctanh (toC (Ratanh e z)) = toC z /\ - (PI / 2) <= Im (toC (Ratanh e z)) <= PI / 2.
Proof.
  intro N. destruct (one_pm _ N) as [Np Nm].
  set (a := rc_add Rplus 1 z). set (b := rc_sub Rminus Ropp 1 z).
  assert (Ea : toC a = (1 + toC z)%C) by (destruct (real_mixed 1 z) as (_ & _ & _ & X & _); exact X).
  assert (Eb : toC b = (1 - toC z)%C) by (destruct (real_mixed 1 z) as (_ & _ & _ & _ & X & _); exact X).
  assert (Na : toC a <> 0%C) by (rewrite Ea; exact Np). assert (Nb : toC b <> 0%C) by (rewrite Eb; exact Nm).
  destruct (log_ok e a Na) as [La _]. destruct (log_ok e b Nb) as [Lb _].
  assert (T : (2 * toC (Ratanh e z))%C = (toC (Rlog e a) - toC (Rlog e b))%C).
  { unfold Ratanh, x_atanh. fold (Rlog e). fold a. fold b. destruct (Rlog e a) as [x y]. destruct (Rlog e b) as [x' y'].
    unfold toC, op_csub, c_sub, rhalve, Cmult, Cminus, Cplus, Copp, RtoC; cbn [re im fst snd]. apply injective_projections; cbn [fst snd]; field. }
  destruct (ctanh_log (toC z) (toC (Ratanh e z)) _ _ Np Nm (eq_trans La Ea) (eq_trans Lb Eb) T) as [X Y].
  split; [exact X|]. split; [exact Y|].
  pose proof (f_equal snd T) as T2. unfold Rlog at 1 2, x_log in T2. unfold toC, Cmult, Cminus, Cplus, Copp, RtoC in T2; cbn [re im fst snd] in T2.
  pose proof (ratan2_diff (re a) (re b) (im a)) as D. unfold a, b, rc_add, rc_sub in D; cbn [re im] in D.
  assert (B : - PI <= ratan2 (im z) (1 + re z) - ratan2 (- im z) (1 - re z) <= PI).
  { apply D; [lra|exact (parts_neq_0 _ Na)|exact (parts_neq_0 _ Nb)]. }
  unfold a, b, rc_add, rc_sub in T2; cbn [re im] in T2. unfold Im, toC; cbn [snd]. lra.
Qed.

Lemma atan_ok e z : (toC z * toC z)%C <> (- (1))%C ->
  ccos (toC (Ratan e z)) <> 0%C /\ ctan (toC (Ratan e z)) = toC z /\ - (PI / 2) <= Re (toC (Ratan e z)) <= PI / 2.
Proof.
  intro N. pose proof Ci2 as I2.
  assert (N' : ((Ci * toC z) * (Ci * toC z))%C <> 1%C).
  { intro Z. apply N. replace (toC z * toC z)%C with (- ((Ci * toC z) * (Ci * toC z)))%C by (ring [I2]). rewrite Z. reflexivity. }
  set (w := c_conj Ropp z). assert (Ew : toC w = (Ci * toC z)%C) by apply real_conj. rewrite <- Ew in N'.
  destruct (atanh_ok e w N') as (X & Y & B). destruct (one_pm _ N') as [Np Nm].
  assert (E : toC (Ratan e z) = (- (Ci * toC (Ratanh e w)))%C).
  { assert (G : Ci <> 0%C) by apply Ci_neq_0. unfold Ratan, x_atan, Ratanh, x_atanh. fold (Rlog e). fold w.
    destruct (Rlog e (rc_sub Rminus Ropp 1 w)) as [x y]. destruct (Rlog e (rc_add Rplus 1 w)) as [x' y'].
    unfold toC, op_csub, c_sub, rhalve, Cmult, Copp, Ci; cbn [re im fst snd]. apply injective_projections; cbn [fst snd]; field. }
  assert (Q : (Ci * toC (Ratan e z))%C = toC (Ratanh e w)) by (rewrite E; ring [I2]).
  destruct (ctan_ctanh (toC (Ratan e z))) as [U V]; [rewrite Q; exact X|].
  split; [exact U|]. split.
  - rewrite V, Q, Y, Ew. ring [I2].
  - rewrite E. destruct (Ratanh e w) as [x y]. unfold toC, Cmult, Copp, Ci, Re, Im in *; cbn [re im fst snd] in *. lra.
Qed.
