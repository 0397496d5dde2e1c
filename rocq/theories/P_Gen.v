(** * Properties C46, C48, C49, C50, C54, C55, C56: complex numbers, Pochhammer
      symbol, root finding, quadrature, differences, expansions, hypergeometric
      series. *)

From Coq Require Import ZArith List Bool Lia Reals Lra Sorted.
From Coquelicot Require Import Complex Coquelicot.
From Verif Require Import Model Spec SpecGen Limbs Value CmpProofs AddProofs Decide OrderProofs MulValue IntProofs ModelDiv
  ModelPow PowGen FloatEval ModelGen ComplexProofs ComplexReal ComplexFloat AnalysisProofs SeriesProofs PochFloat.
Import ListNotations.
Open Scope R_scope.
Local Notation sqrt := R_sqrt.sqrt.
Local Notation exp := Rtrigo_def.exp.

(** ** C46: complex numbers *)

(** C46: over the real numbers the operators of both versions of the class are
    the operations of the field of complex numbers; [toC] is the complex number
    with the real and imaginary part of the object.  The flag says that both
    operands are the same object. *)
Theorem C46_arithmetic :
  forall z w,
  toC (c_add Rplus z w) = (toC z + toC w)%C /\
  toC (c_sub 0 Rminus false z w) = (toC z - toC w)%C /\
  toC (c_mul Rplus Rminus Rmult rtwice false z w) = (toC z * toC w)%C /\
  toC (c_sub 0 Rminus true z z) = 0%C /\
  toC (c_mul Rplus Rminus Rmult rtwice true z z) = (toC z * toC z)%C /\
  toC (c_neg Ropp z) = (- toC z)%C.
Proof. exact real_arith. Qed.
Print Assumptions C46_arithmetic.

Theorem C46_division :
  forall z w, toC w <> 0%C ->
  toC (c_div 0 1 Rplus Rminus Rmult Rdiv Ropp rltabs false z w) = (toC z / toC w)%C /\
  toC (e_div 0 1 Rplus Rminus Rmult Rinv false z w) = (toC z / toC w)%C /\
  toC (c_div 0 1 Rplus Rminus Rmult Rdiv Ropp rltabs true w w) = (toC w / toC w)%C /\
  toC (e_div 0 1 Rplus Rminus Rmult Rinv true w w) = (toC w / toC w)%C.
Proof. exact real_division. Qed.
Print Assumptions C46_division.

Example C46_division_hypotheses_met :
  toC (mkcx 3 (-4)) <> 0%C /\ toC (c_div 0 1 Rplus Rminus Rmult Rdiv Ropp rltabs false (mkcx 1 2) (mkcx 3 (-4))) = (-1/5, 2/5).
Proof.
  assert (N : toC (mkcx 3 (-4)) <> 0%C) by (intro E; apply (f_equal fst) in E; cbn in E; lra). split; [exact N|].
  rewrite (proj1 (C46_division (mkcx 1 2) _ N)). unfold toC, Cdiv, Cinv, Cmult; cbn [re im fst snd]. apply injective_projections; cbn [fst snd]; field.
Qed.

(** C46: a complex and a real operand. *)
Theorem C46_mixed :
  forall (u : R) z,
  toC (cr_add Rplus z u) = (toC z + u)%C /\ toC (cr_sub Rminus z u) = (toC z - u)%C /\ toC (cr_mul Rmult z u) = (toC z * u)%C /\
  toC (rc_add Rplus u z) = (u + toC z)%C /\ toC (rc_sub Rminus Ropp u z) = (u - toC z)%C /\
  toC (rc_mul Rmult u z) = (u * toC z)%C /\ toC (er_mul Rmult u z) = (u * toC z)%C /\
  (u <> 0 -> toC (cr_div Rdiv z u) = (toC z / u)%C) /\
  (toC z <> 0%C -> toC (rc_div Rplus Rmult Rdiv Ropp rltabs u z) = (u / toC z)%C /\ toC (re_div Rplus Rmult Rdiv Ropp u z) = (u / toC z)%C).
Proof. exact real_mixed. Qed.
Print Assumptions C46_mixed.

(** C46: with any exact field of numbers as component type, z^p by pow is the
    p-fold product, and the reciprocal of one for negative p. *)
Theorem C46_powers :
  forall (K : Type) (zero one : K) (add sub mul div : K -> K -> K) (opp inv twice : K -> K),
  field_theory zero one add mul sub opp div inv eq -> (forall x, twice x = add x x) ->
  forall (dv : cx K -> cx K -> cx K) (z : cx K),
  let power n := Nat.iter n (c_mul add sub mul twice false z) (mkcx one zero) in
  (forall p, (0 <= p < 9223372036854775808)%Z -> c_pow zero one add sub mul twice dv z p = Defined (power (Z.to_nat p))) /\
  (forall p, (-9223372036854775808 < p < 0)%Z ->
     c_pow zero one add sub mul twice dv z p = Defined (dv (mkcx one zero) (power (Z.to_nat (- p))))).
Proof. intros K zero one add sub mul div opp inv twice F T2. exact (complex_pow_correct K zero one add sub mul div opp inv twice F T2). Qed.
Print Assumptions C46_powers.

Example C46_powers_hypotheses_met :
  field_theory 0 1 Rplus Rmult Rminus Ropp Rdiv Rinv eq /\ (forall x, rtwice x = x + x) /\
  c_pow 0%Z 1%Z Z.add Z.sub Z.mul (fun x => 2 * x)%Z (fun z w => z) (mkcx 1%Z 1%Z) 5 = Defined (mkcx (-4)%Z (-4)%Z).
Proof. split; [exact RealField.Rfield|]. split; [exact real_twice|vm_compute; reflexivity]. Qed.

(** C46: norm is the squared modulus; the class template divides by zero for
    z = 0, where complex<e_float> returns 0. *)
Theorem C46_norm :
  forall z, e_norm Rplus Rmult z = Cmod (toC z) * Cmod (toC z) /\
  (toC z <> 0%C -> c_norm 1 Rplus Rmult Rdiv rltabs z = Cmod (toC z) * Cmod (toC z)).
Proof. exact real_norm. Qed.
Print Assumptions C46_norm.

(** C46: sqrt is the square root in the right half plane. *)
Theorem C46_sqrt :
  forall z, toC z <> 0%C -> forall cabs, cabs z = Cmod (toC z) ->
  let w := c_sqrt Rplus Rdiv Ropp rtwice rhalve sqrt cabs rlt0 z in
  (toC w * toC w)%C = toC z /\ 0 <= Re (toC w).
Proof. exact real_sqrt. Qed.
Print Assumptions C46_sqrt.

Example C46_sqrt_hypotheses_met :
  toC (mkcx (-3) 4) <> 0%C /\ (fun z => Cmod (toC z)) (mkcx (-3) 4) = Cmod (toC (mkcx (-3) 4)) /\ Cmod (toC (mkcx (-3) 4)) = 5.
Proof.
  split; [intro E; apply (f_equal fst) in E; cbn in E; lra|]. split; [reflexivity|].
  unfold Cmod, toC; cbn [fst snd re im]. replace ((-3) ^ 2 + 4 ^ 2) with (5 * 5) by ring. apply sqrt_square. lra.
Qed.

(** C46: conj(z) is i z, not the conjugate. *)
Theorem C46_conj_refuted :
  (forall z, toC (c_conj Ropp z) = (Ci * toC z)%C) /\ exists z, toC (c_conj Ropp z) <> Cconj (toC z).
Proof. exact (conj real_conj real_conj_refuted). Qed.
Print Assumptions C46_conj_refuted.

(** C46: products of complex<e_float>: each component is off by at most twice the
    relative error of a real product, relative to the sum of the magnitudes of
    the two products it is made of. *)
Theorem C46_product_accuracy_partial :
  forall d z w, valid_digits d -> (d <= 65000)%Z -> okc d 1000000000 z -> okc d 1000000000 w ->
  let p := ce_mul d false z w in
  let ac := value (re z) * value (re w) in let bd := value (im z) * value (im w) in
  let ad := value (re z) * value (im w) in let bc := value (im z) * value (re w) in
  finite d (re p) /\ full d (re p) /\ finite d (im p) /\ full d (im p) /\
  Rabs (value (re p) - (ac - bd)) <= 2 * product_error d * (Rabs ac + Rabs bd) /\
  Rabs (value (im p) - (ad + bc)) <= 2 * product_error d * (Rabs ad + Rabs bc).
Proof. exact complex_product. Qed.
Print Assumptions C46_product_accuracy_partial.

(** C46: the same for z *= z. *)
Theorem C46_square_accuracy_partial :
  forall d z, valid_digits d -> (d <= 65000)%Z -> okc d 1000000000 z ->
  let p := ce_mul d true z z in let a := value (re z) in let b := value (im z) in
  finite d (re p) /\ full d (re p) /\ finite d (im p) /\ full d (im p) /\
  Rabs (value (re p) - (a * a - b * b)) <= 2 * product_error d * (a * a + b * b) /\
  Rabs (value (im p) - 2 * (a * b)) <= 2 * product_error d * Rabs (2 * (a * b)).
Proof. exact complex_square. Qed.
Print Assumptions C46_square_accuracy_partial.

(** C46: quotients of complex<e_float>. *)
Theorem C46_quotient_accuracy_partial :
  forall d z w, valid_digits d -> (d <= 65000)%Z -> okc d 500000000 z -> okc d 500000000 w ->
  let a := value (re z) in let b := value (im z) in let c := value (re w) in let e := value (im w) in
  let s := c * c + e * e in let q := ce_div d false z w in
  s <> 0 ->
  finite d (re q) /\ full d (re q) /\ finite d (im q) /\ full d (im q) /\
  Rabs (value (re q) - (a * c + b * e) / s) <= 2 * powerRZ 10 (- d) * ((Rabs (a * c) + Rabs (b * e)) / s) /\
  Rabs (value (im q) - (b * c - a * e) / s) <= 2 * powerRZ 10 (- d) * ((Rabs (b * c) + Rabs (a * e)) / s).
Proof. exact complex_quotient. Qed.
Print Assumptions C46_quotient_accuracy_partial.


Example C46_accuracy_hypotheses_met :
  okc 30 500000000 (mkcx (one 30) (zero 30)) /\ okc 30 1000000000 (mkcx (one 30) (one 30)) /\ okc 30 500000000 (mkcx (one 30) (one 30)) /\
  value (one 30) * value (one 30) + value (one 30) * value (one 30) <> 0.
Proof.
  destruct (ok_one 30 valid_30) as [O V].
  assert (Z : ok 30 0 (zero 30)).
  { split; [apply wfb_finite; vm_compute; reflexivity|]. split; [vm_compute; reflexivity|]. left. exact (value_zero 30 valid_30). }
  assert (forall m, (0 <= m)%Z -> ok 30 m (one 30)) as O' by (intros m Hm; exact (ok_le 30 0 m _ Hm O)).
  split; [split; [apply O'; lia|exact (ok_le 30 0 500000000 _ ltac:(lia) Z)]|]. split; [split; apply O'; lia|]. split; [split; apply O'; lia|]. rewrite V. lra.
Qed.

(** C46: what goes wrong at 30 digits: 1/i is i, sqrt(0) is i, sqrt(3-4i) is
    2+i, and z /= z is 1 for z = 0. *)
Theorem C46_refuted :
  let E := of_sll 30 in let V (z : cx ef) := (value (re z), value (im z)) in
  V (ce_rdiv 30 (E 1%Z) (mkcx (E 0%Z) (E 1%Z))) = (0, 1) /\
  V (ce_sqrt 30 (mkcx (E 0%Z) (E 0%Z))) = (0, 1) /\
  V (mkcx (E 3%Z) (E (-4)%Z)) = (3, -4) /\ V (ce_sqrt 30 (mkcx (E 3%Z) (E (-4)%Z))) = (2, 1) /\
  V (ce_div 30 true (mkcx (E 0%Z) (E 0%Z)) (mkcx (E 0%Z) (E 0%Z))) = (1, 0).
Proof. exact complex_refuted. Qed.
Print Assumptions C46_refuted.

(** ** C48: Pochhammer symbol *)

(** C48: over any field. *)
Theorem C48_any_field :
  forall (K : Type) (zero one : K) (add sub mul div : K -> K -> K) (opp inv : K -> K),
  field_theory zero one add mul sub opp div inv eq ->
  forall x n, pochhammer one mul (fun y => add y one) x n =
    fold_right mul one (map (fun k => add x (Nat.iter k (add one) zero)) (seq 0 n)).
Proof. exact pochhammer_product. Qed.
Print Assumptions C48_any_field.

(** C48: for e_float and a positive argument: relative error of 500 units in the
    last of d digits. *)
Theorem C48_accuracy_partial :
  forall d x n, valid_digits d -> (d <= 65000)%Z -> (n < 50)%nat ->
  finite d x -> full d x -> 0 < value x -> moderate 20000000 (value x) ->
  Rabs (value (pochhammer_ef d x n) - rising_factorial (value x) n) <= 500 * powerRZ 10 (- d) * rising_factorial (value x) n.
Proof. exact pochhammer_accuracy. Qed.
Print Assumptions C48_accuracy_partial.

(** C48: exact on integers of either sign as long as the product fits. *)
Theorem C48_integers :
  forall d x k n, valid_digits d -> (d <= 65000)%Z -> (n < 50)%nat ->
  finite d x -> full d x -> value x = IZR k -> ((Z.abs k + Z.of_nat n) ^ Z.of_nat n < 10 ^ (d + 3))%Z ->
  value (pochhammer_ef d x n) = rising_factorial (IZR k) n.
Proof. exact pochhammer_integers. Qed.
Print Assumptions C48_integers.

Example C48_hypotheses_met :
  finite 30 (of_sll 30 (-20)) /\ full 30 (of_sll 30 (-20)) /\ value (of_sll 30 (-20)) = IZR (-20) /\ ((Z.abs (-20) + 10) ^ 10 < 10 ^ (30 + 3))%Z /\
  op_eq (pochhammer_ef 30 (of_sll 30 (-20)) 10) (of_sll 30 670442572800) = true /\
  0 < value (one 30) /\ moderate 20000000 (value (one 30)).
Proof.
  destruct (of_sll_spec 30 (-20) valid_30 ltac:(lia)) as (F & L & V & _). destruct (ok_one 30 valid_30) as [O V1].
  split; [exact F|]. split; [exact L|]. split; [exact V|]. split; [reflexivity|]. split; [vm_compute; reflexivity|]. split; [rewrite V1; lra|].
  exact (proj2 (proj2 (ok_le 30 0 20000000 _ ltac:(lia) O))).
Qed.

(** ** C49: root finding, quadrature, interpolation *)
Local Notation bisect := (find_root_bisect 0 Rplus Rminus Rmult Ropp (fun x => x / 2) rltb rleb rzero).
Local Notation trap := (trapezoid 0 1 (1 / 2) Rplus Rminus Rmult Rdiv rltb IZR).
Local Notation interp := (interpolate 0 Rplus Rminus Rmult Rdiv rltb rleb).
Local Notation newton := (find_root_newton 0 Rplus Rminus Rmult Rdiv Ropp (fun x => x / 2) rltb).
Local Notation diff := (derivative Rplus Rminus Rmult Rdiv IZR).

(** C49: for every function, bisection of an interval with a sign change returns
    a point of the interval at which the function vanishes or within eps of
    which it changes sign; it succeeds unless the interval is longer than
    eps 2^2048. *)
Theorem C49_bisection :
  forall f lo hi eps, f lo * f hi < 0 ->
  (forall r, bisect f lo hi eps = (r, true) ->
    between lo hi r /\ (f r = 0 \/ exists y, between lo hi y /\ Rabs (y - r) < eps /\ f r <= 0 < f y)) /\
  (Rabs (hi - lo) < eps * 2 ^ 2048 -> snd (bisect f lo hi eps) = true).
Proof. exact bisect_correct. Qed.
Print Assumptions C49_bisection.

(** C49: for a function continuous on the interval the result is within eps of a
    root. *)
Theorem C49_bisection_root :
  forall f lo hi eps r, (forall x, between lo hi x -> continuity_pt f x) -> f lo * f hi < 0 -> 0 < eps ->
  bisect f lo hi eps = (r, true) -> exists z, between lo hi z /\ f z = 0 /\ Rabs (z - r) < eps.
Proof. exact bisect_root. Qed.
Print Assumptions C49_bisection_root.

Example C49_bisection_hypotheses_met :
  let f := fun x => x * x - 2 in
  f 1 * f 2 < 0 /\ Rabs (2 - 1) < 1 / 100 * 2 ^ 2048 /\ (forall x, between 1 2 x -> continuity_pt f x) /\
  exists r, bisect f 1 2 (1 / 100) = (r, true).
Proof.
  cbv zeta. assert (H : (1 * 1 - 2) * (2 * 2 - 2) < 0) by lra.
  assert (B : Rabs (2 - 1) < 1 / 100 * 2 ^ 2048).
  { rewrite Rabs_pos_eq by lra. replace 2048%nat with (7 + 2041)%nat by lia. rewrite pow_add.
    assert (1 <= 2 ^ 2041) by (apply pow_R1_Rle; lra). replace (2 ^ 7) with 128 by ring. lra. }
  split; [exact H|]. split; [exact B|]. split; [intros x _; reg|].
  pose proof (proj2 (C49_bisection (fun x => x * x - 2) 1 2 (1 / 100) H) B) as S.
  destruct (bisect (fun x => x * x - 2) 1 2 (1 / 100)) as [r ok]. cbn in S. subst ok. exists r. reflexivity.
Qed.

(** C49: without a strict sign change - a root at an end point is enough - the
    call reports success and returns 0. *)
Theorem C49_bisection_refuted :
  (forall f lo hi eps, 0 <= f lo * f hi -> bisect f lo hi eps = (0, true)) /\
  exists f lo hi, f lo = 0 /\ (forall z, f z = 0 -> z = lo) /\ lo < hi /\ fst (bisect f lo hi (1 / 100)) <> lo /\ snd (bisect f lo hi (1 / 100)) = true.
Proof. exact bisect_refuted. Qed.
Print Assumptions C49_bisection_refuted.

(** C49: the trapezoidal rule.  A result is the sum of the areas of 2^(j+1)
    trapezoids for some j from 4 to 29, close to the sum for 2^j; it is never
    reported as failed, since at j = 30 an int overflows. *)
Theorem C49_trapezoid_partial :
  forall f a b eps,
  match trap f a b eps with
  | Defined (i, ok) => ok = true /\ exists j, (4 <= j < 30)%nat /\ i = trapezoids f a b (2 ^ S j) /\ trap_close f a b eps j
  | Undefined => forall j, (4 <= j < 30)%nat -> ~ trap_close f a b eps j
  end.
Proof. exact trapezoid_correct. Qed.
Print Assumptions C49_trapezoid_partial.

(** C49: such sums are exact integrals of affine functions. *)
Theorem C49_trapezoid_affine :
  forall p q a b n, (0 < n)%nat ->
  trapezoids (fun x => p * x + q) a b n = p * (b ^ 2 - a ^ 2) / 2 + q * (b - a).
Proof. exact trapezoids_affine. Qed.
Print Assumptions C49_trapezoid_affine.

Example C49_trapezoid_hypotheses_met : trap (fun x => 2 * x + 1) 0 3 (1 / 10) = Defined (12, true) /\ (0 < 32)%nat.
Proof.
  split; [|lia]. pose proof (C49_trapezoid_partial (fun x => 2 * x + 1) 0 3 (1 / 10)) as H.
  assert (T : forall k, trapezoids (fun x => 2 * x + 1) 0 3 (2 ^ k) = 12).
  { intro k. rewrite C49_trapezoid_affine; [lra|]. pose proof (Nat.pow_nonzero 2 k). lia. }
  destruct (trap _ _ _ _) as [[i ok]|].
  - destruct H as (-> & j & _ & -> & _). rewrite T. reflexivity.
  - exfalso. apply (H 4%nat ltac:(lia)). unfold trap_close. rewrite !T. replace (12 / 12 - 1) with 0 by lra. rewrite Rabs_R0. lra.
Qed.

(** C49: linear interpolation: on the chord of two neighbouring points, constant
    outside of them. *)
Theorem C49_interpolation :
  (forall x l p q r, StronglySorted ordered (l ++ p :: q :: r) -> fst p <= x <= fst q ->
     interp x (l ++ p :: q :: r) = Defined (chord p q x)) /\
  (forall x p t, x <= fst p -> interp x (p :: t) = Defined (snd p)) /\
  (forall x l q, StronglySorted ordered (l ++ [q]) -> fst q <= x -> interp x (l ++ [q]) = Defined (snd q)).
Proof. exact (conj interp_segment (conj interp_left interp_beyond)). Qed.
Print Assumptions C49_interpolation.

Example C49_interpolation_hypotheses_met :
  StronglySorted ordered ([(0, 5)] ++ (1, 3) :: (3, 7) :: [(4, 0)]) /\ fst (1, 3) <= 2 <= fst (3, 7) /\
  interp 2 [(0, 5); (1, 3); (3, 7); (4, 0)] = Defined 5.
Proof.
  assert (S : StronglySorted ordered ([(0, 5)] ++ (1, 3) :: (3, 7) :: [(4, 0)])) by (repeat (constructor; [|repeat constructor; unfold ordered; cbn [fst]; lra]); constructor).
  assert (B : fst (1, 3) <= 2 <= fst (3, 7)) by (cbn [fst]; lra). split; [exact S|]. split; [exact B|].
  change [(0, 5); (1, 3); (3, 7); (4, 0)] with ([(0, 5)] ++ (1, 3) :: (3, 7) :: [(4, 0)]). rewrite (proj1 C49_interpolation 2 _ _ _ _ S B). unfold chord; cbn [fst snd]. f_equal. field.
Qed.

(** ** C50: hypergeometric series *)

(** C50: with exact arithmetic and any stopping test, each function returns the
    partial sum of its series at the first index from 20 on at which the next
    term passes the test, and NaN (None) if no index up to 9998 does. *)
Theorem C50_series :
  forall (small : R -> R -> bool) (a b c x : R) (la lb : list R),
  let divn := fun y n => y / IZR n in let inc := fun y => y + 1 in
  series_stops small [] [] x (hyper_0f0 1 Rplus Rmult divn small x) /\
  series_stops small [] [b] x (hyper_0f1 1 Rplus Rmult Rdiv divn inc small b x) /\
  series_stops small [a] [] x (hyper_1f0 1 Rplus Rmult divn inc small a x) /\
  series_stops small [a] [b] x (hyper_1f1 1 Rplus Rmult Rdiv divn inc small a b x) /\
  series_stops small [a; b] [] x (hyper_2f0 1 Rplus Rmult divn inc small a b x) /\
  series_stops small [a; b] [c] x (hyper_2f1 1 Rplus Rmult Rdiv divn inc small a b c x) /\
  series_stops small la lb x (hyper_pfq 1 Rplus Rmult Rdiv divn small la lb x).
Proof. exact hyper_all. Qed.
Print Assumptions C50_series.

(** C50: both outcomes occur. *)
Example C50_hypotheses_met :
  hyper_1f1 1 Rplus Rmult Rdiv (fun y n => y / IZR n) (fun y => y + 1) (fun _ _ => true) 2 3 (1 / 2) = Some (hyper_sum [2] [3] (1 / 2) 20) /\
  hyper_1f1 1 Rplus Rmult Rdiv (fun y n => y / IZR n) (fun y => y + 1) (fun _ _ => false) 2 3 (1 / 2) = None.
Proof.
  split.
  - pose proof (proj1 (proj2 (proj2 (proj2 (C50_series (fun _ _ => true) 2 3 0 (1 / 2) [] []))))) as H. cbv zeta in H.
    destruct (hyper_1f1 _ _ _ _ _ _ _ _ _ _) as [s|].
    + destruct H as (n & Hn & -> & _ & Q). f_equal. f_equal. destruct (Nat.eq_dec n 20) as [E|N]; [exact E|]. specialize (Q 20%nat ltac:(lia)). discriminate.
    + specialize (H 20%nat ltac:(lia)). discriminate.
  - pose proof (proj1 (proj2 (proj2 (proj2 (C50_series (fun _ _ => false) 2 3 0 (1 / 2) [] []))))) as H. cbv zeta in H.
    destruct (hyper_1f1 _ _ _ _ _ _ _ _ _ _) as [s|]; [|reflexivity]. destruct H as (n & _ & _ & Q & _). discriminate.
Qed.

(** ** C54: central difference *)

(** C54: the error of the three-interval rule is of order six. *)
Theorem C54_derivative :
  forall f x h M, h <> 0 -> (forall t k, (k <= 7)%nat -> ex_derive_n f k t) ->
  (forall t, Rabs (t - x) <= 3 * Rabs h -> Rabs (Derive_n f 7 t) <= M) ->
  Rabs (diff f x h - Derive f x) <= 47 / 2100 * h ^ 6 * M.
Proof. exact derivative_correct. Qed.
Print Assumptions C54_derivative.

Example C54_hypotheses_met :
  1 / 10 <> 0 /\ (forall t k, (k <= 7)%nat -> ex_derive_n exp k t) /\
  (forall t, Rabs (t - 0) <= 3 * Rabs (1 / 10) -> Rabs (Derive_n exp 7 t) <= exp 1).
Proof.
  split; [lra|]. split; [intros t [|k] _; [exact I|exists (exp t); exact (is_derive_n_exp (S k) t)]|]. intros t Ht. rewrite (is_derive_n_unique exp 7 t _ (is_derive_n_exp 7 t)).
  rewrite Rabs_pos_eq by (left; apply exp_pos). rewrite (Rabs_pos_eq (1 / 10)) in Ht by lra. apply Rabs_le_between in Ht. left. apply exp_increasing. lra.
Qed.

(** ** C55: Newton's method *)

(** C55: a success is a point of the interval, the last of at most 256 Newton
    steps from its middle, and either that step was shorter than eps or there
    were 256 of them. *)
Theorem C55_newton_partial :
  forall fd lo hi eps r, lo <= hi -> newton fd lo hi eps = (r, true) ->
  lo <= r <= hi /\
  ((exists m, (m < 256)%nat /\ r = Nat.iter (S m) (newton_step fd) ((lo + hi) / 2) /\
     Rabs (r - Nat.iter m (newton_step fd) ((lo + hi) / 2)) < eps) \/
   r = Nat.iter 256 (newton_step fd) ((lo + hi) / 2)).
Proof. exact newton_correct. Qed.
Print Assumptions C55_newton_partial.

Example C55_hypotheses_met : -1 <= 2 /\ newton osc (-1) 2 (1 / 4) = (1 / 2, true) /\ newton (fun x => (x - 1 / 3, 1)) 0 1 (1 / 10) = (1 / 3, true).
Proof.
  split; [lra|]. split; [exact (proj1 newton_refuted)|]. unfold find_root_newton. change 256%nat with (2 + 254)%nat. generalize 254%nat. intro k. cbn [newton_loop Nat.add].
  replace ((0 + 1) / 2 - ((0 + 1) / 2 - 1 / 3) / 1) with (1 / 3) by lra. replace (1 / 3 - (1 / 3 - 1 / 3) / 1) with (1 / 3) by lra.
  replace (((0 + 1) / 2 - 1 / 3) / 1) with (1 / 6) by lra. replace ((1 / 3 - 1 / 3) / 1) with 0 by lra.
  unfold rltb. repeat (destruct (Rlt_dec _ _); try (exfalso; lra); try reflexivity).
Qed.

(** C55: the method reports success although it did not converge: for the
    function sqrt|x| with the sign of x, on [-1, 2], it returns 1/2. *)
Theorem C55_newton_refuted :
  newton osc (-1) 2 (1 / 4) = (1 / 2, true) /\ fst (osc (1 / 2)) <> 0 /\
  forall z, Rabs (z - 1 / 2) < 1 / 4 -> fst (osc z) <> 0.
Proof. exact newton_refuted. Qed.
Print Assumptions C55_newton_refuted.

(** ** C56: expansions *)

(** C56: s0 plus init times the polynomial with the given coefficients, and the
    alternating sum of the terms, each shifted by init. *)
Theorem C56_coefficients :
  (forall x init c s0, coefficient_sum Rplus Rmult x init s0 c = s0 + init * poly c x) /\
  (forall b init c s0, alternating Rplus Rminus b init s0 c = s0 + (if b then -1 else 1) * poly c (-1) + INR (length c) * init).
Proof. exact (conj coefficient_sum_correct alternating_correct). Qed.
Print Assumptions C56_coefficients.
