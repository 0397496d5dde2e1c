(** * Sine and cosine of small arguments, and the tripling steps (proofs only) *)

From Coq Require Import ZArith List Bool Reals Lra Lia Psatz.
From Verif Require Import Model Spec SpecGen Limbs Value CmpProofs AddProofs Decide OrderProofs OrderDec AddExtra MulProofs MulValue MulExtra MulCor
  IntProofs IntPartProofs IntConv MixedProofs IntCor ModelDiv DoubleProofs NewtonProofs InvProofs SqrtProofs ModelPow PowGen PowProofs PowExtra LdexpProofs
  FloatEval ModelGen ModelElem ElemProofs SeriesFloat ExpReal ExpFloat ExpAcc SinReal SinFloat.
Import ListNotations.
Open Scope R_scope.
Ltac Zify.zify_post_hook ::= Z.div_mod_to_equations.
Local Notation p10 := (powerRZ 10).
Local Notation exp := Rtrigo_def.exp.
Local Notation sin := Rtrigo_def.sin.
Local Notation cos := Rtrigo_def.cos.
Local Notation sqrt := R_sqrt.sqrt.

Lemma sin_lower t : 0 <= t <= 1 -> t * (1 - t * t / 3) <= sin t.
Proof.
  intro H. destruct (sin_series t) as (l & Hl & ->). 
  pose proof (f_remainder (3 / 2) (- (t * t) / 4) l 1 ltac:(lra) Hl ltac:(lia)) as R. rewrite f_part_1, f_term_1 in R.
  assert (B : Rabs (- (t * t) / 4) = t * t / 4) by (rewrite Rabs_left1; nra).
  assert (B2 : Rabs (- (t * t) / 4 / (3 / 2)) = t * t / 6) by (rewrite Rabs_left1; nra).
  rewrite B, B2 in R. specialize (R ltac:(nra)). apply Rabs_le_inv in R. nra.
Qed.

Lemma cos_bounds t : Rabs t <= 1 -> 1 - t * t / 2 - t * t * (t * t) / 12 <= cos t <= 1 - t * t / 2 + t * t * (t * t) / 12.
Proof.
  intro H. pose proof (f_remainder (/ 2) (- (t * t) / 4) (cos t) 2 ltac:(lra) (cos_series t) ltac:(lia)) as R.
  assert (E2 : f_part (/ 2) (- (t * t) / 4) 2 = 1 - t * t / 2).
  { pose proof (f_part_step (/ 2) (- (t * t) / 4) 1 ltac:(lia)) as E. change (1 + 1)%Z with 2%Z in E. rewrite E, f_part_1, f_term_1. field. }
  rewrite E2 in R.
  rewrite f_term_step in R by lia. change (2 - 1)%Z with 1%Z in R. rewrite f_term_1 in R.
  replace (- (t * t) / 4 / / 2 * (- (t * t) / 4) / (2 * (/ 2 + 1))) with (t * t * (t * t) / 24) in R by field.
  assert (0 <= t * t <= 1) by (apply Rabs_le_inv in H; nra).
  rewrite (Rabs_pos_eq (t * t * (t * t) / 24)) in R by nra. rewrite Rabs_left1 in R by lra. specialize (R ltac:(lra)). apply Rabs_le_inv in R. lra.
Qed.

Lemma cos_diff a y : Rabs (cos y - cos a) <= Rabs (y - a) * Rabs (y + a) / 2.
Proof.
  rewrite form2. rewrite !Rabs_mult, (Rabs_left (-2)) by lra.
  pose proof (sin_le ((y - a) / 2)) as A. pose proof (sin_le ((y + a) / 2)) as B. unfold Rdiv in A at 2, B at 2. rewrite Rabs_mult, (Rabs_pos_eq (/ 2)) in A, B by lra.
  pose proof (Rabs_pos (sin ((y - a) / 2))). pose proof (Rabs_pos (sin ((y + a) / 2))). nra.
Qed.

Section FixedDigits.
Variable d : Z.
Hypothesis Hd : valid_digits d.
Hypothesis Hd' : (d <= 4967)%Z.

Local Notation u := (p10 (- d)).

Lemma half_facts : ok d 1 (half d) /\ value (half d) = / 2.
Proof.
  destruct (of_limbs1 d 50000000 (-8) Hd ltac:(lia) ltac:(reflexivity)) as (F & P & V). fold (half d) in F, P, V.
  assert (E : value (half d) = / 2). { rewrite V. p10num H 8%nat. change (-8)%Z with (- (8))%Z. rewrite H. lra. }
  split; [|exact E]. apply (ok_of_bounds d); [exact F|exact P|]. rewrite E, Rabs_pos_eq, (p10_inv 1), p10_1; lra.
Qed.

Lemma three_half_facts : ok d 1 (three_half d) /\ value (three_half d) = 3 / 2.
Proof.
  destruct half_facts as [Oh Vh]. destruct (PowExtra.one_ok d Hd) as (F1 & P1 & V1).
  assert (O1 : ok d 1 (one d)) by (apply (ok_of_bounds d); [exact F1|exact P1|rewrite V1, Rabs_R1, (p10_inv 1), p10_1; lra]).
  destruct (ok_add d 1 (one d) (half d) Hd ltac:(lia) ltac:(lia) O1 Oh) as [(F & P & _) E]. fold (three_half d) in F, P, E.
  rewrite V1, Vh, (p_17 d) in E. rewrite Rabs_R1, (Rabs_pos_eq (/ 2)), Rmax_left in E by lra. pose proof (u_small d Hd) as U. apply Rabs_le_inv in E.
  assert (V : value (three_half d) = 3 / 2).
  { pose proof (elem_number_digits d Hd) as EN. pose proof (elem_number_bounds d Hd) as EB.
    assert (Ne : value (three_half d) <> 0) by lra.
    pose proof (finite_abs_bounds d _ Hd F (value_nonzero_lead d _ Hd F Ne)) as [B _]. rewrite Rabs_pos_eq in B by lra.
    assert (Ex : (Model.exp (three_half d) <= 0)%Z).
    { apply Z.nlt_ge. intro C. pose proof (p10_le 1 (Model.exp (three_half d)) ltac:(lia)) as X. rewrite p10_1 in X. lra. }
    unfold three_half. rewrite (add_exact d (one d) (half d) (15 * 10 ^ (8 * (elem_number d - 1) - 1)) Hd F1 (proj1 Oh) (proj2 F)).
    - rewrite V1, Vh. lra.
    - fold (three_half d). change (Model.exp (one d)) with 0%Z. change (Model.exp (half d)) with (-8)%Z. replace (Z.max (Model.exp (three_half d)) (Z.max 0 (-8))) with 0%Z by lia.
      rewrite V1, Vh. unfold ulp. rewrite mult_IZR, <- p10_nonneg by (destruct Hd; lia). rewrite Rmult_assoc, <- p10_add.
      replace (8 * (elem_number d - 1) - 1 + (0 - 8 * (elem_number d - 1)))%Z with (- (1))%Z by ring. rewrite (p10_inv 1), p10_1. lra. }
  split; [|exact V]. apply (ok_of_bounds d); [exact F|exact P|]. rewrite V, Rabs_pos_eq, (p10_inv 1), p10_1; lra.
Qed.

Definition quarter (x : ef) : ef := div_int d (negate (mul d x x)) 4.

Lemma quarter_ok m x : (0 <= m <= 520000)%Z -> ok d m x -> value x <> 0 -> Rabs (value x) <= / 1000 ->
  ok d (2 * m + 10) (quarter x) /\ value (quarter x) <> 0 /\ Rabs (value (quarter x)) <= 3 / 10000000 /\
  exists y, 0 < y /\ value (quarter x) = - (y * y) / 4 /\ rel (52 / 1000 * u) y (Rabs (value x)).
Proof.
  intros Hm Ox N Hx. pose proof (u_small d Hd) as U. set (a := Rabs (value x)) in *. assert (A0 : 0 < a) by (apply Rabs_pos_lt; exact N).
  assert (Ea : value x * value x = a * a) by (unfold a; rewrite <- Rabs_mult, Rabs_pos_eq; [reflexivity|nra]).
  destruct (ok_rel_mul d Hd Hd' m m x x ltac:(lia) ltac:(lia) ltac:(lia) Ox Ox) as [Om Rm]. rewrite Ea in Rm.
  assert (A2 : 0 < a * a) by nra. assert (A3 : a * a <= / 1000000) by nra.
  unfold rel in Rm. rewrite (Rabs_pos_eq (a * a)) in Rm by lra. apply Rabs_le_inv in Rm. set (q := value (mul d x x)) in *.
  assert (Q : 99 / 100 * (a * a) <= q <= 101 / 100 * (a * a)) by nra.
  destruct (ok_negate d (m + m + 1) (mul d x x) Hd Om) as [On Vn]. fold q in Vn.
  destruct (ok_div_int d Hd (m + m + 1) (negate (mul d x x)) 4 ltac:(lia) On ltac:(rewrite Vn; lra) ltac:(lia)) as (Oz & Nz & Rz). fold (quarter x) in Oz, Nz, Rz.
  rewrite Vn in Rz. unfold rel in Rz. rewrite (Rabs_left (- q / 4)) in Rz by lra. apply Rabs_le_inv in Rz. set (z := value (quarter x)) in *.
  assert (Z : a * a - 1001 / 10000 * u * (a * a) <= - 4 * z <= a * a + 1001 / 10000 * u * (a * a)).
  { assert (0 <= u * (a * a)) by nra. assert (u * (u * (a * a)) <= / 10000 * (u * (a * a))) by (apply Rmult_le_compat_r; lra). nra. }
  split; [apply (ok_le d (m + m + 1 + 9)); [lia|exact Oz]|]. split; [exact Nz|].
  assert (W : 99 / 100 * (a * a) <= -4 * z <= 101 / 100 * (a * a)) by nra.
  split; [rewrite Rabs_left; lra|]. exists (sqrt (-4 * z)). assert (S0 : 0 < sqrt (-4 * z)) by (apply sqrt_lt_R0; lra).
  assert (S2 : sqrt (-4 * z) * sqrt (-4 * z) = -4 * z) by (apply sqrt_sqrt; lra).
  split; [exact S0|]. split; [rewrite S2; field|]. set (y := sqrt (-4 * z)) in *.
  assert (Y : 99 / 100 * a <= y) by (apply Rsqr_incr_0_var; unfold Rsqr; nra).
  unfold rel. rewrite (Rabs_pos_eq a) by lra. apply Rmult_le_reg_r with (y + a); [lra|].
  rewrite <- (Rabs_pos_eq (y + a)) at 1 by lra. rewrite <- Rabs_mult. replace ((y - a) * (y + a)) with (y * y - a * a) by ring. rewrite S2.
  apply Rle_trans with (1001 / 10000 * u * (a * a)); [apply Rabs_le; lra|].
  replace (52 / 1000 * u * a * (y + a)) with (u * a * (52 / 1000 * (y + a))) by ring. replace (1001 / 10000 * u * (a * a)) with (u * a * (1001 / 10000 * a)) by ring.
  apply Rmult_le_compat_l; nra.
Qed.

Lemma cos_small m x : (0 <= m <= 520000)%Z -> ok d m x -> value x <> 0 -> Rabs (value x) <= / 1000 ->
  let c := h0f1 d (half d) (quarter x) in
  ok d 1 c /\ 99 / 100 <= value c <= 101 / 100 /\ Rabs (value c - cos (value x)) <= (17 / 100 * (value x * value x) + / 100000000000) * u.
Proof.
  intros Hm Ox N Hx c. pose proof (u_small d Hd) as U. destruct (quarter_ok m x Hm Ox N Hx) as (Oz & Nz & Bz & y & Y0 & Ez & Ry). destruct half_facts as [Oh Vh].
  destruct (h0f1_ok d Hd Hd' (2 * m + 10) (/ 2) (half d) (quarter x) (cos y) ltac:(lia) Oz Nz Bz ltac:(lra) Oh Vh) as (O & V & B).
  { rewrite Ez. apply cos_series. }
  fold c in O, V, B. split; [exact O|]. split; [exact V|].
  set (a := Rabs (value x)) in *. assert (A0 : 0 < a) by (apply Rabs_pos_lt; exact N).
  assert (Ea : value x * value x = a * a) by (unfold a; rewrite <- Rabs_mult, Rabs_pos_eq; [reflexivity|nra]). rewrite Ea.
  assert (Ec : cos (value x) = cos a). { unfold a, Rabs. destruct (Rcase_abs (value x)); [rewrite cos_neg|]; reflexivity. } rewrite Ec.
  unfold rel in Ry. rewrite (Rabs_pos_eq a) in Ry by lra. pose proof (cos_diff a y) as D. rewrite (Rabs_pos_eq (y + a)) in D by lra.
  assert (Ub : u * a <= / 1000 * a) by (apply Rmult_le_compat_r; lra). assert (Y1 : y <= 1001 / 1000 * a) by (apply Rabs_le_inv in Ry; lra).
  rewrite Ez in B. replace (- (y * y) / 4 / / 2) with (- (y * y / 2)) in B by field. rewrite Rabs_Ropp, (Rabs_pos_eq (y * y / 2)) in B by nra.
  replace (value c - cos a) with ((value c - cos y) + (cos y - cos a)) by ring. eapply Rle_trans; [apply Rabs_triang|].
  assert (D' : Rabs (y - a) * (y + a) <= (52 / 1000 * u * a) * (2001 / 1000 * a)) by (apply Rmult_le_compat; [apply Rabs_pos|lra|exact Ry|lra]).
  assert (Yq : y * y <= 1003 / 1000 * (a * a)) by nra.
  assert (u * (y * y) <= u * (1003 / 1000 * (a * a))) by (apply Rmult_le_compat_l; lra). nra.
Qed.

Lemma sin_small m x : (0 <= m <= 520000)%Z -> ok d m x -> value x <> 0 -> Rabs (value x) <= / 1000 ->
  let s := mul d x (h0f1 d (three_half d) (quarter x)) in
  ok d (m + 2) s /\ Rabs (value s - sin (value x)) <= 12 / 100 * u * Rabs (value x).
Proof.
  intros Hm Ox N Hx s. pose proof (u_small d Hd) as U. destruct (quarter_ok m x Hm Ox N Hx) as (Oz & Nz & Bz & y & Y0 & Ez & Ry). destruct three_half_facts as [Oh Vh].
  destruct (sin_series y) as (l & Hl & El).
  destruct (h0f1_ok d Hd Hd' (2 * m + 10) (3 / 2) (three_half d) (quarter x) l ltac:(lia) Oz Nz Bz ltac:(lra) Oh Vh) as (O & V & B).
  { rewrite Ez. exact Hl. }
  set (h := h0f1 d (three_half d) (quarter x)) in *.
  destruct (ok_rel_mul d Hd Hd' m 1 x h ltac:(lia) ltac:(lia) ltac:(lia) Ox O) as [Os Rs]. fold s in Os, Rs. split; [apply (ok_le d (m + 1 + 1)); [lia|exact Os]|].
  set (a := Rabs (value x)) in *. assert (A0 : 0 < a) by (apply Rabs_pos_lt; exact N).
  assert (Es : sin (value x) = value x * (sin a / a)).
  { unfold a, Rabs. destruct (Rcase_abs (value x)); [rewrite sin_neg|]; field; lra. } rewrite Es.
  unfold rel in Ry. rewrite (Rabs_pos_eq a) in Ry by lra.
  assert (Ub : u * a <= / 1000 * a) by (apply Rmult_le_compat_r; lra). assert (Y1 : 999 / 1000 * a <= y <= 1001 / 1000 * a) by (apply Rabs_le_inv in Ry; lra).
  rewrite Ez in B. replace (- (y * y) / 4 / (3 / 2)) with (- (y * y / 6)) in B by field. rewrite Rabs_Ropp, (Rabs_pos_eq (y * y / 6)) in B by nra.
  assert (Yq : y * y <= 2 / 1000000) by nra.
  assert (B' : Rabs (value h - l) <= / 1000000 * u) by (eapply Rle_trans; [exact B|]; apply Rmult_le_compat_r; lra). clear B.
  (* the two quotients *)
  assert (Q : Rabs (l - sin a / a) <= 11 / 100 * u).
  { replace (l - sin a / a) with (((sin y - sin a) + (a - y) * (sin a / a)) / y) by (rewrite El; field; lra).
    unfold Rdiv at 1. rewrite Rabs_mult, (Rabs_pos_eq (/ y)) by (left; apply Rinv_0_lt_compat; lra). apply Rmult_le_reg_r with y; [lra|].
    rewrite Rmult_assoc, Rinv_l, Rmult_1_r by lra. eapply Rle_trans; [apply Rabs_triang|]. pose proof (sin_lipschitz y a) as L. rewrite Rabs_mult.
    assert (Sa : Rabs (sin a / a) <= 1).
    { unfold Rdiv. rewrite Rabs_mult, (Rabs_pos_eq (/ a)) by (left; apply Rinv_0_lt_compat; lra). apply Rmult_le_reg_r with a; [lra|].
      rewrite Rmult_assoc, Rinv_l, Rmult_1_r, Rmult_1_l by lra. pose proof (sin_le a). rewrite (Rabs_pos_eq a) in * by lra. lra. }
    rewrite (Rabs_minus_sym a y). pose proof (Rabs_pos (y - a)). assert (Rabs (y - a) * Rabs (sin a / a) <= Rabs (y - a)) by nra.
    assert (u * (999 / 1000 * a) <= u * y) by (apply Rmult_le_compat_l; lra). lra. }
  replace (value s - value x * (sin a / a)) with ((value s - value x * value h) + value x * ((value h - l) + (l - sin a / a))) by ring.
  eapply Rle_trans; [apply Rabs_triang|]. rewrite (Rabs_mult (value x) (_ + _)). fold a.
  pose proof (Rabs_triang (value h - l) (l - sin a / a)) as T.
  unfold rel in Rs. rewrite Rabs_mult in Rs. fold a in Rs. rewrite (Rabs_pos_eq (value h)) in Rs by lra.
  assert (X1 : u / 1000000 * (a * value h) <= u / 1000000 * (a * 2)) by (apply Rmult_le_compat_l; [lra|]; apply Rmult_le_compat_l; lra).
  assert (X2 : a * Rabs (value h - l + (l - sin a / a)) <= a * (11 / 100 * u + / 1000000 * u)) by (apply Rmult_le_compat_l; lra).
  assert (0 <= u * a) by nra. lra.
Qed.

(** ** Products of numbers below one *)

Lemma mul_abs m m' x y : (0 <= m)%Z -> (0 <= m')%Z -> (m + m' <= 2147483000)%Z -> ok d m x -> ok d m' y -> value x <> 0 -> value y <> 0 ->
  Rabs (value x) < 1 -> Rabs (value y) < 1 -> Rabs (value (mul d x y) - value x * value y) <= p10 (- (d + 20)).
Proof.
  intros Hm Hm' Hs Ox Oy Nx Ny Lx Ly. pose proof (ok_exp d m x Hd Ox Nx) as Ex. pose proof (ok_exp d m' y Hd Oy Ny) as Ey.
  destruct Ox as (Fx & Px & _), Oy as (Fy & Py & _).
  pose proof (value_nonzero_lead d x Hd Fx Nx) as Zx. pose proof (value_nonzero_lead d y Hd Fy Ny) as Zy.
  destruct (in_range_exps x y ltac:(lia)) as [Ho Hu].
  destruct (mul_in_range d x y Hd Fx Fy Nx Ny Ho Hu) as (Fr & Nr & _ & Sr & _).
  assert (Neg : forall w, finite d w -> limb (data w) 0 <> 0%Z -> Rabs (value w) < 1 -> (Model.exp w <= -8)%Z).
  { intros w Fw Zw Lw. pose proof (finite_abs_bounds d w Hd Fw Zw) as [B _]. pose proof (wf_exp _ _ (proj1 Fw)) as M.
    assert (Model.exp w < 0)%Z; [|lia]. apply Z.nle_gt. intro C. pose proof (p10_le 0 _ C) as X. change (p10 0) with 1 in X. lra. }
  pose proof (Neg x Fx Zx Lx) as N1. pose proof (Neg y Fy Zy Ly) as N2.
  destruct (mul_finite_cases d x y Hd Fx Fy) as [[[H|H] _]|(_ & _ & [[H _]|[[H _]|(_ & _ & E)]])]; try contradiction.
  destruct (mul_mag d x y Hd Fx Fy Zx Zy) as [_ M]. unfold full in Px, Py. rewrite Px, Py, Z.min_id in M. specialize (M eq_refl).
  rewrite <- E in M. rewrite <- !value_abs_mag in M by assumption. rewrite <- Rabs_mult in M.
  pose proof (elem_number_digits d Hd) as EN. pose proof (elem_number_bounds d Hd) as EB.
  assert (K : IZR (E0 (elem_number d)) * p10 (Model.exp x + Model.exp y + 16 - 8 * elem_number d) <= p10 (- (d + 20))).
  { unfold E0. destruct (Z.ltb_spec (elem_number d * 8) 5000); [|lia].
    assert (IZR (elem_number d) <= p10 3). { rewrite p10_nonneg by lia. apply IZR_le. lia. }
    assert (p10 (Model.exp x + Model.exp y + 16 - 8 * elem_number d) <= p10 (- (d + 25))) by (apply p10_le; lia).
    pose proof (p10_le (3 + - (d + 25)) (- (d + 20)) ltac:(lia)) as X. rewrite p10_add in X. eapply Rle_trans; [|exact X].
    apply Rmult_le_compat; auto. apply IZR_le. lia. apply Rlt_le, p10_pos. }
  set (v := value (mul d x y)) in *. set (w := value x * value y) in *.
  apply Rle_trans with (Rabs w - Rabs v); [|lra]. unfold Rabs in *. destruct (Rcase_abs v), (Rcase_abs w), (Rcase_abs (v - w)); nra.
Qed.

Lemma ok_mul_int x n : finite d x -> full d x -> p10 (- (24)) <= Rabs (value x) <= 1 -> (1 <= n <= 4)%Z ->
  ok d 30 (mul_int d x n) /\ Rabs (value (mul_int d x n) - IZR n * value x) <= p10 (- (d + 17)).
Proof.
  intros F P B Hn. pose proof (p10_pos (- (24))) as P24. assert (N : value x <> 0). { intro Z. rewrite Z, Rabs_R0 in B. lra. }
  destruct (mul_ull_small_spec d x n Hd F P N ltac:(lia)) as (Fr & Pr & Cr).
  assert (In : 1 <= IZR n <= 4) by (split; apply IZR_le; lia).
  assert (An : Rabs (value x * IZR n) = Rabs (value x) * IZR n) by (rewrite Rabs_mult, (Rabs_pos_eq (IZR n)); lra).
  pose proof (elem_number_digits d Hd) as EN. pose proof (elem_number_bounds d Hd) as EB.
  set (r := mul_ull d x n) in *. destruct Cr as ((C1 & C2) & C3 & _). rewrite An in *.
  assert (Ex : (Model.exp r <= 0)%Z).
  { assert (Z : limb (data r) 0 <> 0%Z).
    { pose proof (value_nonzero_lead d x Hd F N) as Zx. unfold r. rewrite mul_ull_cases by (auto; lia). rewrite (finite_nonzero_flag d x Hd F N). cbn [orb].
      destruct (Z.eqb_spec n 0); [lia|]. destruct (Z.geb_spec n mask) as [Hm|Hm]; [change mask with 100000000%Z in Hm; lia|].
      destruct (Z.eqb_spec n 1); [exact Zx|]. apply (mul_small_spec d x n Hd F Zx ltac:(lia)). }
    pose proof (finite_abs_bounds d r Hd Fr Z) as [B1 _]. pose proof (wf_exp _ _ (proj1 Fr)) as M.
    assert (Model.exp r < 8)%Z; [|lia]. apply Z.nle_gt. intro C. pose proof (p10_le 1 _ (Z.le_trans 1 8 _ ltac:(lia) C)) as X. rewrite p10_1 in X. nra. }
  assert (Ul : ulp d (Model.exp r) <= p10 (- (d + 17))) by (unfold ulp; apply p10_le; lia).
  assert (Er : mul_int d x n = r).
  { unfold mul_int, mul_sll. replace (n =? sll_min)%Z with false by (symmetry; apply Z.eqb_neq; unfold sll_min; lia).
    replace (n <? 0)%Z with false by (symmetry; apply Z.ltb_ge; lia). cbn [negb]. rewrite u64_small by lia. fold r.
    assert (G : op_gt (fabs r) (value_max d) = false).
    { apply not_true_is_false. intro G. apply (cmp_all_ops d _ _ Hd (fabs_finite d r Fr) (value_max_finite d Hd)) in G.
      rewrite (fabs_value d r Hd Fr), (value_max_value d Hd) in G. pose proof (max_value_ge d Hd) as Mg.
      pose proof (p10_le 1 max_exp10 ltac:(unfold max_exp10; lia)) as X. rewrite p10_1 in X. nra. }
    rewrite G. reflexivity. }
  rewrite Er.
  assert (T : p10 (- (d + 17)) <= p10 (- (25))) by (apply p10_le; destruct Hd; lia).
  assert (T2 : p10 (- (25)) = p10 (- (24)) / 10). { change (- (25))%Z with (- (24) + - (1))%Z. rewrite p10_add, (p10_inv 1), p10_1. lra. }
  split.
  - apply (ok_of_bounds d); [exact Fr|exact Pr|]. split.
    + apply Rle_trans with (p10 (- (24)) / 10); [rewrite <- T2; apply p10_le; lia|]. nra.
    + apply Rle_trans with 4; [nra|]. pose proof (p10_le 1 30 ltac:(lia)) as X. rewrite p10_1 in X. lra.
  - rewrite (Rmult_comm (IZR n)). set (w := value x * IZR n) in *. rewrite <- An in C1, C2.
    apply Rle_trans with (Rabs w - Rabs (value r)); [|lra]. unfold Rabs in *. destruct (Rcase_abs (value r)), (Rcase_abs w), (Rcase_abs (value r - w)); nra.
Qed.

Lemma p_20 : p10 (- (d + 20)) = u / 100000000000000000000.
Proof. pose proof (p_shift d 20) as H. cbn [Z.of_nat Pos.of_succ_nat Pos.succ Rpow_def.pow] in H. rewrite H. lra. Qed.

Lemma p24 : p10 (- (24)) = / 1000000000000000000000000.
Proof. p10num H 24%nat. rewrite H. lra. Qed.

Lemma ok_unit x : finite d x -> full d x -> / 100000000 <= value x <= 10 -> ok d 8 x.
Proof.
  intros F P B. apply (ok_of_bounds d); [exact F|exact P|]. rewrite Rabs_pos_eq by lra. p10num H 8%nat. rewrite H. pose proof (p10_le 1 8 ltac:(lia)) as X. rewrite p10_1 in X. lra.
Qed.

Lemma cube_ok x : finite d x -> full d x -> / 50000000 <= value x < 1 ->
  finite d (mul d x (mul d x x)) /\ full d (mul d x (mul d x x)) /\ p10 (- (24)) <= Rabs (value (mul d x (mul d x x))) <= 1 /\
  Rabs (value (mul d x (mul d x x)) - value x ^ 3) <= u / 10000000000000000000.
Proof.
  intros F P B. pose proof (u_small d Hd) as U. set (a := value x) in *. assert (N : a <> 0) by lra. assert (Ab : Rabs a = a) by (apply Rabs_pos_eq; lra).
  pose proof (ok_unit x F P ltac:(fold a; lra)) as Ox.
  destruct (ok_rel_mul d Hd Hd' 8 8 x x ltac:(lia) ltac:(lia) ltac:(lia) Ox Ox) as [O2 R2]. fold a in R2.
  pose proof (mul_abs 8 8 x x ltac:(lia) ltac:(lia) ltac:(lia) Ox Ox N N ltac:(fold a; lra) ltac:(fold a; lra)) as E2. fold a in E2. rewrite p_20 in E2.
  set (b := value (mul d x x)) in *. assert (A2 : / 2500000000000000 <= a * a) by (replace (/ 2500000000000000) with (/ 50000000 * / 50000000) by field; apply Rmult_le_compat; lra).
  assert (A21 : a * a < 1) by nra. unfold rel in R2. rewrite (Rabs_pos_eq (a * a)) in R2 by lra. apply Rabs_le_inv in R2.
  assert (B0 : 999 / 1000 * (a * a) <= b <= 1001 / 1000 * (a * a)) by nra.
  assert (B1 : b <= a * a). { pose proof (ok_mul_le d Hd 8 8 x x ltac:(lia) ltac:(lia) ltac:(lia) Ox Ox) as L. fold a b in L. rewrite !Rabs_pos_eq in L; lra. }
  assert (Nb : b <> 0) by lra.
  destruct (ok_rel_mul d Hd Hd' 8 17 x (mul d x x) ltac:(lia) ltac:(lia) ltac:(lia) Ox O2) as [O3 R3]. fold a b in R3.
  pose proof (mul_abs 8 17 x (mul d x x) ltac:(lia) ltac:(lia) ltac:(lia) Ox O2 N Nb ltac:(fold a; lra) ltac:(fold b; rewrite Rabs_pos_eq; lra)) as E3. fold a b in E3. rewrite p_20 in E3.
  set (c := value (mul d x (mul d x x))) in *.
  assert (Ab0 : 0 < a * b < 1) by nra. unfold rel in R3. rewrite (Rabs_pos_eq (a * b)) in R3 by lra. apply Rabs_le_inv in R3.
  split; [apply O3|]. split; [apply O3|]. split.
  - assert (C0 : 999 / 1000 * (a * b) <= c) by nra. 
    pose proof (ok_mul_le d Hd 8 17 x (mul d x x) ltac:(lia) ltac:(lia) ltac:(lia) Ox O2) as C1. fold a b c in C1. rewrite (Rabs_pos_eq (a * b)) in C1 by lra.
    split; [|lra]. rewrite Rabs_pos_eq by nra. rewrite p24.
    assert (/ 50000000 * (999 / 1000 * / 2500000000000000) <= a * b) by (apply Rmult_le_compat; lra). lra.
  - replace (c - a ^ 3) with ((c - a * b) + a * (b - a * a)) by ring. eapply Rle_trans; [apply Rabs_triang|]. rewrite Rabs_mult, Ab.
    assert (a * Rabs (b - a * a) <= 1 * (u / 100000000000000000000)) by (apply Rmult_le_compat; try apply Rabs_pos; lra). lra.
Qed.

Lemma tripled x : finite d x -> full d x -> / 50000000 <= value x < 1 ->
  let q := mul_int d (mul d x (mul d x x)) 4 in let t := mul_int d x 3 in
  ok d 30 q /\ ok d 30 t /\ Rabs (value q - 4 * value x ^ 3) <= 2 * (u / 100000000000000000) /\ Rabs (value t - 3 * value x) <= u / 100000000000000000.
Proof.
  intros F P B q t. pose proof (u_small d Hd) as U. destruct (cube_ok x F P B) as (F3 & P3 & B3 & E3).
  destruct (ok_mul_int _ 4 F3 P3 B3 ltac:(lia)) as [Oq Eq]. fold q in Oq, Eq.
  assert (B24 : p10 (- (24)) <= Rabs (value x) <= 1) by (clear - B; rewrite p24, (Rabs_pos_eq (value x)); lra).
  destruct (ok_mul_int x 3 F P B24 ltac:(lia)) as [Ot Et]. fold t in Ot, Et. rewrite (p_17 d) in Eq, Et.
  split; [exact Oq|]. split; [exact Ot|]. split; [|exact Et].
  set (c := value (mul d x (mul d x x))) in *. replace (value q - 4 * value x ^ 3) with ((value q - 4 * c) + 4 * (c - value x ^ 3)) by ring.
  eapply Rle_trans; [apply Rabs_triang|]. rewrite (Rabs_mult 4), (Rabs_pos_eq 4) by lra. lra.
Qed.

Lemma cube_range x : 0 <= x <= 1 -> 0 <= x ^ 3 <= 1.
Proof. intro H. cbn [Rpow_def.pow]. rewrite Rmult_1_r. assert (0 <= x * x <= 1) by nra. nra. Qed.

Lemma sin_step_ok s : finite d s -> full d s -> / 50000000 <= value s < 1 ->
  finite d (sin_step d s) /\ full d (sin_step d s) /\ Rabs (value (sin_step d s) - (3 * value s - 4 * value s ^ 3)) <= u / 1000000000000000.
Proof.
  intros F P B. pose proof (u_small d Hd) as U. destruct (tripled s F P B) as (Oq & Ot & Eq & Et). unfold sin_step.
  set (q := mul_int d (mul d s (mul d s s)) 4) in *. set (t := mul_int d s 3) in *. destruct (ok_negate d 30 q Hd Oq) as [On Vn].
  destruct (ok_add d 30 (negate q) t Hd ltac:(lia) ltac:(lia) On Ot) as [(A1 & A2 & _) A]. split; [exact A1|]. split; [exact A2|]. rewrite Vn, Rabs_Ropp, (p_17 d) in A.
  pose proof (cube_range (value s) ltac:(lra)) as C. apply Rabs_le_inv in Eq, Et.
  assert (M : Rmax (Rabs (value q)) (Rabs (value t)) <= 5) by (apply Rmax_lub; apply Rabs_le; lra).
  assert (A' : 2 * (u / 100000000000000000) * Rmax (Rabs (value q)) (Rabs (value t)) <= 2 * (u / 100000000000000000) * 5) by (apply Rmult_le_compat_l; lra).
  apply Rabs_le. apply Rabs_le_inv in A. lra.
Qed.

Lemma cos_step_ok s : finite d s -> full d s -> / 50000000 <= value s < 1 ->
  finite d (cos_step d s) /\ full d (cos_step d s) /\ Rabs (value (cos_step d s) - (4 * value s ^ 3 - 3 * value s)) <= u / 1000000000000000.
Proof.
  intros F P B. pose proof (u_small d Hd) as U. destruct (tripled s F P B) as (Oq & Ot & Eq & Et). unfold cos_step.
  set (q := mul_int d (mul d s (mul d s s)) 4) in *. set (t := mul_int d s 3) in *.
  destruct (ok_sub d 30 q t Hd ltac:(lia) ltac:(lia) Oq Ot) as [(A1 & A2 & _) A]. split; [exact A1|]. split; [exact A2|]. rewrite (p_17 d) in A.
  pose proof (cube_range (value s) ltac:(lra)) as C. apply Rabs_le_inv in Eq, Et.
  assert (M : Rmax (Rabs (value q)) (Rabs (value t)) <= 5) by (apply Rmax_lub; apply Rabs_le; lra).
  assert (A' : 2 * (u / 100000000000000000) * Rmax (Rabs (value q)) (Rabs (value t)) <= 2 * (u / 100000000000000000) * 5) by (apply Rmult_le_compat_l; lra).
  apply Rabs_le. apply Rabs_le_inv in A. lra.
Qed.

Local Notation rho := (u / 1000000000000000).

Lemma quad_bound a b c : 0 <= a <= c -> 0 <= b <= c -> 0 <= a * a + a * b + b * b <= 3 * (c * c).
Proof. intros A B. assert (0 <= a * a <= c * c) by nra. assert (0 <= b * b <= c * c) by nra. assert (0 <= a * b <= c * c) by nra. lra. Qed.

Lemma amplify k e r J : 1 <= J -> 0 <= e -> 0 <= r -> 3 <= k -> J * (k * e + r + r) <= k * J * (e + r).
Proof. intros. assert (0 <= J * r) by nra. assert (J * r * 2 <= J * r * k) by (apply Rmult_le_compat_l; lra). replace (k * J * (e + r)) with (J * (k * e) + J * r * k) by ring. lra. Qed.

Lemma amplify_bound k e r J X : 1 <= J -> 0 <= e -> 0 <= r -> 0 <= k -> k * J * (e + r) <= X -> k * e <= X.
Proof.
  intros. assert (1 * (e + r) <= J * (e + r)) by (apply Rmult_le_compat_r; lra). assert (k * (1 * (e + r)) <= k * (J * (e + r))) by (apply Rmult_le_compat_l; lra).
  assert (0 <= k * r) by (apply Rmult_le_pos; lra). lra.
Qed.

Lemma third t J : 0 <= t -> 1 <= J -> t * (3 * J) <= 16 / 10 -> t <= 54 / 100.
Proof. intros. assert (t * 1 <= t * J) by (apply Rmult_le_compat_l; lra). lra. Qed.

Lemma cos_range w c : 0 <= w <= 3 / 10 -> 1 - w / 2 - w * w / 12 <= c <= 1 - w / 2 + w * w / 12 -> 8 / 10 <= c <= 1 - 4 / 10 * w.
Proof. intros. assert (0 <= w * w <= 3 / 10 * w) by nra. lra. Qed.

Lemma sin_range t s : 0 <= t <= 54 / 100 -> t * (1 - t * t / 3) <= s -> 9 / 10 * t <= s.
Proof. intros H L. assert (t * t <= 3 / 10) by nra. assert (t * (9 / 10) <= t * (1 - t * t / 3)) by (apply Rmult_le_compat_l; lra). lra. Qed.

Lemma times_bound x k K e : Rabs k <= K -> Rabs x <= e -> Rabs x * Rabs k <= K * e.
Proof. intros. rewrite (Rmult_comm K). apply Rmult_le_compat; try apply Rabs_pos; assumption. Qed.

Lemma sin_step_diff v a b : v - (3 * b - 4 * b ^ 3) = (v - (3 * a - 4 * a ^ 3)) + (a - b) * (3 - 4 * (a * a + a * b + b * b)).
Proof. ring. Qed.
Lemma cos_step_diff v a b : v - (4 * b ^ 3 - 3 * b) = (v - (4 * a ^ 3 - 3 * a)) + (a - b) * (4 * (a * a + a * b + b * b) - 3).
Proof. ring. Qed.

Lemma pow3_pos j : 1 <= 3 ^ j.
Proof. apply pow_R1_Rle. lra. Qed.

(* one tripling step: the error grows by the factor k and the rounding r *)
Lemma iter_gen (f : ef -> ef) (g : R -> R) k r X : 3 <= k -> 0 <= r ->
  (forall t s e, / 20000000 <= t <= 54 / 100 -> 0 <= e -> k * e <= X -> finite d s -> full d s -> Rabs (value s - g t) <= e ->
    finite d (f s) /\ full d (f s) /\ Rabs (value (f s) - g (3 * t)) <= k * e + r) ->
  forall j t s e, / 20000000 <= t -> t * 3 ^ j <= 16 / 10 -> 0 <= e -> k ^ j * (e + r) <= X -> finite d s -> full d s -> Rabs (value s - g t) <= e ->
  finite d (times f j s) /\ full d (times f j s) /\ Rabs (value (times f j s) - g (3 ^ j * t)) <= k ^ j * (e + r).
Proof.
  intros Hk Hr Step. induction j as [|j IH]; intros t s e T1 T2 E0 E1 F P B.
  - cbn [times Rpow_def.pow]. rewrite !Rmult_1_l. split; [exact F|]. split; [exact P|]. clear - B Hr; lra.
  - cbn [times]. rewrite <- !tech_pow_Rmult in *. pose proof (pow3_pos j) as J. assert (Jk : 1 <= k ^ j) by (apply pow_R1_Rle; lra).
    assert (Tp : 0 <= t) by (clear - T1; lra). pose proof (third t (3 ^ j) Tp J T2) as T3.
    assert (K0 : 0 <= k) by (clear - Hk; lra). pose proof (amplify_bound k e r (k ^ j) _ Jk E0 Hr K0 E1) as E2.
    destruct (Step t s e (conj T1 T3) E0 E2 F P B) as (F' & P' & B').
    replace (3 * 3 ^ j * t) with (3 ^ j * (3 * t)) by ring.
    pose proof (amplify k e r (k ^ j) Jk E0 Hr Hk) as Am.
    assert (C1 : / 20000000 <= 3 * t) by (clear - T1; lra). assert (C2 : 3 * t * 3 ^ j <= 16 / 10) by (clear - T2; lra).
    assert (C3 : 0 <= k * e + r) by (clear - E0 Hr K0; assert (0 <= k * e) by (apply Rmult_le_pos; assumption); lra).
    destruct (IH (3 * t) (f s) (k * e + r) C1 C2 C3 (Rle_trans _ _ _ Am E1) F' P' B') as (R1 & R2 & R3).
    split; [exact R1|]. split; [exact R2|]. exact (Rle_trans _ _ _ R3 Am).
Qed.

Lemma sin_one a b v t e r : / 20000000 <= t <= 54 / 100 -> 0 <= e -> 3 * e <= / 1000000000 -> Rabs (a - sin t) <= e -> b = sin t ->
  / 50000000 <= a < 1 /\ (Rabs (v - (3 * a - 4 * a ^ 3)) <= r -> Rabs (v - (3 * b - 4 * b ^ 3)) <= 3 * e + r).
Proof.
  intros T E0 E2 B ->.
  pose proof (sin_lower t ltac:(lra)) as L. pose proof (sin_le t) as L2. rewrite (Rabs_pos_eq t) in L2 by lra.
  assert (T0 : 0 <= t <= 54 / 100) by lra. pose proof (sin_range t _ T0 L) as L3. rewrite Rabs_pos_eq in L2 by (clear - L3 T0; lra). pose proof (Rabs_le_inv _ _ B) as B'.
  generalize dependent (sin t). intros b B L L2 L3 B'. split; [clear - B' L2 L3 E2 T E0; lra|]. intros Est.
  rewrite (sin_step_diff _ a b). eapply Rle_trans; [apply Rabs_triang|]. rewrite (Rabs_mult (a - b)).
  assert (Ha : 0 <= a <= 6 / 10) by (clear - B' L2 L3 E2 T E0; lra). assert (Hb : 0 <= b <= 6 / 10) by (clear - L2 L3 T; lra).
  pose proof (quad_bound a b (6 / 10) Ha Hb) as Qb.
  assert (K : Rabs (3 - 4 * (a * a + a * b + b * b)) <= 3) by (clear - Qb; apply Rabs_le; lra).
  pose proof (times_bound _ _ _ _ K B) as Tb. clear - Tb Est. lra.
Qed.

Lemma cos_one a b v t e r : / 20000000 <= t <= 54 / 100 -> 0 <= e -> 9 * e <= / 10000000000000000 -> Rabs (a - cos t) <= e -> b = cos t ->
  / 50000000 <= a < 1 /\ (Rabs (v - (4 * a ^ 3 - 3 * a)) <= r -> Rabs (v - (4 * b ^ 3 - 3 * b)) <= 9 * e + r).
Proof.
  intros T E0 E2 B ->.
  assert (Ta : Rabs t <= 1) by (rewrite Rabs_pos_eq; lra). pose proof (cos_bounds t Ta) as L.
  assert (Tq : / 400000000000000 <= t * t <= 3 / 10) by (split; [clear - T; replace (/ 400000000000000) with (/ 20000000 * / 20000000) by field; apply Rmult_le_compat; lra|clear - T; nra]).
  assert (Tw : 0 <= t * t <= 3 / 10) by (clear - Tq; lra). pose proof (cos_range (t * t) (cos t) Tw L) as L3. pose proof (Rabs_le_inv _ _ B) as B'.
  generalize dependent (cos t). intros b B L L3 B'. generalize dependent (t * t). intros w Tq Tw L L3.
  assert (Va : / 50000000 <= a < 1) by (clear - B' L3 E2 Tq E0; lra). split; [exact Va|]. intros Est.
  rewrite (cos_step_diff _ a b). eapply Rle_trans; [apply Rabs_triang|]. rewrite (Rabs_mult (a - b)).
  assert (Ha : 0 <= a <= 1) by (clear - Va; lra). assert (Hb : 0 <= b <= 1) by (clear - L3 Tw; lra).
  pose proof (quad_bound a b 1 Ha Hb) as Qb.
  assert (K : Rabs (4 * (a * a + a * b + b * b) - 3) <= 9) by (clear - Qb; apply Rabs_le; lra).
  pose proof (times_bound _ _ _ _ K B) as Tb. clear - Tb Est. lra.
Qed.

Lemma rho_pos : 0 <= rho.
Proof. pose proof (u_small d Hd) as U. lra. Qed.

Lemma sin_iter j : forall t s e, / 20000000 <= t -> t * 3 ^ j <= 16 / 10 -> 0 <= e -> 3 ^ j * (e + rho) <= / 1000000000 -> finite d s -> full d s ->
  Rabs (value s - sin t) <= e ->
  finite d (times (sin_step d) j s) /\ full d (times (sin_step d) j s) /\ Rabs (value (times (sin_step d) j s) - sin (3 ^ j * t)) <= 3 ^ j * (e + rho).
Proof.
  assert (K3 : 3 <= 3) by lra.
  apply (iter_gen (sin_step d) sin 3 rho (/ 1000000000) K3 rho_pos). intros t s e T E0 E2 F P B.
  destruct (sin_one (value s) (sin t) (value (sin_step d s)) t e rho T E0 E2 B eq_refl) as [V1 V2].
  destruct (sin_step_ok s F P V1) as (F' & P' & Est). split; [exact F'|]. split; [exact P'|]. rewrite sin_3. exact (V2 Est).
Qed.

Lemma cos_iter j : forall t s e, / 20000000 <= t -> t * 3 ^ j <= 16 / 10 -> 0 <= e -> 9 ^ j * (e + rho) <= / 10000000000000000 -> finite d s -> full d s ->
  Rabs (value s - cos t) <= e ->
  finite d (times (cos_step d) j s) /\ full d (times (cos_step d) j s) /\ Rabs (value (times (cos_step d) j s) - cos (3 ^ j * t)) <= 9 ^ j * (e + rho).
Proof.
  assert (K9 : 3 <= 9) by lra.
  apply (iter_gen (cos_step d) cos 9 rho (/ 10000000000000000) K9 rho_pos). intros t s e T E0 E2 F P B.
  destruct (cos_one (value s) (cos t) (value (cos_step d s)) t e rho T E0 E2 B eq_refl) as [V1 V2].
  destruct (cos_step_ok s F P V1) as (F' & P' & Est). split; [exact F'|]. split; [exact P'|]. rewrite cos_3. exact (V2 Est).
Qed.

End FixedDigits.
