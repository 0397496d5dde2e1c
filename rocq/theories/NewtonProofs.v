(** * Error analysis of the Newton iteration for the reciprocal (proofs only). *)

From Coq Require Import ZArith List Bool Reals Lra Lia.
From Verif Require Import Model Spec Limbs Value CmpProofs AddProofs Decide OrderProofs MulProofs MulValue MulCor
  IntProofs IntPartProofs MixedProofs ModelDiv.
Import ListNotations.
Open Scope R_scope.
Ltac Zify.zify_post_hook ::= Z.div_mod_to_equations.

(** ** Addition without overflow *)

Lemma prec_add d u v : prec (add d u v) = prec u \/ prec (add d u v) = prec v \/ prec (add d u v) = elem_number d.
Proof.
  unfold add. destruct (isnan u); auto. destruct (isinf u).
  { destruct (isinf v && negb (Bool.eqb (neg u) (neg v))); auto. }
  destruct (iszero u); auto. cbv zeta.
  match goal with |- context[if ?b then u else _] => destruct b; auto end.
  match goal with |- context[if ?b then v else _] => destruct b; auto end.
  set (ofs := Z.quot _ 8). set (r := if Bool.eqb (neg u) (neg v) then _ else _).
  assert (P : prec r = prec u).
  { unfold r. destruct (Bool.eqb (neg u) (neg v)).
    - unfold add_same. destruct (ofs >=? 0)%Z.
      + destruct (add_loop (data u) (shift_right (Z.to_nat ofs) (data v))) as [l c]. destruct (Z.eqb c 0); reflexivity.
      + destruct (add_loop (shift_right (Z.to_nat (- ofs)) (data u)) (data v)) as [l c]. destruct (Z.eqb c 0); reflexivity.
    - assert (J : forall x, prec (justify x) = prec x).
      { intro x. unfold justify. destruct (first_nonzero (data x) =? 0)%nat; auto. destruct (first_nonzero (data x) =? length (data x))%nat; auto. }
      unfold sub_diff. match goal with |- context[if ?b then _ else _] => destruct b end; rewrite J; reflexivity. }
  unfold add_finish. destruct (iszero r). { right; right. unfold zero, of_ull. reflexivity. }
  match goal with |- context[if ?b then _ else _] => destruct b end.
  { right; right. rewrite signed_inf_eq. reflexivity. }
  left. exact P.
Qed.

Lemma add_ok d u v : valid_digits d -> finite d u -> finite d v ->
  2 * (Rabs (value u) + Rabs (value v)) <= p10 max_exp10 ->
  finite d (add d u v) /\
  Rabs (value (add d u v) - (value u + value v)) <=
  2 * p10 (- (d + 17)) * Rmax (Rabs (value u)) (Rabs (value v)).
Proof.
  intros Hd Fu Fv HM.
  assert (F : finite d (add d u v)).
  { destruct (add_finite_spec d u v Hd Fu Fv) as (r & Fr & (R1 & R2 & R3) & [[E _]|[C E]]).
    { rewrite E. exact Fr. }
    exfalso. pose proof (max_value_ge d Hd) as G.
    assert (Rabs (value r) <= 2 * (Rabs (value u) + Rabs (value v))); [|lra].
    pose proof (Rabs_triang (value u) (value v)). pose proof (Rabs_pos (value u)). pose proof (Rabs_pos (value v)).
    destruct (Rlt_dec (value u * value v) 0) as [Hs|Hs].
    - specialize (R2 Hs). destruct R2 as [[_ R2] _].
      assert (Zu : limb (data u) 0 <> 0%Z). { intro Z0. rewrite (finite_zero_value d u Fu Z0) in Hs. lra. }
      assert (Zv : limb (data v) 0 <> 0%Z). { intro Z0. rewrite (finite_zero_value d v Fv Z0) in Hs. lra. }
      pose proof (finite_abs_bounds d u Hd Fu Zu) as [Bu _].
      pose proof (finite_abs_bounds d v Hd Fv Zv) as [Bv _].
      pose proof (elem_number_bounds d Hd).
      assert (ulp d (Z.max (exp u) (exp v)) <= p10 (Z.max (exp u) (exp v))) by (unfold ulp; apply p10_le; lia).
      assert (p10 (Z.max (exp u) (exp v)) <= Rabs (value u) + Rabs (value v)).
      { destruct (Z.max_spec (exp u) (exp v)) as [[_ ->]|[_ ->]]; lra. }
      lra.
    - apply Rnot_lt_le in Hs. destruct (R1 Hs) as [[R _] _]. lra. }
  split; [exact F|]. apply add_error; auto. apply F.
Qed.

Lemma sub_ok d u v : valid_digits d -> finite d u -> finite d v ->
  2 * (Rabs (value u) + Rabs (value v)) <= p10 max_exp10 ->
  finite d (sub d u v) /\
  Rabs (value (sub d u v) - (value u - value v)) <=
  2 * p10 (- (d + 17)) * Rmax (Rabs (value u)) (Rabs (value v)).
Proof.
  intros Hd Fu Fv HM. rewrite (sub_as_add d u v Hd Fu Fv).
  pose proof (negate_value d v Hd Fv) as Nv.
  destruct (add_ok d u (negate v) Hd Fu (negate_finite d v Fv)) as [F E].
  { rewrite Nv, Rabs_Ropp. exact HM. }
  split; [exact F|]. rewrite Nv, Rabs_Ropp in E. exact E.
Qed.

Lemma prec_sub d u v : prec (sub d u v) = prec u \/ prec (sub d u v) = prec v \/ prec (sub d u v) = elem_number d.
Proof. unfold sub. rewrite negate_prec. destruct (prec_add d (negate u) v) as [H|H]; auto. rewrite negate_prec in H. auto. Qed.

Lemma set_prec_finite d x p : finite d x -> (2 <= p <= elem_number d)%Z -> finite d (set_prec x p).
Proof. intros [W C] Hp. split; [|exact C]. destruct W. constructor; simpl; auto. Qed.

Lemma set_prec_value x p : value (set_prec x p) = value x.
Proof. reflexivity. Qed.

(** Error of a product computed with p limbs. *)
Definition Emul (p : Z) : R := IZR (E0 p + 2) * p10 (16 - 8 * p).

Lemma Emul_pos p : (0 <= p)%Z -> 0 < Emul p.
Proof.
  intro H. unfold Emul. apply Rmult_lt_0_compat; [|apply p10_pos]. apply IZR_lt. pose proof (E0_nonneg p H). lia.
Qed.

Lemma mul_ok d u v : valid_digits d -> finite d u -> finite d v -> value u <> 0 -> value v <> 0 ->
  ~ exponents_overflow u v -> ~ exponents_underflow u v ->
  let r := mul d u v in
  finite d r /\ value r <> 0 /\ prec r = prec u /\
  exists del, Rabs del <= Emul (Z.min (prec u) (prec v)) /\ value r = value u * value v * (1 + del).
Proof.
  intros Hd Fu Fv Vu Vv Ho Hun r.
  destruct (mul_in_range d u v Hd Fu Fv Vu Vv Ho Hun) as (Fr & Zr & Hp & _ & H & _).
  split; [exact Fr|]. split; [exact Zr|]. split; [exact Hp|].
  assert (P : value u * value v <> 0) by (apply Rmult_integral_contrapositive; auto).
  exists ((value r - value u * value v) / (value u * value v)). split; [|field; exact (conj Vv Vu)].
  unfold Rdiv. rewrite Rabs_mult, Rabs_inv. apply Rmult_le_reg_r with (Rabs (value u * value v)); [apply Rabs_pos_lt; auto|].
  rewrite Rmult_assoc, Rinv_l by (apply Rabs_no_R0; auto). rewrite Rmult_1_r. exact H.
Qed.

(** ** Sizes of the working precisions *)

Lemma Emul_small d p : valid_digits d -> (5 <= p <= elem_number d)%Z -> Emul p <= p10 (-20).
Proof.
  intros Hd Hp. pose proof (elem_number_bounds d Hd) as HN. unfold Emul, E0.
  destruct (Z.ltb_spec (p * 8) 5000) as [H|H].
  - apply Rle_trans with (p10 4 * p10 (-24)).
    + apply Rmult_le_compat; [apply IZR_le; lia|apply Rlt_le, p10_pos| |apply p10_le; lia].
      rewrite p10_nonneg by lia. apply IZR_le. change (10 ^ 4)%Z with 10000%Z. lia.
    + rewrite <- p10_add. apply p10_le. lia.
  - apply Rle_trans with (p10 14 * p10 (-100)).
    + apply Rmult_le_compat; [apply IZR_le; lia|apply Rlt_le, p10_pos| |apply p10_le; lia].
      rewrite p10_nonneg by lia. apply IZR_le. change (10 ^ 14)%Z with 100000000000000%Z. lia.
    + rewrite <- p10_add. apply p10_le. lia.
Qed.

Lemma Emul_dec p q : (2 <= p <= q)%Z -> Emul q <= Emul p \/ (p * 8 < 5000 <= q * 8)%Z.
Proof.
  intros H. destruct (Z.eq_dec p q) as [->|Hne]; [left; lra|].
  destruct (Z.lt_ge_cases (p * 8) 5000) as [A|A]; destruct (Z.lt_ge_cases (q * 8) 5000) as [B|B]; try (right; lia); left.
  all: unfold Emul, E0; destruct (Z.ltb_spec (p * 8) 5000); destruct (Z.ltb_spec (q * 8) 5000); try lia.
  all: replace (16 - 8 * q)%Z with (8 * (p - q) + (16 - 8 * p))%Z by lia; rewrite p10_add, <- Rmult_assoc;
    apply Rmult_le_compat_r; [apply Rlt_le, p10_pos|].
  all: assert (X : IZR (q - p + 1) * p10 (8 * (p - q)) <= 1);
    [ replace (8 * (p - q))%Z with (- (8 * (q - p)))%Z by lia; rewrite p10_inv;
      apply Rmult_le_reg_r with (p10 (8 * (q - p))); [apply p10_pos|];
      rewrite Rmult_assoc, Rinv_l by apply p10_neq0; rewrite Rmult_1_r, Rmult_1_l, p10_nonneg by lia;
      apply IZR_le;
      assert (forall n, 0 <= n -> n + 1 <= 10 ^ (8 * n))%Z as G;
      [ apply natlike_ind; [simpl; lia|]; intros n Hn IH; replace (8 * Z.succ n)%Z with (8 * n + 8)%Z by lia;
        rewrite Z.pow_add_r by lia; change (10 ^ 8)%Z with 100000000%Z; lia
      | apply G; lia ]
    | ].
  all: pose proof (p10_pos (8 * (p - q))).
  - assert (IZR (q + 2) <= IZR (p + 2) * IZR (q - p + 1)) by (rewrite <- mult_IZR; apply IZR_le; nia).
    assert (0 <= IZR (p + 2)) by (apply IZR_le; lia). nra.
  - assert (IZR (20000 * q + 2) <= IZR (20000 * p + 2) * IZR (q - p + 1)) by (rewrite <- mult_IZR; apply IZR_le; nia).
    assert (0 <= IZR (20000 * p + 2)) by (apply IZR_le; lia). nra.
Qed.

(** The rounding error of an addition is far below the error of a product. *)
Lemma add_below_mul d p : valid_digits d -> (5 <= p <= elem_number d)%Z -> 7 * p10 (- (d + 17)) <= Emul p.
Proof.
  intros Hd Hp. pose proof (elem_number_digits d Hd) as HN.
  unfold Emul. apply Rle_trans with (7 * p10 (16 - 8 * p)).
  - apply Rmult_le_compat_l; [lra|]. apply p10_le. lia.
  - apply Rmult_le_compat_r; [apply Rlt_le, p10_pos|]. apply IZR_le. pose proof (E0_nonneg p ltac:(lia)).
    unfold E0 in *. destruct (p * 8 <? 5000)%Z; lia.
Qed.

(** ** One step *)

Lemma newton_real E eps d1 d2 d3 : 0 <= E <= 1 / 1000 -> Rabs eps <= 1 / 16 ->
  Rabs d1 <= E -> Rabs d2 <= 4 / 7 * E -> Rabs d3 <= E ->
  Rabs (1 - (1 - eps) * (2 - (1 - eps) * (1 + d1) + d2) * (1 + d3)) <= eps * eps + 3 * E.
Proof.
  intros HE He H1 H2 H3.
  replace (1 - (1 - eps) * (2 - (1 - eps) * (1 + d1) + d2) * (1 + d3)) with
    (eps * eps + ((1 - eps) * (1 - eps)) * d1 + - (1 - eps) * d2 +
     - ((1 - eps * eps) - ((1 - eps) * (1 - eps)) * d1 + (1 - eps) * d2) * d3) by ring.
  assert (He2 : Rabs (eps * eps) = eps * eps) by (apply Rabs_pos_eq; nra).
  assert (A1 : Rabs (1 - eps) <= 17 / 16) by (unfold Rabs in *; destruct (Rcase_abs (1 - eps)), (Rcase_abs eps); lra).
  assert (B1 : Rabs ((1 - eps) * (1 - eps)) <= 289 / 256) by (rewrite Rabs_mult; pose proof (Rabs_pos (1 - eps)); nra).
  assert (C1 : Rabs (((1 - eps) * (1 - eps)) * d1) <= 289 / 256 * E).
  { rewrite Rabs_mult. apply Rmult_le_compat; auto using Rabs_pos. }
  assert (C2 : Rabs (- (1 - eps) * d2) <= 17 / 16 * (4 / 7 * E)).
  { rewrite Rabs_mult, Rabs_Ropp. apply Rmult_le_compat; auto using Rabs_pos. }
  assert (C3 : Rabs ((1 - eps) * d2) <= 17 / 16 * (4 / 7 * E)).
  { rewrite Rabs_mult. apply Rmult_le_compat; auto using Rabs_pos. }
  assert (A2 : Rabs (1 - eps * eps) <= 1).
  { unfold Rabs in *; destruct (Rcase_abs (1 - eps * eps)), (Rcase_abs eps); nra. }
  assert (C4 : Rabs (- ((1 - eps * eps) - ((1 - eps) * (1 - eps)) * d1 + (1 - eps) * d2) * d3) <= (1 + 1/100) * E).
  { rewrite Rabs_mult, Rabs_Ropp. apply Rmult_le_compat; auto using Rabs_pos.
    eapply Rle_trans; [apply Rabs_triang|]. unfold Rminus at 1.
    pose proof (Rabs_triang (1 - eps * eps) (- (((1 - eps) * (1 - eps)) * d1))) as T. rewrite Rabs_Ropp in T. lra. }
  eapply Rle_trans; [apply Rabs_triang|].
  eapply Rle_trans; [apply Rplus_le_compat_r, Rabs_triang|].
  eapply Rle_trans; [apply Rplus_le_compat_r, Rplus_le_compat_r, Rabs_triang|].
  rewrite He2. lra.
Qed.

Lemma precision_finite d x p : valid_digits d -> finite d x -> finite d (precision d x p).
Proof.
  intros Hd Fx. unfold precision. apply set_prec_finite; auto. pose proof (elem_number_bounds d Hd). unfold N. lia.
Qed.

Lemma precision_12 d x m : valid_digits d -> (1 <= m)%Z ->
  prec (precision d x (12 * m * 2 + 10)) = Z.min (elem_number d) (3 * m + 2).
Proof.
  intros Hd Hm. unfold precision, set_prec. cbn [prec]. unfold N.
  rewrite Z.quot_div_nonneg, Z.rem_mod_nonneg by lia.
  replace (12 * m * 2 + 10)%Z with (2 + (3 * m + 1) * 8)%Z by lia.
  rewrite Z.div_add, Z.mod_add by lia. change (2 / 8)%Z with 0%Z. change (2 mod 8 =? 0)%Z with false.
  cbv iota. rewrite (Z.max_l (0 + (3 * m + 1) + 1)) by lia. f_equal. lia.
Qed.

(* a positive finite number between bounds has its exponent between them *)
Lemma exp_between d x a b : valid_digits d -> finite d x -> p10 a <= Rabs (value x) < p10 b -> (a - 8 < exp x < b)%Z.
Proof.
  intros Hd Fx [H1 H2].
  assert (V : value x <> 0). { intro E. rewrite E, Rabs_R0 in H1. pose proof (p10_pos a). lra. }
  pose proof (finite_abs_bounds d x Hd Fx (value_nonzero_lead d x Hd Fx V)) as [B1 B2].
  split.
  - destruct (Z.lt_ge_cases (a - 8) (exp x)) as [L|L]; auto. exfalso.
    assert (p10 (exp x + 8) <= p10 a) by (apply p10_le; lia). lra.
  - destruct (Z.lt_ge_cases (exp x) b) as [L|L]; auto. exfalso.
    assert (p10 b <= p10 (exp x)) by (apply p10_le; lia). lra.
Qed.

Lemma exp8 d x : finite d x -> exists k, (exp x = 8 * k)%Z.
Proof. intros [W _]. exists (exp x / 8)%Z. pose proof (wf_exp _ _ W). lia. Qed.

Lemma two_ok d : valid_digits d -> finite d (two d) /\ value (two d) = 2 /\ prec (two d) = elem_number d.
Proof.
  intro Hd. unfold two. destruct (of_ull_spec d 2 Hd ltac:(lia)) as (F & P & V & _). auto.
Qed.

(* y approximates 1/x: the exponents nearly cancel *)
Lemma inverse_exps d x y : valid_digits d -> finite d x -> finite d y -> value x <> 0 -> value y <> 0 ->
  1 / 2 <= Rabs (value y * value x) <= 2 -> (- 16 <= exp y + exp x <= 0)%Z.
Proof.
  intros Hd Fx Fy Vx Vy [H1 H2]. rewrite Rabs_mult in *.
  pose proof (finite_abs_bounds d x Hd Fx (value_nonzero_lead d x Hd Fx Vx)) as [X1 X2].
  pose proof (finite_abs_bounds d y Hd Fy (value_nonzero_lead d y Hd Fy Vy)) as [Y1 Y2].
  pose proof (p10_pos (exp x)). pose proof (p10_pos (exp y)).
  destruct (exp8 d x Fx) as [a Ea]. destruct (exp8 d y Fy) as [b Eb].
  split.
  - destruct (Z.le_gt_cases (-16) (exp y + exp x)) as [L|L]; auto. exfalso.
    assert (Rabs (value y) * Rabs (value x) < p10 (exp y + 8) * p10 (exp x + 8)).
    { apply Rmult_le_0_lt_compat; auto using Rabs_pos. }
    rewrite <- p10_add in H3. assert (p10 (exp y + 8 + (exp x + 8)) <= p10 (-8)) by (apply p10_le; lia).
    assert (p10 (-8) < 1 / 2). { change (-8)%Z with (- (8))%Z. rewrite p10_inv, p10_nonneg by lia. change (10 ^ 8)%Z with 100000000%Z. lra. }
    lra.
  - destruct (Z.le_gt_cases (exp y + exp x) 0) as [L|L]; auto. exfalso.
    assert (p10 (exp y) * p10 (exp x) <= Rabs (value y) * Rabs (value x)) by (apply Rmult_le_compat; lra).
    rewrite <- p10_add in H3. assert (p10 8 <= p10 (exp y + exp x)) by (apply p10_le; lia).
    rewrite (p10_nonneg 8) in H4 by lia. change (10 ^ 8)%Z with 100000000%Z in H4. lra.
Qed.

Lemma near_one_exp d s : valid_digits d -> finite d s -> 1 / 2 <= value s <= 2 -> (exp s = 0 \/ exp s = -8)%Z.
Proof.
  intros Hd Fs H. destruct (exp8 d s Fs) as [k Hk].
  assert (B : p10 (-1) <= Rabs (value s) < p10 1).
  { rewrite Rabs_pos_eq by lra. rewrite p10_1. change (-1)%Z with (- (1))%Z. rewrite p10_inv, p10_1. lra. }
  apply (exp_between d s _ _ Hd Fs) in B. lia.
Qed.

Definition inv_range (x : ef) : Prop := (-2147483616 < exp x < 2147483592)%Z.

Lemma inv_step_ok d x y m : valid_digits d -> finite d x -> finite d y -> 0 < value x -> inv_range x ->
  (1 <= m)%Z -> Rabs (1 - value y * value x) <= 1 / 16 ->
  let y' := inv_step d x y (12 * m) in
  let eps := 1 - value y * value x in
  finite d y' /\
  Rabs (1 - value y' * value x) <= eps * eps + 3 * Emul (Z.min (elem_number d) (3 * m + 2)).
Proof.
  intros Hd Fx Fy Vx Rx Hm He y' eps. unfold inv_range in Rx.
  pose proof (elem_number_bounds d Hd) as HN. pose proof (elem_number_digits d Hd) as HN'.
  set (p := Z.min (elem_number d) (3 * m + 2)).
  assert (Hp : (5 <= p <= elem_number d)%Z) by (unfold p; lia).
  assert (Bxy : 15 / 16 <= value y * value x <= 17 / 16) by (unfold Rabs in He; destruct (Rcase_abs _); lra).
  assert (Vy : 0 < value y) by nra.
  unfold y', inv_step.
  set (py := precision d y (12 * m * 2 + 10)). set (px := precision d x (12 * m * 2 + 10)).
  assert (Fpy : finite d py) by (apply precision_finite; auto). assert (Fpx : finite d px) by (apply precision_finite; auto).
  assert (Ppy : prec py = p) by (apply precision_12; auto). assert (Ppx : prec px = p) by (apply precision_12; auto).
  change (value y) with (value py) in *. change (value x) with (value px) in *. change (exp x) with (exp px) in *.
  clearbody py px. clear Fx Fy.
  assert (Hex : (-16 <= exp py + exp px <= 0)%Z).
  { apply (inverse_exps d); auto; try lra. rewrite Rabs_pos_eq; lra. }
  assert (HE0 : 0 < Emul p) by (apply Emul_pos; lia).
  assert (HE1 : Emul p <= 1 / 1000).
  { eapply Rle_trans; [apply (Emul_small d); auto|]. apply Rle_trans with (p10 (-3)); [apply p10_le; lia|].
    change (-3)%Z with (- (3))%Z. rewrite p10_inv, p10_nonneg by lia. change (10 ^ 3)%Z with 1000%Z. lra. }
  destruct (mul_ok d py px Hd Fpy Fpx ltac:(lra) ltac:(lra)) as (Ft & Vt & Pt & d1 & Hd1 & Et).
  { unfold exponents_overflow. lia. } { unfold exponents_underflow. lia. }
  rewrite Ppy, Ppx, Z.min_id in Hd1. set (t := mul d py px) in *.
  destruct (two_ok d Hd) as (F2 & V2 & P2).
  assert (Hd1' : -(1 / 1000) <= d1 <= 1 / 1000) by (unfold Rabs in Hd1; destruct (Rcase_abs d1); lra).
  assert (Bt : 9 / 10 <= value t <= 11 / 10).
  { rewrite Et. nra. }
  assert (Hbig : 100 <= p10 max_exp10).
  { apply Rle_trans with (p10 2); [rewrite p10_nonneg by lia; change (10 ^ 2)%Z with 100%Z; lra|]. apply p10_le. unfold max_exp10. lia. }
  destruct (sub_ok d (two d) t Hd F2 Ft) as (Fs & Es).
  { rewrite V2, (Rabs_pos_eq 2), (Rabs_pos_eq (value t)) by lra. lra. }
  rewrite V2, (Rabs_pos_eq 2), (Rabs_pos_eq (value t)), Rmax_left in Es by lra.
  set (s := sub d (two d) t) in *.
  set (d2 := value s - (2 - value t)).
  assert (Hd2 : Rabs d2 <= 4 / 7 * Emul p).
  { unfold d2. eapply Rle_trans; [exact Es|]. pose proof (add_below_mul d p Hd Hp). lra. }
  assert (Hd2' : -(1 / 1000) <= d2 <= 1 / 1000) by (unfold Rabs in Hd2; destruct (Rcase_abs d2); lra).
  assert (Vs : value s = 2 - value t + d2) by (unfold d2; ring).
  assert (Bs : 8 / 10 <= value s <= 12 / 10) by lra.
  assert (Es' : (exp s = 0 \/ exp s = -8)%Z) by (apply (near_one_exp d); auto; lra).
  assert (Ps : prec s = elem_number d \/ prec s = p).
  { unfold s. destruct (prec_sub d (two d) t) as [H|[H|H]]; rewrite H; auto. right. rewrite Pt. exact Ppy. }
  destruct (mul_ok d py s Hd Fpy Fs ltac:(lra) ltac:(lra)) as (Fr & Vr & Pr & d3 & Hd3 & Er).
  { unfold exponents_overflow. lia. } { unfold exponents_underflow. lia. }
  replace (Z.min (prec py) (prec s)) with p in Hd3 by (destruct Ps; lia).
  split; [exact Fr|].
  assert (HH := newton_real (Emul p) eps d1 d2 d3 ltac:(lra) ltac:(exact He) Hd1 Hd2 Hd3).
  replace (1 - value (mul d py s) * value px) with (1 - (1 - eps) * (2 - (1 - eps) * (1 + d1) + d2) * (1 + d3)); auto.
  rewrite Er, Vs, Et. unfold eps. ring.
Qed.

(** ** The loop *)

Lemma pow100 m : (1 <= m)%Z -> (12 * (3 * m + 4) <= 100 ^ m)%Z.
Proof.
  intro H. replace m with (m - 1 + 1)%Z by lia. set (k := (m - 1)%Z). assert (Hk : (0 <= k)%Z) by lia. clearbody k. clear H m.
  revert k Hk. apply natlike_ind; [vm_compute; discriminate|]. intros k Hk IH.
  replace (Z.succ k + 1)%Z with (k + 1 + 1)%Z by lia. rewrite (Z.pow_add_r 100 (k + 1) 1) by lia. change (100 ^ 1)%Z with 100%Z. lia.
Qed.

Lemma Emul_m d m : valid_digits d -> (1 <= m)%Z -> (3 * m + 2 <= elem_number d)%Z ->
  3 * Emul (3 * m + 2) <= 1 / 4 * p10 (- (22 * m)).
Proof.
  intros Hd Hm Hp. pose proof (elem_number_bounds d Hd) as HN. unfold Emul.
  replace (16 - 8 * (3 * m + 2))%Z with (- (2 * m) + - (22 * m))%Z by lia. rewrite p10_add.
  assert (G : 12 * IZR (E0 (3 * m + 2) + 2) <= p10 (2 * m)).
  { rewrite p10_nonneg by lia. rewrite <- mult_IZR. apply IZR_le. unfold E0.
    destruct (Z.ltb_spec ((3 * m + 2) * 8) 5000) as [H|H].
    - replace (10 ^ (2 * m))%Z with (100 ^ m)%Z by (rewrite Z.pow_mul_r by lia; reflexivity).
      pose proof (pow100 m Hm). lia.
    - apply Z.le_trans with (10 ^ 20)%Z; [change (10 ^ 20)%Z with 100000000000000000000%Z; lia|].
      apply Z.pow_le_mono_r; lia. }
  pose proof (p10_pos (- (22 * m))). 
  assert (12 * (IZR (E0 (3 * m + 2) + 2) * p10 (- (2 * m))) <= 1).
  { rewrite p10_inv. apply Rmult_le_reg_r with (p10 (2 * m)); [apply p10_pos|].
    rewrite Rmult_assoc, Rmult_assoc, Rinv_l by apply p10_neq0. lra. }
  nra.
Qed.

(* the bound kept by the loop *)
Definition bnd d m : R := 1 / 2 * p10 (- (11 * m)) + 4 * Emul (elem_number d).

Lemma bnd_small d m : valid_digits d -> (1 <= m)%Z -> bnd d m <= p10 (-11).
Proof.
  intros Hd Hm. pose proof (elem_number_bounds d Hd). unfold bnd.
  pose proof (Emul_small d (elem_number d) Hd ltac:(lia)).
  assert (p10 (- (11 * m)) <= p10 (-11)) by (apply p10_le; lia).
  assert (8 * p10 (-20) <= p10 (-11)).
  { replace (-11)%Z with (9 + -20)%Z by lia. rewrite p10_add. apply Rmult_le_compat_r; [apply Rlt_le, p10_pos|].
    rewrite p10_nonneg by lia. change (10 ^ 9)%Z with 1000000000%Z. lra. }
  lra.
Qed.

Lemma p10_m11 : p10 (-11) <= 1 / 1000.
Proof.
  apply Rle_trans with (p10 (-3)); [apply p10_le; lia|]. change (-3)%Z with (- (3))%Z. rewrite p10_inv, p10_nonneg by lia.
  change (10 ^ 3)%Z with 1000%Z. lra.
Qed.

Lemma bnd_step d m eps : valid_digits d -> (1 <= m)%Z -> Rabs eps <= bnd d m ->
  eps * eps + 3 * Emul (Z.min (elem_number d) (3 * m + 2)) <= bnd d (2 * m).
Proof.
  intros Hd Hm He. pose proof (elem_number_bounds d Hd) as HN.
  set (EN := Emul (elem_number d)). assert (HEN : 0 < EN) by (apply Emul_pos; lia).
  pose proof (Emul_small d (elem_number d) Hd ltac:(lia)) as HES. fold EN in HES.
  assert (H20 : p10 (-20) <= p10 (-11)) by (apply p10_le; lia). pose proof p10_m11 as H11.
  assert (Hq : p10 (- (22 * m)) = p10 (- (11 * m)) * p10 (- (11 * m))) by (rewrite <- p10_add; f_equal; lia).
  assert (Hs : eps * eps <= bnd d m * bnd d m).
  { replace (eps * eps) with (Rabs eps * Rabs eps) by (rewrite <- Rabs_mult; apply Rabs_pos_eq; nra).
    apply Rmult_le_compat; auto using Rabs_pos. }
  unfold bnd in *. fold EN in Hs |- *. replace (11 * (2 * m))%Z with (22 * m)%Z by lia.
  set (q := p10 (- (11 * m))) in *. pose proof (p10_pos (- (11 * m))) as Hq0. fold q in Hq0.
  assert (Hq1 : q <= p10 (-11)) by (apply p10_le; lia).
  rewrite Hq.
  assert (Hs2 : (1 / 2 * q + 4 * EN) * (1 / 2 * q + 4 * EN) <= 1 / 4 * (q * q) + 1 / 2 * EN) by nra.
  destruct (Z.le_gt_cases (3 * m + 2) (elem_number d)) as [L|L].
  - rewrite Z.min_r by lia. pose proof (Emul_m d m Hd Hm L) as HE. rewrite Hq in HE. lra.
  - rewrite Z.min_l by lia. fold EN. nra.
Qed.

Lemma inv_loop_ok d x : valid_digits d -> finite d x -> 0 < value x -> inv_range x ->
  forall fuel y m, finite d y -> (1 <= m)%Z -> (tolerance d < 12 * m * 2 ^ Z.of_nat fuel)%Z ->
  Rabs (1 - value y * value x) <= bnd d m ->
  exists m', (tolerance d < 12 * m')%Z /\ (1 <= m')%Z /\ finite d (inv_loop d fuel x y (12 * m)) /\
    Rabs (1 - value (inv_loop d fuel x y (12 * m)) * value x) <= bnd d m'.
Proof.
  intros Hd Fx Vx Rx. induction fuel as [|f IH]; intros y m Fy Hm Hf He.
  - exists m. cbn [inv_loop]. rewrite Z.mul_1_r in Hf. auto.
  - cbn [inv_loop]. destruct (Z.leb_spec (12 * m) (tolerance d)) as [L|L].
    + pose proof (bnd_small d m Hd Hm) as HB. pose proof p10_m11.
      destruct (inv_step_ok d x y m Hd Fx Fy Vx Rx Hm ltac:(lra)) as (Fy' & He').
      replace (12 * m * 2)%Z with (12 * (2 * m))%Z by lia. apply IH; auto; [lia| |].
      * rewrite Nat2Z.inj_succ, Z.pow_succ_r in Hf by lia. lia.
      * eapply Rle_trans; [exact He'|]. apply bnd_step; auto.
    + exists m. auto.
Qed.

Lemma tolerance_m d m : valid_digits d -> (tolerance d < 12 * m)%Z -> (d + 2 <= 11 * m)%Z.
Proof. intros Hd H. unfold tolerance, max_digits10, valid_digits in *. lia. Qed.

(* the accuracy reached, for the schoolbook and for the transform range *)
Lemma bnd_final d m : valid_digits d -> (d <= 4967)%Z -> (tolerance d < 12 * m)%Z -> bnd d m <= p10 (- (d + 2)).
Proof.
  intros Hd Hd2 H. pose proof (tolerance_m d m Hd H) as Hm. pose proof (elem_number_digits d Hd) as HN.
  pose proof (elem_number_bounds d Hd) as HN'. unfold bnd, Emul, E0.
  destruct (Z.ltb_spec (elem_number d * 8) 5000) as [L|L]; [|lia].
  assert (p10 (- (11 * m)) <= p10 (- (d + 2))) by (apply p10_le; lia).
  assert (4 * (IZR (elem_number d + 2) * p10 (16 - 8 * elem_number d)) <= 1 / 2 * p10 (- (d + 2))); [|lra].
  assert (X : p10 (16 - 8 * elem_number d) <= p10 (-7) * p10 (- (d + 2))) by (rewrite <- p10_add; apply p10_le; lia).
  assert (Y : IZR (elem_number d + 2) <= 1000) by (apply IZR_le; lia).
  assert (Z : 0 <= IZR (elem_number d + 2)) by (apply IZR_le; lia).
  assert (W : p10 (-7) = / 10000000).
  { change (-7)%Z with (- (7))%Z. rewrite p10_inv, p10_nonneg by lia. reflexivity. }
  pose proof (p10_pos (16 - 8 * elem_number d)). pose proof (p10_pos (- (d + 2))).
  assert (IZR (elem_number d + 2) * p10 (16 - 8 * elem_number d) <= 1000 * (p10 (-7) * p10 (- (d + 2)))) by (apply Rmult_le_compat; lra).
  rewrite W in H3. lra.
Qed.
