(** * Integer powers, powers of two, ldexp and frexp of e_float (proofs only). *)

From Coq Require Import ZArith List Bool Reals Lra Lia Psatz.
From Verif Require Import Model Spec Limbs Value CmpProofs AddProofs Decide OrderProofs MulProofs MulValue MulCor
  IntProofs ModelDiv NewtonProofs InvProofs ModelPow PowGen.
Import ListNotations.
Open Scope R_scope.
Ltac Zify.zify_post_hook ::= Z.div_mod_to_equations.
Local Notation p10 := (powerRZ 10).
Local Notation exp := Model.exp.

(** ** Real powers *)

Lemma powerRZ_pow b k : (0 <= k)%Z -> powerRZ b k = pow b (Z.to_nat k).
Proof. intro H. rewrite <- (Z2Nat.id k) at 1 by exact H. symmetry. apply pow_powerRZ. Qed.

Lemma abs_powerRZ b k : (0 <= k)%Z -> Rabs (powerRZ b k) = pow (Rabs b) (Z.to_nat k).
Proof. intro H. rewrite (powerRZ_pow b k H). symmetry. apply RPow_abs. Qed.

Lemma pow_between a j n : 0 < a -> (j <= n)%nat -> Rmin 1 (pow a n) <= pow a j <= Rmax 1 (pow a n).
Proof.
  intros Ha Hj. destruct (Rle_dec 1 a) as [G|L].
  - pose proof (pow_R1_Rle a j G). pose proof (Rle_pow a j n G Hj).
    split; [apply Rle_trans with 1; [apply Rmin_l|auto]|apply Rle_trans with (pow a n); [auto|apply Rmax_r]].
  - assert (I : forall k, 0 < pow a k <= 1).
    { induction k as [|k IH]; cbn; [lra|]. split; [apply Rmult_lt_0_compat; lra|]. nra. }
    replace n with (j + (n - j))%nat by lia. rewrite pow_add. pose proof (I j). pose proof (I (n - j)%nat).
    split; [apply Rle_trans with (pow a j * pow a (n - j)); [apply Rmin_r|]; nra|apply Rle_trans with 1; [lra|apply Rmax_l]].
Qed.

Lemma in_range_1 : in_range 1.
Proof.
  unfold in_range. rewrite Rabs_R1. rewrite <- p10_0. split; apply p10_le; lia.
Qed.

Lemma in_range_powers b k n : b <> 0 -> (0 <= k <= n)%Z -> in_range (powerRZ b n) -> in_range (powerRZ b k).
Proof.
  intros Hb Hk. pose proof in_range_1 as R1. unfold in_range in *. rewrite Rabs_R1 in R1.
  rewrite !abs_powerRZ by lia.
  pose proof (pow_between (Rabs b) (Z.to_nat k) (Z.to_nat n) (Rabs_pos_lt b Hb) ltac:(lia)) as [B1 B2].
  revert B1 B2. unfold Rmin, Rmax. destruct (Rle_dec 1 (Rabs b ^ Z.to_nat n)); lra.
Qed.

(** ** Accuracy of the powers *)

Section Accuracy.
Variables (d : Z) (eps : R) (b : ef) (n : Z).
Hypothesis Hd : valid_digits d.
Hypothesis Heps : 0 <= eps.
Hypothesis acc : forall u v, finite d u -> finite d v -> full d u -> full d v -> value u <> 0 -> value v <> 0 ->
  (-2147483616 < exp u + exp v < 2147483616)%Z ->
  finite d (mul d u v) /\ full d (mul d u v) /\ 0 < value (mul d u v) * (value u * value v) /\
  Rabs (value (mul d u v)) <= Rabs (value u * value v) /\
  Rabs (value u * value v) - Rabs (value (mul d u v)) <= eps * Rabs (value u * value v).
Hypothesis Fb : finite d b.
Hypothesis Pb : full d b.
Hypothesis Vb : value b <> 0.
Hypothesis Hn : (0 <= n < 9223372036854775808)%Z.
Hypothesis Hne : IZR (Z.max 1 n) * eps <= 1 / 4.
Hypothesis Rn : in_range (powerRZ (value b) n).

Definition approx (m k : Z) (x : ef) : Prop :=
  finite d x /\ full d x /\ 0 < value x * powerRZ (value b) k /\
  Rabs (value x) <= Rabs (powerRZ (value b) k) /\
  (1 - IZR m * eps) * Rabs (powerRZ (value b) k) <= Rabs (value x).

Lemma bk_nz k : powerRZ (value b) k <> 0.
Proof. apply powerRZ_NOR. exact Vb. Qed.

Lemma meps m : (m <= Z.max 1 n)%Z -> IZR m * eps <= 1 / 4.
Proof. intro H. apply IZR_le in H. apply Rle_trans with (IZR (Z.max 1 n) * eps); [|exact Hne]. apply Rmult_le_compat_r; auto. Qed.

Lemma approx_le m m' k x : (m <= m')%Z -> approx m k x -> approx m' k x.
Proof.
  intros H (F & P & S & U & L). split; [exact F|]. split; [exact P|]. split; [exact S|]. split; [exact U|].
  apply Rle_trans with ((1 - IZR m * eps) * Rabs (powerRZ (value b) k)); auto.
  apply Rmult_le_compat_r; [apply Rabs_pos|]. apply IZR_le in H.
  assert (IZR m * eps <= IZR m' * eps) by (apply Rmult_le_compat_r; auto). lra.
Qed.

Lemma nz_of_mul x y : 0 < x * y -> x <> 0.
Proof. intros H E. rewrite E in H. lra. Qed.

Lemma exps_ok m m' j k x y : (0 <= m <= n)%Z -> (0 <= m' <= n)%Z -> (0 <= j)%Z -> (0 <= k)%Z -> (j + k <= n)%Z ->
  approx m j x -> approx m' k y -> (-2147483616 < exp x + exp y < 2147483616)%Z.
Proof using Hd Heps Vb Hne Rn.
  clear acc.
  intros Hm Hm' Hj Hk Hjk (Fx & _ & Sx & Ux & Lx) (Fy & _ & Sy & Uy & Ly).
  pose proof (in_range_powers (value b) (j + k) n Vb ltac:(lia) Rn) as [R1 R2].
  rewrite powerRZ_add in R1, R2 by exact Vb. rewrite Rabs_mult in R1, R2.
  pose proof (meps m ltac:(lia)) as E1. pose proof (meps m' ltac:(lia)) as E2.
  set (bj := Rabs (powerRZ (value b) j)) in *. set (bk := Rabs (powerRZ (value b) k)) in *.
  assert (0 <= bj) by apply Rabs_pos. assert (0 <= bk) by apply Rabs_pos.
  pose proof (finite_abs_bounds d x Hd Fx (value_nonzero_lead d x Hd Fx (nz_of_mul _ _ Sx))) as [X1 X2].
  pose proof (finite_abs_bounds d y Hd Fy (value_nonzero_lead d y Hd Fy (nz_of_mul _ _ Sy))) as [Y1 Y2].
  set (vx := Rabs (value x)) in *. set (vy := Rabs (value y)) in *.
  pose proof (p10_pos (exp x)) as PX. pose proof (p10_pos (exp y)) as PY.
  assert (Lx' : 3 / 4 * bj <= vx). { apply Rle_trans with (2 := Lx). apply Rmult_le_compat_r; lra. }
  assert (Ly' : 3 / 4 * bk <= vy). { apply Rle_trans with (2 := Ly). apply Rmult_le_compat_r; lra. }
  assert (U : vx * vy <= bj * bk) by (apply Rmult_le_compat; lra).
  assert (L : 9 / 16 * (bj * bk) <= vx * vy).
  { replace (9 / 16 * (bj * bk)) with ((3 / 4 * bj) * (3 / 4 * bk)) by field. apply Rmult_le_compat; lra. }
  assert (A : p10 (exp x + exp y) <= p10 2147483590).
  { rewrite p10_add. apply Rle_trans with (vx * vy); [apply Rmult_le_compat; lra|lra]. }
  assert (B : p10 (-2147483591) < p10 (exp x + exp y + 16)).
  { replace (exp x + exp y + 16)%Z with ((exp x + 8) + (exp y + 8))%Z by lia. rewrite p10_add.
    apply Rlt_trans with (vx * vy); [|apply Rmult_le_0_lt_compat; lra].
    apply Rlt_le_trans with (2 := L). replace (-2147483591)%Z with (-2147483590 - 1)%Z by lia.
    pose proof (DoubleProofs.p10_pred (-2147483590)). pose proof (p10_pos (-2147483590 - 1)). lra. }
  apply p10_lt_inv in B.
  assert (exp x + exp y < 2147483591)%Z.
  { apply p10_lt_inv. apply Rle_lt_trans with (1 := A). apply p10_lt. lia. }
  clear - B H1. lia.
Qed.

Lemma approx_mul_exps m m' j k x y : (0 <= m <= n)%Z -> (0 <= m' <= n)%Z ->
  approx m j x -> approx m' k y -> (-2147483616 < exp x + exp y < 2147483616)%Z ->
  approx (m + m' + 1) (j + k) (mul d x y).
Proof.
  intros Hm Hm' Ax Ay E.
  destruct Ax as (Fx & Px & Sx & Ux & Lx). destruct Ay as (Fy & Py & Sy & Uy & Ly).
  destruct (acc x y Fx Fy Px Py (nz_of_mul _ _ Sx) (nz_of_mul _ _ Sy) E) as (F & P & S & U & L).
  split; [exact F|]. split; [exact P|].
  rewrite (powerRZ_add (value b) j k Vb). rewrite Rabs_mult in U, L. rewrite (Rabs_mult (powerRZ (value b) j)).
  pose proof (meps m ltac:(lia)) as E1. pose proof (meps m' ltac:(lia)) as E2.
  assert (M1 : 0 <= IZR m * eps) by (apply Rmult_le_pos; [apply IZR_le; lia|exact Heps]).
  assert (M2 : 0 <= IZR m' * eps) by (apply Rmult_le_pos; [apply IZR_le; lia|exact Heps]).
  set (x0 := value x) in *. set (y0 := value y) in *. set (r := value (mul d x y)) in *.
  set (bj := powerRZ (value b) j) in *. set (bk := powerRZ (value b) k) in *.
  split.
  { assert (0 < (r * (x0 * y0)) * ((x0 * bj) * (y0 * bk))) as Q.
    { apply Rmult_lt_0_compat; auto. apply Rmult_lt_0_compat; auto. }
    assert (0 < (x0 * y0) * (x0 * y0)) as Q2.
    { apply nz_of_mul in Sx. apply nz_of_mul in Sy. apply Rsqr_pos_lt. apply Rmult_integral_contrapositive; auto. }
    replace (r * (x0 * y0) * (x0 * bj * (y0 * bk))) with ((x0 * y0) * (x0 * y0) * (r * (bj * bk))) in Q by ring.
    apply Rmult_lt_reg_l with (x0 * y0 * (x0 * y0)); auto. lra. }
  assert (0 <= Rabs bj) by apply Rabs_pos. assert (0 <= Rabs bk) by apply Rabs_pos.
  assert (0 <= Rabs x0) by apply Rabs_pos. assert (0 <= Rabs y0) by apply Rabs_pos.
  set (X := Rabs x0) in *. set (Y := Rabs y0) in *. set (BJ := Rabs bj) in *. set (BK := Rabs bk) in *. set (V := Rabs r) in *.
  split.
  { apply Rle_trans with (1 := U). apply Rmult_le_compat; auto. }
  set (e1 := IZR m * eps) in *. set (e2 := IZR m' * eps) in *.
  replace (IZR (m + m' + 1) * eps) with (e1 + e2 + eps) by (rewrite !plus_IZR; unfold e1, e2; ring).
  assert (Q : (1 - e1) * BJ * ((1 - e2) * BK) <= X * Y).
  { apply Rmult_le_compat; auto; apply Rmult_le_pos; lra. }
  assert (Ee : eps <= 1) by (pose proof (meps 1 ltac:(lia)); lra).
  assert (W : (1 - eps) * ((1 - e1) * BJ * ((1 - e2) * BK)) <= (1 - eps) * (X * Y)) by (apply Rmult_le_compat_l; lra).
  assert (C : 1 - (e1 + e2 + eps) <= (1 - eps) * ((1 - e1) * (1 - e2))).
  { assert (1 - (e1 + e2) <= (1 - e1) * (1 - e2)) by nra. nra. }
  assert (0 <= BJ * BK) by (apply Rmult_le_pos; auto).
  apply Rle_trans with ((1 - eps) * ((1 - e1) * (1 - e2)) * (BJ * BK)); [apply Rmult_le_compat_r; auto|].
  replace ((1 - eps) * ((1 - e1) * (1 - e2)) * (BJ * BK)) with ((1 - eps) * ((1 - e1) * BJ * ((1 - e2) * BK))) by ring.
  apply Rle_trans with (1 := W). lra.
Qed.

Lemma approx_mul m m' j k x y : (0 <= m <= n)%Z -> (0 <= m' <= n)%Z -> (0 <= j)%Z -> (0 <= k)%Z -> (j + k <= n)%Z ->
  approx m j x -> approx m' k y -> approx (m + m' + 1) (j + k) (mul d x y).
Proof.
  intros Hm Hm' Hj Hk Hjk Ax Ay. apply approx_mul_exps; auto.
  apply (exps_ok m m' j k); auto.
Qed.

Lemma approx_one : approx 0 0 (one d).
Proof using Hd.
  clear acc Rn Hne Vb Pb Fb Hn Heps.
  destruct (of_ull_spec d 1 Hd ltac:(lia)) as (F & P & V & _).
  split; [exact F|]. split; [exact P|]. fold (one d) in V. rewrite V. cbn [powerRZ]. rewrite Rabs_R1. lra.
Qed.

Lemma approx_base : approx 0 1 b.
Proof.
  split; [exact Fb|]. split; [exact Pb|]. rewrite powerRZ_1. split; [|lra].
  apply Rsqr_pos_lt. exact Vb.
Qed.

Lemma approx_pow : approx n n (pow_nonneg (one d) (mul d) (mul_self d) b n) /\
  approx n n (pown_nonneg (one d) (of_sll d 1) (mul d) (mul_self d) b n).
Proof.
  pose (P := fun k x => approx (k - 1) k x). pose (Q := fun k x => approx k k x).
  assert (Q0 : Q 0%Z (one d)) by exact approx_one.
  assert (Q0s : Q 0%Z (of_sll d 1)) by exact approx_one.
  assert (P1 : P 1%Z b) by exact approx_base.
  assert (PQ : forall k x, (1 <= k <= n)%Z -> P k x -> Q k x).
  { intros k x _. apply approx_le. lia. }
  assert (Psq : forall k x, (1 <= k)%Z -> (2 * k <= n)%Z -> P k x -> P (2 * k)%Z (mul d x x)).
  { unfold P. intros k x H1 H2 A. replace (2 * k - 1)%Z with ((k - 1) + (k - 1) + 1)%Z by lia.
    replace (2 * k)%Z with (k + k)%Z by lia. apply approx_mul; auto; lia. }
  assert (Qm : forall j k x y, (0 <= j)%Z -> (1 <= k)%Z -> (j + k <= n)%Z -> Q j x -> P k y -> Q (j + k)%Z (mul d x y)).
  { unfold P, Q. intros j k x y H1 H2 H3 A B. apply (approx_le (j + (k - 1) + 1)); [lia|].
    apply approx_mul; auto; lia. }
  split.
  - apply (pow_nonneg_ind (one d) (mul d) (mul_self d) (mul_self_eq d) P Q b n); auto. lia.
  - apply (pown_nonneg_ind (one d) (of_sll d 1) (mul d) (mul_self d) (mul_self_eq d) P Q b n); auto. lia.
Qed.
End Accuracy.

Local Notation mul_eps := product_error.

Lemma mul_eps_acc d u v : valid_digits d -> finite d u -> finite d v -> full d u -> full d v -> value u <> 0 -> value v <> 0 ->
  (-2147483616 < exp u + exp v < 2147483616)%Z ->
  finite d (mul d u v) /\ full d (mul d u v) /\ 0 < value (mul d u v) * (value u * value v) /\
  Rabs (value (mul d u v)) <= Rabs (value u * value v) /\
  Rabs (value u * value v) - Rabs (value (mul d u v)) <= mul_eps d * Rabs (value u * value v).
Proof.
  intros Hd. unfold product_error. destruct (Z.leb_spec d 4967).
  - apply mul_accuracy; auto.
  - apply mul_accuracy_large; auto.
Qed.

(* 2500 (d + 32) is below 10^(d-4) for d > 4967 *)
Lemma mul_eps_small d : valid_digits d -> 0 < mul_eps d <= p10 (-36) /\ mul_eps d <= p10 (- (d - 4)).
Proof.
  intros Hd. unfold product_error. destruct (Z.leb_spec d 4967) as [L|L].
  - split; [split; [apply p10_pos|]|]; apply p10_le; destruct Hd; lia.
  - assert (B : IZR (2500 * (d + 32)) <= p10 13).
    { rewrite (p10_nonneg 13) by lia. apply IZR_le. destruct Hd. lia. }
    assert (0 < IZR (2500 * (d + 32))) by (apply IZR_lt; lia).
    pose proof (p10_pos (- (d + 9))).
    assert (C : IZR (2500 * (d + 32)) * p10 (- (d + 9)) <= p10 (- (d - 4))).
    { replace (- (d - 4))%Z with (13 + - (d + 9))%Z by lia. rewrite p10_add. apply Rmult_le_compat_r; lra. }
    split; [split; [apply Rmult_lt_0_compat; auto|]|auto].
    apply Rle_trans with (1 := C). apply p10_le. lia.
Qed.

Lemma mul_eps_n d n : valid_digits d -> (n < 18446744073709551616)%Z -> IZR (Z.max 1 n) * mul_eps d <= p10 (-16).
Proof.
  intros Hd Hn. destruct (mul_eps_small d Hd) as [[E0 E1] _].
  assert (B : IZR (Z.max 1 n) <= p10 20).
  { rewrite (p10_nonneg 20) by lia. apply IZR_le. change (10 ^ 20)%Z with 100000000000000000000%Z. lia. }
  assert (0 < IZR (Z.max 1 n)) by (apply IZR_lt; lia).
  replace (-16)%Z with (20 + -36)%Z by lia. rewrite p10_add. apply Rmult_le_compat; lra.
Qed.

Lemma p10_m16 : p10 (-16) <= 1 / 1000.
Proof.
  apply Rle_trans with (p10 (-11)); [apply p10_le; lia|]. apply p10_m11.
Qed.

Lemma approx_pow' d b n : valid_digits d -> finite d b -> full d b -> value b <> 0 -> (0 <= n < 9223372036854775808)%Z ->
  in_range (powerRZ (value b) n) ->
  approx d (mul_eps d) b n n (pow_nonneg (one d) (mul d) (mul_self d) b n) /\
  approx d (mul_eps d) b n n (pown_nonneg (one d) (of_sll d 1) (mul d) (mul_self d) b n).
Proof.
  intros Hd F P V Hn Rn. destruct (mul_eps_small d Hd) as [[E0 E1] _].
  apply approx_pow; auto; try lra.
  - intros u v. apply mul_eps_acc; auto.
  - pose proof (mul_eps_n d n Hd ltac:(lia)). pose proof p10_m16. lra.
Qed.

(** What a computed power should be: its sign, and its magnitude cut by at
    most n times the error of one multiplication. *)
Lemma pow_accurate d b n : valid_digits d -> finite d b -> full d b -> value b <> 0 -> (0 <= n < 9223372036854775808)%Z ->
  in_range (powerRZ (value b) n) ->
  forall r, pow_int d b n = Defined r \/ pown d b n = Defined r ->
  finite d r /\ full d r /\ 0 < value r * powerRZ (value b) n /\
  Rabs (value r) <= Rabs (powerRZ (value b) n) /\
  Rabs (powerRZ (value b) n) - Rabs (value r) <= IZR n * mul_eps d * Rabs (powerRZ (value b) n).
Proof.
  intros Hd F P V Hn Rn r E. destruct (approx_pow' d b n Hd F P V Hn Rn) as [A B].
  assert (C : approx d (mul_eps d) b n n r).
  { destruct E as [E|E]; unfold pow_int, pown, pow_gen, pown_gen in E; destruct (Z.ltb_spec n 0); try lia; injection E as <-; auto. }
  destruct C as (C1 & C2 & C3 & C4 & C5). split; [exact C1|]. split; [exact C2|]. split; [exact C3|]. split; [exact C4|]. lra.
Qed.

(** ** Negative exponents *)

Lemma inverse_close P f B r dl n e : B <> 0 -> P = B * f -> 1 - n * e <= f <= 1 -> 0 <= n * e <= 1 / 4 -> 0 <= dl ->
  Rabs (r - / P) <= dl * Rabs (/ P) -> Rabs (r * B - 1) <= 2 * (dl + n * e).
Proof.
  intros HB EP Hf Hne Hdl Hr. assert (Hf0 : 3 / 4 <= f) by lra.
  assert (HP : P <> 0) by (rewrite EP; apply Rmult_integral_contrapositive; split; lra).
  assert (E1 : r * P - 1 = (r - / P) * P) by (field; auto).
  assert (E2 : Rabs (r * P - 1) <= dl).
  { rewrite E1, Rabs_mult. replace dl with (dl * Rabs (/ P) * Rabs P).
    - apply Rmult_le_compat_r; [apply Rabs_pos|auto].
    - rewrite Rmult_assoc, <- Rabs_mult, Rinv_l by auto. rewrite Rabs_R1. ring. }
  replace (r * B - 1) with ((r * P - 1 + (1 - f)) * / f) by (rewrite EP; field; lra).
  rewrite Rabs_mult. rewrite (Rabs_pos_eq (/ f)) by (left; apply Rinv_0_lt_compat; lra).
  assert (A : Rabs (r * P - 1 + (1 - f)) <= dl + n * e).
  { apply Rle_trans with (1 := Rabs_triang _ _). rewrite (Rabs_pos_eq (1 - f)) by lra. lra. }
  assert (C : / f <= 2). { apply Rle_trans with (/ (3 / 4)); [apply Rinv_le_contravar; lra|lra]. }
  assert (0 < / f) by (apply Rinv_0_lt_compat; lra).
  rewrite Rmult_comm. apply Rmult_le_compat; try lra. apply Rabs_pos.
Qed.

Lemma approx_factor d eps b m k x : value b <> 0 -> approx d eps b m k x ->
  exists f, value x = powerRZ (value b) k * f /\ 1 - IZR m * eps <= f <= 1.
Proof.
  intros Vb (_ & _ & S & U & L). pose proof (powerRZ_NOR (value b) k Vb) as N.
  set (B := powerRZ (value b) k) in *. exists (value x / B). split; [field; auto|].
  assert (E : value x / B = Rabs (value x) / Rabs B).
  { unfold Rdiv. rewrite <- Rabs_inv, <- Rabs_mult. symmetry. apply Rabs_pos_eq. unfold Rdiv.
    replace (value x * / B) with (value x * B * (/ B * / B)) by (field; auto).
    apply Rmult_le_pos; [lra|]. apply Rle_0_sqr. }
  rewrite E. assert (0 < Rabs B) by (apply Rabs_pos_lt; exact N). split.
  - apply Rmult_le_reg_r with (Rabs B); auto. unfold Rdiv. rewrite (Rmult_assoc (Rabs (value x))), Rinv_l by lra. lra.
  - apply Rmult_le_reg_r with (Rabs B); auto. unfold Rdiv. rewrite (Rmult_assoc (Rabs (value x))), Rinv_l by lra. lra.
Qed.

Lemma one_s_ok d : valid_digits d -> finite d (of_sll d 1) /\ full d (of_sll d 1) /\ value (of_sll d 1) = 1.
Proof. intro Hd. destruct (of_sll_spec d 1 Hd ltac:(lia)) as (F & P & V & _). auto. Qed.

Lemma well_in r : well_in_range r -> in_range r.
Proof.
  intros [A B]. split.
  - apply Rle_trans with (2 := A). apply p10_le. lia.
  - apply Rle_trans with (1 := B). apply p10_le. lia.
Qed.

Lemma well_in_factor r f : well_in_range r -> 1 / 10 <= f <= 1 -> in_range (r * f) /\ in_range (/ (r * f)).
Proof.
  intros [A B] Hf. unfold in_range.
  assert (Pa : p10 (-2147483580) = p10 (-2147483581) * 10) by (symmetry; apply (DoubleProofs.p10_pred (-2147483580))).
  assert (L : p10 (-2147483581) <= Rabs (r * f)).
  { rewrite Rabs_mult, (Rabs_pos_eq f) by lra. pose proof (p10_pos (-2147483581)).
    apply Rle_trans with (p10 (-2147483580) * (1 / 10)); [lra|]. apply Rmult_le_compat; lra. }
  assert (U : Rabs (r * f) <= p10 2147483580).
  { rewrite Rabs_mult, (Rabs_pos_eq f) by lra. replace (p10 2147483580) with (p10 2147483580 * 1) by ring.
    apply Rmult_le_compat; try lra. apply Rabs_pos. }
  assert (N : r * f <> 0). { intro E. rewrite E, Rabs_R0 in L. pose proof (p10_pos (-2147483581)). lra. }
  clear A B Pa. split; split.
  - apply Rle_trans with (2 := L). apply p10_le. lia.
  - apply Rle_trans with (1 := U). apply p10_le. lia.
  - rewrite Rabs_inv. apply Rle_trans with (/ p10 2147483580).
    + rewrite <- p10_inv. apply p10_le. lia.
    + apply Rinv_le_contravar; auto. apply Rabs_pos_lt. exact N.
  - rewrite Rabs_inv. apply Rle_trans with (/ p10 (-2147483581)).
    + apply Rinv_le_contravar; auto. apply p10_pos.
    + rewrite <- p10_inv. apply p10_le. lia.
Qed.

Lemma pow_negative d b n : valid_digits d -> (d <= 65000)%Z -> finite d b -> full d b -> value b <> 0 ->
  (0 < n < 9223372036854775808)%Z -> well_in_range (powerRZ (value b) n) ->
  forall r, pow_int d b (- n) = Defined r \/ pown d b (- n) = Defined r ->
  finite d r /\ full d r /\ 0 < value r * powerRZ (value b) n /\
  Rabs (value r * powerRZ (value b) n - 1) <= 2 * (p10 (- d) + IZR n * mul_eps d).
Proof.
  intros Hd Hd2 F P V Hn Rn r E.
  destruct (approx_pow' d b n Hd F P V ltac:(lia) (well_in _ Rn)) as [A B].
  assert (C : exists q, approx d (mul_eps d) b n n q /\ r = div d (of_sll d 1) q).
  { destruct E as [E|E]; unfold pow_int, pown, pow_gen, pown_gen in E; change sll_min with (-9223372036854775808)%Z in E;
      destruct (Z.ltb_spec (- n) 0); try lia; destruct (Z.eqb_spec (- n) (-9223372036854775808)); try lia;
      rewrite Z.opp_involutive in E; injection E as <-; eauto. }
  destruct C as (q & C & ->). destruct (approx_factor d (mul_eps d) b n n q V C) as (f & Eq & Hf).
  destruct C as (C1 & C2 & C3 & C4 & C5).
  destruct (mul_eps_small d Hd) as [[E0 E1] _].
  pose proof (mul_eps_n d n Hd ltac:(lia)) as En. rewrite Z.max_r in En by lia. pose proof p10_m16 as M16.
  assert (N0 : 0 <= IZR n * mul_eps d) by (apply Rmult_le_pos; [apply IZR_le; lia|lra]).
  destruct (well_in_factor (powerRZ (value b) n) f Rn ltac:(lra)) as [W1 W2]. rewrite <- Eq in W1, W2.
  destruct (one_s_ok d Hd) as (O1 & O2 & O3).
  destruct (div_accurate d (of_sll d 1) q Hd Hd2 O1 C1 O2 C2 W1) as (D1 & D2 & D3 & D4 & _).
  { rewrite O3. unfold Rdiv. rewrite Rmult_1_l. exact W2. }
  { right. rewrite O3. lra. }
  set (r := div d (of_sll d 1) q) in *. rewrite O3 in D3, D4. unfold Rdiv in D3, D4. rewrite Rmult_1_l in D3, D4.
  split; [exact D1|]. split; [exact D2|].
  pose proof (powerRZ_NOR (value b) n V) as NB. set (B0 := powerRZ (value b) n) in *.
  assert (C' : Rabs (value r * B0 - 1) <= 2 * (p10 (- d) + IZR n * mul_eps d)).
  { apply (inverse_close (value q) f B0); auto; [lra|left; apply p10_pos|left; exact D4]. }
  split; [|exact C'].
  assert (Q : 2 * (p10 (- d) + IZR n * mul_eps d) < 1).
  { assert (p10 (- d) <= p10 (-16)) by (apply p10_le; destruct Hd; lia). lra. }
  assert (K : -1 < value r * B0 - 1) by (revert C'; unfold Rabs; destruct (Rcase_abs _); lra). lra.
Qed.
