(** * Accuracy of the exponential function (proofs only) *)

From Coq Require Import ZArith List Bool Reals Lra Lia Psatz.
From Verif Require Import Model Spec SpecGen Limbs Value CmpProofs AddProofs Decide OrderProofs OrderDec AddExtra MulProofs MulValue MulExtra MulCor
  IntProofs IntPartProofs IntConv MixedProofs IntCor ModelDiv DoubleProofs NewtonProofs InvProofs SqrtProofs ModelPow PowGen PowProofs PowExtra LdexpProofs
  FloatEval ModelGen ModelElem ElemProofs SeriesFloat ExpReal.
Import ListNotations.
Open Scope R_scope.
Ltac Zify.zify_post_hook ::= Z.div_mod_to_equations.
Local Notation p10 := (powerRZ 10).
Local Notation exp := Rtrigo_def.exp.
Local Notation eps := product_error.

(** ** Relative errors *)

Definition rel (e a b : R) : Prop := Rabs (a - b) <= e * Rabs b.

Lemma rel_refl b : rel 0 b b.
Proof. unfold rel. replace (b - b) with 0 by ring. rewrite Rabs_R0. lra. Qed.

Lemma rel_le e f a b : e <= f -> rel e a b -> rel f a b.
Proof. unfold rel. intros H R. pose proof (Rabs_pos b). nra. Qed.

Lemma rel_bound e a b : rel e a b -> (1 - e) * Rabs b <= Rabs a <= (1 + e) * Rabs b.
Proof.
  unfold rel. intro R. pose proof (Rabs_triang_inv a b). pose proof (Rabs_triang_inv b a) as X. rewrite Rabs_minus_sym in X. lra.
Qed.

Lemma rel_trans e f a b c : 0 <= e -> rel e a b -> rel f b c -> rel (e + f + e * f) a c.
Proof.
  intros He R1 R2. pose proof (rel_bound _ _ _ R2) as B. unfold rel in *.
  replace (a - c) with ((a - b) + (b - c)) by ring. eapply Rle_trans; [apply Rabs_triang|]. nra.
Qed.

Lemma rel_mult e f a b c g : 0 <= e -> rel e a b -> rel f c g -> rel (e + f + e * f) (a * c) (b * g).
Proof.
  intros He R1 R2. pose proof (rel_bound _ _ _ R2) as B. unfold rel in *.
  replace (a * c - b * g) with ((a - b) * c + b * (c - g)) by ring. eapply Rle_trans; [apply Rabs_triang|]. rewrite !Rabs_mult.
  apply Rle_trans with (e * Rabs b * ((1 + f) * Rabs g) + Rabs b * (f * Rabs g)); [|right; ring].
  apply Rplus_le_compat.
  - apply Rmult_le_compat; try apply Rabs_pos; lra.
  - apply Rmult_le_compat_l; [apply Rabs_pos|exact R2].
Qed.

Lemma rel_scale e a b c : rel e a b -> rel e (a * c) (b * c).
Proof. intro R. unfold rel in *. replace (a * c - b * c) with ((a - b) * c) by ring. rewrite !Rabs_mult. pose proof (Rabs_pos c). nra. Qed.

Lemma rel_pow e a b n : 0 <= e -> INR n * e <= / 100 -> rel e a b -> rel (102 / 100 * INR n * e) (a ^ n) (b ^ n).
Proof.
  intros He Hn R. induction n as [|n IH].
  - cbn [pow INR]. replace (102 / 100 * 0 * e) with 0 by ring. apply rel_refl.
  - rewrite S_INR in *. pose proof (pos_INR n). specialize (IH ltac:(lra)). cbn [pow].
    eapply rel_le; [|apply (rel_mult e (102 / 100 * INR n * e)); [exact He|exact R|exact IH]].
    assert (0 <= INR n * e) by nra. nra.
Qed.

Lemma rel_inv e a b : b <> 0 -> 0 <= e <= / 100 -> rel e a b -> rel (102 / 100 * e) (/ a) (/ b).
Proof.
  intros N He R. pose proof (rel_bound _ _ _ R) as B. pose proof (Rabs_pos_lt b N) as Pb.
  assert (Na : a <> 0). { intro Z. rewrite Z, Rabs_R0 in B. nra. }
  unfold rel in *. replace (/ a - / b) with (- ((a - b) * / a * / b)) by (field; auto). rewrite Rabs_Ropp, !Rabs_mult.
  apply Rmult_le_compat_r; [apply Rabs_pos|]. rewrite (Rabs_inv a). pose proof (Rabs_pos_lt a Na).
  apply Rmult_le_reg_r with (Rabs a); [lra|]. rewrite Rmult_assoc, Rinv_l, Rmult_1_r by lra. nra.
Qed.

Lemma rel_exp u v t : Rabs (u - v) <= t -> t <= / 1000 -> rel (1001 / 1000 * t) (exp u) (exp v).
Proof.
  intros H Ht. pose proof (Rabs_pos (u - v)) as P0. unfold rel. replace (exp u) with (exp (u - v) * exp v) by (rewrite <- exp_plus; f_equal; ring).
  replace (exp (u - v) * exp v - exp v) with ((exp (u - v) - 1) * exp v) by ring. rewrite Rabs_mult.
  apply Rmult_le_compat_r; [apply Rabs_pos|]. pose proof (exp_remainder (u - v) 2 ltac:(lia) ltac:(lra)) as R.
  replace 2%Z with (1 + 1)%Z in R at 1 by ring. rewrite exp_part_step, exp_part_1, exp_term_1 in R by lia.
  rewrite exp_term_step in R by lia. change (2 - 1)%Z with 1%Z in R. rewrite exp_term_1 in R.
  unfold Rdiv in R. rewrite Rabs_mult, Rabs_mult, (Rabs_pos_eq (/ 2)) in R by lra.
  replace (exp (u - v) - 1) with ((exp (u - v) - (1 + (u - v))) + (u - v)) by ring. eapply Rle_trans; [apply Rabs_triang|]. nra.
Qed.

Lemma exp_small x n : Rabs x <= / 1000 -> (1 <= n)%Z -> Rabs (exp_term x n) <= Rabs x /\ Rabs (exp_term x n) <= p10 (- 3 * n).
Proof.
  intros Hx H. destruct (Req_dec x 0) as [->|N].
  - pose proof (p10_pos (- 3 * n)). assert (E : exp_term 0 n = 0). { unfold exp_term. rewrite pow_i by lia. ring. } rewrite E, Rabs_R0. lra.
  - rewrite <- (exp_term_1 x) at 2. apply (terms_small (exp_term x)); [rewrite exp_term_1; exact Hx| |exact H].
    intros k Hk. pose proof (exp_term_ratio x k Hk). pose proof (Rabs_pos (exp_term x k)). nra.
Qed.

(** ** Division by a small integer *)

Section FixedDigits.
Variable d : Z.
Hypothesis Hd : valid_digits d.
Hypothesis Hd' : (d <= 4967)%Z.

Local Notation u := (p10 (- d)).

Lemma u_small : 0 < u <= / 1000000000000.
Proof.
  split; [apply p10_pos|]. apply Rle_trans with (p10 (- (12))); [apply p10_le; destruct Hd; lia|]. p10num H 12%nat. rewrite H. lra.
Qed.

Lemma p_shift k : p10 (- (d + Z.of_nat k)) = u * / 10 ^ k.
Proof. replace (- (d + Z.of_nat k))%Z with (- d + - Z.of_nat k)%Z by ring. rewrite p10_add, p10_nat. reflexivity. Qed.

Lemma p_1 : p10 (- (d + 1)) = u / 10.
Proof. pose proof (p_shift 1) as H. cbn [Z.of_nat Pos.of_succ_nat Pos.succ pow] in H. rewrite H. lra. Qed.
Lemma p_5 : p10 (- (d + 5)) = u / 100000.
Proof. pose proof (p_shift 5) as H. cbn [Z.of_nat Pos.of_succ_nat Pos.succ pow] in H. rewrite H. lra. Qed.
Lemma p_6 : p10 (- (d + 6)) = u / 1000000.
Proof. pose proof (p_shift 6) as H. cbn [Z.of_nat Pos.of_succ_nat Pos.succ pow] in H. rewrite H. lra. Qed.
Lemma p_8 : p10 (- (d + 8)) = u / 100000000.
Proof. pose proof (p_shift 8) as H. cbn [Z.of_nat Pos.of_succ_nat Pos.succ pow] in H. rewrite H. lra. Qed.
Lemma p_17 : p10 (- (d + 17)) = u / 100000000000000000.
Proof. pose proof (p_shift 17) as H. cbn [Z.of_nat Pos.of_succ_nat Pos.succ pow] in H. rewrite H. lra. Qed.

Lemma eps_u : eps d = u / 1000000.
Proof. unfold product_error. replace (d <=? 4967)%Z with true by (symmetry; apply Z.leb_le; lia). apply p_6. Qed.

Lemma ok_div_int m x n : (0 <= m)%Z -> ok d m x -> value x <> 0 -> (1 <= n < 100000000)%Z ->
  ok d (m + 9) (div_int d x n) /\ value (div_int d x n) <> 0 /\ rel (u / 10) (value (div_int d x n)) (value x / IZR n).
Proof.
  intros Hm (F & Fu & M) N Hn. destruct M as [|[M1 M2]]; [contradiction|].
  destruct (div_int_small d Hd x n F Fu N Hn) as (A & B & C & D). rewrite p_1 in D.
  assert (R : rel (u / 10) (value (div_int d x n)) (value x / IZR n)) by exact D.
  pose proof (rel_bound _ _ _ R) as Bd. pose proof u_small as Us. pose proof (Rabs_pos_lt _ N) as Px.
  assert (In : 1 <= IZR n <= 100000000) by (split; apply IZR_le; lia).
  unfold Rdiv in Bd. rewrite Rabs_mult, (Rabs_pos_eq (/ IZR n)) in Bd by (left; apply Rinv_0_lt_compat; lra).
  assert (I1 : / 100000000 <= / IZR n <= 1). { split; [apply Rinv_le_contravar; lra|]. rewrite <- Rinv_1. apply Rinv_le_contravar; lra. }
  split; [|split; [intro Z; rewrite Z in C; lra|exact R]].
  split; [exact A|]. split; [exact B|]. right.
  assert (X1 : p10 (m + 9) = p10 m * 1000000000). { rewrite p10_add. f_equal. rewrite (powerRZ_pow 10 9) by lia. change (Z.to_nat 9) with 9%nat. cbn [pow]. lra. }
  rewrite p10_inv, X1. rewrite p10_inv in M1. pose proof (p10_pos m).
  set (y := Rabs (value x)) in *. set (i := / IZR n) in *.
  assert (Y : y / 100000000 <= y * i <= y) by (split; nra).
  split; [|nra]. apply Rle_trans with (y / 1000000000); [|nra].
  rewrite Rinv_mult. pose proof (Rinv_0_lt_compat (p10 m) ltac:(lra)). lra.
Qed.

Lemma ok_rel_mul m m' x y : (0 <= m)%Z -> (0 <= m')%Z -> (m + m' <= 2147483000)%Z -> ok d m x -> ok d m' y ->
  ok d (m + m' + 1) (mul d x y) /\ rel (u / 1000000) (value (mul d x y)) (value x * value y).
Proof. intros H1 H2 H3 O1 O2. destruct (ok_mul d m m' x y Hd H1 H2 H3 O1 O2) as [A B]. rewrite eps_u in B. split; [exact A|exact B]. Qed.

(** ** The series *)

Local Notation delta := (12 / 100 * u).

Definition exp_inv (m : Z) (x : ef) (n : Z) (t : ef) : Prop :=
  ok d (n * (m + 10)) t /\ value t <> 0 /\ rel (IZR n * delta) (value t) (exp_term (value x) n).

Lemma h0f0_ok m x : (0 <= m <= 1000000)%Z -> ok d m x -> value x <> 0 -> Rabs (value x) <= / 1000 ->
  ok d 1 (h0f0 d x) /\ 99 / 100 <= value (h0f0 d x) <= 101 / 100 /\
  Rabs (value (h0f0 d x) - exp (value x)) <= (24 / 100 * Rabs (value x) + / 100000) * u.
Proof.
  intros Hm Ox N Hx. pose proof u_small as Us.
  destruct (series_from_ok d Hd Hd' (fun n xp => next_x (mul d) (div_int d) x n xp) (fun xp => xp)
    (exp_term (value x)) (exp_part (value x)) (exp_inv m x) delta (exp (value x)) (2001 * (m + 10)) 5) with (st0 := x) as (r & E & O & V & B).
  - lia.
  - destruct (tol_bounds d Hd Hd') as [_ Tl]. destruct (Z_le_gt_dec 50 d) as [D|D]; [left; specialize (Tl D); lia|right]. intros n Hn.
    destruct (exp_small (value x) n Hx ltac:(lia)) as [_ S3]. assert (C : (-3 * n <= - (d + 5) + - (1))%Z) by lia.
    pose proof (p10_le _ _ C) as X. rewrite p10_add, (p10_inv 1), p10_1 in X. pose proof (p10_pos (- (d + 5))). lra.
  - lia.
  - lra.
  - intros n st Hn (A & B & C). split; [apply (ok_le d (n * (m + 10))); [nia|exact A]|exact C].
  - intros n st Hn (A & B & C). unfold next_x.
    destruct (ok_rel_mul ((n - 1) * (m + 10)) m st x ltac:(nia) ltac:(lia) ltac:(nia) A Ox) as [Om Rm].
    assert (Nm : value (mul d st x) <> 0).
    { intro Z. pose proof (rel_bound _ _ _ Rm) as Bd. rewrite Z, Rabs_R0 in Bd. assert (value st * value x <> 0) by (apply Rmult_integral_contrapositive; auto).
      pose proof (Rabs_pos_lt _ H). nra. }
    destruct (ok_div_int ((n - 1) * (m + 10) + m + 1) (mul d st x) n ltac:(nia) Om Nm ltac:(lia)) as (Od & Nd & Rd).
    split; [apply (ok_le d ((n - 1) * (m + 10) + m + 1 + 9)); [nia|exact Od]|]. split; [exact Nd|].
    rewrite exp_term_step by lia.
    assert (In : 2 <= IZR n <= 2001) by (split; apply IZR_le; lia).
    assert (R1 : rel (u / 1000000) (value (mul d st x) / IZR n) (value st * value x / IZR n)) by (apply rel_scale; exact Rm).
    assert (R2 : rel (IZR (n - 1) * delta) (value st * value x / IZR n) (exp_term (value x) (n - 1) * value x / IZR n)) by (apply rel_scale, rel_scale; exact C).
    assert (R3 : rel (u / 10 + u / 1000000 + u / 10 * (u / 1000000)) (value (div_int d (mul d st x) n)) (value st * value x / IZR n)) by (eapply rel_trans; [lra|exact Rd|exact R1]).
    assert (Q : 0 <= u / 10 * (u / 1000000) <= u / 1000000) by nra. set (q := u / 10 * (u / 1000000)) in *.
    eapply rel_le; [|eapply rel_trans; [|exact R3|exact R2]]; [|lra]. rewrite minus_IZR.
    assert (W : 0 <= (IZR n - 1) * (12 / 100 * u) <= / 1000) by (split; [apply Rmult_le_pos; lra|]; nra). set (w := (IZR n - 1) * (12 / 100 * u)) in *.
    replace (IZR n * (12 / 100 * u)) with (w + 12 / 100 * u) by (unfold w; ring).
    assert ((u / 10 + u / 1000000 + q) * w <= (u / 10 + u / 1000000 + q) * / 1000) by (apply Rmult_le_compat_l; lra). lra.
  - rewrite exp_term_1. exact Hx.
  - intros n Hn. split; [apply exp_term_nonzero; exact N|]. pose proof (exp_term_ratio (value x) n Hn). pose proof (Rabs_pos (exp_term (value x) n)). nra.
  - apply exp_part_1.
  - apply exp_part_step.
  - intros n Hn. apply exp_remainder; [exact Hn|lra].
  - split; [apply (ok_le d m); [lia|exact Ox]|]. split; [exact N|]. rewrite exp_term_1. eapply rel_le; [|apply rel_refl]. lra.
  - unfold h0f0, hyper_0f0. rewrite E. cbn [or_nan]. split; [exact O|]. split; [exact V|]. rewrite exp_term_1, p_5 in B. lra.
Qed.

End FixedDigits.
