(** * Accuracy of the series log1p1m2 and of atanh of small arguments (proofs only) *)

From Coq Require Import ZArith List Bool Reals Lra Lia Psatz.
From Verif Require Import Model Spec SpecGen Limbs Value CmpProofs AddProofs Decide OrderProofs OrderDec AddExtra MulProofs MulValue MulExtra MulCor
  IntProofs IntPartProofs IntConv MixedProofs IntCor ModelDiv DoubleProofs NewtonProofs InvProofs SqrtProofs ModelPow PowGen PowProofs PowExtra LdexpProofs
  StrAny FloatEval ModelGen ModelElem ElemProofs SeriesFloat ExpReal ExpFloat ExpAcc ConstReal SinReal SinFloat SinStep SinAcc SinTiny HyperFloat AtanSer AtanTop LogSer ModelAtanh.
Import ListNotations.
Open Scope R_scope.
Ltac Zify.zify_post_hook ::= Z.div_mod_to_equations.
Local Notation p10 := (powerRZ 10).

(** ** Real numbers: the series of (1/2) ln ((1 + x) / (1 - x)) *)

Definition artanh (x : R) : R := (ln (1 + x) - ln (1 - x)) / 2.

(* the sum of the terms before x^(2 n + 1) / (2 n + 1) *)
Fixpoint osum (n : nat) (x : R) : R := match n with O => 0 | S k => osum k x + x ^ (2 * k + 1) / INR (2 * k + 1) end.
Fixpoint esum (n : nat) (x : R) : R := match n with O => 0 | S k => esum k x + x ^ (2 * k) end.

Lemma esum_closed n x : esum n x * (1 - x * x) = 1 - x ^ (2 * n).
Proof.
  induction n as [|n IH]; [cbn; ring|]. cbn [esum]. rewrite Rmult_plus_distr_r, IH. replace (2 * S n)%nat with (S (S (2 * n))) by lia. cbn [Rpow_def.pow]. ring.
Qed.

Lemma osum_deriv n x : derivable_pt_lim (osum n) x (esum n x).
Proof.
  induction n as [|n IH]; [apply derivable_pt_lim_const|].
  change (osum (S n)) with (plus_fct (osum n) (fun y => y ^ (2 * n + 1) / INR (2 * n + 1))). cbn [esum]. apply derivable_pt_lim_plus; [exact IH|].
  replace (x ^ (2 * n)) with (/ INR (2 * n + 1) * (INR (2 * n + 1) * x ^ pred (2 * n + 1))).
  2: { replace (pred (2 * n + 1)) with (2 * n)%nat by lia. field. apply not_0_INR. lia. }
  apply (derivable_pt_lim_ext (mult_real_fct (/ INR (2 * n + 1)) (fun y => y ^ (2 * n + 1)))).
  - intro y. unfold mult_real_fct. field. apply not_0_INR. lia.
  - apply derivable_pt_lim_scal. apply derivable_pt_lim_pow.
Qed.

Lemma artanh_deriv x : -1 < x < 1 -> derivable_pt_lim artanh x (/ (1 - x * x)).
Proof.
  intro H. replace (/ (1 - x * x)) with (/ 2 * (/ (1 + x) - (/ (1 - x) * -1))) by (field; repeat split; nra).
  apply (derivable_pt_lim_ext (mult_real_fct (/ 2) (minus_fct (fun y => ln (1 + y)) (fun y => ln (1 - y))))).
  - intro y. unfold mult_real_fct, minus_fct, artanh. field.
  - apply derivable_pt_lim_scal. apply derivable_pt_lim_minus; [apply ln1_deriv; lra|].
    apply (derivable_pt_lim_comp (fun y => 1 - y) ln x (-1)).
    + replace (-1) with (0 - 1) by ring. apply derivable_pt_lim_minus; [apply derivable_pt_lim_const|apply derivable_pt_lim_id].
    + apply derivable_pt_lim_ln. lra.
Qed.

Lemma osum_zero n : osum n 0 = 0.
Proof. induction n as [|n IH]; [reflexivity|]. cbn [osum]. rewrite IH, pow_i by lia. field. apply not_0_INR. lia. Qed.
Lemma artanh_zero : artanh 0 = 0.
Proof. unfold artanh. rewrite Rplus_0_r, Rminus_0_r, ln_1. field. Qed.
Lemma osum_odd n x : osum n (- x) = - osum n x.
Proof.
  induction n as [|n IH]; [cbn; ring|]. cbn [osum]. rewrite IH. replace (2 * n + 1)%nat with (S (2 * n)) by lia. rewrite <- !tech_pow_Rmult, !(pow_mult _ 2 n).
  replace ((- x) ^ 2) with (x ^ 2) by ring. field. apply not_0_INR. lia.
Qed.
Lemma artanh_odd x : artanh (- x) = - artanh x.
Proof. unfold artanh. replace (1 + - x) with (1 - x) by ring. replace (1 - - x) with (1 + x) by ring. field. Qed.

Lemma artanh_remainder_pos n x : 0 < x <= / 1000 -> 0 <= artanh x - osum n x <= 101 / 100 * (x ^ (2 * n + 1) / INR (2 * n + 1)).
Proof.
  intro H.
  assert (D : forall t, 0 <= t <= x -> derivable_pt_lim (minus_fct artanh (osum n)) t (t ^ (2 * n) / (1 - t * t))).
  { intros t Ht. assert (0 <= t * t <= / 1000) by nra. replace (t ^ (2 * n) / (1 - t * t)) with (/ (1 - t * t) - esum n t).
    - apply derivable_pt_lim_minus; [apply artanh_deriv; lra|apply osum_deriv].
    - apply (Rmult_eq_reg_r (1 - t * t)); [|lra]. rewrite Rmult_minus_distr_r, esum_closed. field. lra. }
  assert (B : forall t, 0 <= t <= x -> 0 <= t ^ (2 * n) / (1 - t * t) <= 101 / 100 * t ^ (2 * n)).
  { intros t Ht. assert (T : 0 <= t * t <= / 1000) by nra. assert (P : 0 <= t ^ (2 * n)) by (apply pow_le; lra).
    assert (V : 0 < / (1 - t * t) <= 101 / 100).
    { split; [apply Rinv_0_lt_compat; lra|]. apply (Rmult_le_reg_r (1 - t * t)); [lra|]. rewrite Rinv_l by lra. lra. }
    unfold Rdiv at 1 3. split; [apply Rmult_le_pos; lra|]. rewrite (Rmult_comm (101 / 100)). apply Rmult_le_compat_l; lra. }
  split.
  - destruct (MVT_cor2 (minus_fct artanh (osum n)) (fun t => t ^ (2 * n) / (1 - t * t)) 0 x (proj1 H)) as (c & E & Hc); [exact D|].
    unfold minus_fct in E. rewrite artanh_zero, osum_zero in E. replace (artanh x - osum n x) with (artanh x - osum n x - (0 - 0)) by ring. rewrite E.
    apply Rmult_le_pos; [apply B; lra|lra].
  - assert (G : forall t, 0 <= t <= x -> derivable_pt_lim (minus_fct (mult_real_fct (101 / 100) (fun y => y ^ (2 * n + 1) / INR (2 * n + 1))) (minus_fct artanh (osum n))) t (101 / 100 * t ^ (2 * n) - t ^ (2 * n) / (1 - t * t))).
    { intros t Ht. apply derivable_pt_lim_minus; [|apply D; exact Ht]. apply derivable_pt_lim_scal.
      replace (t ^ (2 * n)) with (/ INR (2 * n + 1) * (INR (2 * n + 1) * t ^ pred (2 * n + 1))).
      2: { replace (pred (2 * n + 1)) with (2 * n)%nat by lia. field. apply not_0_INR. lia. }
      apply (derivable_pt_lim_ext (mult_real_fct (/ INR (2 * n + 1)) (fun y => y ^ (2 * n + 1)))).
      - intro y. unfold mult_real_fct. field. apply not_0_INR. lia.
      - apply derivable_pt_lim_scal. apply derivable_pt_lim_pow. }
    destruct (MVT_cor2 _ (fun t => 101 / 100 * t ^ (2 * n) - t ^ (2 * n) / (1 - t * t)) 0 x (proj1 H) G) as (c & E & Hc).
    unfold minus_fct, mult_real_fct in E. rewrite artanh_zero, osum_zero, pow_i in E by lia.
    assert (0 <= (101 / 100 * c ^ (2 * n) - c ^ (2 * n) / (1 - c * c)) * (x - 0)) by (apply Rmult_le_pos; [pose proof (B c ltac:(lra)); lra|lra]).
    rewrite <- E in H0. replace (0 / INR (2 * n + 1)) with 0 in H0 by (unfold Rdiv; ring). lra.
Qed.

Lemma artanh_remainder n x : x <> 0 -> Rabs x <= / 1000 -> Rabs (artanh x - osum n x) <= 101 / 100 * (Rabs x ^ (2 * n + 1) / INR (2 * n + 1)).
Proof.
  intros N H. destruct (Rtotal_order 0 x) as [L|[E|L]]; [|congruence|].
  - rewrite Rabs_pos_eq in H by lra. destruct (artanh_remainder_pos n x ltac:(lra)). rewrite !Rabs_pos_eq by lra. lra.
  - rewrite Rabs_left in H by lra. destruct (artanh_remainder_pos n (- x) ltac:(lra)) as [A B]. rewrite artanh_odd, osum_odd in A, B. rewrite (Rabs_left1 x), Rabs_left1 by lra. lra.
Qed.

Section FixedDigits.
Variable d : Z.
Hypothesis Hd : valid_digits d.
Hypothesis Hd' : (d <= 4967)%Z.
Variable env : env.
Local Notation u := (p10 (- d)).

(** After k passes: xn is close to x^(2 k + 1) and sum to the sum of the terms up to that of x^(2 k + 1) *)
Definition a_inv (m : Z) (x : R) (k : nat) (xn sum : ef) : Prop :=
  ok d ((2 * Z.of_nat k + 1) * (m + 2)) xn /\ rel (INR k * (3 / 1000000 * u)) (value xn) (x ^ (2 * k + 1)) /\
  ok d (m + 1) sum /\ Rabs (value sum - osum (S k) x) <= INR k * (/ 5000000 * u) * Rabs x.

Lemma small_pow x k : Rabs x <= / 1000 -> Rabs x ^ (2 * k + 1) <= p10 (-6 * Z.of_nat k) * Rabs x.
Proof.
  intro H. pose proof (Rabs_pos x) as P. induction k as [|k IH].
  - change (-6 * Z.of_nat 0)%Z with 0%Z. rewrite p10_0. cbn. lra.
  - replace (2 * S k + 1)%nat with (S (S (2 * k + 1))) by lia. rewrite <- !tech_pow_Rmult. replace (-6 * Z.of_nat (S k))%Z with (-6 * Z.of_nat k + - (6))%Z by lia. rewrite p10_add. p10num H6 6%nat. rewrite H6.
    assert (Q : Rabs x * Rabs x <= / 1000000) by nra. pose proof (pow_le (Rabs x) (2 * k + 1) P). rewrite <- Rmult_assoc.
    apply Rle_trans with (/ 1000000 * Rabs x ^ (2 * k + 1)); [apply Rmult_le_compat_r; lra|]. lra.
Qed.

Lemma osum_near x k : x <> 0 -> Rabs x <= / 1000 -> Rabs (osum (S k) x - x) <= / 10000 * Rabs x.
Proof.
  intros N H. pose proof (artanh_remainder (S k) x N H) as A. pose proof (artanh_remainder 1 x N H) as B. cbn [osum] in B. replace (0 + x ^ (2 * 0 + 1) / INR (2 * 0 + 1)) with x in B by (cbn; field).
  assert (S1 : forall j, (1 <= j)%nat -> Rabs x ^ (2 * j + 1) / INR (2 * j + 1) <= / 1000000 * Rabs x).
  { intros j Hj. pose proof (small_pow x j H) as Sp. pose proof (p10_le (-6 * Z.of_nat j) (- (6)) ltac:(lia)) as Q. p10num H6 6%nat. rewrite H6 in Q.
    assert (I1 : 1 <= INR (2 * j + 1)) by (change 1 with (INR 1); apply le_INR; lia). pose proof (Rabs_pos x). pose proof (pow_le (Rabs x) (2 * j + 1) ltac:(lra)) as P.
    apply Rle_trans with (Rabs x ^ (2 * j + 1)).
    - unfold Rdiv. rewrite <- (Rmult_1_r (_ ^ _)) at 2. apply Rmult_le_compat_l; [exact P|]. rewrite <- Rinv_1. apply Rinv_le_contravar; lra.
    - eapply Rle_trans; [exact Sp|]. apply Rmult_le_compat_r; lra. }
  pose proof (S1 (S k) ltac:(lia)). pose proof (S1 1%nat ltac:(lia)). pose proof (Rabs_pos x).
  replace (osum (S k) x - x) with ((artanh x - x) - (artanh x - osum (S k) x)) by ring. eapply Rle_trans; [apply Rabs_triang|]. rewrite Rabs_Ropp. lra.
Qed.

Lemma pow_term x k : x <> 0 -> Rabs (x ^ (2 * k + 1)) = Rabs x ^ (2 * k + 1) /\ 0 < Rabs x ^ (2 * k + 1).
Proof. intro N. split; [symmetry; apply RPow_abs|apply pow_lt, Rabs_pos_lt, N]. Qed.

Lemma a_step m x k xn sum : (0 <= m <= 500000)%Z -> ok d m x -> value x <> 0 -> Rabs (value x) <= / 1000 -> (S k <= 1000)%nat -> a_inv m (value x) k xn sum ->
  let xn' := mul d xn (mul d x x) in let t := div_int d xn' (2 * Z.of_nat (S k) + 1) in
  a_inv m (value x) (S k) xn' (add d sum t) /\ finite d t /\ value t <> 0 /\
  rel (12 / 100 * u) (value t) (value x ^ (2 * S k + 1) / INR (2 * S k + 1)).
Proof.
  intros Hm Ox N H Hk (A1 & A2 & A3 & A4) xn' t. pose proof (u_tiny d Hd) as U. pose proof (Rabs_pos_lt _ N) as Px. set (v := value x) in *. set (a := Rabs v) in *.
  assert (Ik : 0 <= INR k <= 1000) by (split; [apply pos_INR|]; replace 1000 with (INR 1000) by (cbn; ring); apply le_INR; lia).
  destruct (ok_rel_mul d Hd Hd' m m x x ltac:(lia) ltac:(lia) ltac:(lia) Ox Ox) as [O2 R2].
  destruct (ok_rel_mul d Hd Hd' ((2 * Z.of_nat k + 1) * (m + 2)) (m + m + 1) xn (mul d x x) ltac:(lia) ltac:(lia) ltac:(nia) A1 O2) as [O3 R3]. fold xn' in O3, R3. fold v in R2.
  assert (E3 : v ^ (2 * S k + 1) = v ^ (2 * k + 1) * (v * v)) by (replace (2 * S k + 1)%nat with (S (S (2 * k + 1))) by lia; cbn [Rpow_def.pow]; ring).
  assert (W : 0 <= INR k * (3 / 1000000 * u) <= / 1000000).
  { split; [apply Rmult_le_pos; lra|]. apply Rle_trans with (1000 * (3 / 1000000 * u)); [apply Rmult_le_compat_r; lra|lra]. }
  assert (R4 : rel (INR (S k) * (3 / 1000000 * u)) (value xn') (v ^ (2 * S k + 1))).
  { rewrite E3. pose proof (rel_mult _ _ _ _ _ _ (proj1 W) A2 R2) as M. pose proof (rel_trans (u / 1000000) _ _ _ _ ltac:(lra) R3 M) as T. eapply rel_le; [|exact T]. rewrite S_INR.
    set (w := INR k * (3 / 1000000 * u)) in *. assert (w * (u / 1000000) <= / 1000000 * (u / 1000000)) by (apply Rmult_le_compat_r; lra). assert (u / 1000000 * u <= u / 1000000 * / 1000000) by (apply Rmult_le_compat_l; lra).
    assert (u / 1000000 * w <= u / 1000000 * / 1000000) by (apply Rmult_le_compat_l; lra). assert (0 <= w * (u / 1000000)) by (apply Rmult_le_pos; lra).
    assert (u / 1000000 * (w * (u / 1000000)) <= u / 1000000 * 1) by (apply Rmult_le_compat_l; lra).
    replace ((INR k + 1) * (3 / 1000000 * u)) with (w + 3 / 1000000 * u) by (unfold w; ring).
    assert (u / 1000000 * (w * (u / 1000000)) <= u / 1000000 * / 1000) by (apply Rmult_le_compat_l; lra). lra. }
  destruct (pow_term v (S k) N) as [Pe Pp]. fold a in Pe, Pp.
  assert (W' : 0 <= INR (S k) * (3 / 1000000 * u) <= / 100 * u).
  { rewrite S_INR. split; [apply Rmult_le_pos; lra|]. apply Rle_trans with (1001 * (3 / 1000000 * u)); [apply Rmult_le_compat_r; lra|lra]. }
  assert (Nx : value xn' <> 0). { intro Z. pose proof (rel_bound _ _ _ R4) as Bd. rewrite Z, Rabs_R0, Pe in Bd. assert (0 < (1 - INR (S k) * (3 / 1000000 * u)) * a ^ (2 * S k + 1)) by (apply Rmult_lt_0_compat; lra). lra. }
  assert (O3' : ok d ((2 * Z.of_nat (S k) + 1) * (m + 2)) xn') by (apply (ok_le d ((2 * Z.of_nat k + 1) * (m + 2) + (m + m + 1) + 1)); [lia|exact O3]).
  destruct (ok_div_int d Hd ((2 * Z.of_nat (S k) + 1) * (m + 2)) xn' (2 * Z.of_nat (S k) + 1) ltac:(lia) O3' Nx ltac:(lia)) as (O5 & N5 & R5). fold t in O5, N5, R5.
  assert (En : IZR (2 * Z.of_nat (S k) + 1) = INR (2 * S k + 1)) by (rewrite INR_IZR_INZ; f_equal; lia). rewrite En in R5.
  assert (R6 : rel (12 / 100 * u) (value t) (v ^ (2 * S k + 1) / INR (2 * S k + 1))).
  { pose proof (rel_scale _ _ _ (/ INR (2 * S k + 1)) R4) as M. pose proof (rel_trans (u / 10) _ _ _ _ ltac:(lra) R5 M) as T. eapply rel_le; [|exact T].
    assert (u / 10 * (INR (S k) * (3 / 1000000 * u)) <= u / 10 * (/ 100 * u)) by (apply Rmult_le_compat_l; lra). assert (u / 10 * (/ 100 * u) <= u / 10 * / 100) by (apply Rmult_le_compat_l; lra). lra. }
  split; [|split; [apply O5|split; [exact N5|exact R6]]].
  (* the size of the term *)
  assert (I1 : 1 <= INR (2 * S k + 1)) by (change 1 with (INR 1); apply le_INR; lia).
  assert (Tb : 0 < a ^ (2 * S k + 1) / INR (2 * S k + 1) <= / 1000000 * a).
  { split; [apply Rmult_lt_0_compat; [exact Pp|apply Rinv_0_lt_compat; lra]|]. pose proof (small_pow v (S k) H) as Sp. fold a in Sp. pose proof (p10_le (-6 * Z.of_nat (S k)) (- (6)) ltac:(lia)) as Q. p10num H6 6%nat. rewrite H6 in Q.
    apply Rle_trans with (a ^ (2 * S k + 1)).
    - unfold Rdiv. rewrite <- (Rmult_1_r (_ ^ _)) at 2. apply Rmult_le_compat_l; [lra|]. rewrite <- Rinv_1. apply Rinv_le_contravar; lra.
    - eapply Rle_trans; [exact Sp|]. apply Rmult_le_compat_r; lra. }
  assert (Tt : Rabs (value t - v ^ (2 * S k + 1) / INR (2 * S k + 1)) <= 12 / 100 * u * (/ 1000000 * a)).
  { unfold rel in R6. eapply Rle_trans; [exact R6|]. apply Rmult_le_compat_l; [lra|]. unfold Rdiv. rewrite Rabs_mult, Pe, (Rabs_pos_eq (/ INR _)) by (left; apply Rinv_0_lt_compat; lra). apply Tb. }
  assert (Ta : Rabs (value t) <= / 100000 * a).
  { pose proof (rel_bound _ _ _ R6) as [_ Bd]. eapply Rle_trans; [exact Bd|]. unfold Rdiv. rewrite Rabs_mult, Pe, (Rabs_pos_eq (/ INR _)) by (left; apply Rinv_0_lt_compat; lra). change (a ^ (2 * S k + 1) * / INR (2 * S k + 1)) with (a ^ (2 * S k + 1) / INR (2 * S k + 1)).
    apply Rle_trans with (2 * (/ 1000000 * a)); [apply Rmult_le_compat; lra|lra]. }
  (* the size of the sum *)
  pose proof (osum_near v k N H) as Sn. fold a in Sn, A4.
  assert (Ab : INR k * (/ 5000000 * u) * a <= / 1000000 * a).
  { apply Rmult_le_compat_r; [lra|]. apply Rle_trans with (1000 * (/ 5000000 * u)); [apply Rmult_le_compat_r; lra|lra]. }
  assert (Sb : 999 / 1000 * a <= Rabs (value sum) <= 1001 / 1000 * a).
  { pose proof (Rabs_triang_inv (value sum) v) as X1. pose proof (Rabs_triang_inv v (value sum)) as X2. rewrite (Rabs_minus_sym v) in X2. fold a in X1, X2.
    assert (Rabs (value sum - v) <= / 1000 * a); [|lra]. replace (value sum - v) with ((value sum - osum (S k) v) + (osum (S k) v - v)) by ring. eapply Rle_trans; [apply Rabs_triang|]. lra. }
  set (M := ((2 * Z.of_nat (S k) + 1) * (m + 2) + 9)%Z) in *.
  assert (A3' : ok d M sum) by (apply (ok_le d (m + 1)); [unfold M; nia|exact A3]).
  destruct (ok_add d M sum t Hd ltac:(lia) ltac:(unfold M; nia) A3' O5) as [O7 E7]. rewrite (p_17 d) in E7.
  assert (Mx : Rmax (Rabs (value sum)) (Rabs (value t)) <= 2 * a) by (apply Rmax_lub; lra).
  assert (E8 : Rabs (value (add d sum t) - (value sum + value t)) <= / 1000000000000 * u * a).
  { eapply Rle_trans; [exact E7|]. apply Rle_trans with (2 * (u / 100000000000000000) * (2 * a)); [apply Rmult_le_compat_l; lra|]. assert (0 <= u * a) by (apply Rmult_le_pos; lra). lra. }
  assert (E9 : Rabs (value (add d sum t) - osum (S (S k)) v) <= INR (S k) * (/ 5000000 * u) * a).
  { change (osum (S (S k)) v) with (osum (S k) v + v ^ (2 * S k + 1) / INR (2 * S k + 1)).
    replace (value (add d sum t) - (osum (S k) v + v ^ (2 * S k + 1) / INR (2 * S k + 1))) with ((value (add d sum t) - (value sum + value t)) + ((value sum - osum (S k) v) + (value t - v ^ (2 * S k + 1) / INR (2 * S k + 1)))) by ring.
    eapply Rle_trans; [apply Rabs_triang|]. eapply Rle_trans; [apply Rplus_le_compat_l; apply Rabs_triang|]. rewrite (S_INR k). assert (0 <= u * a) by (apply Rmult_le_pos; lra). lra. }
  split; [exact O3'|]. split; [exact R4|]. split; [|exact E9].
  pose proof (osum_near v (S k) N H) as Sn'. fold a in Sn'.
  assert (Sb' : 9 / 10 * a <= Rabs (value (add d sum t)) <= 11 / 10 * a).
  { pose proof (Rabs_triang_inv (value (add d sum t)) (value sum)) as X1. pose proof (Rabs_triang_inv (value sum) (value (add d sum t))) as X2. rewrite (Rabs_minus_sym (value sum)) in X2.
    assert (Q : Rabs (value (add d sum t) - value sum) <= / 10000 * a); [|lra].
    replace (value (add d sum t) - value sum) with ((value (add d sum t) - (value sum + value t)) + value t) by ring. eapply Rle_trans; [apply Rabs_triang|]. assert (/ 1000000000000 * u * a <= / 1000000000000 * 1 * a) by (apply Rmult_le_compat_r; lra). lra. }
  apply (ok_of_bounds d); [apply O7|apply O7|]. destruct Ox as (_ & _ & [Z|[B1 B2]]); [contradiction|]. fold v in B1, B2. fold a in B1, B2.
  replace (- (m + 1))%Z with (- m + - (1))%Z by ring. rewrite !p10_add, (p10_inv 1), p10_1. lra.
Qed.

Lemma a_loop m x fuel : (0 <= m <= 500000)%Z -> ok d m x -> value x <> 0 -> Rabs (value x) <= / 1000 -> forall k xn sum, (k < 1000)%nat -> (1000 <= fuel + k)%nat -> a_inv m (value x) k xn sum ->
  let r := log1p1m2_loop d fuel (2 * Z.of_nat (S k) + 1) (mul d x x) xn sum in
  ok d (m + 1) r /\ Rabs (value r - artanh (value x)) <= / 1000 * u * Rabs (value x).
Proof.
  intros Hm Ox N H. pose proof (u_tiny d Hd) as U. pose proof (Rabs_pos_lt _ N) as Px. destruct (tol_bounds d Hd Hd') as [Tb _].
  induction fuel as [|f IH]; intros k xn sum Hk Hf I; [lia|]. cbn [log1p1m2_loop]. replace (2 * Z.of_nat (S k) + 1 <? max_iteration)%Z with true by (symmetry; apply Z.ltb_lt; unfold max_iteration; lia).
  destruct (a_step m x k xn sum Hm Ox N H ltac:(lia) I) as (I' & Ft & Nt & Rt). cbv zeta in I', Ft, Nt, Rt.
  set (xn' := mul d xn (mul d x x)) in *. set (t := div_int d xn' (2 * Z.of_nat (S k) + 1)) in *.
  destruct I as (A1 & A2 & A3 & A4). set (v := value x) in *. set (a := Rabs v) in *.
  assert (Ik : 0 <= INR k <= 1000) by (split; [apply pos_INR|]; replace 1000 with (INR 1000) by (cbn; ring); apply le_INR; lia).
  pose proof (osum_near v k N H) as Sn. fold a in Sn.
  assert (Ab : INR k * (/ 5000000 * u) * a <= / 5000 * u * a) by (apply Rmult_le_compat_r; [lra|]; replace (/ 5000 * u) with (1000 * (/ 5000000 * u)) by field; apply Rmult_le_compat_r; lra).
  assert (Ua : 0 < u * a <= / 1000000 * a) by (split; [apply Rmult_lt_0_compat; lra|apply Rmult_le_compat_r; lra]).
  assert (Sb : 999 / 1000 * a <= Rabs (value sum) <= 1001 / 1000 * a).
  { pose proof (Rabs_triang_inv (value sum) v) as X1. pose proof (Rabs_triang_inv v (value sum)) as X2. rewrite (Rabs_minus_sym v) in X2. fold a in X1, X2.
    assert (Rabs (value sum - v) <= / 1000 * a); [|lra]. replace (value sum - v) with ((value sum - osum (S k) v) + (osum (S k) v - v)) by ring. eapply Rle_trans; [apply Rabs_triang|]. lra. }
  assert (Ns : value sum <> 0) by (intro Z; rewrite Z, Rabs_R0 in Sb; lra).
  destruct (order_spec d t Hd Ft Nt) as [T1 T2]. destruct (order_spec d sum Hd (proj1 A3) Ns) as [S1 S2].
  destruct (pow_term v (S k) N) as [Pe Pp]. fold a in Pe, Pp. assert (I1 : 1 <= INR (2 * S k + 1)) by (change 1 with (INR 1); apply le_INR; lia). pose proof (Rinv_0_lt_compat (INR (2 * S k + 1)) ltac:(lra)) as Iv.
  pose proof (rel_bound _ _ _ Rt) as [R1 R2]. unfold Rdiv in R1, R2. rewrite Rabs_mult, Pe, (Rabs_pos_eq (/ INR _)) in R1, R2 by lra. change (a ^ (2 * S k + 1) * / INR (2 * S k + 1)) with (a ^ (2 * S k + 1) / INR (2 * S k + 1)) in R1, R2.
  set (T := a ^ (2 * S k + 1) / INR (2 * S k + 1)) in *. assert (T0 : 0 < T) by (apply Rmult_lt_0_compat; assumption).
  destruct ((20 <? 2 * Z.of_nat (S k) + 1)%Z && small_ef d t sum) eqn:C.
  - split; [exact A3|]. apply andb_true_iff in C. destruct C as [_ C]. unfold small_ef in C. apply Z.ltb_lt in C.
    assert (Q : Rabs (value t) <= Rabs (value sum) * p10 (- (d + 4))).
    { apply Rle_trans with (p10 (order t + 1)); [lra|]. apply Rle_trans with (p10 (order sum + - (d + 4))); [apply p10_le; lia|]. rewrite p10_add. apply Rmult_le_compat_r; [left; apply p10_pos|lra]. }
    assert (Q4 : p10 (- (d + 4)) = u / 10000). { replace (- (d + 4))%Z with (- d + - (4))%Z by ring. rewrite p10_add. p10num H4 4%nat. rewrite H4. field. } rewrite Q4 in Q.
    assert (Q5 : Rabs (value sum) * (u / 10000) <= 1001 / 1000 * a * (u / 10000)) by (apply Rmult_le_compat_r; lra).
    assert (Q6 : (1 - / 1000) * T <= (1 - 12 / 100 * u) * T) by (apply Rmult_le_compat_r; lra).
    pose proof (artanh_remainder (S k) v N H) as Rm. fold a in Rm. fold T in Rm.
    replace (value sum - artanh v) with ((value sum - osum (S k) v) + - (artanh v - osum (S k) v)) by ring. eapply Rle_trans; [apply Rabs_triang|]. rewrite Rabs_Ropp. fold a in A4. lra.
  - destruct (Nat.eq_dec (S k) 1000) as [E|E].
    + exfalso. apply andb_false_iff in C. destruct C as [C|C]; [apply Z.ltb_ge in C; lia|]. unfold small_ef in C. apply Z.ltb_ge in C.
      pose proof (small_pow v (S k) H) as Sp. fold a in Sp.
      assert (T < a * p10 (- (5990))).
      { apply Rle_lt_trans with (a ^ (2 * S k + 1)).
        - unfold T, Rdiv. rewrite <- (Rmult_1_r (_ ^ _)) at 2. apply Rmult_le_compat_l; [lra|]. rewrite <- Rinv_1. apply Rinv_le_contravar; lra.
        - eapply Rle_lt_trans; [exact Sp|]. rewrite Rmult_comm. apply Rmult_lt_compat_l; [exact Px|]. apply p10_lt. lia. }
      assert (D1 : p10 (order t) < p10 (order sum + 1 + 1 + - (5990))).
      { rewrite !(p10_add _ 1), p10_1 || idtac. apply Rle_lt_trans with (Rabs (value t)); [exact T1|]. rewrite p10_add. rewrite (p10_add (order sum + 1) 1), p10_1. pose proof (p10_pos (- (5990))) as P9.
        apply Rle_lt_trans with (2 * T); [eapply Rle_trans; [exact R2|]; apply Rmult_le_compat_r; lra|]. apply Rlt_le_trans with (2 * (a * p10 (- (5990)))); [lra|].
        replace (2 * (a * p10 (- (5990)))) with (2 * a * p10 (- (5990))) by ring. apply Rmult_le_compat_r; [lra|]. lra. }
      apply p10_lt_inv in D1. lia.
    + replace (2 * Z.of_nat (S k) + 1 + 2)%Z with (2 * Z.of_nat (S (S k)) + 1)%Z by lia. apply IH; [lia|lia|exact I'].
Qed.

Lemma log1p1m2_accurate m x : (0 <= m <= 500000)%Z -> ok d m x -> value x <> 0 -> Rabs (value x) <= / 1000 ->
  ok d (m + 1) (log1p1m2 d x) /\ Rabs (value (log1p1m2 d x) - artanh (value x)) <= / 1000 * u * Rabs (value x).
Proof.
  intros Hm Ox N H. pose proof (Rabs_le_inv _ _ H) as H'. pose proof (u_tiny d Hd) as U. unfold log1p1m2. rewrite (finite_isfinite d x (proj1 Ox)). cbn [negb]. destruct (one_facts d Hd) as [O1 V1].
  destruct (of_sll_spec d (-1) Hd ltac:(unfold sll_min, sll_max; lia)) as (Fm & _ & Vm & _).
  destruct (cmp_all_ops d x (one_minus d) Hd (proj1 Ox) Fm) as (_ & C1 & _). destruct (cmp_all_ops d x (one d) Hd (proj1 Ox) (proj1 O1)) as (_ & _ & _ & _ & C2 & _).
  assert (L1 : op_le x (one_minus d) = false) by (apply not_true_is_false; intro G; apply C1 in G; unfold one_minus in G; rewrite Vm in G; lra). assert (L2 : op_ge x (one d) = false) by (apply not_true_is_false; intro G; apply C2 in G; lra).
  rewrite L1, L2. cbn [orb]. change 3%Z with (2 * Z.of_nat 1 + 1)%Z.
  assert (G : exists f, f = 5000%nat /\ (1000 <= f + 0)%nat) by (eexists; split; [reflexivity|lia]). destruct G as (f & <- & G).
  apply (a_loop m x f Hm Ox N H 0 x x); [lia|exact G|]. split; [apply (ok_le d m); [lia|exact Ox]|]. split; [|split].
  - cbn [INR]. rewrite Rmult_0_l. replace (value x ^ (2 * 0 + 1)) with (value x) by (cbn; ring). apply rel_refl.
  - apply (ok_le d m); [lia|exact Ox].
  - cbn [osum INR]. replace (0 + value x ^ (2 * 0 + 1) / INR (2 * 0 + 1)) with (value x) by (cbn; field). unfold Rminus. rewrite Rplus_opp_r, Rabs_R0. lra.
Qed.

End FixedDigits.
