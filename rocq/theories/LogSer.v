(** * Accuracy of log1p and of the logarithm near one (proofs only) *)

From Coq Require Import ZArith List Bool Reals Lra Lia Psatz.
From Verif Require Import Model Spec SpecGen Limbs Value CmpProofs AddProofs Decide OrderProofs OrderDec AddExtra MulProofs MulValue MulExtra MulCor
  IntProofs IntPartProofs IntConv MixedProofs IntCor ModelDiv DoubleProofs NewtonProofs InvProofs SqrtProofs ModelPow PowGen PowProofs PowExtra LdexpProofs
  StrAny FloatEval ModelGen ModelElem ElemProofs SeriesFloat ExpReal ExpFloat ExpAcc ConstReal SinReal SinFloat SinStep SinAcc HyperFloat AtanSer.
Import ListNotations.
Open Scope R_scope.
Ltac Zify.zify_post_hook ::= Z.div_mod_to_equations.
Local Notation p10 := (powerRZ 10).

(** ** Real numbers: the series of ln (1 + x) *)

Fixpoint lsum (n : nat) (x : R) : R := match n with O => 0 | S k => lsum k x + (-1) ^ k * x ^ (S k) / INR (S k) end.
Fixpoint gsum (n : nat) (x : R) : R := match n with O => 0 | S k => gsum k x + (- x) ^ k end.

Lemma gsum_closed n x : gsum n x * (1 + x) = 1 - (- x) ^ n.
Proof. induction n as [|n IH]; cbn [gsum Rpow_def.pow]; [ring|]. rewrite Rmult_plus_distr_r, IH. ring. Qed.

Lemma lsum_deriv n x : derivable_pt_lim (lsum n) x (gsum n x).
Proof.
  induction n as [|n IH]; [apply derivable_pt_lim_const|].
  change (lsum (S n)) with (plus_fct (lsum n) (fun y => (-1) ^ n * y ^ S n / INR (S n))). cbn [gsum]. apply derivable_pt_lim_plus; [exact IH|].
  replace ((- x) ^ n) with ((-1) ^ n / INR (S n) * (INR (S n) * x ^ pred (S n))).
  2: { cbn [pred]. replace (- x) with (-1 * x) by ring. rewrite Rpow_mult_distr. field. apply not_0_INR. lia. }
  apply (derivable_pt_lim_ext (mult_real_fct ((-1) ^ n / INR (S n)) (fun y => y ^ S n))).
  - intro y. unfold mult_real_fct. field. apply not_0_INR. lia.
  - apply derivable_pt_lim_scal. apply derivable_pt_lim_pow.
Qed.

Lemma ln1_deriv x : 0 < 1 + x -> derivable_pt_lim (fun y => ln (1 + y)) x (/ (1 + x)).
Proof.
  intro H. replace (/ (1 + x)) with (/ (1 + x) * 1) by ring. apply (derivable_pt_lim_comp (fun y => 1 + y) ln x 1).
  - replace 1 with (0 + 1) at 1 by ring. apply derivable_pt_lim_plus; [apply derivable_pt_lim_const|apply derivable_pt_lim_id].
  - apply derivable_pt_lim_ln. exact H.
Qed.

Lemma ln_remainder n x : Rabs x <= / 2 -> Rabs (ln (1 + x) - lsum n x) <= 2 * Rabs x ^ S n.
Proof.
  intro H. pose proof (Rabs_le_inv _ _ H) as H'.
  assert (D : forall t, 0 < 1 + t -> derivable_pt_lim (minus_fct (fun y => ln (1 + y)) (lsum n)) t ((- t) ^ n / (1 + t))).
  { intros t Ht. replace ((- t) ^ n / (1 + t)) with (/ (1 + t) - gsum n t).
    - apply derivable_pt_lim_minus; [apply ln1_deriv; exact Ht|apply lsum_deriv].
    - apply (Rmult_eq_reg_r (1 + t)); [|lra]. rewrite Rmult_minus_distr_r, gsum_closed. field. lra. }
  assert (Z : (minus_fct (fun y => ln (1 + y)) (lsum n)) 0 = 0).
  { unfold minus_fct. rewrite Rplus_0_r, ln_1. replace (lsum n 0) with 0; [ring|]. clear. induction n as [|n IH]; [reflexivity|]. cbn [lsum]. rewrite <- IH, pow_i by lia. field. apply not_0_INR. lia. }
  assert (B : forall t, Rabs t <= Rabs x -> Rabs ((- t) ^ n / (1 + t)) <= 2 * Rabs x ^ n).
  { intros t Ht. assert (Ht' : Rabs t <= / 2) by lra. apply Rabs_le_inv in Ht'. unfold Rdiv. rewrite Rabs_mult, <- RPow_abs, Rabs_Ropp, (Rabs_pos_eq (/ (1 + t))) by (left; apply Rinv_0_lt_compat; lra).
    rewrite Rmult_comm. apply Rmult_le_compat; [left; apply Rinv_0_lt_compat; lra|apply pow_le, Rabs_pos| |apply pow_incr; split; [apply Rabs_pos|exact Ht]].
    replace 2 with (/ / 2) by field. apply Rinv_le_contravar; lra. }
  replace (ln (1 + x) - lsum n x) with ((minus_fct (fun y => ln (1 + y)) (lsum n)) x) by reflexivity.
  destruct (Rtotal_order 0 x) as [L|[<-|L]].
  - destruct (MVT_cor2 (minus_fct (fun y => ln (1 + y)) (lsum n)) (fun t => (- t) ^ n / (1 + t)) 0 x L) as (c & E & Hc); [intros t Ht; apply D; lra|].
    rewrite Z, Rminus_0_r, Rminus_0_r in E. rewrite E, Rabs_mult. cbn [Rpow_def.pow]. rewrite <- Rmult_assoc, (Rmult_comm (2 * Rabs x)), <- Rmult_assoc, (Rmult_comm (_ ^ n)). apply Rmult_le_compat_r; [apply Rabs_pos|]. apply B. rewrite !Rabs_pos_eq by lra. lra.
  - rewrite Z, Rabs_R0. cbn [Rpow_def.pow]. lra.
  - destruct (MVT_cor2 (minus_fct (fun y => ln (1 + y)) (lsum n)) (fun t => (- t) ^ n / (1 + t)) x 0 L) as (c & E & Hc); [intros t Ht; apply D; lra|].
    rewrite Z in E. replace ((minus_fct (fun y => ln (1 + y)) (lsum n)) x) with (- (0 - (minus_fct (fun y => ln (1 + y)) (lsum n)) x)) by ring. rewrite E, Rabs_Ropp, Rabs_mult. replace (0 - x) with (- x) by ring. rewrite Rabs_Ropp.
    cbn [Rpow_def.pow]. rewrite <- Rmult_assoc, (Rmult_comm (2 * Rabs x)), <- Rmult_assoc, (Rmult_comm (_ ^ n)). apply Rmult_le_compat_r; [apply Rabs_pos|]. apply B. rewrite !Rabs_left1 by lra. lra.
Qed.

Lemma g_log_term z n : g_term 1 1 2 z (Z.of_nat n) = z ^ n / INR (S n).
Proof.
  induction n as [|n IH].
  - change (Z.of_nat 0) with 0%Z. rewrite g_term_0. cbn. field.
  - rewrite Nat2Z.inj_succ. unfold Z.succ. rewrite g_term_step, IH by (try lra; lia). rewrite plus_IZR, <- INR_IZR_INZ, <- tech_pow_Rmult, !S_INR. pose proof (pos_INR n). field; lra.
Qed.

Lemma lsum_terms x n : lsum (S n) x = x * sum_f_R0 (fun i => g_term 1 1 2 (- x) (Z.of_nat i)) n.
Proof.
  induction n as [|n IH].
  - cbn [lsum sum_f_R0]. rewrite g_log_term. cbn. field.
  - change (lsum (S (S n)) x) with (lsum (S n) x + (-1) ^ S n * x ^ S (S n) / INR (S (S n))). rewrite IH. cbn [sum_f_R0]. rewrite g_log_term, Rmult_plus_distr_l. f_equal.
    replace (- x) with (-1 * x) by ring. rewrite Rpow_mult_distr. rewrite <- (tech_pow_Rmult x (S n)). field. apply not_0_INR. lia.
Qed.

Lemma log_series x : x <> 0 -> Rabs x <= / 1000 -> infinite_sum (fun i => g_term 1 1 2 (- x) (Z.of_nat i)) (ln (1 + x) / x).
Proof.
  intros N H eps He. pose proof (Rabs_pos_lt x N) as P. destruct (pow_lt_1_zero (Rabs x)) with (y := eps / 2) as [M HM].
  - rewrite Rabs_Rabsolu. lra.
  - lra.
  - exists M. intros n Hn. unfold R_dist. set (s := sum_f_R0 _ n). assert (E : s = lsum (S n) x / x) by (rewrite lsum_terms; fold s; field; exact N). rewrite E.
    replace (lsum (S n) x / x - ln (1 + x) / x) with (- ((ln (1 + x) - lsum (S n) x) / x)) by (field; exact N). rewrite Rabs_Ropp. unfold Rdiv. rewrite Rabs_mult, Rabs_inv.
    apply (Rmult_lt_reg_r (Rabs x)); [exact P|]. rewrite Rmult_assoc, Rinv_l, Rmult_1_r by lra. pose proof (ln_remainder (S n) x ltac:(lra)) as R. eapply Rle_lt_trans; [exact R|].
    specialize (HM (S n) ltac:(lia)). rewrite Rabs_pos_eq in HM by (apply pow_le, Rabs_pos). rewrite <- tech_pow_Rmult. rewrite <- Rmult_assoc, (Rmult_comm (2 * Rabs x)), <- Rmult_assoc. apply Rmult_lt_compat_r; [exact P|]. lra.
Qed.

Lemma log_quotient x : x <> 0 -> Rabs x <= / 1000 -> 99 / 100 <= ln (1 + x) / x <= 101 / 100.
Proof.
  intros N H. pose proof (ln_remainder 1 x ltac:(lra)) as R. cbn [lsum Rpow_def.pow INR] in R. replace (0 + 1 * (x * 1) / 1) with x in R by field. pose proof (Rabs_pos_lt x N) as P.
  assert (Q : Rabs (ln (1 + x) / x - 1) <= / 100).
  { replace (ln (1 + x) / x - 1) with ((ln (1 + x) - x) / x) by (field; exact N). unfold Rdiv. rewrite Rabs_mult, Rabs_inv. apply (Rmult_le_reg_r (Rabs x)); [exact P|]. rewrite Rmult_assoc, Rinv_l, Rmult_1_r by lra. nra. }
  apply Rabs_le_inv in Q. lra.
Qed.

Section FixedDigits.
Variable d : Z.
Hypothesis Hd : valid_digits d.
Hypothesis Hd' : (d <= 4967)%Z.
Local Notation u := (p10 (- d)).

Lemma two_facts : ok d 1 (two d) /\ value (two d) = 2.
Proof.
  pose proof (of_ull_spec d 2 Hd ltac:(lia)) as (F & P & V & _). assert (V' : value (two d) = 2) by exact V. split; [|exact V'].
  apply (ok_of_bounds d); [exact F|exact P|]. rewrite V', (p10_inv 1), p10_1, Rabs_pos_eq by lra. lra.
Qed.

Lemma log_at_one_ok m x : (0 <= m <= 499000)%Z -> ok d m x -> value x <> 0 -> Rabs (value x) <= / 1000 ->
  let r := log_at_one d x in
  ok d (m + 2) r /\ Rabs (value r - ln (1 + value x)) <= (25 / 100 * Rabs (value x) + / 50000) * u * Rabs (ln (1 + value x)).
Proof.
  intros Hm Ox N Hx r. pose proof (u_small d Hd) as U. destruct (one_facts d Hd) as [O1 V1]. destruct two_facts as [O2 V2]. destruct (ok_negate d m x Hd Ox) as [On Vn].
  destruct (h2f1_ok d Hd Hd' m 1 1 2 (one d) (one d) (two d) (negate x) (ln (1 + value x) / value x)) as (Oh & Vh & Bh); try assumption; try lra.
  { lia. } { rewrite Vn, Rabs_Ropp. exact Hx. } { rewrite Vn. apply log_series; assumption. }
  set (h := h2f1 d (one d) (one d) (two d) (negate x)) in *. destruct (ok_rel_mul d Hd Hd' m 1 x h ltac:(lia) ltac:(lia) ltac:(lia) Ox Oh) as [Or Rr]. change (mul d x h) with r in Or, Rr.
  split; [apply (ok_le d (m + 1 + 1)); [lia|exact Or]|]. rewrite Vn, Rabs_Ropp in Bh. pose proof (log_quotient (value x) N Hx) as Q. set (L := ln (1 + value x) / value x) in *.
  replace (ln (1 + value x)) with (value x * L) by (unfold L; field; exact N). pose proof (Rabs_pos_lt _ N) as P. set (a := Rabs (value x)) in *.
  replace (value r - value x * L) with ((value r - value x * value h) + value x * (value h - L)) by ring. eapply Rle_trans; [apply Rabs_triang|].
  rewrite !Rabs_mult. fold a. rewrite (Rabs_pos_eq L) by lra. unfold rel in Rr. rewrite Rabs_mult, (Rabs_pos_eq (value h)) in Rr by lra. fold a in Rr.
  assert (X1 : u / 1000000 * (a * value h) <= u / 1000000 * (a * 2)) by (apply Rmult_le_compat_l; [lra|]; apply Rmult_le_compat_l; lra).
  assert (X2 : a * Rabs (value h - L) <= a * ((22 / 100 * a + / 100000) * u)) by (apply Rmult_le_compat_l; lra).
  assert (X4 : 0 <= u * a) by (apply Rmult_le_pos; lra). assert (X5 : 0 <= u * a * a) by (apply Rmult_le_pos; lra).
  assert (X6 : (25 / 100 * a + / 50000) * u * a * (99 / 100) <= (25 / 100 * a + / 50000) * u * (a * L)).
  { rewrite <- Rmult_assoc. apply Rmult_le_compat_l; [|lra]. apply Rmult_le_pos; [apply Rmult_le_pos; lra|lra]. }
  lra.
Qed.

End FixedDigits.
