(** * C72, C73: accuracy of log1p, of log near one and of atanh of small arguments *)

From Coq Require Import ZArith List Bool Ascii String Reals Lra Lia.
From Verif Require Import Model Spec SpecGen Limbs Value CmpProofs AddProofs Decide OrderProofs OrderDec AddExtra IntProofs IntPartProofs IntConv PowExtra MulCor InvProofs LdexpProofs ModelDiv ModelPow ModelStr ModelConst ModelElem
  ElemProofs SeriesFloat FloatEval ExpReal ExpFloat ExpAcc SinFloat SinAcc SinTiny AtanSer AtanTop LogSer LogAcc LogDiv LogHalf ModelAtanh AtanhAcc AtanhBad.
Import ListNotations.
Open Scope R_scope.

(** C72, for every number of digits up to 4967: for 10^-400000 <= |x| <= 1/1000 the
    relative error of log1p(x) is below 10^-digits10 / 1000.  Missing: other x (see
    the refutation for x = 0), arguments of reduced precision. *)
Theorem C72_log1p_partial :
  forall d x, valid_digits d -> (d <= 4967)%Z -> finite d x -> full d x -> powerRZ 10 (-400000) <= Rabs (value x) <= / 1000 ->
  let r := log1p d x in
  finite d r /\ full d r /\ Rabs (value r - ln (1 + value x)) <= powerRZ 10 (- d) / 1000 * Rabs (ln (1 + value x)).
Proof.
  intros d x Hd D F P [B1 B2] r. pose proof (p10_pos (-400000)) as Q. pose proof (p10_pos (- d)) as U. assert (N : value x <> 0) by (intro Z; rewrite Z, Rabs_R0 in B1; lra).
  assert (O : ok d 400000 x) by (apply (ok_of_bounds d); [exact F|exact P|]; split; [exact B1|]; apply Rle_trans with 1; [lra|]; rewrite <- p10_0; apply p10_le; lia).
  destruct (log_at_one_ok d Hd D 400000 x ltac:(lia) O N B2) as [Or Vr]. split; [apply Or|]. split; [apply Or|]. eapply Rle_trans; [exact Vr|]. apply Rmult_le_compat_r; [apply Rabs_pos|].
  unfold Rdiv. rewrite (Rmult_comm (powerRZ 10 (- d))). apply Rmult_le_compat_r; lra.
Qed.
Print Assumptions C72_log1p_partial.

(** C72, for every number of digits up to 2500: for 10^-100000 <= |x| <= 1/2 the relative
    error of log1p(x) is below (|x|/2 + 1/500) 10^-digits10; in particular the series ends
    before its limit of 10000 steps.  Missing: 1/2 < |x| < 1, more digits, arguments of
    reduced precision. *)
Theorem C72_log1p_half_partial :
  forall d x, valid_digits d -> (d <= 2500)%Z -> finite d x -> full d x -> powerRZ 10 (-100000) <= Rabs (value x) <= / 2 ->
  let r := log1p d x in
  finite d r /\ full d r /\ Rabs (value r - ln (1 + value x)) <= (Rabs (value x) / 2 + / 500) * powerRZ 10 (- d) * Rabs (ln (1 + value x)).
Proof.
  intros d x Hd D F P [B1 B2] r. pose proof (p10_pos (-100000)) as Q. assert (N : value x <> 0) by (intro Z; rewrite Z, Rabs_R0 in B1; lra).
  assert (O : ok d 100000 x) by (apply (ok_of_bounds d); [exact F|exact P|]; split; [exact B1|]; apply Rle_trans with 1; [lra|]; rewrite <- p10_0; apply p10_le; lia).
  destruct (log1p_half d Hd D 100000 x ltac:(lia) O N B2) as [Or Vr]. split; [apply Or|]. split; [apply Or|]. exact Vr.
Qed.
Print Assumptions C72_log1p_half_partial.

(** ... but log1p(0) is NaN. *)
Theorem C72_log1p_refuted :
  forall d, valid_digits d -> (d <= 4967)%Z -> finite d (zero d) /\ value (zero d) = 0 /\ isnan (log1p d (zero d)) = true.
Proof. intros d Hd D. destruct (zero_ok d Hd) as (F & _ & V). split; [exact F|]. split; [exact V|]. exact (log1p_zero d Hd D). Qed.
Print Assumptions C72_log1p_refuted.

(** ... and so is log1p(x) for every |x| >= 1 (up to 10^100000): log1p(1) is NaN and not
    ln 2.  The hypergeometric series is used outside of its disc of convergence; its terms
    never become small against the sum and the loop ends after 10000 steps with NaN. *)
Theorem C72_log1p_diverges_refuted :
  forall d x, valid_digits d -> (d <= 4967)%Z -> finite d x -> full d x -> 1 <= Rabs (value x) <= powerRZ 10 100000 -> isnan (log1p d x) = true.
Proof. intros d x Hd D F P B. exact (log1p_diverges d Hd D x F P B). Qed.
Print Assumptions C72_log1p_diverges_refuted.

(** The hypotheses hold for x = 1 with every number of digits. *)
Example C72_log1p_diverges_hypotheses_met : forall d, valid_digits d -> finite d (one d) /\ full d (one d) /\ value (one d) = 1 /\ 1 <= Rabs (value (one d)) <= powerRZ 10 100000.
Proof.
  intros d Hd. destruct (PowExtra.one_ok d Hd) as (F & P & V). split; [exact F|]. split; [exact P|]. split; [exact V|]. rewrite V, Rabs_R1. split; [lra|]. rewrite <- p10_0. apply p10_le. lia.
Qed.

(** C72, for every number of digits up to 4967: where |x - 1| is between
    10^-(digits10 + 10) and 10^-(digits10/8 + 8), log(x) is computed by the same
    series; its error is below 10^-digits10 times |ln x|/1000 + 10^-15, the last part because
    x - 1 is formed with about 17 digits more than digits10.  Missing: other arguments, for
    which log(x) is computed by a Newton iteration at reduced precision. *)
Theorem C72_log_near_one_partial :
  forall d env x, valid_digits d -> (d <= 4967)%Z -> finite d x -> full d x ->
  powerRZ 10 (- (d + 10)) <= Rabs (value x - 1) <= powerRZ 10 (- (d / 8 + 8)) ->
  exists r, log d env x = Defined r /\ finite d r /\
  Rabs (value r - ln (value x)) <= (Rabs (ln (value x)) / 1000 + powerRZ 10 (-15)) * powerRZ 10 (- d).
Proof.
  intros d env x Hd D F P B. destruct (log_near_one d Hd D env x F P B) as (r & E & Fr & V). exists r. split; [exact E|]. split; [exact Fr|].
  eapply Rle_trans; [exact V|]. apply Rmult_le_compat_r; [left; apply p10_pos|]. change (-15)%Z with (- (15))%Z. p10num H15 15%nat. rewrite H15. lra.
Qed.
Print Assumptions C72_log_near_one_partial.

(** C73, for every number of digits up to 4967: for 10^-400000 <= |x| <= 10^-(digits10/8 + 8)
    the relative error of atanh(x) is below 10^-digits10 / 500, and the
    same holds for log1p1m2(x) up to |x| = 1/1000.  Missing: larger arguments, for
    which atanh(x) uses the logarithm, and arguments of reduced precision. *)
Theorem C73_log1p1m2_partial :
  forall d x, valid_digits d -> (d <= 4967)%Z -> finite d x -> full d x -> powerRZ 10 (-400000) <= Rabs (value x) <= / 1000 ->
  let r := log1p1m2 d x in let a := ln ((1 + value x) / (1 - value x)) / 2 in
  finite d r /\ full d r /\ Rabs (value r - a) <= powerRZ 10 (- d) / 500 * Rabs a.
Proof.
  intros d x Hd D F P [B1 B2] r a. pose proof (p10_pos (-400000)) as Q. pose proof (p10_pos (- d)) as U. assert (N : value x <> 0) by (intro Z; rewrite Z, Rabs_R0 in B1; lra).
  assert (O : ok d 400000 x) by (apply (ok_of_bounds d); [exact F|exact P|]; split; [exact B1|]; apply Rle_trans with 1; [lra|]; rewrite <- p10_0; apply p10_le; lia).
  destruct (log1p1m2_accurate d Hd D 400000 x ltac:(lia) O N B2) as [Or Vr]. split; [apply Or|]. split; [apply Or|]. pose proof (Rabs_le_inv _ _ B2) as B'.
  assert (E : a = artanh (value x)) by (unfold a, artanh, Rdiv; rewrite ln_mult, ln_Rinv by (try apply Rinv_0_lt_compat; lra); ring). rewrite E.
  pose proof (artanh_remainder 1 (value x) N B2) as Rm. cbn [osum] in Rm. replace (0 + value x ^ (2 * 0 + 1) / INR (2 * 0 + 1)) with (value x) in Rm by (cbn; field).
  assert (S : Rabs (value x) / 2 <= Rabs (artanh (value x))).
  { pose proof (Rabs_triang_inv (value x) (artanh (value x))) as T. rewrite (Rabs_minus_sym (value x)) in T.
    assert (101 / 100 * (Rabs (value x) ^ (2 * 1 + 1) / INR (2 * 1 + 1)) <= Rabs (value x) / 2); [|lra]. cbn [Nat.mul Nat.add Rpow_def.pow INR]. pose proof (Rabs_pos_lt _ N) as Px.
    set (y := Rabs (value x)) in *. assert (y * y <= / 1000) by (apply Rle_trans with (/ 1000 * / 1000); [apply Rmult_le_compat; lra|lra]). assert (y * y * y <= / 1000 * y) by (apply Rmult_le_compat_r; lra). lra. }
  eapply Rle_trans; [exact Vr|]. replace (/ 1000 * powerRZ 10 (- d) * Rabs (value x)) with (powerRZ 10 (- d) / 500 * (Rabs (value x) / 2)) by field. apply Rmult_le_compat_l; [lra|exact S].
Qed.
Print Assumptions C73_log1p1m2_partial.

Theorem C73_atanh_partial :
  forall d env x, valid_digits d -> (d <= 4967)%Z -> finite d x -> full d x ->
  powerRZ 10 (-400000) <= Rabs (value x) <= powerRZ 10 (- (d / 8 + 8)) ->
  let a := ln ((1 + value x) / (1 - value x)) / 2 in
  exists r, atanh d env x = Defined r /\ finite d r /\ full d r /\ Rabs (value r - a) <= powerRZ 10 (- d) / 500 * Rabs a.
Proof.
  intros d env x Hd D F P [B1 B2] a. pose proof (p10_pos (-400000)) as Q. assert (N : value x <> 0) by (intro Z; rewrite Z, Rabs_R0 in B1; lra).
  assert (B3 : Rabs (value x) <= / 1000).
  { apply Rle_trans with (powerRZ 10 (- (3))); [eapply Rle_trans; [exact B2|]; apply p10_le; destruct Hd; Z.div_mod_to_equations; lia|]. p10num H3 3%nat. rewrite H3. lra. }
  exists (log1p1m2 d x). destruct (C73_log1p1m2_partial d x Hd D F P (conj B1 B3)) as (X & Y & Z). fold a in Z. split; [|split; [exact X|split; [exact Y|exact Z]]].
  unfold atanh. rewrite (finite_isfinite d x F). cbn [negb]. destruct (one_facts d Hd) as [O1 V1]. pose proof (fabs_finite d x F) as Ff. pose proof (fabs_value d x Hd F) as Vf.
  destruct (cmp_all_ops d (fabs x) (one d) Hd Ff (proj1 O1)) as (_ & _ & _ & _ & C2 & _).
  assert (L2 : op_ge (fabs x) (one d) = false) by (apply not_true_is_false; intro G; apply C2 in G; lra). rewrite L2.
  assert (S : small_arg d x = true).
  { unfold small_arg. apply Z.ltb_lt. destruct (order_spec d x Hd F N) as [A _]. apply p10_lt_inv. eapply Rle_lt_trans; [exact A|]. eapply Rle_lt_trans; [exact B2|]. apply p10_lt.
    unfold arg_limit, tolerance, max_digits10. destruct Hd. rewrite Z.quot_div_nonneg by (Z.div_mod_to_equations; lia). Z.div_mod_to_equations; lia. }
  rewrite S. cbn [omap]. destruct (iszero_isneg_spec d (fabs x) Hd Ff) as [_ Ns].
  assert (G0 : isneg (fabs x) = false) by (apply not_true_is_false; intro G; apply Ns in G; rewrite Vf in G; pose proof (Rabs_pos (value x)); lra). rewrite G0. reflexivity.
Qed.
Print Assumptions C73_atanh_partial.

(** ... but close to 1 the series is cut off after 4999 terms without a notice: for
    1 - 10^-20 <= x < 1 the result of log1p1m2(x) is finite and at most 9 while the value
    is at least 20. *)
Theorem C73_log1p1m2_refuted :
  forall d x, valid_digits d -> (d <= 4967)%Z -> finite d x -> full d x -> 1 - powerRZ 10 (-20) <= value x < 1 ->
  finite d (log1p1m2 d x) /\ value (log1p1m2 d x) <= 9 /\ 20 <= ln ((1 + value x) / (1 - value x)) / 2.
Proof.
  intros d x Hd D F P B. destruct (log1p1m2_bad d Hd D x F P B) as [R V]. split; [exact R|]. split; [exact V|].
  pose proof (artanh_big (value x) B) as G. unfold artanh in G. pose proof (p10_le (-20) 0 ltac:(lia)) as Q. rewrite p10_0 in Q.
  unfold Rdiv at 2. rewrite ln_mult, ln_Rinv by (try apply Rinv_0_lt_compat; lra). lra.
Qed.
Print Assumptions C73_log1p1m2_refuted.

(** atanh of a finite x with |x| >= 1 is NaN. *)
Theorem C73_atanh_outside :
  forall d env x, valid_digits d -> finite d x -> 1 <= Rabs (value x) -> exists r, atanh d env x = Defined r /\ isnan r = true.
Proof.
  intros d env x Hd F B. unfold atanh. rewrite (finite_isfinite d x F). cbn [negb]. destruct (PowExtra.one_ok d Hd) as (F1 & _ & V1).
  destruct (cmp_all_ops d (fabs x) (one d) Hd (fabs_finite d x F) F1) as (_ & _ & _ & _ & C2 & _). rewrite (fabs_value d x Hd F), V1 in C2.
  rewrite (proj2 C2) by lra. eexists. split; [reflexivity|]. reflexivity.
Qed.
Print Assumptions C73_atanh_outside.

Lemma div_int_bounds d m : valid_digits d -> (1 <= m < 100000000)%Z -> let x := div_int d (one d) m in
  finite d x /\ full d x /\ 9 / 10 / IZR m <= value x <= 11 / 10 / IZR m.
Proof.
  intros Hd Hm x. destruct (one_facts d Hd) as [O V]. pose proof (u_tiny d Hd) as U. destruct (ok_div_int d Hd 1 (one d) m ltac:(lia) O ltac:(lra) Hm) as (A & B & C).
  split; [apply A|]. split; [apply A|]. unfold rel in C. rewrite V in C. assert (M : 1 <= IZR m) by (apply IZR_le; lia). pose proof (Rinv_0_lt_compat (IZR m) ltac:(lra)) as I.
  unfold Rdiv in C at 2 3. rewrite Rmult_1_l, (Rabs_pos_eq (/ IZR m)) in C by lra. apply Rabs_le_inv in C. fold x in C. assert (powerRZ 10 (- d) / 10 * / IZR m <= / 10 * / IZR m) by (apply Rmult_le_compat_r; lra). lra.
Qed.

Example C72_log1p_hypotheses_met :
  exists d x, valid_digits d /\ (d <= 4967)%Z /\ finite d x /\ full d x /\ powerRZ 10 (-400000) <= Rabs (value x) <= / 1000.
Proof.
  exists 30%Z, (div_int 30 (one 30) 2000). assert (Hd : valid_digits 30) by (unfold valid_digits; lia). destruct (div_int_bounds 30 2000 Hd ltac:(lia)) as (F & P & B).
  split; [exact Hd|]. split; [lia|]. split; [exact F|]. split; [exact P|]. rewrite Rabs_pos_eq by lra. split; [|lra].
  apply Rle_trans with (powerRZ 10 (- (10))); [apply p10_le; lia|]. p10num H10 10%nat. rewrite H10. lra.
Qed.

(** The hypotheses hold for 1/3 with every number of digits up to 2500. *)
Example C72_log1p_half_hypotheses_met :
  forall d, valid_digits d -> (d <= 2500)%Z -> let x := div_int d (one d) 3 in
  finite d x /\ full d x /\ powerRZ 10 (-100000) <= Rabs (value x) <= / 2 /\ / 4 <= value x.
Proof.
  intros d Hd D x. destruct (div_int_bounds d 3 Hd ltac:(lia)) as (F & P & B). fold x in F, P, B.
  split; [exact F|]. split; [exact P|]. rewrite Rabs_pos_eq by lra. split; [|lra]. split; [|lra].
  apply Rle_trans with (powerRZ 10 (- (10))); [apply p10_le; lia|]. p10num H10 10%nat. rewrite H10. lra.
Qed.

(** The hypotheses hold for 1 - 10^-24 with 30 digits. *)
Example C73_log1p1m2_refuted_hypotheses_met :
  exists d x, valid_digits d /\ (d <= 4967)%Z /\ finite d x /\ full d x /\ 1 - powerRZ 10 (-20) <= value x < 1.
Proof.
  set (x := of_limbs 30 [99999999; 99999999; 99999999]%Z (-8) false). exists 30%Z, x. assert (Hd : valid_digits 30) by (unfold valid_digits; lia).
  split; [exact Hd|]. split; [lia|]. split; [apply Decide.wfb_finite; vm_compute; reflexivity|]. split; [vm_compute; reflexivity|].
  assert (V : value x = 1 - powerRZ 10 (- (24))).
  { assert (L : neg x = false /\ Model.exp x = (- (8))%Z /\ data x = [99999999; 99999999; 99999999; 0; 0; 0; 0]%Z) by (vm_compute; repeat split; reflexivity). destruct L as (L1 & L2 & L3).
    unfold value. rewrite L1, L2, L3. cbn [limbs_value sign]. change (- (8) - 8)%Z with (- (16))%Z. change (- (16) - 8)%Z with (- (24))%Z.
    p10num H8 8%nat. p10num H16 16%nat. p10num H24 24%nat. rewrite H8, H16, H24. lra. }
  rewrite V. pose proof (p10_pos (- (24))). pose proof (p10_le (- (24)) (-20) ltac:(lia)). lra.
Qed.

Example C73_atanh_hypotheses_met :
  exists d x, valid_digits d /\ (d <= 4967)%Z /\ finite d x /\ full d x /\ powerRZ 10 (-400000) <= Rabs (value x) <= powerRZ 10 (- (d / 8 + 8)) /\ value x <> 0.
Proof.
  exists 30%Z, (of_limbs 30 [3]%Z (-16) false). assert (Hd : valid_digits 30) by (unfold valid_digits; lia). destruct (of_limbs1 30 3 (-16) Hd ltac:(lia) eq_refl) as (F & P & V).
  split; [exact Hd|]. split; [lia|]. split; [exact F|]. split; [exact P|]. rewrite V. pose proof (p10_pos (-16)) as Q. rewrite Rabs_pos_eq by lra. split; [|lra]. split.
  - apply Rle_trans with (powerRZ 10 (-16)); [apply p10_le; lia|lra].
  - apply Rle_trans with (powerRZ 10 (-16 + 1)); [rewrite (p10_add (-16) 1), p10_1; lra|]. apply p10_le. vm_compute. discriminate.
Qed.

Example C72_log_near_one_hypotheses_met :
  exists d x, valid_digits d /\ (d <= 4967)%Z /\ finite d x /\ full d x /\ powerRZ 10 (- (d + 10)) <= Rabs (value x - 1) <= powerRZ 10 (- (d / 8 + 8)).
Proof.
  exists 30%Z, (add 30 (one 30) (of_limbs 30 [3]%Z (-16) false)). assert (Hd : valid_digits 30) by (unfold valid_digits; lia). destruct (of_limbs1 30 3 (-16) Hd ltac:(lia) eq_refl) as (F & P & V).
  destruct (one_facts 30 Hd) as [O1 V1]. change (-16)%Z with (- (16))%Z in V at 2. p10num H16 16%nat. rewrite H16 in V.
  assert (O2 : ok 30 16 (of_limbs 30 [3]%Z (-16) false)).
  { apply (ok_of_bounds 30); [exact F|exact P|]. rewrite V, H16. rewrite Rabs_pos_eq by lra. split; [lra|]. apply Rle_trans with (powerRZ 10 0); [rewrite p10_0; lra|apply p10_le; lia]. }
  destruct (ok_add 30 16 (one 30) _ Hd ltac:(lia) ltac:(lia) (ok_le 30 1 16 _ ltac:(lia) O1) O2) as [O3 E3]. rewrite V1, V in E3. rewrite Rabs_R1, Rmax_left in E3 by (rewrite Rabs_pos_eq; lra).
  assert (Q : powerRZ 10 (- (30 + 17)) <= powerRZ 10 (- (40))) by (apply p10_le; lia). p10num H40 40%nat. rewrite H40 in Q. apply Rabs_le_inv in E3.
  split; [exact Hd|]. split; [lia|]. split; [apply O3|]. split; [apply O3|]. rewrite Rabs_pos_eq by lra. change (- (30 + 10))%Z with (- (40))%Z. change (- (30 / 8 + 8))%Z with (- (11))%Z. p10num H11 11%nat. rewrite H40, H11. lra.
Qed.
