(** * Accuracy of the arc tangent: the Newton iteration (proofs only) *)

From Coq Require Import ZArith List Bool Reals Lra Lia Psatz.
From Verif Require Import Model Spec SpecGen Limbs Value CmpProofs AddProofs Decide OrderProofs OrderDec AddExtra MulProofs MulValue MulExtra MulCor
  IntProofs IntPartProofs IntConv MixedProofs IntCor ModelDiv DoubleProofs NewtonProofs InvProofs SqrtProofs ModelPow PowGen PowProofs PowExtra LdexpProofs
  StrAny FloatEval ModelGen ModelElem ElemProofs SeriesFloat ExpReal ExpFloat ExpAcc ConstReal SinReal SinFloat SinStep SinAcc.
Import ListNotations.
Open Scope R_scope.
Ltac Zify.zify_post_hook ::= Z.div_mod_to_equations.
Local Notation p10 := (powerRZ 10).
Local Notation exp := Rtrigo_def.exp.
Local Notation sin := Rtrigo_def.sin.
Local Notation cos := Rtrigo_def.cos.
Local Notation tan := Rtrigo1.tan.
Local Notation atan := Ratan.atan.
Local Notation sqrt := R_sqrt.sqrt.

Lemma sin_cubic t : Rabs t <= 1 -> Rabs (sin t - t) <= Rabs t * Rabs t * Rabs t / 3.
Proof.
  intro H. assert (P : forall s, 0 <= s <= 1 -> Rabs (sin s - s) <= s * s * s / 3).
  { intros s Hs. pose proof (sin_lower s Hs) as L. pose proof (sin_le s) as U. rewrite (Rabs_pos_eq s) in U by lra. apply Rabs_le_inv in U. apply Rabs_le. lra. }
  destruct (Rle_dec 0 t) as [T|T].
  - rewrite (Rabs_pos_eq t) in * by lra. apply P. lra.
  - rewrite (Rabs_left t) in * by lra. specialize (P (- t) ltac:(lra)). rewrite sin_neg in P. replace (sin t - t) with (- (- sin t - - t)) by ring. rewrite Rabs_Ropp. exact P.
Qed.

(** One exact step: the error is squared. *)
Lemma atan_newton th v : 0 < cos th -> Rabs (th - v) <= / 2 ->
  Rabs (v + cos v * (tan th * cos v - sin v) - th) <= (Rabs (tan th) + 1) * ((th - v) * (th - v)).
Proof.
  intros C H. set (e := th - v) in *. replace v with (th - e) by (unfold e; ring).
  assert (E : th - e + cos (th - e) * (tan th * cos (th - e) - sin (th - e)) - th = (sin (2 * e) - 2 * e) / 2 + tan th * (sin e * sin e)).
  { assert (I : tan th * cos (th - e) - sin (th - e) = sin e / cos th).
    { rewrite cos_minus, sin_minus. unfold Rtrigo1.tan. pose proof (sin2_cos2 th) as P2. unfold Rsqr in P2.
      transitivity (sin e * (sin th * sin th + cos th * cos th) / cos th); [field; lra|rewrite P2; field; lra]. }
    rewrite I, cos_minus, sin_2a. unfold Rtrigo1.tan. field. lra. }
  rewrite E. eapply Rle_trans; [apply Rabs_triang|].
  assert (Q : Rabs (2 * e) <= 1) by (rewrite Rabs_mult, (Rabs_pos_eq 2) by lra; lra).
  pose proof (sin_cubic (2 * e) Q) as B. rewrite Rabs_mult, (Rabs_pos_eq 2) in B by lra.
  unfold Rdiv at 1. rewrite Rabs_mult, (Rabs_pos_eq (/ 2)) by lra. rewrite Rabs_mult.
  pose proof (sin_le e) as S1. pose proof (Rabs_pos e) as P0. pose proof (Rabs_pos (sin e)) as P1.
  assert (E2 : e * e = Rabs e * Rabs e) by (rewrite <- Rabs_mult; symmetry; apply Rabs_pos_eq; nra).
  assert (S2 : Rabs (sin e * sin e) <= Rabs e * Rabs e) by (rewrite Rabs_mult; apply Rmult_le_compat; assumption).
  rewrite E2. assert (A : Rabs (tan th) * Rabs (sin e * sin e) <= Rabs (tan th) * (Rabs e * Rabs e)) by (apply Rmult_le_compat_l; [apply Rabs_pos|exact S2]).
  assert (D : Rabs e * Rabs e * Rabs e <= Rabs e * Rabs e * / 2) by (apply Rmult_le_compat_l; [apply Rmult_le_pos; assumption|exact H]).
  assert (0 <= Rabs e * Rabs e) by (apply Rmult_le_pos; assumption). lra.
Qed.

Lemma sin_half v : 0 <= v <= 158 / 100 -> v / 2 <= sin v.
Proof.
  intro H. destruct (Rle_dec v 1) as [L|L].
  - pose proof (sin_lower v ltac:(lra)). nra.
  - pose proof pi_bounds. rewrite sin_of_delta. pose proof (cos_bounds (PI / 2 - v)) as B. set (t := PI / 2 - v) in *.
    assert (T : Rabs t <= 571 / 1000) by (apply Rabs_le; unfold t; lra). specialize (B ltac:(lra)).
    assert (t * t <= 571 / 1000 * (571 / 1000)) by (rewrite <- (Rabs_pos_eq (t * t)) by nra; rewrite Rabs_mult; apply Rmult_le_compat; auto; apply Rabs_pos). nra.
Qed.

(** Facts on the arc tangent of a positive number *)
Lemma atan_facts x : 0 < x -> let th := atan x in
  0 < th < 1571 / 1000 /\ tan th = x /\ 0 < cos th <= 1 /\ / (1 + x) <= cos th /\ 0 < sin th <= th /\ sin th = x * cos th /\ x <= (1 + x) * th.
Proof.
  intros H th. pose proof (atan_bound x) as B. fold th in B. pose proof pi_bounds as PB. assert (T : tan th = x) by apply tan_atan.
  assert (P : 0 < th) by (unfold th; rewrite <- atan_0; apply atan_increasing; exact H).
  assert (C : 0 < cos th) by (apply cos_gt_0; lra). pose proof (COS_bound th) as C1. assert (S1 : 0 < sin th) by (apply sin_gt_0; lra).
  assert (S2 : sin th = x * cos th) by (rewrite <- T; unfold Rtrigo1.tan; field; lra).
  assert (S3 : sin th <= th) by (left; apply sin_lt_x; exact P).
  assert (Q : / (1 + x) <= cos th).
  { apply (Rmult_le_reg_r (1 + x)); [lra|]. rewrite Rinv_l by lra. pose proof (sin2_cos2 th) as E. unfold Rsqr in E. rewrite S2 in E. nra. }
  repeat split; try assumption; try lra.
  apply (Rmult_le_reg_r (cos th)); [exact C|]. rewrite <- S2.
  assert (1 <= (1 + x) * cos th). { apply (Rmult_le_reg_l (/ (1 + x))); [apply Rinv_0_lt_compat; lra|]. rewrite <- Rmult_assoc, Rinv_l by lra. lra. }
  nra.
Qed.

Section FixedDigits.
Variable d : Z.
Hypothesis Hd : valid_digits d.
Hypothesis Hd' : (d <= 4967)%Z.
Variable env : env.
Local Notation u := (p10 (- d)).
Hypothesis Hpi : close_to d (c_pi env) PI.

(** One step in floating point *)
Lemma atan_step xx v Y e : ok d 1000 xx -> 0 < value xx -> 1 + value xx <= Y <= p10 1000 -> p10 (- (5000)) <= atan (value xx) ->
  0 <= e -> Y * e <= / 1000000 -> Y * u <= / 1000000 ->
  finite d v -> full d v -> Rabs (value v - atan (value xx)) <= e * atan (value xx) ->
  let s := ModelElem.sin d env v in let c := ModelElem.cos d env v in
  let w := add d v (mul d c (sub d (mul d xx c) s)) in
  finite d w /\ full d w /\ Rabs (value w - atan (value xx)) <= (16 / 10 * Y * (e * e) + 12 / 10 * u) * atan (value xx).
Proof.
  intros Ox Px HY Hlow He HYe HYu Fv Pv Hv s c w. pose proof (u_tiny d Hd) as U.
  set (x := value xx) in *. destruct (atan_facts x Px) as (T0 & T1 & T2 & T3 & T4 & T5 & T6). set (th := atan x) in *.
  assert (Y1 : 1 <= Y) by lra. assert (e1 : e <= / 1000000) by nra. set (V := value v) in *.
  assert (DV : Rabs (V - th) <= / 100000) by nra.
  assert (VB : 999 / 1000 * th <= V <= 1001 / 1000 * th) by (apply Rabs_le_inv in Hv; nra).
  assert (VB2 : 0 < V <= 158 / 100) by (apply Rabs_le_inv in DV; nra).
  assert (P5 : p10 (- (5001)) <= V).
  { assert (p10 (- (5001)) = p10 (- (5000)) / 10). { replace (- (5001))%Z with (- (5000) + - (1))%Z by reflexivity. rewrite p10_add, (p10_inv 1), p10_1. lra. }
    pose proof (p10_pos (- (5000))). lra. }
  assert (Ov : ok d 5001 v).
  { apply (ok_of_bounds d); [exact Fv|exact Pv|]. fold V. rewrite Rabs_pos_eq by lra. split; [exact P5|]. pose proof (p10_le 1 5001 ltac:(lia)) as Q. rewrite p10_1 in Q. lra. }
  assert (Ov3 : ok d 300000 v) by (apply (ok_le d 5001); [lia|exact Ov]).
  assert (Bv : Rabs (value v) <= 300000000) by (fold V; rewrite Rabs_pos_eq; lra).
  destruct (sin_accurate d Hd Hd' env Hpi v Ov3 Bv) as (Fs & Ps & Es). destruct (cos_accurate d Hd Hd' env Hpi v Ov3 Bv) as (Fc & Pc & Ec).
  fold s in Fs, Ps, Es. fold c in Fc, Pc, Ec. fold V in Es, Ec. rewrite (Rabs_pos_eq V) in Es, Ec by lra.
  assert (Es' : Rabs (value s - sin V) <= 501 / 1000 * V * u).
  { eapply Rle_trans; [exact Es|]. apply Rmult_le_compat_r; [lra|]. pose proof (Rmin_r 1 V). lra. }
  assert (Ec' : Rabs (value c - cos V) <= 6667 / 10000 * u).
  { eapply Rle_trans; [exact Ec|]. apply Rmult_le_compat_r; lra. }
  clear Es Ec. set (S := sin V) in *. set (C := cos V) in *. set (sv := value s) in *. set (cv := value c) in *.
  (* the exact values *)
  assert (S0 : V / 2 <= S <= V). { split; [apply sin_half; lra|]. unfold S. left. apply sin_lt_x. lra. }
  assert (C0 : C <= 1) by (pose proof (COS_bound V); unfold C; lra).
  assert (IY : 0 < / Y <= 1 /\ / Y <= cos th /\ Y * / Y = 1).
  { split; [split; [apply Rinv_0_lt_compat; lra|rewrite <- Rinv_1; apply Rinv_le_contravar; lra]|]. split; [|apply Rinv_r; lra].
    apply Rle_trans with (2 := T3). apply Rinv_le_contravar; lra. }
  destruct IY as (IY1 & IY2 & IY3).
  assert (eY : e <= / 1000000 * / Y). { apply (Rmult_le_reg_l Y); [lra|]. rewrite (Rmult_comm (/ 1000000)), <- Rmult_assoc, IY3. lra. }
  assert (uY : u <= / 1000000 * / Y). { apply (Rmult_le_reg_l Y); [lra|]. rewrite (Rmult_comm (/ 1000000)), <- Rmult_assoc, IY3. lra. }
  assert (C1 : 99 / 100 * / Y <= C).
  { pose proof (cos_lipschitz V th) as L. fold C in L. apply Rabs_le_inv in L.
    assert (Rabs (V - th) <= / 100000 * / Y) by (eapply Rle_trans; [exact Hv|]; apply Rle_trans with (/ 1000000 * / Y * th); [apply Rmult_le_compat_r; lra|]; apply Rle_trans with (/ 1000000 * / Y * 2); [apply Rmult_le_compat_l; lra|lra]). lra. }
  set (D := x * C - S).
  assert (D0 : Rabs D <= Y * e * th).
  { assert (ED : D * cos th = sin (th - V)). { unfold D, C, S. rewrite sin_minus, T5. ring. }
    assert (LD : Rabs (D * cos th) <= e * th). { rewrite ED. eapply Rle_trans; [apply sin_le|]. rewrite Rabs_minus_sym. exact Hv. }
    rewrite Rabs_mult, (Rabs_pos_eq (cos th)) in LD by lra. pose proof (Rabs_pos D) as PD.
    assert (Rabs D * / Y <= e * th) by (apply Rle_trans with (2 := LD); apply Rmult_le_compat_l; assumption).
    apply (Rmult_le_reg_r (/ Y)); [lra|]. apply Rle_trans with (1 := H). right. rewrite (Rmult_comm Y e). rewrite Rmult_assoc, Rmult_assoc. f_equal.
    rewrite (Rmult_comm th), <- Rmult_assoc, IY3. ring. }
  assert (D1 : Rabs D <= / 1000000 * th) by (eapply Rle_trans; [exact D0|]; apply Rmult_le_compat_r; lra).
  assert (XC : 0 <= x * C <= 1002 / 1000 * th). { split; [apply Rmult_le_pos; lra|]. replace (x * C) with (D + S) by (unfold D; ring). apply Rabs_le_inv in D1. lra. }
  assert (XU : x * u <= / 1000000 * th) by (apply Rle_trans with (Y * th * u); [apply Rmult_le_compat_r; [lra|]; apply Rle_trans with (1 := T6); apply Rmult_le_compat_r; lra|]; replace (Y * th * u) with (Y * u * th) by ring; apply Rmult_le_compat_r; lra).
  (* the computed values *)
  assert (tu : 0 <= th * u <= / 1000000 * th) by (split; [apply Rmult_le_pos; lra|rewrite Rmult_comm; apply Rmult_le_compat_r; lra]).
  assert (CV : 98 / 100 * / Y <= cv <= 1001 / 1000) by (apply Rabs_le_inv in Ec'; lra).
  assert (Oc : ok d 1001 c).
  { apply (ok_of_bounds d); [exact Fc|exact Pc|]. fold cv. rewrite Rabs_pos_eq by lra. split.
    - apply Rle_trans with (98 / 100 * / Y); [|lra]. assert (p10 (- (1001)) = p10 (- (1000)) / 10). { replace (- (1001))%Z with (- (1000) + - (1))%Z by reflexivity. rewrite p10_add, (p10_inv 1), p10_1. lra. }
      assert (p10 (- (1000)) <= / Y) by (rewrite p10_inv; apply Rinv_le_contravar; lra). lra.
    - pose proof (p10_le 1 1001 ltac:(lia)) as Q. rewrite p10_1 in Q. lra. }
  assert (SV : V / 3 <= sv <= 1001 / 1000 * V) by (assert (0 <= V * u <= V * / 1000) by (split; [apply Rmult_le_pos; lra|apply Rmult_le_compat_l; lra]); clear - Es' S0 H; apply Rabs_le_inv in Es'; lra).
  assert (Os : ok d 5002 s).
  { apply (ok_of_bounds d); [exact Fs|exact Ps|]. fold sv. rewrite Rabs_pos_eq by lra. split.
    - assert (p10 (- (5002)) = p10 (- (5001)) / 10). { replace (- (5002))%Z with (- (5001) + - (1))%Z by reflexivity. rewrite p10_add, (p10_inv 1), p10_1. lra. } lra.
    - pose proof (p10_le 1 5002 ltac:(lia)) as Q. rewrite p10_1 in Q. lra. }
  assert (XcV : 0 <= x * cv <= 1003 / 1000 * th).
  { split; [apply Rmult_le_pos; lra|]. replace (x * cv) with (x * C + x * (cv - C)) by ring.
    assert (x * (cv - C) <= x * u) by (apply Rmult_le_compat_l; [lra|]; apply Rabs_le_inv in Ec'; lra). lra. }
  destruct (ok_rel_mul d Hd Hd' 1000 1001 xx c ltac:(lia) ltac:(lia) ltac:(lia) Ox Oc) as [Op Ep]. fold x cv in Ep. set (p := mul d xx c) in *.
  unfold rel in Ep. rewrite (Rabs_pos_eq (x * cv)) in Ep by lra. set (pv := value p) in *.
  assert (Ep' : Rabs (pv - x * cv) <= 11 / 10000000 * th * u) by (eapply Rle_trans; [exact Ep|]; assert (x * cv * u <= 1003 / 1000 * th * u) by (apply Rmult_le_compat_r; lra); lra).
  assert (PVb : 0 - th <= pv <= 1004 / 1000 * th) by (apply Rabs_le_inv in Ep'; lra).
  destruct (ok_sub d 8000 p s Hd ltac:(lia) ltac:(lia) ltac:(apply (ok_le d (1000 + 1001 + 1)); [lia|exact Op]) ltac:(apply (ok_le d 5002); [lia|exact Os])) as [Om Em].
  set (m := sub d p s) in *. fold pv sv in Em. set (mv := value m) in *. rewrite (p_17 d) in Em.
  assert (Mx : Rmax (Rabs pv) (Rabs sv) <= 2 * th) by (apply Rmax_lub; apply Rabs_le; lra).
  assert (Em' : Rabs (mv - (pv - sv)) <= / 10000000 * th * u).
  { eapply Rle_trans; [exact Em|]. assert (2 * (u / 100000000000000000) * Rmax (Rabs pv) (Rabs sv) <= 2 * (u / 100000000000000000) * (2 * th)) by (apply Rmult_le_compat_l; [lra|exact Mx]). lra. }
  assert (MV : Rabs mv <= 2 / 100000 * th).
  { replace mv with ((mv - (pv - sv)) + (pv - x * cv) + x * (cv - C) + D - (sv - S)) by (unfold D; ring).
    assert (Rabs (x * (cv - C)) <= x * u) by (rewrite Rabs_mult, (Rabs_pos_eq x) by lra; apply Rmult_le_compat_l; lra).
    assert (501 / 1000 * V * u <= 6 / 10 * th * u) by (apply Rmult_le_compat_r; lra).
    clear - Em' Ep' Es' D1 XU tu H H0 T0 U. apply Rabs_le_inv in Em', Ep', Es', D1, H. apply Rabs_le. split; lra. }
  destruct (ok_rel_mul d Hd Hd' 1001 78000 c m ltac:(lia) ltac:(lia) ltac:(lia) Oc Om) as [Oq Eq]. fold cv mv in Eq. set (q := mul d c m) in *. set (qv := value q) in *.
  unfold rel in Eq.
  assert (Mc : Rabs (cv * mv) <= 3 / 100000 * th).
  { rewrite Rabs_mult, (Rabs_pos_eq cv) by lra. pose proof (Rabs_pos mv). apply Rle_trans with (1001 / 1000 * (2 / 100000 * th)); [apply Rmult_le_compat; lra|]. lra. }
  assert (Eq' : Rabs (qv - cv * mv) <= / 10000000 * th * u).
  { eapply Rle_trans; [exact Eq|]. assert (u / 1000000 * Rabs (cv * mv) <= u / 1000000 * (3 / 100000 * th)) by (apply Rmult_le_compat_l; lra). lra. }
  assert (Qb : Rabs qv <= th). { replace qv with ((qv - cv * mv) + cv * mv) by ring. eapply Rle_trans; [apply Rabs_triang|]. lra. }
  destruct (ok_add d 80000 v q Hd ltac:(lia) ltac:(lia) ltac:(apply (ok_le d 5001); [lia|exact Ov]) ltac:(apply (ok_le d (1001 + 78000 + 1)); [lia|exact Oq])) as [Ow Ew].
  fold w in Ow, Ew. fold V qv in Ew. rewrite (p_17 d) in Ew.
  assert (Mx2 : Rmax (Rabs V) (Rabs qv) <= 2 * th) by (apply Rmax_lub; [rewrite Rabs_pos_eq; lra|lra]).
  assert (Ew' : Rabs (value w - (V + qv)) <= / 10000000 * th * u).
  { eapply Rle_trans; [exact Ew|]. assert (2 * (u / 100000000000000000) * Rmax (Rabs V) (Rabs qv) <= 2 * (u / 100000000000000000) * (2 * th)) by (apply Rmult_le_compat_l; [lra|exact Mx2]). lra. }
  split; [apply Ow|]. split; [apply Ow|].
  (* put together *)
  assert (NW : Rabs (V + C * D - th) <= 16 / 10 * Y * (e * e) * th).
  { pose proof (atan_newton th V ltac:(lra) ltac:(rewrite Rabs_minus_sym; lra)) as B. rewrite T1 in B. fold C S D in B. rewrite (Rabs_pos_eq x) in B by lra.
    eapply Rle_trans; [exact B|]. replace ((th - V) * (th - V)) with (Rabs (V - th) * Rabs (V - th)) by (rewrite <- Rabs_mult, Rabs_pos_eq; [ring|apply Rle_0_sqr]).
    assert (0 <= e * th) by (apply Rmult_le_pos; lra).
    assert (B1 : Rabs (V - th) * Rabs (V - th) <= e * th * (e * th)) by (apply Rmult_le_compat; try apply Rabs_pos; assumption).
    apply Rle_trans with (Y * (e * th * (e * th))); [apply Rmult_le_compat; [lra|apply Rmult_le_pos; apply Rabs_pos|lra|exact B1]|].
    replace (Y * (e * th * (e * th))) with (Y * (e * e) * th * th) by ring. replace (16 / 10 * Y * (e * e) * th) with (Y * (e * e) * th * (16 / 10)) by field.
    apply Rmult_le_compat_l; [|lra]. apply Rmult_le_pos; [apply Rmult_le_pos; [lra|apply Rmult_le_pos; lra]|lra]. }
  replace (value w - th) with ((value w - (V + qv)) + (qv - cv * mv) + cv * ((mv - (pv - sv)) + (pv - x * cv) - (sv - S)) + x * cv * (cv - C) + (cv - C) * D + (V + C * D - th)) by (unfold D; ring).
  assert (G1 : Rabs (cv * ((mv - (pv - sv)) + (pv - x * cv) - (sv - S))) <= 503 / 1000 * th * u).
  { rewrite Rabs_mult, (Rabs_pos_eq cv) by lra. apply Rle_trans with (1001 / 1000 * (/ 10000000 * th * u + 11 / 10000000 * th * u + 501 / 1000 * (1001 / 1000 * th) * u)); [|lra].
    assert (501 / 1000 * V * u <= 501 / 1000 * (1001 / 1000 * th) * u) by (apply Rmult_le_compat_r; lra).
    apply Rmult_le_compat; [lra|apply Rabs_pos|lra|]. clear - Em' Ep' Es' H. apply Rabs_le_inv in Em', Ep', Es'. apply Rabs_le. lra. }
  assert (G2 : Rabs (x * cv * (cv - C)) <= 67 / 100 * th * u).
  { rewrite Rabs_mult, (Rabs_pos_eq (x * cv)) by lra. apply Rle_trans with (1003 / 1000 * th * (6667 / 10000 * u)); [apply Rmult_le_compat; try lra; apply Rabs_pos|]. lra. }
  assert (G3 : Rabs ((cv - C) * D) <= / 1000000 * th * u).
  { rewrite Rabs_mult. apply Rle_trans with (6667 / 10000 * u * (/ 1000000 * th)); [apply Rmult_le_compat; try assumption; apply Rabs_pos|]. lra. }
  rewrite Rmult_plus_distr_r. clear - Ew' Eq' G1 G2 G3 NW tu. apply Rabs_le_inv in Ew', Eq', G1, G2, G3, NW. apply Rabs_le. lra.
Qed.

(** The iteration *)
Lemma atan_loop_ok xx Y K : ok d 1000 xx -> 0 < value xx -> 1 + value xx <= Y <= p10 1000 -> p10 (- (5000)) <= atan (value xx) ->
  0 <= K -> Y * K <= / 2 -> Y * u <= / 10000000 -> forall fuel v dg, (12 <= dg)%Z -> (tolerance d < dg * 2 ^ Z.of_nat fuel)%Z ->
  finite d v -> full d v -> Rabs (value v - atan (value xx)) <= (K * p10 (- dg) + 13 / 10 * u) * atan (value xx) ->
  let r := atan_loop d env fuel xx v dg in
  finite d r /\ full d r /\ Rabs (value r - atan (value xx)) <= 1301 / 1000 * u * atan (value xx).
Proof.
  intros Ox Px HY Hlow HK HYK HYu. pose proof (u_tiny d Hd) as U. destruct (tol_bounds d Hd Hd') as [Tb _].
  destruct (atan_facts (value xx) Px) as (T0 & _).
  assert (Y1 : 1 <= Y) by lra. assert (K1 : K <= / 2) by nra.
  assert (Stop : forall v dg, (tolerance d < dg)%Z -> Rabs (value v - atan (value xx)) <= (K * p10 (- dg) + 13 / 10 * u) * atan (value xx) ->
    Rabs (value v - atan (value xx)) <= 1301 / 1000 * u * atan (value xx)).
  { intros v dg H B. eapply Rle_trans; [exact B|]. apply Rmult_le_compat_r; [lra|].
    assert (p10 (- dg) <= p10 (- (d + 4))) by (apply p10_le; lia). pose proof (p_shift d 4) as E. change (Z.of_nat 4) with 4%Z in E. rewrite E in H0. cbn [Rpow_def.pow] in H0.
    pose proof (p10_pos (- dg)). assert (K * p10 (- dg) <= / 2 * p10 (- dg)) by (apply Rmult_le_compat_r; lra). lra. }
  induction fuel as [|fuel IH]; intros v dg Hdg Hf Fv Pv Hv r; unfold r; cbn [atan_loop].
  - change (Z.of_nat 0) with 0%Z in Hf. rewrite Z.pow_0_r, Z.mul_1_r in Hf. split; [exact Fv|]. split; [exact Pv|]. apply (Stop v dg); assumption.
  - destruct (Z.leb_spec dg (tolerance d)) as [L|L].
    2:{ split; [exact Fv|]. split; [exact Pv|]. apply (Stop v dg); assumption. }
    assert (P12 : 0 < p10 (- dg) <= / 1000000000000). { split; [apply p10_pos|]. apply Rle_trans with (p10 (- (12))); [apply p10_le; lia|]. p10num H 12%nat. rewrite H. lra. }
    set (a := p10 (- dg)) in *. set (e := K * a + 13 / 10 * u) in *.
    assert (Ka : 0 <= K * a) by (apply Rmult_le_pos; lra). assert (YKa : Y * K * a <= / 2 * a) by (apply Rmult_le_compat_r; lra).
    assert (He : 0 <= e) by (unfold e; lra).
    assert (HYe : Y * e <= / 1000000) by (unfold e; lra).
    destruct (atan_step xx v Y e Ox Px HY Hlow He HYe ltac:(lra) Fv Pv Hv) as (Fw & Pw & Bw).
    set (w := add d v _) in *.
    apply IH; [lia| |exact Fw|exact Pw|].
    + rewrite Nat2Z.inj_succ, Z.pow_succ_r in Hf by lia. lia.
    + eapply Rle_trans; [exact Bw|]. apply Rmult_le_compat_r; [lra|].
      assert (E2 : p10 (- (dg * 2)) = a * a) by (unfold a; rewrite <- p10_add; f_equal; ring). rewrite E2.
      assert (X1 : Y * (e * e) = Y * K * a * (K * a) + 26 / 10 * (Y * K * a) * u + 169 / 100 * (Y * u) * u) by (unfold e; field).
      rewrite (Rmult_assoc (16 / 10)), X1.
      assert (A1 : Y * K * a * (K * a) <= / 2 * a * (K * a)) by (apply Rmult_le_compat_r; assumption).
      assert (A2 : Y * K * a * u <= / 2 * a * u) by (apply Rmult_le_compat_r; lra).
      assert (A3 : Y * u * u <= / 10000000 * u) by (apply Rmult_le_compat_r; lra).
      assert (A4 : a * u <= / 1000000000000 * u) by (apply Rmult_le_compat_r; lra).
      assert (A5 : 0 <= K * (a * a)) by (apply Rmult_le_pos; nra). lra.
Qed.

End FixedDigits.
