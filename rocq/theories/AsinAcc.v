(** * Accuracy of the arc sine: the Newton iteration (proofs only) *)

From Coq Require Import ZArith List Bool Reals Lra Lia Psatz.
From Verif Require Import Model Spec SpecGen Limbs Value CmpProofs AddProofs Decide OrderProofs OrderDec AddExtra MulProofs MulValue MulExtra MulCor
  IntProofs IntPartProofs IntConv MixedProofs IntCor ModelDiv DoubleProofs NewtonProofs InvProofs SqrtProofs ModelPow PowGen PowProofs PowExtra LdexpProofs
  StrAny FloatEval ModelGen ModelElem ElemProofs SeriesFloat ExpReal ExpFloat ExpAcc ConstReal SinReal SinFloat SinStep SinAcc AtanAcc.
Import ListNotations.
Open Scope R_scope.
Ltac Zify.zify_post_hook ::= Z.div_mod_to_equations.
Local Notation p10 := (powerRZ 10).
Local Notation sin := Rtrigo_def.sin.
Local Notation cos := Rtrigo_def.cos.
Local Notation asin := Ratan.asin.
Local Notation acos := Ratan.acos.
Local Notation sqrt := R_sqrt.sqrt.

Lemma one_minus_cos e : 0 <= 1 - cos e <= e * e / 2.
Proof.
  pose proof (COS_bound e) as B. split; [lra|]. replace e with (2 * (e / 2)) at 1 by field. rewrite cos_2a_sin. pose proof (sin_le (e / 2)) as S.
  assert (Rabs (sin (e / 2)) * Rabs (sin (e / 2)) <= Rabs (e / 2) * Rabs (e / 2)) by (apply Rmult_le_compat; auto; apply Rabs_pos).
  rewrite <- !Rabs_mult, !Rabs_pos_eq in H by apply Rle_0_sqr. lra.
Qed.

(** One exact step: the error is squared. *)
Lemma asin_newton th v : 0 < cos v -> Rabs (v - th) <= 1 ->
  Rabs (v - (sin v - sin th) / cos v - th) <= (Rabs (v - th) / 3 + Rabs (sin v) / cos v / 2) * (Rabs (v - th) * Rabs (v - th)).
Proof.
  intros C H. set (e := v - th) in *.
  assert (E : v - (sin v - sin th) / cos v - th = - (sin e - e) - sin v / cos v * (1 - cos e)).
  { replace th with (v - e) by (unfold e; ring). rewrite sin_minus. field. lra. }
  rewrite E. unfold Rminus at 1. eapply Rle_trans; [apply Rabs_triang|]. rewrite !Rabs_Ropp, Rabs_mult. unfold Rdiv at 1. rewrite Rabs_mult, Rabs_inv, (Rabs_pos_eq (cos v)) by lra.
  pose proof (sin_cubic e H) as B. pose proof (one_minus_cos e) as [D1 D2]. rewrite (Rabs_pos_eq (1 - cos e)) by lra.
  assert (E2 : e * e = Rabs e * Rabs e) by (rewrite <- Rabs_mult; symmetry; apply Rabs_pos_eq; apply Rle_0_sqr). rewrite E2 in D2.
  assert (0 <= Rabs (sin v) * / cos v) by (apply Rmult_le_pos; [apply Rabs_pos|left; apply Rinv_0_lt_compat; lra]).
  assert (Rabs (sin v) * / cos v * (1 - cos e) <= Rabs (sin v) * / cos v * (Rabs e * Rabs e / 2)) by (apply Rmult_le_compat_l; lra). unfold Rdiv in *. lra.
Qed.

Lemma asin_facts x : 0 < x <= 99 / 100 -> let th := asin x in
  0 < th < 15 / 10 /\ sin th = x /\ cos th = sqrt (1 - x * x) /\ 141 / 1000 <= cos th <= 1 /\ x <= th <= 2 * x.
Proof.
  intros H th. assert (B : -1 < x < 1) by lra. pose proof (asin_bound_lt x B) as A. fold th in A. pose proof pi_bounds as PB. assert (S : sin th = x) by (apply sin_asin; lra).
  assert (C : cos th = sqrt (1 - x * x)) by (unfold th; rewrite cos_asin by lra; reflexivity).
  assert (P : 0 < th). { apply Rnot_le_lt. intro L. pose proof (sin_ge_0 (- th)) as G. rewrite sin_neg in G. lra. }
  assert (C1 : 141 / 1000 <= cos th). { rewrite C. replace (141 / 1000) with (sqrt (141 / 1000 * (141 / 1000))) by (apply sqrt_square; lra). apply sqrt_le_1_alt. nra. }
  pose proof (COS_bound th) as C2.
  assert (L : th < 15 / 10).
  { apply Rnot_le_lt. intro L. pose proof (cos_sin th) as E. assert (cos th <= Rabs (PI / 2 - th)).
    { rewrite <- Rtrigo1.sin_shift. eapply Rle_trans; [apply Rle_abs|]. apply sin_le. } rewrite Rabs_pos_eq in H0 by lra. lra. }
  repeat split; try assumption; try lra.
  - rewrite <- S at 1. left. apply sin_lt_x. exact P.
  - pose proof (sin_half th ltac:(lra)). lra.
Qed.

Section FixedDigits.
Variable d : Z.
Hypothesis Hd : valid_digits d.
Hypothesis Hd' : (d <= 4967)%Z.
Variable env : env.
Local Notation u := (p10 (- d)).
Hypothesis Hpi : close_to d (c_pi env) PI.

(** The quotient also where the numerator is zero *)
Lemma div_small m m' x y : (0 <= m)%Z -> (0 <= m' <= 1000000)%Z -> (m + m' <= 2147483000)%Z -> ok d m x -> ok d m' y -> value y <> 0 -> Rabs (value x) < Rabs (value y) ->
  ok d (m + m' + 1) (div d x y) /\ rel (u / 10) (value (div d x y)) (value x / value y).
Proof.
  intros Hm Hm' Hs Ox Oy Ny L. destruct (Req_dec (value x) 0) as [Z|N].
  - destruct (ok_inv d m' y Hd ltac:(lia) ltac:(lia) Oy Ny) as [Oi _]. destruct (zero_ok d Hd) as (Fz & Pz & Vz).
    assert (E : div d x y = zero d).
    { unfold div. destruct (same_magnitude x y) eqn:S.
      - apply (same_magnitude_spec d x y Hd (proj1 Ox) (proj1 Oy) Ny) in S. lra.
      - apply (mul_zero_l d); [exact Hd|apply Ox|apply Oi|left; exact Z]. }
    rewrite E, Z. unfold Rdiv at 2. rewrite Rmult_0_l. unfold rel. rewrite Vz, Rminus_0_r, Rabs_R0, Rmult_0_r. split; [split; [exact Fz|split; [exact Pz|left; exact Vz]]|lra].
  - destruct (ok_div d Hd Hd' m m' x y Hm ltac:(lia) Hs Ox Oy N Ny ltac:(left; lra)) as (A & _ & B). split; assumption.
Qed.

Lemma asin_step xx v Y e : finite d xx -> full d xx -> p10 (- (5000)) <= value xx <= 99 / 100 -> 1 <= Y <= 10 -> 1 <= Y * cos (asin (value xx)) ->
  0 <= e <= / 10000000 -> finite d v -> full d v -> Rabs (value v - asin (value xx)) <= e * asin (value xx) ->
  let s := ModelElem.sin d env v in let c := ModelElem.cos d env v in
  let w := sub d v (div d (sub d s xx) c) in
  finite d w /\ full d w /\ Rabs (value w - asin (value xx)) <= (14 / 10 * Y * (e * e) + 6 / 10 * Y * u) * asin (value xx).
Proof.
  intros Fx Px Hx HY HYc He Fv Pv Hv s c w. pose proof (u_tiny d Hd) as U. pose proof (p10_pos (- (5000))) as P50. pose proof pi_bounds as PB.
  set (x := value xx) in *. destruct (asin_facts x ltac:(lra)) as (T0 & T1 & T2 & T3 & T4). set (th := asin x) in *. set (V := value v) in *.
  assert (ET : e * th <= / 1000000) by nra. assert (ET0 : 0 <= e * th) by (apply Rmult_le_pos; lra).
  assert (eth : e * th <= / 1000 * th) by (apply Rmult_le_compat_r; lra).
  assert (VB : 999 / 1000 * th <= V <= 1001 / 1000 * th) by (apply Rabs_le_inv in Hv; lra).
  assert (VB2 : 0 < V <= 158 / 100) by lra.
  assert (P51 : p10 (- (5001)) = p10 (- (5000)) / 10) by (replace (- (5001))%Z with (- (5000) + - (1))%Z by reflexivity; rewrite p10_add, (p10_inv 1), p10_1; lra).
  assert (P52 : p10 (- (5002)) = p10 (- (5001)) / 10) by (replace (- (5002))%Z with (- (5001) + - (1))%Z by reflexivity; rewrite p10_add, (p10_inv 1), p10_1; lra).
  assert (Big : forall m, (1 <= m)%Z -> 10 <= p10 m) by (intros m Hm; pose proof (p10_le 1 m Hm) as Q; rewrite p10_1 in Q; lra).
  assert (Ox : ok d 5002 xx) by (apply (ok_of_bounds d); [exact Fx|exact Px|]; fold x; rewrite Rabs_pos_eq by lra; pose proof (Big 5002%Z ltac:(lia)); lra).
  assert (Ov : ok d 5001 v) by (apply (ok_of_bounds d); [exact Fv|exact Pv|]; fold V; rewrite Rabs_pos_eq by lra; pose proof (Big 5001%Z ltac:(lia)); lra).
  assert (Ov3 : ok d 300000 v) by (apply (ok_le d 5001); [lia|exact Ov]).
  assert (Bv : Rabs (value v) <= 300000000) by (fold V; rewrite Rabs_pos_eq; lra).
  destruct (sin_accurate d Hd Hd' env Hpi v Ov3 Bv) as (Fs & Ps & Es). destruct (cos_accurate d Hd Hd' env Hpi v Ov3 Bv) as (Fc & Pc & Ec).
  fold s in Fs, Ps, Es. fold c in Fc, Pc, Ec. fold V in Es, Ec. rewrite (Rabs_pos_eq V) in Es, Ec by lra.
  assert (Es' : Rabs (value s - sin V) <= 501 / 1000 * V * u).
  { eapply Rle_trans; [exact Es|]. apply Rmult_le_compat_r; [lra|]. pose proof (Rmin_r 1 V). lra. }
  assert (Ec' : Rabs (value c - cos V) <= 6667 / 10000 * u).
  { eapply Rle_trans; [exact Ec|]. apply Rmult_le_compat_r; lra. }
  clear Es Ec. set (S := sin V) in *. set (C := cos V) in *. set (sv := value s) in *. set (cv := value c) in *.
  assert (S0 : V / 2 <= S <= V). { split; [apply sin_half; lra|]. unfold S. left. apply sin_lt_x. lra. }
  assert (SX : Rabs (S - x) <= e * th). { rewrite <- T1. unfold S. eapply Rle_trans; [apply sin_lipschitz|]. exact Hv. }
  assert (IY : 0 < / Y <= 1 /\ / 10 <= / Y /\ / Y <= cos th /\ Y * / Y = 1).
  { split; [split; [apply Rinv_0_lt_compat; lra|rewrite <- Rinv_1; apply Rinv_le_contravar; lra]|]. split; [apply Rinv_le_contravar; lra|]. split; [|apply Rinv_r; lra].
    apply (Rmult_le_reg_l Y); [lra|]. rewrite Rinv_r by lra. exact HYc. }
  destruct IY as (IY1 & IY0 & IY2 & IY3).
  assert (C1 : 999 / 1000 * / Y <= C <= 1).
  { pose proof (cos_lipschitz V th) as L. fold C in L. apply Rabs_le_inv in L. pose proof (COS_bound V) as CB. fold C in CB. assert (H : Rabs (V - th) <= / 1000000) by lra. lra. }
  assert (CV : 998 / 1000 * / Y <= cv <= 1001 / 1000) by (apply Rabs_le_inv in Ec'; lra).
  assert (tu : 0 <= th * u <= / 1000000 * th) by (split; [apply Rmult_le_pos; lra|rewrite Rmult_comm; apply Rmult_le_compat_r; lra]).
  assert (Vu : V * u <= 1001 / 1000 * (th * u)) by (rewrite <- Rmult_assoc; apply Rmult_le_compat_r; lra).
  assert (SV : V / 3 <= sv <= 1001 / 1000 * V) by (assert (0 <= V * u <= V * / 1000) by (split; [apply Rmult_le_pos; lra|apply Rmult_le_compat_l; lra]); clear - Es' S0 H; apply Rabs_le_inv in Es'; lra).
  assert (Os : ok d 5002 s) by (apply (ok_of_bounds d); [exact Fs|exact Ps|]; fold sv; rewrite Rabs_pos_eq by lra; pose proof (Big 5002%Z ltac:(lia)); lra).
  assert (Oc : ok d 2 c).
  { apply (ok_of_bounds d); [exact Fc|exact Pc|]. fold cv. rewrite Rabs_pos_eq by lra. pose proof (Big 2%Z ltac:(lia)). p10num H2 2%nat. rewrite H2. lra. }
  destruct (ok_sub d 5002 s xx Hd ltac:(lia) ltac:(lia) Os Ox) as [On En]. fold sv x in En. set (n := sub d s xx) in *. set (nv := value n) in *. rewrite (p_17 d) in En.
  assert (Mx : Rmax (Rabs sv) (Rabs x) <= 2 * th) by (apply Rmax_lub; apply Rabs_le; lra).
  assert (En' : Rabs (nv - (sv - x)) <= / 10000000 * (th * u)).
  { eapply Rle_trans; [exact En|]. assert (2 * (u / 100000000000000000) * Rmax (Rabs sv) (Rabs x) <= 2 * (u / 100000000000000000) * (2 * th)) by (apply Rmult_le_compat_l; [lra|exact Mx]). lra. }
  assert (A : Rabs (nv - (S - x)) <= 502 / 1000 * (th * u)).
  { replace (nv - (S - x)) with ((nv - (sv - x)) + (sv - S)) by ring. eapply Rle_trans; [apply Rabs_triang|]. lra. }
  assert (NV : Rabs nv <= / 100000 * th /\ Rabs nv <= / 1000).
  { assert (Rabs nv <= e * th + 502 / 1000 * (th * u)). { replace nv with ((nv - (S - x)) + (S - x)) by ring. eapply Rle_trans; [apply Rabs_triang|]. lra. }
    assert (e * th <= / 10000000 * th) by (apply Rmult_le_compat_r; lra). split; lra. }
  destruct NV as [NV1 NV2].
  assert (Icv : 0 < / cv <= 1003 / 1000 * Y).
  { assert (0 < cv) by lra. split; [apply Rinv_0_lt_compat; lra|]. apply (Rmult_le_reg_r cv); [lra|]. rewrite Rinv_l by lra. apply Rle_trans with (1003 / 1000 * Y * (998 / 1000 * / Y)); [|apply Rmult_le_compat_l; lra].
    replace (1003 / 1000 * Y * (998 / 1000 * / Y)) with (1003 / 1000 * (998 / 1000) * (Y * / Y)) by ring. rewrite IY3. lra. }
  assert (IC : 0 < / C <= 1002 / 1000 * Y).
  { assert (0 < C) by lra. split; [apply Rinv_0_lt_compat; lra|]. apply (Rmult_le_reg_r C); [lra|]. rewrite Rinv_l by lra. apply Rle_trans with (1002 / 1000 * Y * (999 / 1000 * / Y)); [|apply Rmult_le_compat_l; lra].
    replace (1002 / 1000 * Y * (999 / 1000 * / Y)) with (1002 / 1000 * (999 / 1000) * (Y * / Y)) by ring. rewrite IY3. lra. }
  destruct (div_small (5002 + 70000) 2 n c ltac:(lia) ltac:(lia) ltac:(lia) On Oc) as [Oq Eq]; [fold cv; lra|fold nv cv; rewrite (Rabs_pos_eq cv); lra|]. fold nv cv in Eq. set (q := div d n c) in *. set (qv := value q) in *.
  assert (NC : Rabs (nv / cv) <= / 9000 * th).
  { unfold Rdiv. rewrite Rabs_mult, (Rabs_pos_eq (/ cv)) by lra. apply Rle_trans with (/ 100000 * th * (1003 / 1000 * 10)); [apply Rmult_le_compat; try lra; apply Rabs_pos|lra]. }
  assert (Eq' : Rabs (qv - nv / cv) <= / 50000 * (th * u)).
  { unfold rel in Eq. eapply Rle_trans; [exact Eq|]. assert (u / 10 * Rabs (nv / cv) <= u / 10 * (/ 9000 * th)) by (apply Rmult_le_compat_l; lra). lra. }
  assert (Qb : Rabs qv <= th). { replace qv with ((qv - nv / cv) + nv / cv) by ring. eapply Rle_trans; [apply Rabs_triang|]. lra. }
  destruct (ok_sub d 76000 v q Hd ltac:(lia) ltac:(lia) ltac:(apply (ok_le d 5001); [lia|exact Ov]) ltac:(apply (ok_le d (5002 + 70000 + 2 + 1)); [lia|exact Oq])) as [Ow Ew].
  fold w in Ow, Ew. fold V qv in Ew. rewrite (p_17 d) in Ew.
  assert (Mx2 : Rmax (Rabs V) (Rabs qv) <= 2 * th) by (apply Rmax_lub; [rewrite Rabs_pos_eq; lra|lra]).
  assert (Ew' : Rabs (value w - (V - qv)) <= / 10000000 * (th * u)).
  { eapply Rle_trans; [exact Ew|]. assert (2 * (u / 100000000000000000) * Rmax (Rabs V) (Rabs qv) <= 2 * (u / 100000000000000000) * (2 * th)) by (apply Rmult_le_compat_l; [lra|exact Mx2]). lra. }
  split; [apply Ow|]. split; [apply Ow|].
  (* the exact step *)
  assert (NW : Rabs (V - (S - x) / C - th) <= 14 / 10 * Y * (e * e) * th).
  { rewrite <- T1. pose proof (asin_newton th V ltac:(fold C; lra) ltac:(lra)) as B. fold S C in B. eapply Rle_trans; [exact B|]. set (a := Rabs (V - th)) in *. assert (A0 : 0 <= a) by apply Rabs_pos.
    rewrite (Rabs_pos_eq S) by lra. assert (SC : 0 <= S / C <= 1004 / 1000 * Y * th).
    { unfold Rdiv. split; [apply Rmult_le_pos; lra|]. apply Rle_trans with (1001 / 1000 * th * (1002 / 1000 * Y)); [apply Rmult_le_compat; lra|]. assert (0 <= Y * th) by (apply Rmult_le_pos; lra). lra. }
    assert (Yt : th <= Y * th) by (rewrite <- (Rmult_1_l th) at 1; apply Rmult_le_compat_r; lra).
    assert (B1 : a / 3 + S / C / 2 <= 505 / 1000 * (Y * th)) by lra.
    assert (B2 : a * a <= e * th * (e * th)) by (apply Rmult_le_compat; lra).
    apply Rle_trans with (505 / 1000 * (Y * th) * (e * th * (e * th))); [apply Rmult_le_compat; [lra|apply Rmult_le_pos; lra|exact B1|exact B2]|].
    replace (505 / 1000 * (Y * th) * (e * th * (e * th))) with (505 / 1000 * (th * th) * (Y * (e * e) * th)) by ring. replace (14 / 10 * Y * (e * e) * th) with (14 / 10 * (Y * (e * e) * th)) by ring.
    assert (th * th <= 15 / 10 * (15 / 10)) by (apply Rmult_le_compat; lra).
    apply Rmult_le_compat_r; [|lra]. apply Rmult_le_pos; [apply Rmult_le_pos; [lra|apply Rle_0_sqr]|lra]. }
  assert (Ytu : th * u <= Y * (th * u)) by (rewrite <- (Rmult_1_l (th * u)) at 1; apply Rmult_le_compat_r; lra).
  assert (G1 : Rabs ((nv - (S - x)) * / cv) <= 505 / 1000 * (Y * (th * u))).
  { rewrite Rabs_mult, (Rabs_pos_eq (/ cv)) by lra. apply Rle_trans with (502 / 1000 * (th * u) * (1003 / 1000 * Y)); [apply Rmult_le_compat; try lra; apply Rabs_pos|lra]. }
  assert (G2 : Rabs ((S - x) * ((C - cv) * (/ cv * / C))) <= / 100000 * (Y * (th * u))).
  { rewrite !Rabs_mult, (Rabs_pos_eq (/ cv)), (Rabs_pos_eq (/ C)) by lra. rewrite (Rabs_minus_sym C cv).
    assert (X1 : / cv * / C <= 1003 / 1000 * Y * (1002 / 1000 * 10)) by (apply Rmult_le_compat; lra).
    assert (X2 : Rabs (cv - C) * (/ cv * / C) <= 6667 / 10000 * u * (1003 / 1000 * Y * (1002 / 1000 * 10))) by (apply Rmult_le_compat; [apply Rabs_pos|apply Rmult_le_pos; lra|exact Ec'|exact X1]).
    assert (X0 : 0 <= Rabs (cv - C) * (/ cv * / C)) by (apply Rmult_le_pos; [apply Rabs_pos|apply Rmult_le_pos; lra]).
    assert (X3 : e * th <= / 10000000 * th) by (apply Rmult_le_compat_r; lra).
    apply Rle_trans with (/ 10000000 * th * (6667 / 10000 * u * (1003 / 1000 * Y * (1002 / 1000 * 10)))); [apply Rmult_le_compat; try apply Rabs_pos; lra|]. assert (0 <= Y * (th * u)) by lra. lra. }
  replace (value w - th) with ((value w - (V - qv)) - (qv - nv / cv) - ((nv - (S - x)) * / cv + (S - x) * ((C - cv) * (/ cv * / C))) + (V - (S - x) / C - th)) by (field; lra).
  rewrite Rmult_plus_distr_r. clear - Ew' Eq' G1 G2 NW Ytu tu. apply Rabs_le_inv in Ew', Eq', G1, G2, NW. apply Rabs_le. lra.
Qed.

(** The iteration *)
Lemma asin_loop_ok xx Y : finite d xx -> full d xx -> p10 (- (5000)) <= value xx <= 99 / 100 -> 1 <= Y <= 10 -> 1 <= Y * cos (asin (value xx)) ->
  forall fuel v dg, (12 <= dg)%Z -> (tolerance d < dg * 2 ^ Z.of_nat fuel)%Z ->
  finite d v -> full d v -> Rabs (value v - asin (value xx)) <= (/ 100 * p10 (- dg) + 61 / 100 * Y * u) * asin (value xx) ->
  let r := asin_loop d env fuel xx v dg in
  finite d r /\ full d r /\ Rabs (value r - asin (value xx)) <= 62 / 100 * Y * u * asin (value xx).
Proof.
  intros Fx Px Hx HY HYc. pose proof (u_tiny d Hd) as U. destruct (tol_bounds d Hd Hd') as [Tb _]. pose proof (p10_pos (- (5000))) as P50.
  destruct (asin_facts (value xx) ltac:(lra)) as (T0 & _).
  assert (Yu : u <= Y * u <= / 100000000000000000000) by (split; [rewrite <- (Rmult_1_l u) at 1; apply Rmult_le_compat_r; lra|apply Rle_trans with (10 * u); [apply Rmult_le_compat_r; lra|lra]]).
  assert (Stop : forall v dg, (tolerance d < dg)%Z -> Rabs (value v - asin (value xx)) <= (/ 100 * p10 (- dg) + 61 / 100 * Y * u) * asin (value xx) ->
    Rabs (value v - asin (value xx)) <= 62 / 100 * Y * u * asin (value xx)).
  { intros v dg H B. eapply Rle_trans; [exact B|]. apply Rmult_le_compat_r; [lra|].
    assert (p10 (- dg) <= p10 (- (d + 4))) by (apply p10_le; lia). pose proof (p_shift d 4) as E. change (Z.of_nat 4) with 4%Z in E. rewrite E in H0. cbn [Rpow_def.pow] in H0. lra. }
  induction fuel as [|fuel IH]; intros v dg Hdg Hf Fv Pv Hv r; unfold r; cbn [asin_loop].
  - change (Z.of_nat 0) with 0%Z in Hf. rewrite Z.pow_0_r, Z.mul_1_r in Hf. split; [exact Fv|]. split; [exact Pv|]. apply (Stop v dg); assumption.
  - destruct (Z.leb_spec dg (tolerance d)) as [L|L].
    2:{ split; [exact Fv|]. split; [exact Pv|]. apply (Stop v dg); assumption. }
    assert (P12 : 0 < p10 (- dg) <= / 1000000000000). { split; [apply p10_pos|]. apply Rle_trans with (p10 (- (12))); [apply p10_le; lia|]. p10num H 12%nat. rewrite H. lra. }
    set (a := p10 (- dg)) in *. set (e := / 100 * a + 61 / 100 * Y * u) in *.
    assert (He : 0 <= e <= / 10000000) by (unfold e; lra).
    destruct (asin_step xx v Y e Fx Px Hx HY HYc He Fv Pv Hv) as (Fw & Pw & Bw). set (w := sub d v _) in *.
    apply IH; [lia| |exact Fw|exact Pw|].
    + rewrite Nat2Z.inj_succ, Z.pow_succ_r in Hf by lia. lia.
    + eapply Rle_trans; [exact Bw|]. apply Rmult_le_compat_r; [lra|].
      assert (E2 : p10 (- (dg * 2)) = a * a) by (unfold a; rewrite <- p10_add; f_equal; ring). rewrite E2.
      set (y := Y * u) in *. assert (X1 : e * e = / 10000 * (a * a) + 122 / 10000 * (a * y) + 3721 / 10000 * (y * y)) by (unfold e, y; field).
      assert (A0 : 0 <= e * e) by apply Rle_0_sqr. assert (A1 : Y * (e * e) <= 10 * (e * e)) by (apply Rmult_le_compat_r; lra).
      assert (A2 : a * y <= / 1000000000000 * y) by (apply Rmult_le_compat_r; lra). assert (A3 : y * y <= / 100000000000000000000 * y) by (apply Rmult_le_compat_r; lra).
      assert (A4 : 0 <= a * a) by apply Rle_0_sqr. unfold y in *. lra.
Qed.

End FixedDigits.
