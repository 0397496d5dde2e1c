(** * Accuracy of the hyperbolic functions (proofs only) *)

From Coq Require Import ZArith List Bool Reals Lra Lia Psatz.
From Verif Require Import Model Spec SpecGen Limbs Value CmpProofs AddProofs Decide OrderProofs OrderDec AddExtra MulProofs MulValue MulExtra MulCor
  IntProofs IntPartProofs IntConv MixedProofs IntCor ModelDiv DoubleProofs NewtonProofs InvProofs SqrtProofs ModelPow PowGen PowProofs PowExtra LdexpProofs
  StrAny FloatEval ModelGen ModelElem ElemProofs SeriesFloat ExpReal ExpFloat ExpAcc ConstReal SinReal SinFloat SinStep SinAcc AtanSer.
Import ListNotations.
Open Scope R_scope.
Local Notation p10 := (powerRZ 10).
Local Notation exp := Rtrigo_def.exp.
Local Notation sinh := Rtrigo_def.sinh.
Local Notation cosh := Rtrigo_def.cosh.

Lemma exp_21 : exp (21 / 10) <= 10.
Proof.
  replace (21 / 10) with (1 + 1 + / 10) by field. rewrite !exp_plus. pose proof exp_le_3 as E. pose proof (exp_pos 1). pose proof (exp_ineq1_le (- / 10)) as H1. rewrite exp_Ropp in H1.
  pose proof (exp_pos (/ 10)) as P. assert (H2 : exp (/ 10) <= 10 / 9).
  { apply (Rmult_le_reg_r (/ exp (/ 10))); [apply Rinv_0_lt_compat; exact P|]. rewrite Rinv_r by lra. lra. }
  assert (exp 1 * exp 1 <= 3 * 3) by (apply Rmult_le_compat; lra). apply Rle_trans with (9 * (10 / 9)); [apply Rmult_le_compat; nra|lra].
Qed.

Lemma exp_p10 X k : (0 <= k)%Z -> X <= 21 / 10 * IZR k -> exp X <= p10 k.
Proof.
  intros K H. rewrite (powerRZ_Rpower 10 k) by lra. unfold Rpower.
  assert (L : 21 / 10 <= ln 10). { rewrite <- (ln_exp (21 / 10)). destruct exp_21 as [Q|Q]; [left; apply ln_increasing; [apply exp_pos|exact Q]|rewrite Q; right; reflexivity]. }
  assert (X <= IZR k * ln 10). { apply Rle_trans with (1 := H). rewrite Rmult_comm. apply Rmult_le_compat_l; [apply IZR_le; exact K|exact L]. }
  destruct (Req_dec X (IZR k * ln 10)) as [->|N]; [right; reflexivity|left; apply exp_increasing; lra].
Qed.

Section FixedDigits.
Variable d : Z.
Hypothesis Hd : valid_digits d.
Hypothesis Hd' : (d <= 4967)%Z.
Variable env : env.
Local Notation u := (p10 (- d)).
Hypothesis Hln2 : close_to d (c_ln2 env) (ln 2).
Hypothesis Hrec : value (div d (one d) (c_ln2 env)) * value (c_ln2 env) < 1.
Hypothesis He : close_to d (c_e env) (exp 1).

Lemma div_int_value_zero y n : finite d y -> value y = 0 -> (1 <= n < 100000000)%Z -> div_int d y n = y.
Proof.
  intros F V H. unfold div_int, div_sll. replace (n =? sll_min)%Z with false by (symmetry; apply Z.eqb_neq; unfold sll_min; lia).
  replace (n <? 0)%Z with false by (symmetry; apply Z.ltb_ge; lia). cbn [negb]. rewrite u64_small by lia. unfold div_ull.
  destruct (iszero_isneg_spec d y Hd F) as [Z _]. assert (Z' : iszero y = true) by (apply Z; exact V).
  assert (N : neg y = false). { destruct F as [W C]. apply (wf_zero d y W C). unfold iszero in Z'. apply andb_true_iff in Z'. destruct Z' as [_ Z'].
    apply Z.eqb_eq; exact Z'. }
  assert (SN : set_neg y false = y) by (destruct y; cbn in N |- *; rewrite N; reflexivity). rewrite SN.
  destruct (finite_flags d _ F) as [Ni Nn]. rewrite Ni, Nn. replace (n =? 0)%Z with false by (symmetry; apply Z.eqb_neq; lia). rewrite Z'. reflexivity.
Qed.

(** The two exponentials *)
Lemma exp_pair x : finite d x -> full d x -> Rabs (value x) <= 2147483616 ->
  exists p, ModelElem.exp d env x = Defined p /\ ok d 1030000000 p /\ ok d 1030000002 (div d (one d) p) /\ 0 < value p /\ 0 < value (div d (one d) p) /\
  let e := (1 / 2 + Rabs (value x) / 200000) * u in
  Rabs (value p - exp (value x)) <= e * exp (value x) /\ Rabs (value (div d (one d) p) - exp (- value x)) <= (103 / 100 * e + 11 / 100 * u) * exp (- value x) /\ 0 <= e <= / 1000000.
Proof.
  intros F P B. pose proof (u_tiny d Hd) as U. set (X := value x) in *. set (e := (1 / 2 + Rabs X / 200000) * u).
  destruct (exp_accurate d Hd Hd' env x Hln2 Hrec He F P B) as (p & E & Fp & Pp & Vp & Ep). fold X e in Ep. exists p. split; [exact E|].
  pose proof (Rabs_pos X) as XX. assert (e0 : 0 <= e <= / 1000000).
  { unfold e. split; [apply Rmult_le_pos; lra|]. apply Rle_trans with (20000 * u); [apply Rmult_le_compat_r; lra|lra]. }
  assert (B1 : X <= 21 / 10 * 1029000000) by (pose proof (Rle_abs X); lra). assert (B2 : - X <= 21 / 10 * 1029000000) by (pose proof (Rle_abs (- X)) as Q; rewrite Rabs_Ropp in Q; lra).
  pose proof (exp_p10 X 1029000000 ltac:(lia) B1) as Q1. pose proof (exp_p10 (- X) 1029000000 ltac:(lia) B2) as Q2. pose proof (exp_pos X) as EP. pose proof (exp_pos (- X)) as EM.
  assert (Q3 : p10 (- (1029000000)) <= exp X). { rewrite exp_Ropp in Q2. rewrite (p10_inv 1029000000). rewrite <- (Rinv_inv (exp X)). apply Rinv_le_contravar; [apply Rinv_0_lt_compat; exact EP|exact Q2]. }
  assert (K1 : p10 1030000000 = p10 1029000000 * p10 1000000) by (rewrite <- p10_add; f_equal). assert (K2 : p10 (- (1030000000)) * 10 <= p10 (- (1029000000))).
  { pose proof (p10_add (- (1030000000)) 1) as Q. rewrite p10_1 in Q. rewrite <- Q. apply p10_le. lia. }
  assert (K3 : 10 <= p10 1000000) by (pose proof (p10_le 1 1000000 ltac:(lia)) as Q; rewrite p10_1 in Q; exact Q).
  assert (eE : e * exp X <= / 1000000 * exp X) by (apply Rmult_le_compat_r; lra). pose proof (Rabs_le_inv _ _ Ep) as Ep'. pose proof (p10_pos 1029000000) as K4. pose proof (p10_pos (- (1029000000))) as K5.
  assert (K6 : p10 1029000000 * 10 <= p10 1030000000) by (rewrite K1; apply Rmult_le_compat_l; lra).
  assert (Op : ok d 1030000000 p) by (apply (ok_of_bounds d); [exact Fp|exact Pp|rewrite Rabs_pos_eq by lra; lra]). split; [exact Op|].
  destruct (one_facts d Hd) as [O1 V1].
  destruct (ok_div d Hd Hd' 1 1030000000 (one d) p ltac:(lia) ltac:(lia) ltac:(lia) O1 Op ltac:(lra) ltac:(lra) ltac:(right; lra)) as (Om & Sm & Rm).
  change (1 + 1030000000 + 1)%Z with 1030000002%Z in Om. split; [exact Om|]. split; [exact Vp|]. rewrite V1 in Sm, Rm.
  assert (R1 : rel e (value p) (exp X)) by (unfold rel; rewrite (Rabs_pos_eq (exp X)) by lra; exact Ep).
  pose proof (rel_inv e (value p) (exp X) ltac:(lra) ltac:(lra) R1) as R2. rewrite <- (Rmult_1_l (/ value p)) in R2. rewrite <- exp_Ropp in R2.
  assert (U0 : 0 <= u / 10) by lra. pose proof (rel_trans _ _ _ _ _ U0 Rm R2) as R3.
  split. { apply (Rmult_lt_reg_r (1 / value p)); [apply Rdiv_lt_0_compat; lra|]. lra. }
  split; [exact Ep|]. split; [|exact e0]. unfold rel in R3. rewrite (Rabs_pos_eq (exp (- X))) in R3 by lra. eapply Rle_trans; [exact R3|]. apply Rmult_le_compat_r; [lra|].
  assert (u / 10 * (102 / 100 * e) <= u / 10 * / 100) by (apply Rmult_le_compat_l; lra). lra.
Qed.

Definition hyp_bound (x : R) : R := (1 + Rabs x / 100000) * u.

Lemma sinhcosh_accurate x : finite d x -> full d x -> Rabs (value x) <= 2147483616 ->
  exists s c, sinhcosh d env x = Defined (s, c) /\ ok d 1030070011 s /\ ok d 1030070011 c /\ 0 < value c /\
  Rabs (value s - sinh (value x)) <= hyp_bound (value x) * cosh (value x) /\ Rabs (value c - cosh (value x)) <= hyp_bound (value x) * cosh (value x).
Proof.
  intros F P B. pose proof (u_tiny d Hd) as U. unfold sinhcosh. destruct (iszero_isneg_spec d x Hd F) as [Zs _]. destruct (one_facts d Hd) as [O1 V1]. destruct (zero_ok d Hd) as (Z1 & Z2 & Z3).
  destruct (iszero x) eqn:Z.
  { assert (V : value x = 0) by (apply Zs; reflexivity). exists (zero d), (one d). split; [reflexivity|]. split; [split; [exact Z1|]; split; [exact Z2|left; exact Z3]|].
    split; [apply (ok_le d 1); [lia|exact O1]|]. split; [lra|]. rewrite V, V1, Z3, sinh_0, cosh_0. unfold hyp_bound. rewrite !Rminus_diag_eq, !Rabs_R0 by reflexivity. lra. }
  destruct (exp_pair x F P B) as (p & E & Op & Om & Vp & Vm & Ep & Em & e0). rewrite E. cbn [omap]. set (m := div d (one d) p) in *. set (X := value x) in *.
  set (e := (1 / 2 + Rabs X / 200000) * u) in *. set (f := 103 / 100 * e + 11 / 100 * u) in *. pose proof (exp_pos X) as EP. pose proof (exp_pos (- X)) as EM.
  assert (f0 : e <= f <= / 100000) by (unfold f; lra).
  assert (Ep2 : Rabs (value p - exp X) <= f * exp X) by (eapply Rle_trans; [exact Ep|apply Rmult_le_compat_r; lra]).
  assert (Op' : ok d 1030000002 p) by (apply (ok_le d 1030000000); [lia|exact Op]).
  destruct (ok_sub d 1030000002 p m Hd ltac:(lia) ltac:(lia) Op' Om) as [Os Es]. destruct (ok_add d 1030000002 p m Hd ltac:(lia) ltac:(lia) Op' Om) as [Oa Ea].
  change (1030000002 + 70000)%Z with 1030070002%Z in *. set (D := sub d p m) in *. set (A := add d p m) in *.
  assert (Es' := Es). assert (Ea' := Ea). clear Es Ea.
  assert (FP : f * exp X <= / 100000 * exp X) by (apply Rmult_le_compat_r; lra). assert (FM : f * exp (- X) <= / 100000 * exp (- X)) by (apply Rmult_le_compat_r; lra).
  pose proof (Rabs_le_inv _ _ Ep2) as Ip. pose proof (Rabs_le_inv _ _ Em) as Im.
  assert (Mx : Rmax (Rabs (value p)) (Rabs (value m)) <= 2 * (exp X + exp (- X))) by (apply Rmax_lub; rewrite Rabs_pos_eq; lra).
  assert (Mx' : 2 * p10 (- (d + 17)) * Rmax (Rabs (value p)) (Rabs (value m)) <= u / 1000 * (exp X + exp (- X))).
  { rewrite (p_17 d). apply Rle_trans with (2 * (u / 100000000000000000) * (2 * (exp X + exp (- X)))); [apply Rmult_le_compat_l; lra|].
    assert (0 <= u * (exp X + exp (- X))) by (apply Rmult_le_pos; lra). lra. }
  set (H := exp X + exp (- X)) in *. assert (H0 : 0 < H) by (unfold H; lra). assert (uH : 0 <= u * H) by (apply Rmult_le_pos; lra).
  assert (Ed : Rabs (value D - (exp X - exp (- X))) <= (f + u / 1000) * H).
  { apply Rle_trans with (u / 1000 * H + (f * exp X + f * exp (- X))); [|unfold H; right; ring].
    replace (value D - (exp X - exp (- X))) with ((value D - (value p - value m)) + ((value p - exp X) - (value m - exp (- X)))) by ring.
    eapply Rle_trans; [apply Rabs_triang|]. apply Rplus_le_compat; [lra|]. unfold Rminus at 1. eapply Rle_trans; [apply Rabs_triang|]. rewrite Rabs_Ropp. lra. }
  assert (Es : Rabs (value A - H) <= (f + u / 1000) * H).
  { apply Rle_trans with (u / 1000 * H + (f * exp X + f * exp (- X))); [|unfold H; right; ring].
    replace (value A - H) with ((value A - (value p + value m)) + ((value p - exp X) + (value m - exp (- X)))) by (unfold H; ring).
    eapply Rle_trans; [apply Rabs_triang|]. apply Rplus_le_compat; [lra|]. eapply Rle_trans; [apply Rabs_triang|]. lra. }
  assert (g0 : (f + u / 1000) * H <= / 1000 * H) by (apply Rmult_le_compat_r; lra).
  assert (Hb : (f + u / 1000 + u / 8) * (H / 2) <= hyp_bound X * cosh X).
  { unfold cosh. fold H. apply Rmult_le_compat_r; [lra|]. unfold hyp_bound, f, e. pose proof (Rabs_pos X). assert (0 <= Rabs X * u) by (apply Rmult_le_pos; lra). lra. }
  exists (div_int d D 2), (div_int d A 2). split; [reflexivity|].
  assert (VA : 0 < value A) by (apply Rabs_le_inv in Es; lra).
  destruct (ok_div_int d Hd 1030070002 A 2 ltac:(lia) Oa ltac:(lra) ltac:(lia)) as (OA & NA & RA). change (1030070002 + 9)%Z with 1030070011%Z in OA.
  assert (DS : forall y T, Rabs (value y - value D / 2) <= u / 10 * Rabs (value D / 2) -> T = (exp X - exp (- X)) / 2 -> Rabs (value y - T) <= hyp_bound X * cosh X).
  { intros y T Ey ->. eapply Rle_trans; [|exact Hb]. assert (Rabs (value D / 2) <= 11 / 10 * (H / 2)).
    { unfold Rdiv. rewrite Rabs_mult, (Rabs_pos_eq (/ 2)) by lra. pose proof (Rabs_triang_inv (value D) (exp X - exp (- X))) as T1. assert (Rabs (exp X - exp (- X)) <= H) by (unfold H; apply Rabs_le; lra). lra. }
    assert (u / 10 * Rabs (value D / 2) <= u / 10 * (11 / 10 * (H / 2))) by (apply Rmult_le_compat_l; lra).
    replace (value y - (exp X - exp (- X)) / 2) with ((value y - value D / 2) + (value D - (exp X - exp (- X))) / 2) by field. eapply Rle_trans; [apply Rabs_triang|].
    replace (Rabs ((value D - (exp X - exp (- X))) / 2)) with (Rabs (value D - (exp X - exp (- X))) * / 2) by (unfold Rdiv; rewrite Rabs_mult, (Rabs_pos_eq (/ 2)) by lra; reflexivity). lra. }
  split; [|split; [exact OA|]].
  { destruct (Req_dec (value D) 0) as [Q|Q].
    - rewrite (div_int_value_zero D 2 (proj1 Os) Q ltac:(lia)). apply (ok_le d 1030070002); [lia|exact Os].
    - apply (ok_div_int d Hd 1030070002 D 2 ltac:(lia) Os Q ltac:(lia)). }
  unfold rel in RA. change (IZR 2) with 2 in RA. rewrite (Rabs_pos_eq (value A / 2)) in RA by lra.
  assert (Ab : value A / 2 <= 11 / 10 * (H / 2)) by (apply Rabs_le_inv in Es; lra).
  assert (uA : u / 10 * (value A / 2) <= u / 10 * (11 / 10 * (H / 2))) by (apply Rmult_le_compat_l; lra).
  assert (uA' : u / 10 * (value A / 2) <= / 10 * (value A / 2)) by (apply Rmult_le_compat_r; lra).
  split; [apply Rabs_le_inv in RA; lra|]. split.
  - apply DS; [|reflexivity]. destruct (Req_dec (value D) 0) as [Q|Q].
    + rewrite (div_int_value_zero D 2 (proj1 Os) Q ltac:(lia)), Q. replace (0 - 0 / 2) with 0 by field. replace (0 / 2) with 0 by field. rewrite Rabs_R0. lra.
    + apply (ok_div_int d Hd 1030070002 D 2 ltac:(lia) Os Q ltac:(lia)).
  - eapply Rle_trans; [|exact Hb]. unfold cosh. fold H. replace (value (div_int d A 2) - H / 2) with ((value (div_int d A 2) - value A / 2) + (value A - H) / 2) by field.
    eapply Rle_trans; [apply Rabs_triang|]. replace (Rabs ((value A - H) / 2)) with (Rabs (value A - H) * / 2) by (unfold Rdiv; rewrite Rabs_mult, (Rabs_pos_eq (/ 2)) by lra; reflexivity). lra.
Qed.

Lemma tanh_accurate x : finite d x -> full d x -> Rabs (value x) <= 2147483616 ->
  exists r, ModelElem.tanh d env x = Defined r /\ finite d r /\ full d r /\ Rabs (value r - sinh (value x) / cosh (value x)) <= (4 + Rabs (value x) / 40000) * u.
Proof.
  intros F P B. pose proof (u_tiny d Hd) as U. destruct (sinhcosh_accurate x F P B) as (s & c & E & Os & Oc & Vc & Es & Ec). unfold ModelElem.tanh. rewrite (finite_isfinite d x F), E. cbn [negb omap].
  eexists. split; [reflexivity|]. destruct (ok_inv d 1030070011 c Hd ltac:(lia) ltac:(lia) Oc ltac:(lra)) as [Oi Ei]. change (1030070011 + 1)%Z with 1030070012%Z in Oi.
  destruct (ok_rel_mul d Hd Hd' 1030070011 1030070012 s (inv d c) ltac:(lia) ltac:(lia) ltac:(lia) Os Oi) as [Or Rr]. split; [apply Or|]. split; [apply Or|].
  set (X := value x) in *. set (h := hyp_bound X) in *. pose proof (Rabs_pos X) as XX. assert (h0 : u <= h <= / 1000000).
  { unfold h, hyp_bound. split; [rewrite <- (Rmult_1_l u) at 1; apply Rmult_le_compat_r; lra|]. apply Rle_trans with (30000 * u); [apply Rmult_le_compat_r; lra|lra]. }
  pose proof (exp_pos X) as EP. pose proof (exp_pos (- X)) as EM. assert (C0 : 0 < cosh X) by (unfold cosh; lra). assert (SC : Rabs (sinh X) <= cosh X) by (unfold sinh, cosh; apply Rabs_le; lra).
  assert (hC : h * cosh X <= / 1000000 * cosh X) by (apply Rmult_le_compat_r; lra). pose proof (Rabs_le_inv _ _ Ec) as Ic. set (C := cosh X) in *. set (T := sinh X) in *.
  assert (uC : 0 <= h * C) by (apply Rmult_le_pos; lra).
  set (i := value (inv d c)) in *. set (S0 := value s) in *. set (c0 := value c) in *.
  (* i = (1 + a) / c0 *)
  set (a := c0 * i - 1) in *. assert (Ia : i = (1 + a) / c0) by (unfold a; field; lra).
  assert (Q : Rabs (S0 * i - T / C) <= (21 / 10 * h + 11 / 10 * u)).
  { rewrite Ia. replace (S0 * ((1 + a) / c0) - T / C) with (((S0 - T) + T / C * (C - c0) + a * S0) / c0) by (field; lra).
    unfold Rdiv at 1. rewrite Rabs_mult, (Rabs_pos_eq (/ c0)) by (left; apply Rinv_0_lt_compat; lra). apply (Rmult_le_reg_r c0); [lra|]. rewrite Rmult_assoc, Rinv_l, Rmult_1_r by lra.
    assert (TC : Rabs (T / C) <= 1). { unfold Rdiv. rewrite Rabs_mult, (Rabs_pos_eq (/ C)) by (left; apply Rinv_0_lt_compat; lra). apply (Rmult_le_reg_r C); [lra|]. rewrite Rmult_assoc, Rinv_l by lra. lra. }
    assert (X1 : Rabs (T / C * (C - c0)) <= 1 * (h * C)). { rewrite Rabs_mult. apply Rmult_le_compat; [apply Rabs_pos|apply Rabs_pos|exact TC|rewrite Rabs_minus_sym; exact Ec]. }
    assert (Sb : Rabs S0 <= 101 / 100 * C). { pose proof (Rabs_triang_inv S0 T). lra. }
    assert (X2 : Rabs (a * S0) <= u * (101 / 100 * C)). { rewrite Rabs_mult. apply Rmult_le_compat; [apply Rabs_pos|apply Rabs_pos|lra|exact Sb]. }
    eapply Rle_trans; [apply Rabs_triang|]. pose proof (Rabs_triang (S0 - T) (T / C * (C - c0))) as X3.
    assert (X4 : (21 / 10 * h + 11 / 10 * u) * (999999 / 1000000 * C) <= (21 / 10 * h + 11 / 10 * u) * c0) by (apply Rmult_le_compat_l; lra).
    assert (0 <= u * C) by (apply Rmult_le_pos; lra). lra. }
  assert (TC : Rabs (T / C) <= 1). { unfold Rdiv. rewrite Rabs_mult, (Rabs_pos_eq (/ C)) by (left; apply Rinv_0_lt_compat; lra). apply (Rmult_le_reg_r C); [lra|]. rewrite Rmult_assoc, Rinv_l by lra. lra. }
  unfold rel in Rr. fold S0 i in Rr. pose proof (Rabs_triang_inv (S0 * i) (T / C)) as X5. assert (X6 : u / 1000000 * Rabs (S0 * i) <= u / 1000000 * 2) by (apply Rmult_le_compat_l; lra).
  replace (value (mul d s (inv d c)) - T / C) with ((value (mul d s (inv d c)) - S0 * i) + (S0 * i - T / C)) by ring. eapply Rle_trans; [apply Rabs_triang|].
  assert (hE : h = u + Rabs X / 100000 * u) by (unfold h, hyp_bound; ring). assert (0 <= Rabs X * u) by (apply Rmult_le_pos; lra). lra.
Qed.

End FixedDigits.
