(** * Cube roots: proofs for C80 *)

From Flocq Require Import Core BinarySingleNaN.
From Coq Require Import ZArith List Bool Lia Reals Lra.
From Verif Require Import Model Spec Limbs Value CmpProofs AddProofs Decide OrderProofs MulValue MulCor IntProofs IntConv MixedProofs IntCor ModelDiv ModelPow ModelElem
  DivProofs NewtonProofs InvProofs SqrtProofs.
Import ListNotations.
Open Scope R_scope.
Local Notation p10 := (powerRZ 10).
Local Notation exp := Model.exp.
Local Notation ulp := Spec.ulp.
Local Notation mag := AddProofs.mag.
Local Notation sqrt := ModelDiv.sqrt.

(** ** The step in real numbers *)

Lemma cube_real E eps d1 d2 d3 a4 b a5 d6 : 0 <= E <= 1 / 1000000 -> Rabs eps <= 1 / 1000 ->
  Rabs d1 <= E -> Rabs d2 <= E -> Rabs d3 <= E -> Rabs a4 <= 4 / 10 * E -> Rabs b <= E / 100 -> Rabs a5 <= 4 / 10 * E -> Rabs d6 <= E ->
  let c := (1 - eps) * (1 + d1) * (1 + d2) * (1 + d3) in
  let t := (1 - c + a4) / 3 + b + 1 + a5 in
  Rabs (1 - (1 - eps) * (t * t * t) * ((1 + d6) * (1 + d6) * (1 + d6))) <= eps * eps + 8 * E.
Proof.
  intros HE He H1 H2 H3 H4 Hb H5 H6 c t.
  apply Rabs_le_inv in He, H1, H2, H3, H4, Hb, H5, H6.
  set (d12 := d1 + d2 + d1 * d2).
  assert (B12 : - (2001 / 1000 * E) <= d12 <= 2001 / 1000 * E).
  { pose proof (pb d1 d2 E E H1 H2) as P. assert (E * E <= E / 1000) by nra. unfold d12. lra. }
  set (g := d12 + d3 + d12 * d3).
  assert (Bg : - (3002 / 1000 * E) <= g <= 3002 / 1000 * E).
  { pose proof (pb d12 d3 _ _ B12 H3) as P. assert (2001 / 1000 * E * E <= E / 1000) by nra. unfold g. lra. }
  assert (Ec : c = (1 - eps) + (1 - eps) * g) by (unfold c, g, d12; ring).
  pose proof (pb eps g _ _ He Bg) as Peg.
  set (tau := (- (1 - eps) * g + a4) / 3 + b + a5).
  assert (Bt : - (155 / 100 * E) <= tau <= 155 / 100 * E).
  { replace tau with ((- g + eps * g + a4) / 3 + b + a5) by (unfold tau; field). lra. }
  set (q := eps / 3). assert (Bq : - (1 / 3000) <= q <= 1 / 3000) by (unfold q; lra).
  assert (Et : t = 1 + q + tau) by (unfold t, tau, q; rewrite Ec; field).
  set (K := 3 * ((1 + q) * (1 + q)) + 3 * ((1 + q) * tau) + tau * tau).
  assert (BK : - (303 / 100) <= K <= 303 / 100).
  { pose proof (pb q q _ _ Bq Bq) as Q1. pose proof (pb q tau _ _ Bq Bt) as Q2. pose proof (pb tau tau _ _ Bt Bt) as Q3.
    assert (155 / 100 * E * (155 / 100 * E) <= 1 / 1000) by nra.
    replace K with (3 + 6 * q + 3 * (q * q) + 3 * tau + 3 * (q * tau) + tau * tau) by (unfold K; ring). nra. }
  set (T := tau * K). pose proof (pb tau K _ _ Bt BK) as BT0.
  assert (BT : - (470 / 100 * E) <= T <= 470 / 100 * E) by (unfold T; lra). clear BT0.
  pose proof (pb eps T _ _ He BT) as PeT.
  set (f := 2 / 3 + 8 / 27 * eps + eps * eps / 27).
  assert (Bf : 0 <= f <= 7 / 10). { pose proof (pb eps eps _ _ He He). unfold f. lra. }
  set (A := eps * eps * f). assert (P2 : 0 <= eps * eps) by nra.
  assert (BA : 0 <= A <= 7 / 10 * (eps * eps)) by (unfold A; nra).
  assert (Ee : eps * eps <= 1 / 1000000). { pose proof (pb eps eps _ _ He He). lra. }
  set (B := (1 - eps) * T). assert (BB : - (471 / 100 * E) <= B <= 471 / 100 * E).
  { replace B with (T - eps * T) by (unfold B; ring). lra. }
  set (D := 3 * d6 + 3 * (d6 * d6) + d6 * (d6 * d6)).
  assert (BD : - (301 / 100 * E) <= D <= 301 / 100 * E).
  { pose proof (pb d6 d6 _ _ H6 H6) as Q1. pose proof (pb d6 (d6 * d6) _ _ H6 Q1) as Q2. assert (E * E <= E / 1000) by nra. assert (E * (E * E) <= E / 1000) by nra. unfold D. lra. }
  assert (W : 1 - (1 - eps) * (t * t * t) * ((1 + d6) * (1 + d6) * (1 + d6)) = A - B - D * (1 - A + B)).
  { rewrite Et. unfold A, B, D, T, K, f, q. field. }
  rewrite W. assert (BU : - (1001 / 1000) <= 1 - A + B <= 1001 / 1000) by lra.
  pose proof (pb D _ _ _ BD BU) as PD. apply Rabs_le. lra.
Qed.

(** ** Products of moderate size *)

Lemma mul_mid d u v : valid_digits d -> finite d u -> finite d v ->
  powerRZ 10 (-2100000000) <= Rabs (value u * value v) < powerRZ 10 2100000000 ->
  finite d (mul d u v) /\ prec (mul d u v) = prec u /\
  exists del, Rabs del <= Emul (Z.min (prec u) (prec v)) /\ value (mul d u v) = value u * value v * (1 + del).
Proof.
  intros Hd Fu Fv [H1 H2]. pose proof (p10_pos (-2100000000)) as P0.
  assert (Nu : value u <> 0). { intro C. rewrite C, Rmult_0_l, Rabs_R0 in H1. lra. }
  assert (Nv : value v <> 0). { intro C. rewrite C, Rmult_0_r, Rabs_R0 in H1. lra. }
  rewrite Rabs_mult in H1, H2.
  pose proof (finite_abs_bounds d u Hd Fu (value_nonzero_lead d u Hd Fu Nu)) as [U1 U2].
  pose proof (finite_abs_bounds d v Hd Fv (value_nonzero_lead d v Hd Fv Nv)) as [V1 V2].
  pose proof (p10_pos (exp u)). pose proof (p10_pos (exp v)).
  assert (L : (exp u + exp v < 2100000000)%Z).
  { destruct (Z.lt_ge_cases (exp u + exp v) 2100000000) as [|G]; auto. exfalso.
    assert (p10 (exp u) * p10 (exp v) <= Rabs (value u) * Rabs (value v)) by (apply Rmult_le_compat; lra).
    rewrite <- p10_add in H3. assert (p10 2100000000 <= p10 (exp u + exp v)) by (apply p10_le; lia). lra. }
  assert (G : (-2100000016 < exp u + exp v)%Z).
  { destruct (Z.lt_ge_cases (-2100000016) (exp u + exp v)) as [|G]; auto. exfalso.
    assert (Rabs (value u) * Rabs (value v) < p10 (exp u + 8) * p10 (exp v + 8)) by (apply Rmult_le_0_lt_compat; auto using Rabs_pos).
    rewrite <- p10_add in H3. assert (p10 (exp u + 8 + (exp v + 8)) <= p10 (-2100000000)) by (apply p10_le; lia). lra. }
  destruct (mul_ok d u v Hd Fu Fv Nu Nv) as (Fr & _ & Pr & E).
  { unfold exponents_overflow. lia. } { unfold exponents_underflow. lia. }
  auto.
Qed.

(** ** Division by a small integer at any working precision *)

Lemma div_int_prec d x n : valid_digits d -> finite d x -> (3 <= prec x)%Z -> (2 <= n < 100000000)%Z ->
  finite d (div_int d x n) /\ (prec (div_int d x n) = prec x) /\
  Rabs (value (div_int d x n) - value x / IZR n) <= p10 (24 - 8 * prec x) * Rabs (value x / IZR n).
Proof.
  intros Hd F P3 Hn. unfold div_int, div_sll. replace (n =? sll_min)%Z with false by (symmetry; apply Z.eqb_neq; unfold sll_min; lia).
  replace (n <? 0)%Z with false by (symmetry; apply Z.ltb_ge; lia). cbn [negb]. rewrite u64_small by (change (2 ^ 64)%Z with 18446744073709551616%Z; lia).
  assert (Rn : 2 <= IZR n) by (apply IZR_le; lia).
  unfold div_ull. set (x' := set_neg x false).
  assert (F' : finite d x').
  { destruct (Z.eq_dec (limb (data x) 0) 0) as [E0|E0]; [|apply set_neg_finite; auto].
    replace x' with x; [exact F|]. unfold x', set_neg. destruct (wf_zero _ _ (proj1 F) (proj2 F) E0) as [_ E1]. destruct x. cbn in *. congruence. }
  destruct (finite_flags d x' F') as [Ni Nn]. rewrite Ni, Nn. replace (n =? 0)%Z with false by lia.
  destruct (Req_dec (value x) 0) as [Z0|N0].
  - assert (L0 : limb (data x) 0 = 0%Z) by (apply (finite_zero_iff d x Hd F); auto).
    assert (iszero x' = true) as -> by (apply (finite_zero_flag d x'); auto; apply (finite_zero_iff d x' Hd F'); exact L0).
    split; [exact F'|]. split; [reflexivity|].
    assert (value x' = 0) as -> by (apply (finite_zero_iff d x' Hd F'); exact L0).
    rewrite Z0. unfold Rdiv. rewrite Rmult_0_l, Rminus_0_r, Rabs_R0. lra.
  - assert (L0 : limb (data x) 0 <> 0%Z) by (apply (value_nonzero_lead d); auto).
    assert (iszero x' = false) as -> by (apply limbs_nonzero_iszero; [apply F|exact L0]).
    replace (n >=? mask)%Z with false by (unfold mask; lia). replace (n >? 1)%Z with true by lia.
    destruct (div_small_spec d x' n Hd F' L0 ltac:(lia) ltac:(exact P3)) as (Fr & Lr & Pr & Nr & Er & Ar & _).
    assert (iszero (div_small x' n) = false) as -> by (apply limbs_nonzero_iszero; [apply Fr|exact Lr]).
    set (y := div_small x' n) in *. change (prec x') with (prec x) in *. change (data x') with (data x) in *. change (exp x') with (exp x) in *.
    assert (Fs : finite d (set_neg y (neg x))) by (apply set_neg_finite; auto).
    split; [exact Fs|]. split; [exact Pr|].
    rewrite (value_mag d _ Fs), (value_mag d x F). cbn [set_neg neg data Model.exp]. change (exp (set_neg y (neg x))) with (exp y).
    assert (M0 : 0 <= mag d (data x) (exp x)) by (apply mag_nonneg, (wf_limbs d x), F).
    set (my := mag d (data y) (exp y)) in *. set (mx := mag d (data x) (exp x)) in *.
    assert (SA : Rabs (sign (neg x)) = 1). { unfold sign. destruct (neg x); [rewrite Rabs_left; lra|apply Rabs_R1]. }
    assert (In : 0 < / IZR n) by (apply Rinv_0_lt_compat; lra).
    replace (sign (neg x) * my - sign (neg x) * mx / IZR n) with (sign (neg x) * ((IZR n * my - mx) * / IZR n)) by (field; lra).
    replace (sign (neg x) * mx / IZR n) with (sign (neg x) * (mx * / IZR n)) by (field; lra).
    rewrite !Rabs_mult, SA, (Rabs_pos_eq (/ IZR n)), (Rabs_pos_eq mx), !Rmult_1_l, <- Rmult_assoc by lra.
    apply Rmult_le_compat_r; lra.
Qed.

(** ** One step *)

Lemma box x y a b c e : a <= x <= b -> c <= y <= e -> 0 <= a -> 0 <= c -> a * c <= x * y <= b * e.
Proof. intros. split; apply Rmult_le_compat; lra. Qed.

Lemma between_cube r b : 0 < r -> 0 < b <= 1 -> b <= r * r * r <= / b -> b <= r <= / b /\ b <= r * r <= / b.
Proof.
  intros R [B0 B1] [H1 H2]. assert (I : 1 <= / b) by (rewrite <- Rinv_1; apply Rinv_le_contravar; lra).
  destruct (Rle_dec r 1) as [L|L].
  - assert (r * r <= r) by nra. assert (r * r * r <= r * r) by nra. lra.
  - assert (r <= r * r) by nra. assert (r * r <= r * r * r) by nra. lra.
Qed.

Lemma cube_step d x r m : valid_digits d -> finite d x -> full d x -> finite d r -> 0 < value r ->
  p10 (-2000000000) <= value x <= p10 2000000000 -> (1 <= m)%Z -> Rabs (1 - value r * value r * value r * value x) <= p10 (-11) ->
  let p := Z.min (elem_number d) (3 * m + 2) in
  let r1 := precision d r (12 * m * 2 + 10) in
  let t := precision d (add d (div_int d (add d (mul d (negate (mul d (mul d r1 r1) r1)) x) (one d)) 3) (one d)) (12 * m * 2 + 10) in
  let r' := mul d r1 t in
  let eps := 1 - value r * value r * value r * value x in
  finite d r' /\ 0 < value r' /\ Rabs (1 - value r' * value r' * value r' * value x) <= eps * eps + 8 * Emul p.
Proof.
  intros Hd Fx Px Fr Vr Bx Hm He p r1 t r' eps.
  pose proof (elem_number_bounds d Hd) as HN. pose proof (elem_number_digits d Hd) as HN'.
  assert (Hp : (5 <= p <= elem_number d)%Z) by (unfold p; lia).
  assert (F1 : finite d r1) by (apply precision_finite; auto). assert (P1 : prec r1 = p) by (apply precision_12; auto).
  assert (V1 : value r1 = value r) by apply set_prec_value. fold eps in He. unfold t in r'. clear t. rewrite <- V1 in Vr.
  assert (T11 : p10 (-11) = / 100000000000) by (change (-11)%Z with (- (11))%Z; rewrite p10_inv, p10_nonneg by lia; reflexivity).
  set (E := Emul p). assert (HE0 : 0 < E) by (apply Emul_pos; lia).
  assert (HE1 : E <= 1 / 1000000).
  { eapply Rle_trans; [apply (Emul_small d); auto|]. apply Rle_trans with (p10 (-6)); [apply p10_le; lia|].
    change (-6)%Z with (- (6))%Z. rewrite p10_inv, p10_nonneg by lia. change (10 ^ 6)%Z with 1000000%Z. lra. }
  set (v := value r1) in *. set (X := value x) in *. rewrite T11 in He. pose proof He as He'. apply Rabs_le_inv in He'.
  assert (E3 : v * v * v * X = 1 - eps) by (unfold eps; rewrite <- V1; unfold v, X; ring). clearbody eps.
  (* sizes *)
  set (b := p10 (-2000000001)). assert (B0 : 0 < b) by apply p10_pos.
  assert (B1 : b <= 1) by (unfold b; rewrite <- p10_0; apply p10_le; lia).
  assert (Bi : / b = p10 2000000001) by (unfold b; change (-2000000001)%Z with (- (2000000001))%Z; rewrite p10_inv, Rinv_inv; reflexivity).
  assert (G1 : p10 (-2000000000) = 10 * b) by (unfold b; replace (-2000000000)%Z with (1 + -2000000001)%Z by lia; rewrite p10_add, p10_1; reflexivity).
  assert (G2 : p10 2000000000 = / b / 10) by (rewrite Bi; replace 2000000001%Z with (1 + 2000000000)%Z by lia; rewrite p10_add, p10_1; field).
  assert (Ib : 0 < / b) by (apply Rinv_0_lt_compat; lra).
  assert (X0 : 0 < X) by lra.
  assert (C3 : v * v * v = (1 - eps) / X) by (rewrite <- E3; field; lra).
  assert (IX : 10 * b <= / X <= / b / 10).
  { split.
    - replace (10 * b) with (/ (/ b / 10)) by (field; lra). apply Rinv_le_contravar; lra.
    - replace (/ b / 10) with (/ (10 * b)) by (field; lra). apply Rinv_le_contravar; lra. }
  assert (C3' : 9 * b <= v * v * v <= / b / 9). { rewrite C3. unfold Rdiv. split; nra. }
  destruct (between_cube v b Vr ltac:(lra) ltac:(lra)) as [Bv Bvv].
  assert (W1 : p10 (-2100000000) <= b / 100). { unfold b. apply Rle_trans with (p10 (-2 + -2000000001)); [apply p10_le; lia|]. rewrite p10_add. change (-2)%Z with (- (2))%Z. rewrite p10_inv, (p10_nonneg 2) by lia. change (10 ^ 2)%Z with 100%Z. lra. }
  assert (W2 : 100 * / b < p10 2100000000). { rewrite Bi. apply Rlt_le_trans with (p10 (3 + 2000000001)); [|apply p10_le; lia]. rewrite p10_add, (p10_nonneg 3) by lia. change (10 ^ 3)%Z with 1000%Z. pose proof (p10_pos 2000000001). lra. }
  assert (HD : forall dl, Rabs dl <= E -> 99 / 100 <= 1 + dl <= 101 / 100) by (intros dl Hl; apply Rabs_le_inv in Hl; lra).
  (* r * r *)
  destruct (mul_mid d r1 r1 Hd F1 F1) as (Fa & Pa & d1 & Hd1 & Ea). { fold v. rewrite Rabs_pos_eq by lra. lra. }
  rewrite P1, Z.min_id in Hd1. fold E in Hd1. fold v in Ea. pose proof (HD _ Hd1) as Q1. set (a := mul d r1 r1) in *.
  assert (Va : 0 < value a) by (rewrite Ea; apply Rmult_lt_0_compat; lra).
  (* r * r * r *)
  assert (Ba : value a * v = v * v * v * (1 + d1)) by (rewrite Ea; ring).
  destruct (mul_mid d a r1 Hd Fa F1) as (Fc & Pc & d2 & Hd2 & Ec). { fold v. rewrite Ba. pose proof (box _ _ _ _ _ _ C3' Q1 ltac:(lra) ltac:(lra)) as QB. split; [|]; rewrite Rabs_pos_eq; lra. }
  rewrite Pa, P1, Z.min_id in Hd2. fold E in Hd2. fold v in Ec. rewrite Ba in Ec. pose proof (HD _ Hd2) as Q2. set (c := mul d a r1) in *.
  (* times -x *)
  assert (Fn : finite d (negate c)) by (apply negate_finite; auto). assert (Vn : value (negate c) = - value c) by (apply (negate_value d); auto).
  assert (Bc : value (negate c) * X = - ((1 - eps) * (1 + d1) * (1 + d2))) by (rewrite Vn, Ec, <- E3; ring).
  assert (Q12 : 98 / 100 <= (1 + d1) * (1 + d2) <= 103 / 100). { pose proof (box _ _ _ _ _ _ Q1 Q2 ltac:(lra) ltac:(lra)). lra. }
  assert (Q12' : 97 / 100 <= (1 - eps) * (1 + d1) * (1 + d2) <= 104 / 100). { rewrite Rmult_assoc. assert (Q0 : 99 / 100 <= 1 - eps <= 1001 / 1000) by lra. pose proof (box _ _ _ _ _ _ Q0 Q12 ltac:(lra) ltac:(lra)). lra. }
  assert (Z0 : p10 (-2100000000) <= 1 / 2 /\ 2 < p10 2100000000).
  { split; [|].
    - apply Rle_trans with (b / 100); lra.
    - assert (1 <= / b) by (rewrite <- Rinv_1; apply Rinv_le_contravar; lra). lra. }
  destruct (mul_mid d (negate c) x Hd Fn Fx) as (Fe & Pe & d3 & Hd3 & Ee). { fold X. rewrite Bc, Rabs_Ropp, Rabs_pos_eq by lra. lra. }
  unfold full in Px. rewrite negate_prec, Pc, Pa, P1, Px, Z.min_l in Hd3 by lia. fold E in Hd3. fold X in Ee. rewrite Bc in Ee. pose proof (HD _ Hd3) as Q3.
  rewrite negate_prec, Pc, Pa, P1 in Pe. set (e := mul d (negate c) x) in *.
  set (cc := (1 - eps) * (1 + d1) * (1 + d2) * (1 + d3)). assert (Ve : value e = - cc) by (rewrite Ee; unfold cc; ring).
  assert (Bcc : 9 / 10 <= cc <= 11 / 10). { unfold cc. pose proof (box _ _ _ _ _ _ Q12' Q3 ltac:(lra) ltac:(lra)). lra. }
  (* plus one *)
  destruct (one_ok_ef d Hd) as (Fo & Vo & Po & Xo).
  assert (Hbig : 100 <= p10 max_exp10). { apply Rle_trans with (p10 2); [rewrite p10_nonneg by lia; change (10 ^ 2)%Z with 100%Z; lra|]. apply p10_le. unfold max_exp10. lia. }
  pose proof (add_below_mul d p Hd Hp) as AB. fold E in AB. pose proof (p10_pos (- (d + 17))) as Pd.
  destruct (add_ok d e (one d) Hd Fe Fo) as (Fs & Es). { rewrite Ve, Vo, Rabs_Ropp, !Rabs_pos_eq by lra. lra. }
  assert (Rmax (Rabs (value e)) (Rabs (value (one d))) <= 11 / 10).
  { rewrite Ve, Vo, Rabs_Ropp. apply Rmax_lub; rewrite Rabs_pos_eq; lra. }
  assert (M0 : forall u w, 0 <= Rmax (Rabs u) (Rabs w)) by (intros u w; eapply Rle_trans; [apply Rabs_pos|apply Rmax_l]).
  set (s := add d e (one d)) in *. set (a4 := value s - (1 - cc)).
  assert (H4 : Rabs a4 <= 4 / 10 * E). { unfold a4. replace (1 - cc) with (value e + value (one d)) by lra. eapply Rle_trans; [exact Es|]. apply Rle_trans with (2 * p10 (- (d + 17)) * (11 / 10)); [apply Rmult_le_compat_l; lra|lra]. }
  assert (Vs : value s = 1 - cc + a4) by (unfold a4; ring).
  assert (H4' := H4). apply Rabs_le_inv in H4'.
  assert (Bs : Rabs (value s) <= / 10000000000).
  { assert (N1 : Rabs (1 - cc - eps) <= / 100000000000).
    { assert (EE : E <= / 100000000000000000000). { eapply Rle_trans; [apply (Emul_small d); auto|]. change (-20)%Z with (- (20))%Z. rewrite p10_inv, p10_nonneg by lia. change (10 ^ 20)%Z with 100000000000000000000%Z. lra. }
      apply Rabs_le_inv in Hd1, Hd2, Hd3. unfold cc.
      set (g := d1 + d2 + d1 * d2). pose proof (pb d1 d2 _ _ Hd1 Hd2) as PB1. assert (Sq : E * E <= E) by (rewrite <- (Rmult_1_r E) at 3; apply Rmult_le_compat_l; lra).
      assert (Bg : - (3 * E) <= g <= 3 * E) by (unfold g; lra). pose proof (pb g d3 _ _ Bg Hd3) as PB2.
      set (h := g + d3 + g * d3). assert (Bh : - (7 * E) <= h <= 7 * E) by (unfold h; replace (3 * E * E) with (3 * (E * E)) in PB2 by ring; lra).
      pose proof (pb eps h (/ 100000000000) (7 * E) He' Bh) as PB3.
      replace (1 - (1 - eps) * (1 + d1) * (1 + d2) * (1 + d3) - eps) with (- h + eps * h) by (unfold h, g; ring). apply Rabs_le. lra. }
    apply Rabs_le_inv in N1. rewrite Vs. apply Rabs_le. 
    assert (EE : E <= / 100000000000000000000). { eapply Rle_trans; [apply (Emul_small d); auto|]. change (-20)%Z with (- (20))%Z. rewrite p10_inv, p10_nonneg by lia. change (10 ^ 20)%Z with 100000000000000000000%Z. lra. }
    lra. }
  assert (Ps : prec s = p \/ prec s = elem_number d).
  { unfold s. destruct (prec_add d e (one d)) as [Q|[Q|Q]]; rewrite Q; auto. }
  (* divided by three *)
  destruct (div_int_prec d s 3 Hd Fs ltac:(destruct Ps; lia) ltac:(lia)) as (Fw & Pw & Ew).
  set (w := div_int d s 3) in *. set (bb := value w - value s / 3).
  assert (Hb : Rabs bb <= E / 100).
  { unfold bb. eapply Rle_trans; [exact Ew|]. pose proof (mul_int_prec_small d p Hd Hp) as MP. fold E in MP.
    apply Rle_trans with (p10 (24 - 8 * p) * / 10000000000).
    - apply Rmult_le_compat; [left; apply p10_pos|apply Rabs_pos|apply p10_le; destruct Ps; lia|]. unfold Rdiv. rewrite Rabs_mult, (Rabs_pos_eq (/ 3)) by lra. pose proof (Rabs_pos (value s)). lra.
    - replace (/ 10000000000) with (p10 (- (10))) by (rewrite p10_inv, p10_nonneg by lia; reflexivity). rewrite <- p10_add.
      apply Rle_trans with (p10 (16 + (- (2)) - 8 * p)); [apply p10_le; lia|]. 
      replace (16 + - (2) - 8 * p)%Z with (- (2) + (16 - 8 * p))%Z by lia. rewrite p10_add, p10_inv, (p10_nonneg 2) by lia. change (10 ^ 2)%Z with 100%Z. unfold E, Emul.
      assert (7 <= IZR (E0 p + 2)) by (apply IZR_le; pose proof (E0_nonneg p ltac:(lia)); lia). pose proof (p10_pos (16 - 8 * p)) as P16.
      apply Rle_trans with (7 * p10 (16 - 8 * p) / 100); [|apply Rmult_le_compat_r; [lra|apply Rmult_le_compat_r; lra]].
      lra. }
  assert (Vw : value w = (1 - cc + a4) / 3 + bb) by (unfold bb; rewrite Vs; ring).
  assert (Hb' := Hb). apply Rabs_le_inv in Hb'. apply Rabs_le_inv in Bs. rewrite Vs in Bs.
  assert (Bw : - / 100 <= value w <= / 100) by lra.
  (* plus one *)
  destruct (add_ok d w (one d) Hd Fw Fo) as (Ft & Et). { rewrite Vo, (Rabs_pos_eq 1) by lra. assert (Rabs (value w) <= / 100) by (apply Rabs_le; lra). lra. }
  assert (Rmax (Rabs (value w)) (Rabs (value (one d))) <= 1). { rewrite Vo, Rabs_R1. apply Rmax_lub; [apply Rabs_le|]; lra. }
  set (t0 := add d w (one d)) in *. set (a5 := value t0 - (value w + 1)).
  assert (H5 : Rabs a5 <= 4 / 10 * E). { unfold a5. rewrite <- Vo at 1. eapply Rle_trans; [exact Et|]. apply Rle_trans with (2 * p10 (- (d + 17)) * 1); [apply Rmult_le_compat_l; lra|lra]. }
  set (t := precision d t0 (12 * m * 2 + 10)) in *.
  assert (Ft' : finite d t) by (apply precision_finite; auto). assert (Pt : prec t = p) by (apply precision_12; auto).
  assert (Vt : value t = (1 - cc + a4) / 3 + bb + 1 + a5). { unfold t. rewrite set_prec_value || (unfold precision; rewrite set_prec_value). unfold a5. rewrite <- Vw. ring. }
  assert (H5' := H5). apply Rabs_le_inv in H5'. assert (Bt : 9 / 10 <= value t <= 11 / 10) by (rewrite Vt; rewrite <- Vw; lra).
  destruct (mul_mid d r1 t Hd F1 Ft') as (Fr' & Pr' & d6 & Hd6 & Er'). { fold v. pose proof (box _ _ _ _ _ _ Bv Bt ltac:(lra) ltac:(lra)). rewrite Rabs_pos_eq by lra. lra. }
  rewrite P1, Pt, Z.min_id in Hd6. fold E in Hd6. fold v in Er'. pose proof (HD _ Hd6) as Q6. fold r' in Fr', Er'.
  split; [exact Fr'|]. split; [rewrite Er'; apply Rmult_lt_0_compat; [apply Rmult_lt_0_compat|]; lra|].
  pose proof (cube_real E eps d1 d2 d3 a4 bb a5 d6 ltac:(lra) ltac:(lra) Hd1 Hd2 Hd3 H4 Hb H5 Hd6) as R. cbv zeta in R. fold cc in R. rewrite <- Vt in R.
  replace (value r' * value r' * value r' * X) with ((1 - eps) * (value t * value t * value t) * ((1 + d6) * (1 + d6) * (1 + d6))); [exact R|].
  rewrite Er', <- E3. ring.
Qed.

(** ** The loop *)

Definition bnd3 d m : R := 3 / 4 * p10 (- (11 * m)) + 10 * Emul (elem_number d).

Lemma Emul_m2 d m : valid_digits d -> (2 <= m)%Z -> (3 * m + 2 <= elem_number d)%Z -> 8 * Emul (3 * m + 2) <= 1 / 100 * p10 (- (22 * m)).
Proof.
  intros Hd Hm Hp. pose proof (elem_number_bounds d Hd) as HN. unfold Emul.
  replace (16 - 8 * (3 * m + 2))%Z with (- (2 * m) + - (22 * m))%Z by lia. rewrite p10_add.
  assert (G : 800 * IZR (E0 (3 * m + 2) + 2) <= p10 (2 * m)).
  { rewrite p10_nonneg by lia. rewrite <- mult_IZR. apply IZR_le. unfold E0.
    destruct (Z.ltb_spec ((3 * m + 2) * 8) 5000) as [H|H].
    - replace (10 ^ (2 * m))%Z with (100 ^ m)%Z by (rewrite Z.pow_mul_r by lia; reflexivity).
      replace (100 ^ m)%Z with (100 * 100 ^ (m - 1))%Z by (rewrite <- Z.pow_succ_r by lia; f_equal; lia).
      pose proof (pow100 (m - 1) ltac:(lia)). lia.
    - apply Z.le_trans with (10 ^ 20)%Z; [change (10 ^ 20)%Z with 100000000000000000000%Z; lia|].
      apply Z.pow_le_mono_r; lia. }
  pose proof (p10_pos (- (22 * m))) as Q.
  assert (L : 800 * (IZR (E0 (3 * m + 2) + 2) * p10 (- (2 * m))) <= 1).
  { rewrite p10_inv. apply Rmult_le_reg_r with (p10 (2 * m)); [apply p10_pos|].
    rewrite Rmult_assoc, Rmult_assoc, Rinv_l by apply p10_neq0. lra. }
  apply Rmult_le_compat_r with (r := p10 (- (22 * m))) in L; [|lra]. lra.
Qed.

Lemma bnd3_small d m : valid_digits d -> (1 <= m)%Z -> bnd3 d m <= p10 (-11).
Proof.
  intros Hd Hm. pose proof (elem_number_bounds d Hd). unfold bnd3.
  pose proof (Emul_small d (elem_number d) Hd ltac:(lia)).
  assert (p10 (- (11 * m)) <= p10 (-11)) by (apply p10_le; lia).
  assert (40 * p10 (-20) <= p10 (-11)).
  { replace (-11)%Z with (9 + -20)%Z by lia. rewrite p10_add. apply Rmult_le_compat_r; [apply Rlt_le, p10_pos|].
    rewrite p10_nonneg by lia. change (10 ^ 9)%Z with 1000000000%Z. lra. }
  lra.
Qed.

(* what the loop starts from, and what it keeps *)
Definition close d m (eps : R) : Prop := (m = 1%Z /\ Rabs eps <= p10 (-12)) \/ ((2 <= m)%Z /\ Rabs eps <= bnd3 d m).

Lemma bnd3_step d m eps : valid_digits d -> (1 <= m)%Z -> close d m eps ->
  eps * eps + 8 * Emul (Z.min (elem_number d) (3 * m + 2)) <= bnd3 d (2 * m).
Proof.
  intros Hd Hm He. pose proof (elem_number_bounds d Hd) as HN. pose proof (elem_number_digits d Hd) as HN'.
  set (EN := Emul (elem_number d)). assert (HEN : 0 < EN) by (apply Emul_pos; lia).
  assert (Sq : eps * eps = Rabs eps * Rabs eps) by (rewrite <- Rabs_mult; symmetry; apply Rabs_pos_eq; nra). rewrite Sq. pose proof (Rabs_pos eps) as A0.
  destruct He as [[-> He]|[Hm2 He]].
  - rewrite Z.min_r by (unfold valid_digits in Hd; lia). change (3 * 1 + 2)%Z with 5%Z. unfold bnd3. fold EN. change (- (11 * (2 * 1)))%Z with (- (22))%Z.
    assert (Q : Rabs eps * Rabs eps <= p10 (-12) * p10 (-12)) by (apply Rmult_le_compat; lra). rewrite <- p10_add in Q. change (-12 + -12)%Z with (-2 + - (22))%Z in Q. rewrite p10_add in Q.
    unfold Emul. change (E0 5 + 2)%Z with 7%Z. change (16 - 8 * 5)%Z with (-2 + - (22))%Z. rewrite p10_add.
    change (-2)%Z with (- (2))%Z in *. rewrite (p10_inv 2), (p10_nonneg 2) in * by lia. change (10 ^ 2)%Z with 100%Z in *. pose proof (p10_pos (- (22))). lra.
  - pose proof (Emul_small d (elem_number d) Hd ltac:(lia)) as HES. fold EN in HES.
    assert (H20 : p10 (-20) <= p10 (-11)) by (apply p10_le; lia).
    assert (T11 : p10 (-11) = / 100000000000) by (change (-11)%Z with (- (11))%Z; rewrite p10_inv, p10_nonneg by lia; reflexivity).
    assert (Hq : p10 (- (11 * (2 * m))) = p10 (- (11 * m)) * p10 (- (11 * m))) by (rewrite <- p10_add; f_equal; lia).
    unfold bnd3 in *. fold EN in He |- *. rewrite Hq.
    set (q := p10 (- (11 * m))) in *. pose proof (p10_pos (- (11 * m))) as Hq0. fold q in Hq0.
    assert (Hq1 : q <= / 100000000000) by (rewrite <- T11; apply p10_le; lia).
    assert (Hs : Rabs eps * Rabs eps <= (3 / 4 * q + 10 * EN) * (3 / 4 * q + 10 * EN)) by (apply Rmult_le_compat; lra).
    assert (C1 : q * EN <= / 1000 * EN) by (apply Rmult_le_compat_r; lra). assert (C2 : EN * EN <= / 1000 * EN) by (apply Rmult_le_compat_r; lra).
    replace ((3 / 4 * q + 10 * EN) * (3 / 4 * q + 10 * EN)) with (9 / 16 * (q * q) + 15 * (q * EN) + 100 * (EN * EN)) in Hs by field.
    assert (P2 : 0 < q * q) by (apply Rmult_lt_0_compat; lra).
    destruct (Z.le_gt_cases (3 * m + 2) (elem_number d)) as [L|L].
    + rewrite Z.min_r by lia. pose proof (Emul_m2 d m Hd Hm2 L) as HE. replace (22 * m)%Z with (11 * (2 * m))%Z in HE by lia. rewrite Hq in HE. fold q in HE. lra.
    + rewrite Z.min_l by lia. fold EN. lra.
Qed.

Lemma cube_loop d x : valid_digits d -> finite d x -> full d x -> p10 (-2000000000) <= value x <= p10 2000000000 ->
  forall fuel r m, finite d r -> 0 < value r -> (1 <= m)%Z -> (tolerance d < 12 * m * 2 ^ Z.of_nat fuel)%Z ->
  close d m (1 - value r * value r * value r * value x) ->
  exists m' s, (tolerance d < 12 * m')%Z /\ (1 <= m')%Z /\ rootn_loop d fuel x r 3 (12 * m) = Defined s /\ finite d s /\ 0 < value s /\
    close d m' (1 - value s * value s * value s * value x).
Proof.
  intros Hd Fx Px Bx. induction fuel as [|f IH]; intros r m Fr Vr Hm Hf He.
  - exists m, r. cbn [rootn_loop]. rewrite Z.mul_1_r in Hf. auto 10.
  - cbn [rootn_loop]. destruct (Z.leb_spec (12 * m) (tolerance d)) as [L|L].
    + assert (HB : Rabs (1 - value r * value r * value r * value x) <= p10 (-11)).
      { destruct He as [[_ He]|[_ He]]; [eapply Rle_trans; [exact He|apply p10_le; lia]|]. eapply Rle_trans; [exact He|apply bnd3_small; auto]. }
      destruct (cube_step d x r m Hd Fx Px Fr Vr Bx Hm HB) as (Fr' & Vr' & He').
      unfold pown, pown_gen. change (3 <? 0)%Z with false. cbv iota. unfold pown_nonneg. change (3 =? 0)%Z with false. change (3 =? 1)%Z with false. change (3 =? 2)%Z with false. change (3 =? 3)%Z with true. cbv iota. cbn [obind].
      replace (12 * m * 2)%Z with (12 * (2 * m))%Z in * by lia. apply IH; auto; [lia| |].
      * rewrite Nat2Z.inj_succ, Z.pow_succ_r in Hf by lia. lia.
      * right. split; [lia|]. eapply Rle_trans; [exact He'|]. apply bnd3_step; auto.
    + exists m, r. auto 10.
Qed.

Lemma close_final d m eps : valid_digits d -> (d <= 4967)%Z -> (tolerance d < 12 * m)%Z -> close d m eps -> Rabs eps <= p10 (- (d + 2)).
Proof.
  intros Hd Hd2 H [[-> _]|[_ He]]; [unfold tolerance, max_digits10, valid_digits in *; lia|]. eapply Rle_trans; [exact He|].
  pose proof (tolerance_m d m Hd H) as Hm. pose proof (elem_number_digits d Hd) as HN.
  pose proof (elem_number_bounds d Hd) as HN'. unfold bnd3, Emul, E0.
  destruct (Z.ltb_spec (elem_number d * 8) 5000) as [L|L]; [|lia].
  assert (p10 (- (11 * m)) <= p10 (- (d + 2))) by (apply p10_le; lia).
  assert (10 * (IZR (elem_number d + 2) * p10 (16 - 8 * elem_number d)) <= 1 / 4 * p10 (- (d + 2))); [|lra].
  assert (X : p10 (16 - 8 * elem_number d) <= p10 (-7) * p10 (- (d + 2))) by (rewrite <- p10_add; apply p10_le; lia).
  assert (Y : IZR (elem_number d + 2) <= 1000) by (apply IZR_le; lia).
  assert (Z : 0 <= IZR (elem_number d + 2)) by (apply IZR_le; lia).
  assert (W : p10 (-7) = / 10000000).
  { change (-7)%Z with (- (7))%Z. rewrite p10_inv, p10_nonneg by lia. reflexivity. }
  pose proof (p10_pos (16 - 8 * elem_number d)). pose proof (p10_pos (- (d + 2))).
  assert (IZR (elem_number d + 2) * p10 (16 - 8 * elem_number d) <= 1000 * (p10 (-7) * p10 (- (d + 2)))) by (apply Rmult_le_compat; lra).
  rewrite W in H3. lra.
Qed.

(** ** The functions *)

Lemma rootn_inv_cube d env x : valid_digits d -> (d <= 4967)%Z -> finite d x -> full d x -> p10 (-2000000000) <= value x <= p10 2000000000 ->
  finite d (est_rootn_inv env x 3) -> 0 < value (est_rootn_inv env x 3) ->
  Rabs (1 - value (est_rootn_inv env x 3) * value (est_rootn_inv env x 3) * value (est_rootn_inv env x 3) * value x) <= p10 (-12) ->
  exists s, rootn_inv d env x 3 = Defined s /\ finite d s /\ 0 < value s /\ Rabs (1 - value s * value s * value s * value x) <= p10 (- (d + 2)).
Proof.
  intros Hd Hd2 Fx Px Bx Fe Ve He. unfold rootn_inv.
  destruct (cube_loop d x Hd Fx Px Bx 40 (est_rootn_inv env x 3) 1 Fe Ve ltac:(lia)) as (m & s & T & M & E & Fs & Vs & C).
  { unfold tolerance, max_digits10, valid_digits in *. change (Z.of_nat 40) with 40%Z. change (2 ^ 40)%Z with 1099511627776%Z. lia. }
  { left. auto. }
  change (12 * 1)%Z with 12%Z in E. rewrite E. cbn [omap]. exists (precision d s (tolerance d)). split; [reflexivity|].
  split; [apply precision_finite; auto|]. unfold precision. rewrite set_prec_value. split; [exact Vs|]. exact (close_final d m _ Hd Hd2 T C).
Qed.

Lemma from_cube y c k : 0 < c -> 0 < y -> Rabs (y * y * y - c * c * c) <= k * (c * c * c) -> Rabs (y - c) <= k * c.
Proof.
  intros C Y H. replace (y * y * y - c * c * c) with ((y - c) * (y * y + y * c + c * c)) in H by ring.
  assert (Q : c * c <= y * y + y * c + c * c) by nra. assert (C2 : 0 < c * c) by nra.
  rewrite Rabs_mult, (Rabs_pos_eq (y * y + y * c + c * c)) in H by lra.
  apply Rmult_le_reg_r with (c * c); [exact C2|]. apply Rle_trans with (Rabs (y - c) * (y * y + y * c + c * c)).
  - apply Rmult_le_compat_l; [apply Rabs_pos|exact Q].
  - eapply Rle_trans; [exact H|]. right. ring.
Qed.

(* s is close to 1/c: so is its reciprocal to c *)
Lemma cube_inverse s y X h k : 0 < s -> 0 < y -> 0 < X -> 0 < k <= / 1000 -> s * y - 1 = h -> Rabs h <= k -> Rabs (1 - s * s * s * X) <= k ->
  Rabs (y * y * y - X) <= 5 * k * X.
Proof.
  intros S Y X0 K Eh Hh He. set (eps := 1 - s * s * s * X) in *. apply Rabs_le_inv in Hh, He.
  assert (S3 : 0 < s * s * s) by (apply Rmult_lt_0_compat; [apply Rmult_lt_0_compat|]; lra).
  assert (E1 : s * s * s * (y * y * y) = (1 + h) * (1 + h) * (1 + h)) by (rewrite <- Eh; ring).
  assert (E2 : s * s * s * X = 1 - eps) by (unfold eps; ring).
  assert (KK : k * k <= / 1000 * k) by (apply Rmult_le_compat_r; lra).
  pose proof (pb h h _ _ Hh Hh) as H2. pose proof (pb h (h * h) _ _ Hh H2) as H3.
  assert (KKK : k * (k * k) <= / 1000 * k). { apply Rle_trans with (k * (/ 1000 * k)); [apply Rmult_le_compat_l; lra|]. nra. }
  pose proof (pb k eps k k ltac:(lra) He) as H4.
  assert (D : - (5 * k * (1 - eps)) <= (1 + h) * (1 + h) * (1 + h) - (1 - eps) <= 5 * k * (1 - eps)).
  { replace ((1 + h) * (1 + h) * (1 + h)) with (1 + 3 * h + 3 * (h * h) + h * (h * h)) by ring. replace (5 * k * (1 - eps)) with (5 * k - 5 * (k * eps)) by ring. lra. }
  rewrite <- E1, <- E2 in D.
  apply Rabs_le. split; apply Rmult_le_reg_l with (s * s * s); try exact S3; lra.
Qed.

Lemma cube_range d s X : valid_digits d -> finite d s -> 0 < value s -> p10 (-2000000000) <= X <= p10 2000000000 ->
  Rabs (1 - value s * value s * value s * X) <= / 1000 -> in_range (value s).
Proof.
  intros Hd F V BX He. set (v := value s) in *. set (eps := 1 - v * v * v * X) in *. apply Rabs_le_inv in He.
  set (b := p10 (-2000000001)). assert (B0 : 0 < b) by apply p10_pos.
  assert (B1 : b <= 1) by (unfold b; rewrite <- p10_0; apply p10_le; lia).
  assert (Bi : / b = p10 2000000001) by (unfold b; change (-2000000001)%Z with (- (2000000001))%Z; rewrite p10_inv, Rinv_inv; reflexivity).
  assert (G1 : p10 (-2000000000) = 10 * b) by (unfold b; replace (-2000000000)%Z with (1 + -2000000001)%Z by lia; rewrite p10_add, p10_1; reflexivity).
  assert (G2 : p10 2000000000 = / b / 10) by (rewrite Bi; replace 2000000001%Z with (1 + 2000000000)%Z by lia; rewrite p10_add, p10_1; field).
  assert (Ib : 0 < / b) by (apply Rinv_0_lt_compat; lra).
  assert (C3 : v * v * v = (1 - eps) * / X) by (unfold eps; field; lra).
  assert (IX : 10 * b <= / X <= / b / 10).
  { split.
    - replace (10 * b) with (/ (/ b / 10)) by (field; lra). apply Rinv_le_contravar; lra.
    - replace (/ b / 10) with (/ (10 * b)) by (field; lra). apply Rinv_le_contravar; lra. }
  assert (C3' : b <= v * v * v <= / b). { rewrite C3. assert (Q : 9 / 10 <= 1 - eps <= 11 / 10) by lra. pose proof (box _ _ _ _ _ _ Q IX ltac:(lra) ltac:(lra)). lra. }
  destruct (between_cube v b V ltac:(lra) C3') as [Bv _].
  unfold in_range. rewrite Rabs_pos_eq by lra. rewrite Bi in Bv. split.
  - apply Rle_trans with b; [unfold b; apply p10_le; lia|lra].
  - apply Rle_trans with (p10 2000000001); [lra|apply p10_le; lia].
Qed.
