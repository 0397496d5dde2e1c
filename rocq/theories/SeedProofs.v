(** * Starting values of the iterations and the accuracy of the reciprocal
    (proofs only). *)

From Flocq Require Import Core Relative BinarySingleNaN.
From Coq Require Import ZArith List Bool Reals Lra Lia Psatz.
From Verif Require Import Model Spec Limbs Value CmpProofs AddProofs Decide OrderProofs MulProofs MulValue MulCor
  IntProofs IntPartProofs MixedProofs ModelDiv NewtonProofs DoubleProofs.
Import ListNotations.
Open Scope R_scope.
Ltac Zify.zify_post_hook ::= Z.div_mod_to_equations.
Local Notation p10 := (powerRZ 10).
Local Notation exp := Model.exp.

Lemma digits_minus_one_spec : forall f t, (1 <= t < 10 ^ Z.of_nat f)%Z ->
  let k := digits_minus_one f t in (0 <= k < Z.of_nat f)%Z /\ (10 ^ k <= t < 10 ^ (k + 1))%Z.
Proof.
  induction f as [|f IH]; intros t H k; [simpl in H; lia|].
  unfold k. cbn [digits_minus_one]. rewrite Nat2Z.inj_succ, Z.pow_succ_r in * by lia.
  destruct (Z.eqb_spec (t / 10) 0) as [E|E].
  - change (10 ^ 0)%Z with 1%Z. change (10 ^ (0 + 1))%Z with 10%Z. lia.
  - destruct (IH (t / 10)%Z ltac:(lia)) as (K & B). set (j := digits_minus_one f (t / 10)) in *.
    split; [lia|]. replace (1 + j)%Z with (Z.succ j) by lia. rewrite Z.pow_succ_r by lia.
    replace (Z.succ j + 1)%Z with (Z.succ (j + 1)) by lia. rewrite Z.pow_succ_r by lia. lia.
Qed.

Lemma lead_digits d x : finite d x -> limb (data x) 0 <> 0%Z ->
  let k := digits_minus_one 10 (limb (data x) 0) in (0 <= k <= 7)%Z /\ (10 ^ k <= limb (data x) 0 < 10 ^ (k + 1))%Z.
Proof.
  intros [W _] H0 k. pose proof (limb_bound (data x) 0 (wf_limbs d x W)) as B. unfold is_limb in B.
  destruct (digits_minus_one_spec 10 (limb (data x) 0)) as (K & B2).
  { change (10 ^ Z.of_nat 10)%Z with 10000000000%Z. lia. }
  fold k in K, B2. split; auto. split; [lia|].
  assert (~ 8 <= k)%Z; [|lia]. intro C. pose proof (Z.pow_le_mono_r 10 8 k ltac:(lia) C). change (10 ^ 8)%Z with 100000000%Z in H. lia.
Qed.

Lemma limbs_value_tail l e : limbs l -> 0 <= limbs_value l e <= p10 (e + 8).
Proof.
  revert e. induction l as [|a t IH]; intros e H; cbn [limbs_value].
  - pose proof (p10_pos (e + 8)). lra.
  - apply Forall_inv in H as Ha. apply Forall_inv_tail in H. specialize (IH (e - 8)%Z H).
    replace (e - 8 + 8)%Z with e in IH by lia. pose proof (p10_pos e). rewrite p10_add, (p10_nonneg 8) by lia.
    change (10 ^ 8)%Z with 100000000%Z. unfold is_limb in Ha.
    assert (0 <= IZR a <= 99999999) by (split; apply IZR_le; lia). nra.
Qed.

(* the first three limbs carry the number to sixteen digits *)
Lemma value_lead3 d x : valid_digits d -> finite d x -> neg x = false ->
  let s := IZR (limb (data x) 0) + IZR (limb (data x) 1) / 100000000 + IZR (limb (data x) 2) / 10000000000000000 in
  s * p10 (exp x) <= value x <= (s + / 10000000000000000) * p10 (exp x).
Proof.
  intros Hd [W C] Hn s. pose proof (Nn_len d x Hd W) as HL. pose proof (Nn_ge7 d Hd).
  pose proof (wf_limbs d x W) as Hl. unfold value, sign. rewrite Hn. unfold s. destruct (data x) as [|a [|b [|c t]]]; try (simpl in HL; lia).
  cbn [limbs_value limb nth].
  assert (Ht : limbs t). { do 3 apply Forall_inv_tail in Hl. exact Hl. }
  pose proof (limbs_value_tail t (exp x - 8 - 8 - 8) Ht) as T.
  replace (exp x - 8 - 8 - 8 + 8)%Z with (exp x - 8 - 8)%Z in T by lia.
  assert (E1 : p10 (exp x - 8) = p10 (exp x) * / 100000000).
  { unfold Z.sub. rewrite p10_add. change (-8)%Z with (- (8))%Z. rewrite p10_inv, (p10_nonneg 8) by lia. reflexivity. }
  assert (E2 : p10 (exp x - 8 - 8) = p10 (exp x) * / 10000000000000000).
  { replace (exp x - 8 - 8)%Z with (exp x + - (16))%Z by lia. rewrite p10_add, p10_inv, (p10_nonneg 16) by lia. reflexivity. }
  rewrite E2 in T |- *. rewrite E1. pose proof (p10_pos (exp x)). unfold limb. cbn [nth]. lra.
Qed.

(* quotient of a small number by 10^8: absolute error below 2^-54 *)
Lemma div_mask_ok y : is_finite y = true -> 0 <= D y < 100000000 ->
  is_finite (ddiv y (d_of_Z mask)) = true /\ 0 <= D (ddiv y (d_of_Z mask)) <= 1 /\
  Rabs (D (ddiv y (d_of_Z mask)) - D y / 100000000) <= / 18014398509481984.
Proof.
  intros Fy Hy. destruct mask_ok as [Fm Vm].
  assert (B : 0 <= D y / 100000000 < 1) by lra.
  destruct (ddiv_ok y (d_of_Z mask) Fy) as [F V]. { rewrite Vm. lra. } { rewrite Vm, Rabs_pos_eq; lra. }
  rewrite Vm in V. split; [exact F|]. rewrite V. split; [split|].
  - rewrite <- rnd_0. apply rnd_mono. lra.
  - apply Rle_trans with (rnd 1); [apply rnd_mono; lra|]. right. apply (rnd_Z 1). lia.
  - pose proof (rnd_half (D y / 100000000) 53 ltac:(lia)) as R. change (bpow radix2 (53 - 53)) with 1 in R.
    change (bpow radix2 (-(53))) with (/ 9007199254740992) in R. rewrite Rabs_pos_eq in R by lra.
    specialize (R ltac:(lra)). lra.
Qed.

Lemma mul_small T h u : 0 <= T -> - u <= h <= u -> - (u * T) <= T * (1 + h) - T <= u * T.
Proof. intros. nra. Qed.

Lemma parts_mantissa_ok d x : valid_digits d -> finite d x -> limb (data x) 0 <> 0%Z -> neg x = false ->
  is_finite (parts_mantissa x) = true /\ 99 / 100 <= D (parts_mantissa x) <= 101 / 10 /\
  Rabs (D (parts_mantissa x) * p10 (parts_exponent x) - value x) <= / 1000000000000000 * value x.
Proof.
  intros Hd Fx H0 Hn. pose proof (value_lead3 d x Hd Fx Hn) as HV. cbv zeta in HV.
  destruct (lead_digits d x Fx H0) as (K & B). cbv zeta in K, B.
  destruct Fx as [W C]. pose proof (wf_limbs d x W) as Hl.
  pose proof (limb_bound (data x) 0 Hl) as La. pose proof (limb_bound (data x) 1 Hl) as Lb. pose proof (limb_bound (data x) 2 Hl) as Lc. unfold is_limb in La, Lb, Lc.
  unfold parts_mantissa, parts_exponent, parts_p10. rewrite Hn.
  set (k := digits_minus_one 10 (limb (data x) 0)) in *.
  set (a := limb (data x) 0) in *. set (b := limb (data x) 1) in *. set (c := limb (data x) 2) in *.
  assert (Hk : (1 <= 10 ^ k <= 10000000)%Z).
  { split; [apply (Z.pow_le_mono_r 10 0 k); lia|]. apply (Z.pow_le_mono_r 10 k 7); lia. }
  rewrite u32_small by lia.
  destruct (d_of_Z_ok a ltac:(lia)) as [Fa Va]. destruct (d_of_Z_ok b ltac:(lia)) as [Fb Vb]. destruct (d_of_Z_ok c ltac:(lia)) as [Fc Vc].
  destruct (d_of_Z_ok (10 ^ k) ltac:(lia)) as [Fk Vk].
  assert (Ra : 1 <= IZR a <= 99999999) by (split; apply IZR_le; lia).
  assert (Rb : 0 <= IZR b <= 99999999) by (split; apply IZR_le; lia).
  assert (Rc : 0 <= IZR c <= 99999999) by (split; apply IZR_le; lia).
  destruct (div_mask_ok (d_of_Z b) Fb ltac:(rewrite Vb; lra)) as (F1 & B1 & E1). set (q1 := ddiv (d_of_Z b) (d_of_Z mask)) in *.
  destruct (div_mask_ok (d_of_Z c) Fc ltac:(rewrite Vc; lra)) as (F2 & B2 & E2). set (q2 := ddiv (d_of_Z c) (d_of_Z mask)) in *.
  destruct (div_mask_ok q2 F2 ltac:(lra)) as (F3 & B3 & E3). set (q3 := ddiv q2 (d_of_Z mask)) in *.
  destruct (dadd_ok (d_of_Z a) q1 Fa F1) as [F4 V4]. { rewrite Va, Rabs_pos_eq; lra. }
  set (s1 := dadd (d_of_Z a) q1) in *. rewrite Va in V4.
  destruct (rnd_rel (IZR a + D q1)) as (h1 & Hh1 & R1). { rewrite Rabs_pos_eq; lra. }
  rewrite R1 in V4. clear R1.
  assert (U1 : -(1 / 1000000) <= h1 <= 1 / 1000000) by (apply Rabs_le_inv in Hh1; unfold uu in Hh1; lra).
  assert (B4 : 1 / 2 <= D s1 <= 200000000) by (rewrite V4; clear - Ra B1 U1; nra).
  destruct (dadd_ok s1 q3 F4 F3) as [F5 V5]. { rewrite Rabs_pos_eq; lra. }
  set (s2 := dadd s1 q3) in *.
  destruct (rnd_rel (D s1 + D q3)) as (h2 & Hh2 & R2). { rewrite Rabs_pos_eq; lra. }
  rewrite R2 in V5. clear R2.
  assert (U2 : -(1 / 1000000) <= h2 <= 1 / 1000000) by (apply Rabs_le_inv in Hh2; unfold uu in Hh2; lra).
  assert (B5 : 1 / 4 <= D s2 <= 400000000) by (rewrite V5; clear - B4 B3 U2; nra).
  set (P := IZR (10 ^ k)) in *.
  assert (BP : 1 <= P <= 10000000) by (unfold P; split; apply IZR_le; lia).
  assert (IP : / 10000000 <= / P <= 1).
  { split; [apply Rinv_le_contravar; lra|]. rewrite <- Rinv_1. apply Rinv_le_contravar; lra. }
  assert (Bq : / 1000000000000 <= D s2 / P <= 400000000) by (unfold Rdiv; clear - B5 IP; nra).
  destruct (ddiv_ok s2 (d_of_Z (10 ^ k)) F5) as [F6 V6]. { rewrite Vk. fold P. lra. } { rewrite Vk. fold P. rewrite Rabs_pos_eq; lra. }
  rewrite Vk in V6. fold P in V6. set (m := ddiv s2 (d_of_Z (10 ^ k))) in *.
  destruct (rnd_rel (D s2 / P)) as (h3 & Hh3 & R3). { rewrite Rabs_pos_eq; lra. }
  rewrite R3 in V6. clear R3.
  assert (U3 : -(1 / 1000000) <= h3 <= 1 / 1000000) by (apply Rabs_le_inv in Hh3; unfold uu in Hh3; lra).
  split; [exact F6|].
  set (s := IZR a + IZR b / 100000000 + IZR c / 10000000000000000) in *.
  rewrite Vb in E1. rewrite Vc in E2.
  apply Rabs_le_inv in E1. apply Rabs_le_inv in E2. apply Rabs_le_inv in E3.
  apply Rabs_le_inv in Hh1. apply Rabs_le_inv in Hh2. apply Rabs_le_inv in Hh3. unfold uu in *.
  assert (Bs : IZR a <= s <= IZR a + 1) by (unfold s; lra).
  assert (N1 : Rabs (D s1 + D q3 - s) <= 23 / 100000000000000000 * s).
  { apply Rabs_le. rewrite V4. pose proof (mul_small (IZR a + D q1) h1 _ ltac:(lra) Hh1). unfold s in *. lra. }
  apply Rabs_le_inv in N1. clearbody s.
  assert (N2 : Rabs (D s2 - s) <= 35 / 100000000000000000 * s).
  { apply Rabs_le. rewrite V5. pose proof (mul_small (D s1 + D q3) h2 _ ltac:(lra) Hh2). lra. }
  apply Rabs_le_inv in N2.
  assert (Em : D m * P = D s2 * (1 + h3)). { rewrite V6. field. lra. }
  assert (N3 : Rabs (D m * P - s) <= 47 / 100000000000000000 * s).
  { apply Rabs_le. rewrite Em. pose proof (mul_small (D s2) h3 _ ltac:(lra) Hh3). lra. }
  apply Rabs_le_inv in N3.
  assert (Pk : p10 (exp x + k) = P * p10 (exp x)). { rewrite p10_add, (p10_nonneg k) by lia. fold P. ring. }
  rewrite Pk. pose proof (p10_pos (exp x)) as Hp. set (q := p10 (exp x)) in *.
  assert (L1 : P <= IZR a). { unfold P. apply IZR_le. lia. }
  assert (L2 : IZR a + 1 <= 10 * P).
  { unfold P. rewrite Z.pow_add_r in B by lia. change (10 ^ 1)%Z with 10%Z in B. rewrite <- mult_IZR. change 1 with (IZR 1). rewrite <- plus_IZR. apply IZR_le. lia. }
  split.
  - assert (99 / 100 * P <= D m * P <= 101 / 10 * P) by lra. split; apply Rmult_le_reg_r with P; lra.
  - apply Rabs_le. replace (D m * (P * q)) with (D m * P * q) by ring.
    assert (M : - (47 / 100000000000000000 * (s * q)) <= D m * P * q - s * q <= 47 / 100000000000000000 * (s * q)).
    { clear - N3 Hp. set (z := D m * P) in *. clearbody z q. split; nra. }
    assert (1 * q <= s * q) by (apply Rmult_le_compat_r; lra). lra.
Qed.

(** ** The starting value of the reciprocal *)

Lemma inv_seed_ok d x : valid_digits d -> finite d x -> limb (data x) 0 <> 0%Z -> neg x = false ->
  finite d (inv_seed d x) /\ Rabs (1 - value (inv_seed d x) * value x) <= bnd d 1.
Proof.
  intros Hd Fx H0 Hn. destruct (parts_mantissa_ok d x Hd Fx H0 Hn) as (Fm & Bm & Em).
  unfold inv_seed. set (m := parts_mantissa x) in *. destruct one_ok as [F1 V1].
  assert (Im : 10 / 101 <= / D m <= 100 / 99).
  { split.
    - replace (10 / 101) with (/ (101 / 10)) by field. apply Rinv_le_contravar; lra.
    - replace (100 / 99) with (/ (99 / 100)) by field. apply Rinv_le_contravar; lra. }
  destruct (ddiv_ok (d_of_Z 1) m F1) as [Fq Vq]. { lra. } { rewrite V1. unfold Rdiv. rewrite Rmult_1_l, Rabs_pos_eq; lra. }
  rewrite V1 in Vq. unfold Rdiv in Vq. rewrite Rmult_1_l in Vq.
  destruct (rnd_rel (/ D m)) as (h & Hh & R). { rewrite Rabs_pos_eq; lra. }
  rewrite R in Vq. clear R. set (q := ddiv (d_of_Z 1) m) in *.
  apply Rabs_le_inv in Hh. unfold uu in Hh.
  assert (Bq : 1 / 16 <= D q < 10) by (rewrite Vq; nra).
  destruct (of_double_ok d q (- parts_exponent x) Hd Fq Bq) as (Fy & _ & _ & Py & Ey).
  set (y := of_double d q (- parts_exponent x)) in *. split; [exact Fy|].
  set (e := parts_exponent x) in *. rewrite p10_inv in Ey.
  pose proof (p10_pos e) as Pe.
  assert (Vx : 0 < value x). { assert (0 < value x \/ value x <= 0) as [|L] by lra; auto. exfalso. pose proof (Rabs_pos (D m * p10 e - value x)).
    assert (value x = 0) by nra. rewrite H1, Rmult_0_r, Rminus_0_r, Rabs_pos_eq in Em by nra. nra. }
  apply Rabs_le_inv in Em. apply Rabs_le_inv in Ey.
  assert (EM : value x = D m * p10 e * (value x / (D m * p10 e))) by (field; split; nra).
  set (g := value x / (D m * p10 e)) in *.
  assert (HM : 0 < D m * p10 e) by nra.
  assert (Bg : 1 - / 500000000000000 <= g <= 1 + / 500000000000000).
  { unfold g. split.
    - apply Rmult_le_reg_r with (D m * p10 e); auto. unfold Rdiv. rewrite (Rmult_assoc (value x)), Rinv_l by nra. lra.
    - apply Rmult_le_reg_r with (D m * p10 e); auto. unfold Rdiv. rewrite (Rmult_assoc (value x)), Rinv_l by nra. lra. }
  set (z := D q * / p10 e) in *.
  assert (Hz : z * value x = (1 + h) * g). { unfold z. rewrite EM, Vq. field. split; lra. }
  assert (Hzx : 0 < z * value x) by (rewrite Hz; nra).
  assert (Rabs (1 - value y * value x) <= 1 / 20000000000000).
  { apply Rabs_le. replace (1 - value y * value x) with ((1 - z * value x) - (value y - z) * value x) by ring.
    assert (- (/ 100000000000000 * (z * value x)) <= (value y - z) * value x <= / 100000000000000 * (z * value x)) by (split; nra).
    assert (- (1 / 100000000000000) <= 1 - z * value x <= 1 / 100000000000000) by (rewrite Hz; split; nra).
    lra. }
  eapply Rle_trans; [exact H|]. unfold bnd. pose proof (elem_number_bounds d Hd). pose proof (Emul_pos (elem_number d) ltac:(lia)).
  change (- (11 * 1))%Z with (- (11))%Z. rewrite p10_inv, p10_nonneg by lia. change (10 ^ 11)%Z with 100000000000%Z. lra.
Qed.
