(** * Integer part, decimal part, isint, floor, ceil, conversions (proofs only). *)

From Coq Require Import ZArith List Bool Reals Lra Lia.
From Verif Require Import Model Spec Limbs Value CmpProofs AddProofs Decide OrderProofs AddExtra MulProofs MulValue MulExtra MulCor IntProofs.
Import ListNotations.
Open Scope R_scope.

(** ** Ztrunc *)
Lemma Int_part_unique z r : IZR z <= r < IZR z + 1 -> Int_part r = z.
Proof.
  intros [H1 H2]. unfold Int_part. assert ((z + 1)%Z = up r); [|lia].
  apply tech_up; rewrite plus_IZR; lra.
Qed.

Lemma Int_part_IZR z : Int_part (IZR z) = z.
Proof. apply Int_part_unique. lra. Qed.

Lemma Int_part_bounds r : IZR (Int_part r) <= r < IZR (Int_part r) + 1.
Proof. pose proof (base_Int_part r) as [H1 H2]. lra. Qed.

Lemma Ztrunc_sign b r : 0 <= r -> Ztrunc (sign b * r) = (if b then - Int_part r else Int_part r)%Z.
Proof.
  intro H. unfold Ztrunc, sign. destruct b.
  - destruct (Rlt_dec (-1 * r) 0).
    + do 2 f_equal. ring.
    + assert (r = 0) by lra. subst. replace (-1 * 0) with (IZR 0) by ring. rewrite Int_part_IZR. reflexivity.
  - rewrite Rmult_1_l. destruct (Rlt_dec r 0); [lra|reflexivity].
Qed.

Lemma Ztrunc_IZR z : Ztrunc (IZR z) = z.
Proof.
  unfold Ztrunc. destruct (Rlt_dec (IZR z) 0); [|apply Int_part_IZR].
  rewrite <- opp_IZR, Int_part_IZR. lia.
Qed.

(** ** Splitting the limbs at the decimal point *)

Lemma exp_mult8 d x : wf d x -> (exp x = 8 * (exp x / 8))%Z.
Proof. intro W. pose proof (wf_exp _ _ W). pose proof (Z.div_mod (exp x) 8 ltac:(lia)). lia. Qed.

(** the first k limbs hold the integer part *)
Lemma split_point d x k : valid_digits d -> wf d x -> (0 <= exp x)%Z ->
  k = Z.to_nat (exp x / 8 + 1) -> (k <= Nn d)%nat ->
  Int_part (mag d (data x) (exp x)) = mv (firstn k (data x)) /\
  mag d (data x) (exp x) = IZR (mv (firstn k (data x))) + IZR (mv (skipn k (data x))) * ulp d (exp x).
Proof.
  intros Hd W He Hk HkN.
  pose proof (Nn_len d x Hd W) as Nx. pose proof (wf_limbs _ _ W) as Lx.
  pose proof (elem_number_bounds d Hd) as HN. pose proof (Nn_Z d Hd) as HNn. pose proof (exp_mult8 d x W) as H8.
  assert (Hk1 : Z.of_nat k = (exp x / 8 + 1)%Z) by (subst k; rewrite Z2Nat.id; auto; pose proof (Z.div_pos (exp x) 8); lia).
  assert (HU : IZR (Bp (Nn d - k)) * ulp d (exp x) = 1).
  { rewrite <- p10_Bp. unfold ulp. rewrite <- p10_add, <- p10_0. f_equal. rewrite Nat2Z.inj_sub by lia. lia. }
  assert (E : mag d (data x) (exp x) = IZR (mv (firstn k (data x))) + IZR (mv (skipn k (data x))) * ulp d (exp x)).
  { unfold mag. rewrite (mv_split k (data x)) by lia. rewrite Nx, plus_IZR, mult_IZR.
    transitivity (IZR (mv (firstn k (data x))) * (IZR (Bp (Nn d - k)) * ulp d (exp x)) + IZR (mv (skipn k (data x))) * ulp d (exp x)); [ring|].
    rewrite HU. ring. }
  split; auto. apply Int_part_unique. rewrite E.
  pose proof (mv_bound _ (limbs_skipn k _ Lx)) as [B1 B2]. rewrite skipn_length, Nx in B2.
  apply IZR_le in B1. apply IZR_lt in B2. pose proof (ulp_pos d (exp x)). nra.
Qed.

Lemma neg_exp_small d x : valid_digits d -> finite d x -> (exp x < 0)%Z -> 0 <= mag d (data x) (exp x) < 1.
Proof.
  intros Hd Fx He. split; [apply mag_nonneg; apply Fx|].
  destruct (Z.eq_dec (limb (data x) 0) 0) as [E|E].
  - rewrite <- (value_abs_mag d x Fx), (finite_zero_value d x Fx E), Rabs_R0. lra.
  - pose proof (finite_abs_bounds d x Hd Fx E) as [_ H]. rewrite <- (value_abs_mag d x Fx).
    assert (p10 (exp x + 8) <= 1); [|lra]. rewrite <- p10_0. apply p10_le.
    pose proof (exp_mult8 d x (proj1 Fx)). lia.
Qed.

Lemma value_trunc d x : finite d x -> Ztrunc (value x) = (if neg x then - Int_part (mag d (data x) (exp x)) else Int_part (mag d (data x) (exp x)))%Z.
Proof. intro F. rewrite (value_mag d x F). apply Ztrunc_sign. apply mag_nonneg. apply F. Qed.

Lemma finite_isfinite d x : finite d x -> isfinite x = true.
Proof. intros [_ C]. unfold isfinite. rewrite C. reflexivity. Qed.

(** ** isint *)
Lemma forallb_zero_iff l : forallb (fun d => (d =? 0)%Z) l = true <-> Forall (fun d => d = 0%Z) l.
Proof.
  rewrite forallb_forall, Forall_forall. split; intros H x Hx; specialize (H x Hx); lia.
Qed.

Lemma Zabs_sign_mag d x k : finite d x -> value x = IZR k -> mag d (data x) (exp x) = IZR (Z.abs k).
Proof. intros F V. rewrite <- (value_abs_mag d x F), V, <- abs_IZR. reflexivity. Qed.

Lemma isint_spec d x : valid_digits d -> finite d x -> (isint d x = true <-> exists k, value x = IZR k).
Proof.
  intros Hd Fx. unfold isint. rewrite (finite_isfinite d x Fx). cbn [negb].
  destruct (iszero x) eqn:Ez.
  { rewrite iszero_true in Ez by apply Fx. split; auto. intros _. exists 0%Z. apply (finite_zero_value d); auto. }
  rewrite iszero_false in Ez by apply Fx.
  pose proof (finite_abs_bounds d x Hd Fx Ez) as [HB1 HB2]. pose proof (p10_pos (exp x)).
  pose proof (elem_number_bounds d Hd) as HN. pose proof (Nn_Z d Hd) as HNn. pose proof (exp_mult8 d x (proj1 Fx)) as H8.
  destruct (Z.ltb_spec (exp x) 0) as [He|He].
  - split; [discriminate|]. intros [k V]. exfalso.
    pose proof (neg_exp_small d x Hd Fx He) as Hs. rewrite (Zabs_sign_mag d x k Fx V) in Hs.
    assert (Z.abs k < 1)%Z by (apply lt_IZR; lra). assert (k = 0%Z) by lia. subst k.
    rewrite V, Rabs_R0 in HB1. lra.
  - rewrite Z.quot_div_nonneg by lia. rewrite Z.geb_leb. unfold N.
    destruct (Z.leb_spec (elem_number d) (exp x / 8 + 1)) as [Ho|Ho].
    + split; auto. intros _. rewrite (value_mag d x Fx).
      exists ((if neg x then -1 else 1) * (mv (data x) * 10 ^ (exp x - 8 * (elem_number d - 1))))%Z.
      rewrite mult_IZR. unfold sign. unfold mag, ulp. rewrite p10_nonneg by lia. rewrite <- mult_IZR. destruct (neg x); reflexivity.
    + set (k := Z.to_nat (exp x / 8 + 1)).
      assert (Hk : (k <= Nn d)%nat) by (unfold k; lia).
      destruct (split_point d x k Hd (proj1 Fx) He eq_refl Hk) as [E1 E2].
      rewrite forallb_zero_iff. split.
      * intro Hz. apply mv_zeros in Hz. rewrite Hz in E2.
        exists ((if neg x then -1 else 1) * mv (firstn k (data x)))%Z.
        rewrite (value_mag d x Fx), E2, mult_IZR. unfold sign. destruct (neg x); ring.
      * intros [z V]. apply mv_zero_inv; [apply limbs_skipn; apply Fx|].
        pose proof (Zabs_sign_mag d x z Fx V) as Hm. rewrite Hm, Int_part_IZR in E1. rewrite Hm, E1 in E2.
        assert (IZR (mv (skipn k (data x))) * ulp d (exp x) = 0) by lra.
        pose proof (ulp_pos d (exp x)). apply Rmult_integral in H0. destruct H0; [|lra]. apply eq_IZR in H0. exact H0.
Qed.

Lemma isint_nonfinite d x : cls x <> Finite -> isint d x = false.
Proof. intro H. unfold isint, isfinite. destruct (cls x); [congruence|reflexivity|reflexivity]. Qed.

(** ** integer_part *)

Lemma quot_small8 e d : (0 <= e < d - 1)%Z -> valid_digits d -> (Z.to_nat (e / 8 + 1) <= Nn d)%nat.
Proof.
  intros H Hd. pose proof (elem_number_digits d Hd). pose proof (Nn_Z d Hd).
  assert (e / 8 < elem_number d)%Z by (apply Z.div_lt_upper_bound; lia). pose proof (Z.div_pos e 8). lia.
Qed.

Lemma integer_part_spec d x : valid_digits d -> finite d x -> (exp x < d - 1)%Z ->
  finite d (integer_part d x) /\ value (integer_part d x) = IZR (Ztrunc (value x)) /\
  ((0 <= exp x)%Z -> exp (integer_part d x) = exp x /\ neg (integer_part d x) = neg x /\
     (limb (data x) 0 <> 0%Z -> limb (data (integer_part d x)) 0 = limb (data x) 0) /\
     let k := Z.to_nat (exp x / 8 + 1) in firstn k (data (integer_part d x)) = firstn k (data x)) /\
  (full d x -> full d (integer_part d x)).
Proof.
  intros Hd Fx He. unfold integer_part. rewrite (finite_isfinite d x Fx). cbn [negb].
  pose proof (elem_number_bounds d Hd) as HN. pose proof (Nn_Z d Hd) as HNn.
  destruct (Z.ltb_spec (exp x) 0) as [Hn|Hn].
  { split; [apply zero_finite; auto|]. split.
    - rewrite value_zero by auto. rewrite (value_trunc d x Fx). pose proof (neg_exp_small d x Hd Fx Hn) as Hs.
      rewrite (Int_part_unique 0) by lra. destruct (neg x); reflexivity.
    - split; [lia|]. intros _. rewrite zero_eq. reflexivity. }
  rewrite Z.geb_leb. destruct (Z.leb_spec (d - 1) (exp x)); [lia|].
  rewrite Z.quot_div_nonneg by lia. set (k := Z.to_nat (exp x / 8 + 1)).
  assert (Hk : (k <= Nn d)%nat) by (apply quot_small8; auto).
  assert (Hk1 : (1 <= k)%nat) by (unfold k; pose proof (Z.div_pos (exp x) 8); lia).
  destruct (split_point d x k Hd (proj1 Fx) Hn eq_refl Hk) as [E1 E2].
  destruct Fx as [W C]. pose proof (Nn_len d x Hd W) as Nx. pose proof (wf_limbs _ _ W) as Lx.
  assert (Hl0 : limb (firstn k (data x) ++ repeat 0%Z (Nn d - k)) 0 = limb (data x) 0).
  { unfold limb. rewrite app_nth1 by (rewrite firstn_length; lia). apply (firstn_limb0 k (data x) Hk1). }
  assert (F : finite d {| data := firstn k (data x) ++ repeat 0%Z (Nn d - k); exp := exp x; neg := neg x; cls := cls x; prec := prec x |}).
  { split; [|exact C]. constructor; cbn [data exp neg cls prec]; try apply W.
    - rewrite app_length, firstn_length, repeat_length. lia.
    - apply limbs_app; auto using limbs_firstn, limbs_repeat0.
    - intros _ H0. change (limb (firstn k (data x) ++ repeat 0%Z (Nn d - k)) 0 = 0%Z) in H0. rewrite Hl0 in H0.
      destruct (wf_zero _ _ W C H0) as [Z1 Z2]. split; auto. apply Forall_app. split.
      + apply Forall_forall. intros a Ha. rewrite Forall_forall in Z1. apply Z1. rewrite <- (firstn_skipn k). apply in_or_app. auto.
      + apply Forall_forall. intros a Ha. apply repeat_spec in Ha. auto.
    - congruence. }
  split; [exact F|]. split.
  - rewrite (value_trunc d x (conj W C)), E1. rewrite (value_mag d _ F). cbn [data exp neg].
    replace (mag d (firstn k (data x) ++ repeat 0%Z (Nn d - k)) (exp x)) with (IZR (mv (firstn k (data x)))).
    + unfold sign. destruct (neg x); rewrite ?opp_IZR; ring.
    + unfold mag. rewrite mv_app, mv_repeat0, repeat_length, Z.add_0_r, mult_IZR.
      rewrite Rmult_assoc. replace (IZR (Bp (Nn d - k)) * ulp d (exp x)) with 1; [ring|].
      symmetry. rewrite <- p10_Bp. unfold ulp. rewrite <- p10_add, <- p10_0. f_equal. rewrite Nat2Z.inj_sub by lia.
      pose proof (exp_mult8 d x W). unfold k. rewrite Z2Nat.id by (pose proof (Z.div_pos (exp x) 8); lia). lia.
  - split; [|auto]. intros _. cbn [exp neg data]. split; auto. split; auto. split; [intros _; exact Hl0|].
    rewrite firstn_app, firstn_firstn, firstn_length, !Nat.min_l by lia. rewrite Nat.sub_diag. cbn [firstn]. apply app_nil_r.
Qed.

Lemma integer_part_large d x : valid_digits d -> finite d x -> (d - 1 <= exp x)%Z -> integer_part d x = x.
Proof.
  intros Hd Fx He. unfold integer_part. rewrite (finite_isfinite d x Fx). cbn [negb].
  unfold valid_digits in Hd. destruct (Z.ltb_spec (exp x) 0); [lia|].
  rewrite Z.geb_leb. destruct (Z.leb_spec (d - 1) (exp x)); [reflexivity|lia].
Qed.

Lemma exp_of_bound d x m : valid_digits d -> finite d x -> Rabs (value x) < p10 m -> value x <> 0 -> (exp x < m)%Z.
Proof.
  intros Hd Fx H V. pose proof (value_nonzero_lead d x Hd Fx V) as Z0.
  pose proof (finite_abs_bounds d x Hd Fx Z0) as [H1 _].
  destruct (Z_lt_le_dec (exp x) m); auto. exfalso. apply p10_le in l. lra.
Qed.

Lemma exp_of_lower d x m : valid_digits d -> finite d x -> p10 m <= Rabs (value x) -> (m - 8 < exp x)%Z.
Proof.
  intros Hd Fx H. assert (V : value x <> 0). { intro V. rewrite V, Rabs_R0 in H. pose proof (p10_pos m). lra. }
  pose proof (value_nonzero_lead d x Hd Fx V) as Z0.
  pose proof (finite_abs_bounds d x Hd Fx Z0) as [_ H2].
  destruct (Z_lt_le_dec (m - 8) (exp x)); auto. exfalso. assert (p10 (exp x + 8) <= p10 m) by (apply p10_le; lia). lra.
Qed.

(* a zero with any exponent *)
Lemma integer_part_zero d x : valid_digits d -> finite d x -> value x = 0 -> 
  finite d (integer_part d x) /\ value (integer_part d x) = 0.
Proof.
  intros Hd Fx V. destruct (Z_lt_le_dec (exp x) (d - 1)) as [H|H].
  - destruct (integer_part_spec d x Hd Fx H) as (F & E & _). split; auto. rewrite E, V. change 0 with (IZR 0). rewrite Ztrunc_IZR. reflexivity.
  - rewrite integer_part_large; auto.
Qed.

Lemma integer_part_value d x : valid_digits d -> finite d x -> Rabs (value x) < p10 (d - 1) ->
  finite d (integer_part d x) /\ value (integer_part d x) = IZR (Ztrunc (value x)).
Proof.
  intros Hd Fx H. destruct (Req_dec (value x) 0) as [V|V].
  - destruct (integer_part_zero d x Hd Fx V) as [F E]. split; auto. rewrite E, V. change 0 with (IZR 0). rewrite Ztrunc_IZR. reflexivity.
  - pose proof (exp_of_bound d x (d - 1) Hd Fx H V) as He.
    destruct (integer_part_spec d x Hd Fx He) as (F & E & _). auto.
Qed.

(** also right for integers of any size *)
Lemma integer_part_int d x k : valid_digits d -> finite d x -> value x = IZR k ->
  value (integer_part d x) = value x.
Proof.
  intros Hd Fx V. destruct (Z_lt_le_dec (exp x) (d - 1)) as [H|H].
  - destruct (integer_part_spec d x Hd Fx H) as (F & E & _). rewrite E, V, Ztrunc_IZR. reflexivity.
  - rewrite integer_part_large; auto.
Qed.

(** ** decimal_part *)

Lemma frac_of_trunc d x k : valid_digits d -> finite d x -> (0 <= exp x)%Z ->
  k = Z.to_nat (exp x / 8 + 1) -> (k <= Nn d)%nat ->
  value x - IZR (Ztrunc (value x)) = sign (neg x) * (IZR (mv (skipn k (data x))) * ulp d (exp x)).
Proof.
  intros Hd Fx He Hk HkN. destruct (split_point d x k Hd (proj1 Fx) He Hk HkN) as [E1 E2].
  rewrite (value_trunc d x Fx), E1, (value_mag d x Fx), E2. unfold sign. destruct (neg x); rewrite ?opp_IZR; ring.
Qed.

Lemma decimal_part_spec d x : valid_digits d -> finite d x -> (exp x < d - 1)%Z ->
  finite d (decimal_part d x) /\ value (decimal_part d x) = value x - IZR (Ztrunc (value x)).
Proof.
  intros Hd Fx He. unfold decimal_part. rewrite (finite_isfinite d x Fx). cbn [negb].
  pose proof (elem_number_bounds d Hd) as HN. pose proof (Nn_Z d Hd) as HNn.
  destruct (iszero x) eqn:Ez.
  { rewrite iszero_true in Ez by apply Fx. split; [apply zero_finite; auto|].
    rewrite value_zero by auto. rewrite (finite_zero_value d x Fx Ez). change 0 with (IZR 0). rewrite Ztrunc_IZR. ring. }
  destruct (Z.ltb_spec (exp x) 0) as [Hn|Hn].
  { split; auto. rewrite (value_trunc d x Fx). pose proof (neg_exp_small d x Hd Fx Hn) as Hs.
    rewrite (Int_part_unique 0) by lra. destruct (neg x); simpl; ring. }
  rewrite Z.geb_leb. destruct (Z.leb_spec (d - 1) (exp x)); [lia|].
  rewrite Z.quot_div_nonneg by lia. set (k := Z.to_nat (exp x / 8 + 1)).
  assert (Hk : (k <= Nn d)%nat) by (apply quot_small8; auto).
  assert (Hkz : Z.of_nat k = (exp x / 8 + 1)%Z) by (unfold k; pose proof (Z.div_pos (exp x) 8); lia).
  rewrite (frac_of_trunc d x k Hd Fx Hn eq_refl Hk).
  pose proof (exp_mult8 d x (proj1 Fx)) as H8.
  destruct Fx as [W C]. pose proof (Nn_len d x Hd W) as Nx. pose proof (wf_limbs _ _ W) as Lx.
  set (dt := shift_left k (data x)).
  assert (Ldt : limbs dt) by (apply shift_left_limbs; auto).
  assert (Ndt : length dt = Nn d) by (unfold dt; rewrite shift_left_length; auto).
  assert (Mdt : mv dt = (mv (skipn k (data x)) * Bp k)%Z) by (apply mv_shift_left; lia).
  assert (Hul : forall m, ulp d (exp x - 8 * Z.of_nat m) * IZR (Bp m) = ulp d (exp x)).
  { intro m. rewrite Rmult_comm, <- ulp_shift. f_equal. lia. }
  destruct (Nat.eqb_spec (first_nonzero dt) 0) as [Es|Es].
  - assert (Z0 : limb dt 0 <> 0%Z) by (apply first_nonzero_0; auto; destruct dt; [simpl in Ndt; lia|discriminate]).
    assert (F : finite d {| data := dt; exp := exp x - Z.of_nat k * 8; neg := neg x; cls := cls x; prec := prec x |}).
    { split; [|exact C]. constructor; cbn [data exp neg cls prec]; auto; try apply W.
      - lia.
      - rewrite H8, (Z.mul_comm 8), <- Z.mul_sub_distr_r. apply Z.mod_mul. lia.
      - intros _ H0. exfalso. apply Z0. exact H0.
      - congruence. }
    split; [exact F|]. rewrite (value_mag d _ F). cbn [data exp neg]. unfold mag. rewrite Mdt, mult_IZR.
    replace (exp x - Z.of_nat k * 8)%Z with (exp x - 8 * Z.of_nat k)%Z by lia. rewrite <- (Hul k). ring.
  - destruct (Nat.eqb_spec (first_nonzero dt) (length dt)) as [Ef|Ef].
    + assert (Hz : Forall (fun a => a = 0%Z) dt) by (apply first_nonzero_all; auto).
      assert (F : finite d {| data := dt; exp := 0 - Z.of_nat k * 8; neg := false; cls := cls x; prec := prec x |}).
      { split; [|exact C]. constructor; cbn [data exp neg cls prec]; auto; try apply W.
        - lia.
        - rewrite <- Z.mul_opp_l || idtac. replace (0 - Z.of_nat k * 8)%Z with (- Z.of_nat k * 8)%Z by lia. apply Z.mod_mul. lia.
        - congruence. }
      split; [exact F|]. rewrite (value_mag d _ F). cbn [data exp neg]. unfold mag. rewrite (mv_zeros dt Hz).
      assert (M0 : mv (skipn k (data x)) = 0%Z).
      { rewrite (mv_zeros dt Hz) in Mdt. pose proof (Bp_pos k). nia. }
      rewrite M0. ring.
    + set (sj := first_nonzero dt) in *. pose proof (first_nonzero_le dt) as Hle. fold sj in Hle.
      assert (Hsj : (sj < length dt)%nat) by lia.
      assert (Z0 : limb (shift_left sj dt) 0 <> 0%Z).
      { rewrite limb_shift_left_0 by auto. apply first_nonzero_limb. auto. }
      assert (F : finite d {| data := shift_left sj dt; exp := exp x - (Z.of_nat k + Z.of_nat sj) * 8; neg := neg x; cls := cls x; prec := prec x |}).
      { split; [|exact C]. constructor; cbn [data exp neg cls prec]; auto; try apply W.
        - rewrite shift_left_length. lia.
        - apply shift_left_limbs; auto.
        - rewrite H8, (Z.mul_comm 8), <- Z.mul_sub_distr_r. apply Z.mod_mul. lia.
        - intros _ H0. exfalso. apply Z0. exact H0.
        - congruence. }
      split; [exact F|]. rewrite (value_mag d _ F). cbn [data exp neg]. unfold mag.
      rewrite mv_shift_left by lia. unfold sj at 1. rewrite mv_first_nonzero. rewrite Mdt, !mult_IZR.
      replace (exp x - (Z.of_nat k + Z.of_nat sj) * 8)%Z with (exp x - 8 * Z.of_nat (k + sj))%Z by lia.
      rewrite <- (Hul (k + sj)%nat), Bp_add, mult_IZR. ring.
Qed.

Lemma decimal_part_large d x : valid_digits d -> finite d x -> (d - 1 <= exp x)%Z -> value (decimal_part d x) = 0.
Proof.
  intros Hd Fx He. unfold decimal_part. rewrite (finite_isfinite d x Fx). cbn [negb].
  destruct (iszero x) eqn:Ez; [apply value_zero; auto|].
  unfold valid_digits in Hd. destruct (Z.ltb_spec (exp x) 0); [lia|].
  rewrite Z.geb_leb. destruct (Z.leb_spec (d - 1) (exp x)); [apply value_zero; unfold valid_digits; auto|lia].
Qed.

Lemma decimal_part_value d x : valid_digits d -> finite d x -> Rabs (value x) < p10 (d - 1) ->
  value (decimal_part d x) = value x - IZR (Ztrunc (value x)).
Proof.
  intros Hd Fx H. destruct (Req_dec (value x) 0) as [V|V].
  - destruct (Z_lt_le_dec (exp x) (d - 1)) as [He|He].
    + apply decimal_part_spec; auto.
    + rewrite decimal_part_large by auto. rewrite V. change 0 with (IZR 0). rewrite Ztrunc_IZR. ring.
  - apply decimal_part_spec; auto. apply (exp_of_bound d x (d - 1)); auto.
Qed.

Lemma decimal_part_int d x k : valid_digits d -> finite d x -> value x = IZR k -> value (decimal_part d x) = 0.
Proof.
  intros Hd Fx V. destruct (Z_lt_le_dec (exp x) (d - 1)) as [H|H].
  - rewrite (proj2 (decimal_part_spec d x Hd Fx H)), V, Ztrunc_IZR. ring.
  - apply decimal_part_large; auto.
Qed.
