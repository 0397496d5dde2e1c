(** * floor, ceil and the conversions to built-in integers (proofs only). *)

From Coq Require Import ZArith List Bool Reals Lra Lia.
From Verif Require Import Model Spec Limbs Value CmpProofs AddProofs Decide OrderProofs AddExtra MulProofs MulValue MulExtra MulCor IntProofs IntPartProofs.
Import ListNotations.
Open Scope R_scope.

Lemma Ztrunc_nonneg r : 0 <= r -> Ztrunc r = Int_part r.
Proof. intro H. unfold Ztrunc. destruct (Rlt_dec r 0); [lra|reflexivity]. Qed.

Lemma Ztrunc_nonpos r : r <= 0 -> Ztrunc r = (- Int_part (- r))%Z.
Proof.
  intro H. unfold Ztrunc. destruct (Rlt_dec r 0); [reflexivity|].
  assert (r = 0) by lra. subst. rewrite Ropp_0. replace 0 with (IZR 0) by reflexivity. rewrite Int_part_IZR. reflexivity.
Qed.

Lemma cut_Int_part m s r k : (0 <= m)%Z -> 0 <= r <= s -> s < r + p10 (- m) -> r = IZR k * p10 (- m) -> Int_part r = Int_part s.
Proof.
  intros Hm [H0 H1] H2 Hk. pose proof (Int_part_bounds s) as [I1 I2]. apply Int_part_unique. split; [|lra].
  rewrite p10_inv, p10_nonneg in * by auto. set (M := (10 ^ m)%Z) in *.
  assert (HM : 0 < IZR M) by (apply IZR_lt; unfold M; apply Z.pow_pos_nonneg; lia).
  assert (Hr : r * IZR M = IZR k) by (rewrite Hk; field; lra).
  assert (Hlt : IZR (Int_part s) * IZR M < IZR k + 1).
  { rewrite <- Hr. replace (r * IZR M + 1) with ((r + / IZR M) * IZR M) by (field; lra).
    apply Rmult_lt_compat_r; lra. }
  rewrite <- mult_IZR, <- plus_IZR in Hlt. apply lt_IZR in Hlt.
  assert (Hle : (Int_part s * M <= k)%Z) by lia. apply IZR_le in Hle. rewrite mult_IZR, <- Hr in Hle.
  apply Rmult_le_reg_r with (IZR M); auto.
Qed.

Lemma cut_Ztrunc m s r : (0 <= m)%Z -> cut_to (p10 (- m)) s r -> Ztrunc r = Ztrunc s.
Proof.
  intros Hm ([H1 H2] & H3 & k & H4). destruct (Rle_dec 0 s) as [Hs|Hs].
  - rewrite (Rabs_pos_eq s) in * by auto. assert (Hr : 0 <= r).
    { destruct (Rle_dec 0 r); auto. destruct (Req_dec s 0) as [->|]; [|nra].
      pose proof (Rabs_pos_lt r ltac:(lra)). lra. }
    rewrite Rabs_pos_eq in * by auto. rewrite !Ztrunc_nonneg by auto. apply (cut_Int_part m s r k); auto.
  - rewrite (Rabs_left s) in * by lra. assert (Hr : r <= 0) by nra. rewrite Rabs_left1 in * by auto.
    rewrite !Ztrunc_nonpos by lra. f_equal. apply (cut_Int_part m (- s) (- r) (- k)); auto; [lra|rewrite opp_IZR; lra].
Qed.

Lemma ulp_frac d e : valid_digits d -> (e < d - 1)%Z -> exists m, (0 <= m)%Z /\ ulp d e = p10 (- m).
Proof.
  intros Hd He. pose proof (elem_number_digits d Hd). exists (8 * (elem_number d - 1) - e)%Z. split; [lia|].
  unfold ulp. f_equal. lia.
Qed.

Lemma p10_lt_max d : valid_digits d -> p10 (d - 1) < max_value d.
Proof.
  intro Hd. pose proof (max_value_ge d Hd). assert (p10 (d - 1) < p10 max_exp10); [|lra].
  apply p10_lt. unfold valid_digits in Hd. change max_exp10 with 2147483616%Z. lia.
Qed.


(** the sum of two numbers of equal sign, below 10^(d-1) in magnitude *)
Lemma add_trunc d u v : valid_digits d -> finite d u -> finite d v -> 0 <= value u * value v ->
  1 <= Rabs (value u + value v) < p10 (d - 1) ->
  forall r, finite d r -> sum_rounded d u v r ->
  finite d (integer_part d r) /\ value (integer_part d r) = IZR (Ztrunc (value u + value v)).
Proof.
  intros Hd Fu Fv Hs [Hlo Hhi] r Fr (R1 & _ & R3). specialize (R1 Hs).
  assert (V : value r <> 0). { intro V. apply R3 in V. rewrite V, Rabs_R0 in Hlo. lra. }
  assert (Hr : Rabs (value r) < p10 (d - 1)) by (destruct R1 as ((C1 & _) & _); lra).
  pose proof (exp_of_bound d r (d - 1) Hd Fr Hr V) as He.
  destruct (ulp_frac d (exp r) Hd He) as (m & Hm & Eu). rewrite Eu in R1.
  rewrite <- (cut_Ztrunc m _ _ Hm R1). apply integer_part_value; auto.
Qed.

Lemma isneg_spec d x : valid_digits d -> finite d x -> (isneg x = true <-> value x < 0).
Proof. intros Hd F. exact (proj2 (iszero_isneg_spec d x Hd F)). Qed.

Lemma floor_spec d x : valid_digits d -> finite d x -> Rabs (value x) < p10 (d - 1) - 1 ->
  finite d (floor d x) /\ is_floor (value x) (value (floor d x)).
Proof.
  intros Hd Fx Hb. unfold floor. rewrite (finite_isfinite d x Fx). cbn [negb orb].
  destruct (isint d x) eqn:Ei.
  { apply isint_spec in Ei; auto. destruct Ei as [k E]. split; auto. exists k. rewrite E. split; auto. lra. }
  assert (Hni : forall k, value x <> IZR k).
  { intros k E. assert (isint d x = true) by (apply isint_spec; eauto). congruence. }
  destruct (isneg x) eqn:En.
  - apply (isneg_spec d) in En; auto.
    pose proof (one_finite d Hd) as F1. pose proof (one_value d Hd) as V1.
    destruct (sub_finite_spec d x (one d) Hd Fx F1) as (r & Fr & Rr & H).
    pose proof (negate_finite d _ F1) as Fm. pose proof (negate_value d _ Hd F1) as Vm. rewrite V1 in Vm.
    assert (Hs : 0 <= value x * value (negate (one d))) by (rewrite Vm; lra).
    assert (Hab : Rabs (value x + value (negate (one d))) = Rabs (value x) + 1).
    { rewrite Vm, !Rabs_left by lra. ring. }
    pose proof (p10_lt_max d Hd).
    assert (Hle : Rabs (value r) <= Rabs (value x) + 1).
    { destruct Rr as (R1 & _). destruct (R1 Hs) as ((C1 & _) & _). lra. }
    destruct H as [[E _]|[Hm _]]; [|lra]. rewrite E.
    destruct (add_trunc d x (negate (one d)) Hd Fx Fm Hs) with (r := r) as [F V]; auto.
    { rewrite Hab. pose proof (Rabs_pos (value x)). lra. }
    split; auto. rewrite V, Vm. exists (Ztrunc (value x + -1)). split; auto.
    rewrite Ztrunc_nonpos by lra. rewrite opp_IZR. set (z := Int_part _).
    pose proof (Int_part_bounds (- (value x + -1))) as [B1 B2]. fold z in B1, B2.
    assert (IZR z <> - (value x + -1)).
    { intro E2. apply (Hni (- z + 1)%Z). rewrite plus_IZR, opp_IZR. lra. }
    lra.
  - assert (0 <= value x). { destruct (Rle_dec 0 (value x)); auto. assert (isneg x = true) by (apply (isneg_spec d); auto; lra). congruence. }
    destruct (integer_part_value d x Hd Fx) as [F V]; [lra|]. split; auto. rewrite V. exists (Ztrunc (value x)). split; auto.
    rewrite Ztrunc_nonneg by auto. apply Int_part_bounds.
Qed.

Lemma ceil_spec d x : valid_digits d -> finite d x -> Rabs (value x) < p10 (d - 1) - 1 ->
  finite d (ceil d x) /\ is_ceil (value x) (value (ceil d x)).
Proof.
  intros Hd Fx Hb. unfold ceil. rewrite (finite_isfinite d x Fx). cbn [negb orb].
  destruct (isint d x) eqn:Ei.
  { apply isint_spec in Ei; auto. destruct Ei as [k E]. split; auto. exists k. rewrite E. split; auto. lra. }
  assert (Hni : forall k, value x <> IZR k).
  { intros k E. assert (isint d x = true) by (apply isint_spec; eauto). congruence. }
  destruct (isneg x) eqn:En.
  - apply (isneg_spec d) in En; auto.
    destruct (integer_part_value d x Hd Fx) as [F V]; [lra|]. split; auto. rewrite V. exists (Ztrunc (value x)). split; auto.
    rewrite Ztrunc_nonpos by lra. rewrite opp_IZR. pose proof (Int_part_bounds (- value x)). lra.
  - assert (Hx : 0 <= value x). { destruct (Rle_dec 0 (value x)); auto. assert (isneg x = true) by (apply (isneg_spec d); auto; lra). congruence. }
    pose proof (one_finite d Hd) as F1. pose proof (one_value d Hd) as V1.
    destruct (add_finite_spec d x (one d) Hd Fx F1) as (r & Fr & Rr & H).
    assert (Hs : 0 <= value x * value (one d)) by (rewrite V1; lra).
    assert (Hab : Rabs (value x + value (one d)) = Rabs (value x) + 1).
    { rewrite V1, !Rabs_pos_eq by lra. ring. }
    pose proof (p10_lt_max d Hd).
    assert (Hle : Rabs (value r) <= Rabs (value x) + 1).
    { destruct Rr as (R1 & _). destruct (R1 Hs) as ((C1 & _) & _). lra. }
    destruct H as [[E _]|[Hm _]]; [|lra]. rewrite E.
    destruct (add_trunc d x (one d) Hd Fx F1 Hs) with (r := r) as [F V]; auto.
    { rewrite Hab. pose proof (Rabs_pos (value x)). lra. }
    split; auto. rewrite V, V1. exists (Ztrunc (value x + 1)). split; auto.
    rewrite Ztrunc_nonneg by lra. set (z := Int_part _).
    pose proof (Int_part_bounds (value x + 1)) as [B1 B2]. fold z in B1, B2.
    assert (IZR z <> value x + 1).
    { intro E2. apply (Hni (z - 1)%Z). rewrite minus_IZR. lra. }
    lra.
Qed.

Lemma floor_ceil_int d x k : valid_digits d -> finite d x -> value x = IZR k -> floor d x = x /\ ceil d x = x.
Proof.
  intros Hd Fx E. assert (Ei : isint d x = true) by (apply isint_spec; eauto).
  unfold floor, ceil. rewrite (finite_isfinite d x Fx), Ei. auto.
Qed.

Lemma floor_ceil_nonfinite d x : cls x <> Finite -> floor d x = x /\ ceil d x = x.
Proof. intro H. unfold floor, ceil, isfinite. destruct (cls x); [congruence| |]; auto. Qed.

(** ** Conversions to built-in integers *)

Lemma horner_fold l : limbs l -> forall a, (0 <= a)%Z -> (a * Bp (length l) + mv l < 18446744073709551616)%Z ->
  fold_left (fun val d => u64 (u64 (val * mask) + d)) l a = (a * Bp (length l) + mv l)%Z.
Proof.
  induction l as [|x l IH]; intros Hl a Ha Hb.
  - cbn [fold_left length]. rewrite mv_nil, Bp_0. lia.
  - inversion_clear Hl. cbn [fold_left length]. cbn [length] in Hb. rewrite mv_cons, Bp_S in *.
    pose proof (mv_bound l H0) as Hm. pose proof (Bp_ge1 (length l)) as Hg. unfold is_limb in H. change mask with 100000000%Z in *.
    assert (B : (a * 100000000 + x <= (a * 100000000 + x) * Bp (length l))%Z) by nia.
    rewrite (u64_small (a * 100000000)) by lia. rewrite u64_small by lia. rewrite IH; auto; lia.
Qed.

Lemma horner_ull_mv l : limbs l -> (mv l < 18446744073709551616)%Z -> horner_ull l = mv l.
Proof.
  intros Hl Hb. destruct l as [|x l]; [reflexivity|]. inversion_clear Hl. unfold horner_ull. cbn [hd tl].
  rewrite mv_cons in *. unfold is_limb in H. rewrite horner_fold; auto; lia.
Qed.

Lemma exp_limit x m : (exp x mod 8 = 0)%Z -> (exp x < m)%Z -> (m mod 8 <> 0 -> exp x <= 8 * (m / 8))%Z.
Proof. intros. pose proof (Z.div_mod (exp x) 8 ltac:(lia)). pose proof (Z.div_mod m 8 ltac:(lia)). pose proof (Z.mod_pos_bound m 8). lia. Qed.

(* the limbs up to the decimal point, read as an unsigned 64-bit number *)
Lemma extract_limbs d x y : valid_digits d -> finite d x -> (0 <= exp x)%Z -> Rabs (value x) < 18446744073709551616 ->
  data y = data (integer_part d x) -> exp y = exp (integer_part d x) ->
  horner_ull (firstn (S (Z.to_nat (Z.min (Z.quot (exp y) 8) (N d - 1)))) (data y)) = Int_part (Rabs (value x)).
Proof.
  intros Hd Fx He Hb Ey1 Ey2. rewrite Ey1, Ey2.
  pose proof (elem_number_bounds d Hd) as HN. pose proof (Nn_Z d Hd) as HNn.
  destruct (Req_dec (value x) 0) as [V|V].
  { destruct (integer_part_zero d x Hd Fx V) as [F E]. apply (finite_zero_iff d) in E; auto.
    destruct (wf_zero _ _ (proj1 F) (proj2 F) E) as [Hz _].
    assert (Hf : mv (firstn (S (Z.to_nat (Z.min (Z.quot (exp (integer_part d x)) 8) (N d - 1)))) (data (integer_part d x))) = 0%Z).
    { apply mv_zeros. apply Forall_forall. intros a Ha. rewrite Forall_forall in Hz. apply Hz.
      rewrite <- (firstn_skipn (S (Z.to_nat (Z.min (Z.quot (exp (integer_part d x)) 8) (N d - 1))))). apply in_or_app. auto. }
    rewrite horner_ull_mv; [|apply limbs_firstn, F|lia]. rewrite Hf, V, Rabs_R0. replace 0 with (IZR 0) by reflexivity. rewrite Int_part_IZR. reflexivity. }
  assert (Hex : (exp x < 20)%Z).
  { apply (exp_of_bound d x 20 Hd Fx); auto. rewrite p10_nonneg by lia. eapply Rlt_le_trans; [exact Hb|]. apply IZR_le. lia. }
  assert (Hed : (exp x < d - 1)%Z) by (unfold valid_digits in Hd; lia).
  destruct (integer_part_spec d x Hd Fx Hed) as (F & E & H1 & _). destruct (H1 He) as (H2 & H3 & _ & H4). cbv zeta in H4.
  rewrite H2. rewrite Z.quot_div_nonneg by lia.
  assert (Hq : (exp x / 8 <= 2)%Z) by (apply Z.div_le_upper_bound; [lia|]; pose proof (exp_mult8 d x (proj1 Fx)); lia).
  assert (Hq0 : (0 <= exp x / 8)%Z) by (apply Z.div_pos; lia).
  unfold N. rewrite Z.min_l by lia.
  replace (S (Z.to_nat (exp x / 8))) with (Z.to_nat (exp x / 8 + 1)) by lia. rewrite H4.
  set (k := Z.to_nat (exp x / 8 + 1)) in *.
  destruct (split_point d x k Hd (proj1 Fx) He eq_refl ltac:(lia)) as [S1 S2].
  rewrite (value_abs_mag d x Fx), S1. apply horner_ull_mv; [apply limbs_firstn, Fx|].
  rewrite <- S1, <- (value_abs_mag d x Fx). pose proof (Int_part_bounds (Rabs (value x))). apply lt_IZR. lra.
Qed.

Lemma c_sll_max_spec d : valid_digits d -> finite d (c_sll_max d) /\ value (c_sll_max d) = IZR sll_max.
Proof. intro Hd. destruct (of_sll_spec d sll_max Hd) as (F & _ & V & _); [unfold sll_max; lia|]. auto. Qed.
Lemma c_sll_min_spec d : valid_digits d -> finite d (c_sll_min d) /\ value (c_sll_min d) = IZR sll_min.
Proof. intro Hd. destruct (of_sll_spec d sll_min Hd) as (F & _ & V & _); [unfold sll_min; lia|]. auto. Qed.
Lemma c_ull_max_spec d : valid_digits d -> finite d (c_ull_max d) /\ value (c_ull_max d) = IZR ull_max.
Proof. intro Hd. destruct (of_ull_spec d ull_max Hd) as (F & _ & V & _); [unfold ull_max; lia|]. auto. Qed.

Lemma s64_small z : (-9223372036854775808 <= z < 9223372036854775808)%Z -> s64 z = z.
Proof.
  intro H. unfold s64, u64. destruct (Z_lt_le_dec z 0).
  - rewrite <- (Z_mod_plus_full z 1), Z.mul_1_l, Z.mod_small by lia.
    destruct (Z.ltb_spec (z + 18446744073709551616) 9223372036854775808); lia.
  - rewrite Z.mod_small by lia. destruct (Z.ltb_spec z 9223372036854775808); lia.
Qed.

Lemma finite_neg_value d x : valid_digits d -> finite d x -> neg x = true -> value x < 0.
Proof.
  intros Hd F Hn. apply (isneg_spec d); auto. 
Qed.

Lemma finite_pos_value d x : valid_digits d -> finite d x -> neg x = false -> 0 <= value x.
Proof.
  intros Hd F Hn. rewrite (value_mag d x F), Hn. unfold sign. pose proof (mag_nonneg d (data x) (exp x) (wf_limbs _ _ (proj1 F))). lra.
Qed.

Lemma small_exp_trunc d x : valid_digits d -> finite d x -> (exp x < 0)%Z -> Ztrunc (value x) = 0%Z.
Proof.
  intros Hd F He. rewrite (value_trunc d x F). pose proof (neg_exp_small d x Hd F He).
  rewrite (Int_part_unique 0) by lra. destruct (neg x); reflexivity.
Qed.

Lemma extract_sll_spec d x : valid_digits d -> finite d x ->
  (value x <> -9223372036854775808 ->
     extract_sll d x = Defined (clamp (-9223372036854775808) 9223372036854775807 (Ztrunc (value x)))) /\
  (value x = -9223372036854775808 -> extract_sll d x = Undefined).
Proof.
  intros Hd Fx. destruct (c_sll_max_spec d Hd) as [FM VM]. destruct (c_sll_min_spec d Hd) as [Fm Vm].
  unfold extract_sll. destruct (Z.ltb_spec (exp x) 0) as [He|He].
  { rewrite (small_exp_trunc d x Hd Fx He). split; [reflexivity|]. intro V. exfalso.
    pose proof (neg_exp_small d x Hd Fx He) as Hs. rewrite <- (value_abs_mag d x Fx), V, Rabs_left in Hs; lra. }
  destruct (neg x) eqn:En; cbn [negb andb].
  - pose proof (finite_neg_value d x Hd Fx En) as Hneg.
    pose proof (cmp_all_ops d x (c_sll_min d) Hd Fx Fm) as HH.
    destruct (op_lt x (c_sll_min d)) eqn:El; destruct HH as (Hlt & _).
    { pose proof (proj1 Hlt eq_refl) as El'. clear El. rename El' into El. rewrite Vm in El. unfold sll_min in El. split; [|lra]. intros _. f_equal. unfold clamp, sll_min.
      rewrite Ztrunc_nonpos by lra. pose proof (Int_part_bounds (- value x)) as [B1 B2].
      assert (9223372036854775808 < Int_part (- value x) + 1)%Z by (apply lt_IZR; rewrite plus_IZR; lra). lia. }
    assert (Hge : -9223372036854775808 <= value x).
    { destruct (Rle_dec (-9223372036854775808) (value x)); auto. exfalso. discriminate (proj2 Hlt).  rewrite Vm. unfold sll_min. lra. }
    rewrite (extract_limbs d x); auto.
    3:{ unfold fabs. destruct (isneg _); [apply negate_data|reflexivity]. }
    3:{ unfold fabs. destruct (isneg _); [apply negate_exp|reflexivity]. }
    2:{ rewrite Rabs_left by auto. lra. }
    rewrite Rabs_left by auto. pose proof (Int_part_bounds (- value x)) as [B1 B2].
    assert (0 <= Int_part (- value x))%Z by (apply IZR_le_lt || idtac; apply Z.lt_succ_r, lt_IZR; rewrite succ_IZR; lra).
    assert (Int_part (- value x) <= 9223372036854775808)%Z by (apply le_IZR; lra).
    destruct (Z.eq_dec (Int_part (- value x)) 9223372036854775808) as [E|E].
    + rewrite E in B1. assert (V : value x = -9223372036854775808) by lra. split; [congruence|]. intros _.
      rewrite E. reflexivity.
    + split.
      * intros _. rewrite s64_small by lia. destruct (Z.eqb_spec (Int_part (- value x)) sll_min); [unfold sll_min in *; lia|].
        f_equal. rewrite Ztrunc_nonpos by lra. unfold clamp. lia.
      * intro V. exfalso. apply E. apply Int_part_unique. lra.
  - pose proof (finite_pos_value d x Hd Fx En) as Hpos. split; [|lra]. intros _.
    pose proof (cmp_all_ops d x (c_sll_max d) Hd Fx FM) as HH.
    destruct (op_gt x (c_sll_max d)) eqn:Eg; destruct HH as (_ & _ & _ & _ & _ & Hgt).
    { pose proof (proj1 Hgt eq_refl) as Eg'. clear Eg. rename Eg' into Eg. rewrite VM in Eg. unfold sll_max in Eg. f_equal. unfold clamp, sll_max.
      rewrite Ztrunc_nonneg by lra. pose proof (Int_part_bounds (value x)) as [B1 B2].
      assert (9223372036854775807 < Int_part (value x) + 1)%Z by (apply lt_IZR; rewrite plus_IZR; lra). lia. }
    assert (Hle : value x <= 9223372036854775807).
    { destruct (Rle_dec (value x) 9223372036854775807); auto. exfalso. discriminate (proj2 Hgt).  rewrite VM. unfold sll_max. lra. }
    rewrite (extract_limbs d x); auto.
    3:{ unfold fabs. destruct (isneg _); [apply negate_data|reflexivity]. }
    3:{ unfold fabs. destruct (isneg _); [apply negate_exp|reflexivity]. }
    2:{ rewrite Rabs_pos_eq by auto. lra. }
    rewrite Rabs_pos_eq by auto. pose proof (Int_part_bounds (value x)) as [B1 B2].
    assert (0 <= Int_part (value x))%Z by (apply Z.lt_succ_r, lt_IZR; rewrite succ_IZR; lra).
    assert (Int_part (value x) <= 9223372036854775807)%Z by (apply le_IZR; lra).
    rewrite s64_small by lia. f_equal. rewrite Ztrunc_nonneg by lra. unfold clamp. lia.
Qed.

Lemma extract_ull_spec d x : valid_digits d -> finite d x -> 0 <= value x ->
  extract_ull d x = Defined (clamp 0 18446744073709551615 (Ztrunc (value x))).
Proof.
  intros Hd Fx Hpos. destruct (c_ull_max_spec d Hd) as [FM VM]. unfold extract_ull.
  destruct (neg x) eqn:En. { apply (finite_neg_value d) in En; auto. lra. }
  destruct (Z.ltb_spec (exp x) 0) as [He|He].
  { rewrite (small_exp_trunc d x Hd Fx He). reflexivity. }
  pose proof (Int_part_bounds (value x)) as [B1 B2]. rewrite Ztrunc_nonneg by auto.
  assert (I0 : (0 <= Int_part (value x))%Z) by (apply Z.lt_succ_r, lt_IZR; rewrite succ_IZR; lra).
  assert (Hip : finite d (integer_part d x) /\ (value (integer_part d x) = IZR (Int_part (value x)) \/
                18446744073709551615 < value (integer_part d x) /\ 18446744073709551616 <= value x)).
  { destruct (Z_lt_le_dec (exp x) (d - 1)) as [H|H].
    - destruct (integer_part_spec d x Hd Fx H) as (F & E & _). rewrite Ztrunc_nonneg in E by auto. auto.
    - destruct (Req_dec (value x) 0) as [V|V].
      + destruct (integer_part_zero d x Hd Fx V) as [F E]. split; auto. left. rewrite E, V.
        replace 0 with (IZR 0) at 2 by reflexivity. rewrite Int_part_IZR. reflexivity.
      + rewrite integer_part_large by auto. split; auto. right.
        pose proof (finite_abs_bounds d x Hd Fx (value_nonzero_lead d x Hd Fx V)) as [HB _].
        rewrite Rabs_pos_eq in HB by auto. assert (p10 29 <= p10 (exp x)) by (apply p10_le; unfold valid_digits in Hd; lia).
        rewrite (p10_nonneg 29) in H0 by lia.
        assert (18446744073709551616 < IZR (10 ^ 29)) by (apply IZR_lt; reflexivity). lra. }
  destruct Hip as [FI VI].
  pose proof (cmp_all_ops d _ (c_ull_max d) Hd FI FM) as HH.
  destruct (op_gt (integer_part d x) (c_ull_max d)) eqn:Eg; destruct HH as (_ & _ & _ & _ & _ & Hgt).
  - pose proof (proj1 Hgt eq_refl) as Eg'. clear Eg. rename Eg' into Eg. rewrite VM in Eg. unfold ull_max in *. f_equal. unfold clamp.
    assert (18446744073709551615 < Int_part (value x) + 1)%Z; [|lia]. apply lt_IZR. rewrite plus_IZR.
    destruct VI as [VI|[VI1 VI2]]; lra.
  - assert (Hle : value (integer_part d x) <= 18446744073709551615).
    { destruct (Rle_dec (value (integer_part d x)) 18446744073709551615); auto. exfalso.
      discriminate (proj2 Hgt).  rewrite VM. unfold ull_max. lra. }
    destruct VI as [VI|[VI1 VI2]]; [|lra]. rewrite VI in Hle. 
    assert (Hi : (Int_part (value x) <= 18446744073709551615)%Z) by (apply le_IZR; lra).
    rewrite (extract_limbs d x); auto.
    + rewrite Rabs_pos_eq by auto. f_equal. unfold clamp. lia.
    + rewrite Rabs_pos_eq by auto. apply IZR_le in Hi. lra.
Qed.

(** negative numbers go through the signed conversion and wrap around *)
Lemma extract_ull_neg d x : valid_digits d -> finite d x -> value x < 0 ->
  extract_ull d x = match extract_sll d x with Defined n => Defined (n mod 18446744073709551616)%Z | Undefined => Undefined end.
Proof.
  intros Hd Fx H. unfold extract_ull. destruct (neg x) eqn:En; [reflexivity|].
  apply (finite_pos_value d) in En; auto. lra.
Qed.


Lemma extract_special d x : valid_digits d -> wf d x ->
  (is_inf x false -> extract_sll d x = Defined 9223372036854775807%Z /\ extract_ull d x = Defined 18446744073709551615%Z) /\
  (is_inf x true -> extract_sll d x = Defined (-9223372036854775808)%Z).
Proof.
  intros Hd W. destruct (c_sll_max_spec d Hd) as [[WM CM] VM]. destruct (c_sll_min_spec d Hd) as [[Wm Cm] Vm].
  destruct (c_ull_max_spec d Hd) as [[WU CU] VU].
  split.
  - intros [H Hn]. assert (E0 : exp x = 0%Z) by (apply (wf_nonfin _ _ W); congruence).
    assert (G1 : op_gt x (c_sll_max d) = true).
    { unfold op_gt, cmp, isfinite, isnan, isinf. rewrite H, CM, Hn. reflexivity. }
    assert (G2 : op_gt x (c_ull_max d) = true).
    { unfold op_gt, cmp, isfinite, isnan, isinf. rewrite H, CU, Hn. reflexivity. }
    assert (E1 : integer_part d x = x) by (unfold integer_part, isfinite; rewrite H; reflexivity).
    split.
    + unfold extract_sll. rewrite E0, Hn, G1. reflexivity.
    + unfold extract_ull. rewrite E0, Hn, E1, G2. reflexivity.
  - intros [H Hn]. assert (E0 : exp x = 0%Z) by (apply (wf_nonfin _ _ W); congruence).
    assert (G1 : op_lt x (c_sll_min d) = true).
    { unfold op_lt, cmp, isfinite, isnan, isinf. rewrite H, Cm, Hn. reflexivity. }
    unfold extract_sll. rewrite E0, Hn, G1. reflexivity.
Qed.
