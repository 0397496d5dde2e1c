(** * Corollaries about integers (proofs only). *)

From Coq Require Import ZArith List Bool Reals Lra Lia.
From Verif Require Import Model Spec Limbs Value CmpProofs AddProofs Decide OrderProofs AddExtra MulProofs MulValue MulExtra MulCor IntProofs IntPartProofs IntConv MixedProofs.
Import ListNotations.
Open Scope R_scope.

(** ** Signed multiplication *)
Lemma mul_digits_set_neg d loop u v b : mul_digits d loop u (set_neg v b) =
  set_neg (mul_digits d loop u v) (negb (Bool.eqb (neg u) b)).
Proof.
  unfold mul_digits. cbn [set_neg data exp cls prec neg].
  destruct (Z.min (prec u) (prec v) * 8 <? 5000)%Z.
  - destruct (loop _) as [r c]. destruct (c =? 0)%Z; reflexivity.
  - destruct (limb _ 0 =? 0)%Z; reflexivity.
Qed.

Lemma mul_digits_neg d loop u v : neg (mul_digits d loop u v) = negb (Bool.eqb (neg u) (neg v)).
Proof.
  unfold mul_digits. destruct (Z.min (prec u) (prec v) * 8 <? 5000)%Z.
  - destruct (loop _) as [r c]. destruct (c =? 0)%Z; reflexivity.
  - destruct (limb _ 0 =? 0)%Z; reflexivity.
Qed.

Lemma negate_signed_inf d b : negate (signed_inf d b) = signed_inf d (negb b).
Proof. rewrite !signed_inf_eq. unfold negate, iszero. cbn [cls]. reflexivity. Qed.

Lemma mul_negate_r d u v : valid_digits d -> finite d u -> finite d v -> mul d u (negate v) = negate (mul d u v).
Proof.
  intros Hd Fu Fv. pose proof (negate_finite d v Fv) as Fn.
  destruct (mul_finite_cases d u v Hd Fu Fv) as [[Hz E]|(Zu & Zv & H)].
  - destruct (mul_finite_cases d u (negate v) Hd Fu Fn) as [[_ E']|(Zu' & Zv' & _)].
    + rewrite E, E', negate_zero. reflexivity.
    + exfalso. rewrite negate_data in Zv'. destruct Hz as [Hz|Hz]; apply (finite_zero_iff d) in Hz; auto.
  - destruct (mul_finite_cases d u (negate v) Hd Fu Fn) as [[Hz _]|(_ & _ & H')].
    { exfalso. rewrite (negate_value d) in Hz by auto. destruct Hz as [Hz|Hz].
      - apply (finite_zero_iff d) in Hz; auto.
      - assert (value v = 0) by lra. apply (finite_zero_iff d) in H0; auto. }
    rewrite negate_exp in H'.
    assert (Zf : iszero v = false) by (apply iszero_false; auto; apply Fv).
    assert (Hnn : neg (negate v) = negb (neg v)) by (rewrite negate_nonzero by auto; reflexivity).
    rewrite Hnn, negate_data in H'.
    assert (Hb : negb (Bool.eqb (neg u) (negb (neg v))) = negb (negb (Bool.eqb (neg u) (neg v)))) by (destruct (neg u), (neg v); reflexivity).
    destruct H as [[Ho E]|[[Hun E]|(Ho & Hun & E)]];
    destruct H' as [[Ho' E']|[[Hun' E']|(Ho' & Hun' & E')]]; try contradiction; try (unfold exp_over, exp_under in *; lia).
    + rewrite E, E', negate_signed_inf. f_equal. exact Hb.
    + rewrite E, E', negate_zero. reflexivity.
    + rewrite E, E'. rewrite negate_nonzero, mul_digits_set_neg.
      destruct (mul_digits_finite d u v Hd Fu Fv Zu Zv) as (Fr & Zr & _). rewrite negate_nonzero by (apply iszero_false; [apply Fr|exact Zr]).
      rewrite mul_digits_neg. f_equal. exact Hb. auto.
Qed.

Lemma mul_sll_spec d x n : valid_digits d -> (elem_number d * 8 < 5000)%Z -> finite d x -> full d x ->
  (-9223372036854775808 < n < 9223372036854775808)%Z -> (exp x < 2147483616)%Z ->
  cls (mul d x (of_sll d n)) = Finite ->
  (Rabs (value (mul d x (of_sll d n))) <= max_value d -> mul_sll d x n = Defined (mul d x (of_sll d n))) /\
  (max_value d < Rabs (value (mul d x (of_sll d n))) -> 
     exists y, mul_sll d x n = Defined y /\ is_inf y (neg (mul d x (of_sll d n)))).
Proof.
  intros Hd Hs Fx Px Hn He Hc.
  assert (Hy : (if (n <? 0)%Z then negate (mul_ull d x (if negb (n <? 0)%Z then u64 n else u64 (- n))) else mul_ull d x (if negb (n <? 0)%Z then u64 n else u64 (- n)))
               = mul d x (of_sll d n)).
  { destruct (Z.ltb_spec n 0) as [H|H]; cbn [negb].
    - rewrite u64_small by lia. rewrite mul_ull_is_mul by (auto; lia). rewrite of_sll_neg by (auto; lia).
      symmetry. apply mul_negate_r; auto. apply (of_ull_spec d (- n)); auto. lia.
    - rewrite u64_small by lia. rewrite of_sll_pos by (auto; lia). apply mul_ull_is_mul; auto. lia. }
  unfold mul_sll. destruct (Z.eqb_spec n sll_min); [unfold sll_min in *; lia|]. rewrite Hy.
  destruct (of_sll_spec d n Hd ltac:(lia)) as (Fn & _).
  set (y := mul d x (of_sll d n)) in *.
  assert (Fy : finite d y) by (split; auto; apply mul_wf; auto; [apply Fx|apply Fn]).
  pose proof (cmp_all_ops d (fabs y) (value_max d) Hd (fabs_finite d y Fy) (value_max_finite d Hd)) as HH.
  rewrite (fabs_value d), value_max_value in HH by auto.
  split; intro Hm.
  - destruct (op_gt (fabs y) (value_max d)); auto. destruct HH as (_ & _ & _ & _ & _ & Hgt). pose proof (proj1 Hgt eq_refl). lra.
  - destruct HH as (_ & _ & _ & _ & _ & Hgt). rewrite (proj2 Hgt Hm). eexists. split; [reflexivity|]. apply signed_inf_is_inf.
Qed.

(** ** Exactness of rounded sums *)
Lemma cut_exact q s r k : 0 < q -> cut_to q s r -> s = IZR k * q -> r = s.
Proof.
  intros Hq ([H1 H2] & H3 & j & Hj) Hs.
  assert (Hk : Rabs s = IZR (Z.abs k) * q) by (rewrite Hs, Rabs_mult, <- abs_IZR, (Rabs_pos_eq q); lra).
  assert (Hr : Rabs r = IZR (Z.abs j) * q) by (rewrite Hj, Rabs_mult, <- abs_IZR, (Rabs_pos_eq q); lra).
  rewrite Hk, Hr in *.
  assert (A : (Z.abs j <= Z.abs k)%Z) by (apply le_IZR; apply Rmult_le_reg_r with q; lra).
  assert (B : (Z.abs k < Z.abs j + 1)%Z) by (apply lt_IZR; rewrite plus_IZR; apply Rmult_lt_reg_r with q; lra).
  assert (E : Rabs r = Rabs s) by (rewrite Hk, Hr; do 2 f_equal; lia).
  unfold Rabs in E. destruct (Rcase_abs r), (Rcase_abs s); try lra.
  - assert (0 <= r * s) by lra. nra.
  - nra.
Qed.

Lemma raised_exact q s r k : 0 < q -> raised_to q s r -> s = IZR k * q -> r = s.
Proof.
  intros Hq ([H1 H2] & H3 & j & Hj) Hs.
  assert (Hk : Rabs s = IZR (Z.abs k) * q) by (rewrite Hs, Rabs_mult, <- abs_IZR, (Rabs_pos_eq q); lra).
  assert (Hr : Rabs r = IZR (Z.abs j) * q) by (rewrite Hj, Rabs_mult, <- abs_IZR, (Rabs_pos_eq q); lra).
  rewrite Hk, Hr in *.
  assert (A : (Z.abs k <= Z.abs j)%Z) by (apply le_IZR; apply Rmult_le_reg_r with q; lra).
  assert (B : (Z.abs j < Z.abs k + 1)%Z) by (apply lt_IZR; rewrite plus_IZR; apply Rmult_lt_reg_r with q; lra).
  assert (E : Rabs r = Rabs s) by (rewrite Hk, Hr; do 2 f_equal; lia).
  unfold Rabs in E. destruct (Rcase_abs r), (Rcase_abs s); try lra; nra.
Qed.

Lemma int_multiple z m : (0 <= m)%Z -> exists k, IZR z = IZR k * p10 (- m).
Proof.
  intro Hm. exists (z * 10 ^ m)%Z. rewrite mult_IZR, <- p10_nonneg by auto. rewrite Rmult_assoc, <- p10_add.
  rewrite Z.add_opp_diag_r, p10_0. ring.
Qed.

Lemma sum_rounded_int d u v r a b : valid_digits d -> finite d u -> finite d v -> finite d r -> sum_rounded d u v r ->
  value u = IZR a -> value v = IZR b -> (Z.abs a + Z.abs b < 10 ^ (8 * (elem_number d - 1)))%Z ->
  value r = IZR (a + b).
Proof.
  intros Hd Fu Fv Fr (R1 & R2 & R3) Va Vb Hab. pose proof (elem_number_bounds d Hd) as HN.
  assert (Hu : forall e, (e < 8 * (elem_number d - 1))%Z -> exists m, (0 <= m)%Z /\ ulp d e = p10 (- m)).
  { intros e He. exists (8 * (elem_number d - 1) - e)%Z. split; [lia|]. unfold ulp. f_equal. lia. }
  assert (Hbnd : forall z, (Z.abs z <= Z.abs a + Z.abs b)%Z -> Rabs (IZR z) < p10 (8 * (elem_number d - 1))).
  { intros z Hz. rewrite <- abs_IZR, p10_nonneg by lia. apply IZR_lt. lia. }
  assert (Hsum : value u + value v = IZR (a + b)) by (rewrite Va, Vb, plus_IZR; reflexivity).
  destruct (Rle_dec 0 (value u * value v)) as [Hs|Hs].
  - specialize (R1 Hs). destruct (Req_dec (value r) 0) as [V|V].
    { rewrite V. rewrite <- Hsum. symmetry. apply R3. auto. }
    assert (He : (exp r < 8 * (elem_number d - 1))%Z).
    { apply (exp_of_bound d r); auto. apply Rle_lt_trans with (Rabs (value u + value v)).
      - destruct R1 as ((C1 & _) & _). lra.
      - rewrite Hsum. apply Hbnd. lia. }
    destruct (Hu _ He) as (m & Hm & Eu). rewrite Eu in R1. destruct (int_multiple (a + b) m Hm) as [k Hk].
    rewrite <- Hsum. apply (cut_exact (p10 (- m)) _ _ k); auto using p10_pos. rewrite Hsum. exact Hk.
  - assert (Hs' : value u * value v < 0) by lra. specialize (R2 Hs').
    assert (Vu : value u <> 0) by (intro E; rewrite E in Hs'; lra). assert (Vv : value v <> 0) by (intro E; rewrite E in Hs'; lra).
    assert (He : (Z.max (exp u) (exp v) < 8 * (elem_number d - 1))%Z).
    { assert (exp u < 8 * (elem_number d - 1))%Z by (apply (exp_of_bound d u); auto; rewrite Va; apply Hbnd; lia).
      assert (exp v < 8 * (elem_number d - 1))%Z by (apply (exp_of_bound d v); auto; rewrite Vb; apply Hbnd; lia). lia. }
    destruct (Hu _ He) as (m & Hm & Eu). rewrite Eu in R2. destruct (int_multiple (a + b) m Hm) as [k Hk].
    rewrite <- Hsum. apply (raised_exact (p10 (- m)) _ _ k); auto using p10_pos. rewrite Hsum. exact Hk.
Qed.

Lemma int_lt_max d z : valid_digits d -> (Z.abs z < 10 ^ (8 * (elem_number d - 1)))%Z -> Rabs (IZR z) <= max_value d.
Proof.
  intros Hd Hz. pose proof (max_value_ge d Hd). pose proof (elem_number_digits d Hd). pose proof (elem_number_bounds d Hd).
  unfold valid_digits in Hd.
  assert (p10 (8 * (elem_number d - 1)) <= p10 max_exp10) by (apply p10_le; change max_exp10 with 2147483616%Z; lia).
  rewrite <- abs_IZR. apply IZR_lt in Hz. rewrite <- p10_nonneg in Hz by lia. lra.
Qed.

(** integer arithmetic that fits the working precision is exact *)
Lemma add_int_exact d u v a b : valid_digits d -> finite d u -> finite d v -> value u = IZR a -> value v = IZR b ->
  (Z.abs a + Z.abs b < 10 ^ (8 * (elem_number d - 1)))%Z ->
  finite d (add d u v) /\ value (add d u v) = IZR (a + b) /\ finite d (sub d u v) /\ value (sub d u v) = IZR (a - b).
Proof.
  intros Hd Fu Fv Va Vb Hab.
  assert (H : forall w c, finite d w -> value w = IZR c -> (Z.abs c = Z.abs b) -> finite d (add d u w) /\ value (add d u w) = IZR (a + c)).
  { intros w c Fw Vw Hc. destruct (add_finite_spec d u w Hd Fu Fw) as (r & Fr & R & H).
    assert (Vr : value r = IZR (a + c)) by (apply (sum_rounded_int d u w r a c); auto; lia).
    destruct H as [[-> _]|[H _]]; auto. exfalso. rewrite Vr in H. pose proof (int_lt_max d (a + c) Hd ltac:(lia)). lra. }
  destruct (H v b Fv Vb eq_refl) as [H1 H2]. split; auto. split; auto.
  rewrite sub_as_add by auto. replace (a - b)%Z with (a + - b)%Z by lia. apply H; auto using negate_finite; [|lia].
  rewrite (negate_value d), Vb, opp_IZR by auto. reflexivity.
Qed.

Lemma one_is_1 d : valid_digits d -> value (one d) = IZR 1.
Proof. apply one_value. Qed.

Lemma inc_dec_int d x k : valid_digits d -> finite d x -> value x = IZR k -> (Z.abs k < 10 ^ (8 * (elem_number d - 1)) - 1)%Z ->
  value (pre_inc d x) = IZR (k + 1) /\ value (pre_dec d x) = IZR (k - 1) /\
  post_inc d x = (x, pre_inc d x) /\ post_dec d x = (x, pre_dec d x).
Proof.
  intros Hd Fx V Hk. destruct (add_int_exact d x (one d) k 1 Hd Fx (one_finite d Hd) V (one_is_1 d Hd) ltac:(lia)) as (_ & H1 & _ & H2).
  unfold pre_inc, pre_dec. auto.
Qed.

(** ** Truncated products with unsigned integers *)
Lemma mul_ull_small_spec d x n : valid_digits d -> finite d x -> full d x -> value x <> 0 -> (0 < n < 100000000)%Z ->
  let r := mul_ull d x n in
  finite d r /\ full d r /\ cut_to (ulp d (exp r)) (value x * IZR n) (value r).
Proof.
  intros Hd Fx Px Vx Hn r. pose proof (value_nonzero_lead d x Hd Fx Vx) as Zx.
  assert (Hn0 : 0 < IZR n) by (apply IZR_lt; lia).
  assert (H : finite d r /\ prec r = prec x /\ neg r = neg x /\ mag d (data r) (exp r) <= IZR n * mag d (data x) (exp x) < mag d (data r) (exp r) + ulp d (exp r)).
  { unfold r. rewrite mul_ull_cases by (auto; lia). rewrite (finite_nonzero_flag d x Hd Fx Vx). cbn [orb].
    destruct (Z.eqb_spec n 0); [lia|]. destruct (Z.geb_spec n mask) as [Hm|Hm]; [change mask with 100000000%Z in Hm; lia|].
    destruct (Z.eqb_spec n 1) as [->|H1].
    - split; auto. split; auto. split; auto. rewrite Rmult_1_l. pose proof (ulp_pos d (exp x)). lra.
    - destruct (mul_small_spec d x n Hd Fx Zx ltac:(lia)) as (Fs & Zs & Ps & Ns & _ & _ & Ts). auto. }
  destruct H as (Fr & Pr & Nr & H1 & H2). split; auto. split; [unfold full in *; congruence|].
  pose proof (mag_nonneg d (data x) (exp x) (wf_limbs _ _ (proj1 Fx))) as M1.
  pose proof (mag_nonneg d (data r) (exp r) (wf_limbs _ _ (proj1 Fr))) as M2.
  unfold cut_to. rewrite Rabs_mult, (Rabs_pos_eq (IZR n)) by lra. rewrite (value_abs_mag d r Fr), (value_abs_mag d x Fx).
  split; [lra|]. split.
  - rewrite (value_mag d r Fr), (value_mag d x Fx), Nr.
    replace (sign (neg x) * mag d (data r) (exp r) * (sign (neg x) * mag d (data x) (exp x) * IZR n)) with
      (sign (neg x) * sign (neg x) * (mag d (data r) (exp r) * (mag d (data x) (exp x) * IZR n))) by ring.
    rewrite sign_sq, Rmult_1_l. apply Rmult_le_pos; auto. apply Rmult_le_pos; lra.
  - exists (sv r). apply multiple_sv; auto.
Qed.

Lemma mul_ull_large_spec d x n : valid_digits d -> (d <= 4967)%Z -> finite d x -> full d x -> value x <> 0 ->
  (100000000 <= n < 18446744073709551616)%Z -> (-2147483616 < exp x < 2147483600)%Z ->
  let r := mul_ull d x n in
  finite d r /\ full d r /\ 0 < value r * (value x * IZR n) /\ Rabs (value r) <= Rabs (value x * IZR n) /\
  Rabs (value x * IZR n) - Rabs (value r) <= p10 (- (d + 6)) * Rabs (value x * IZR n).
Proof.
  intros Hd Hd' Fx Px Vx Hn He r. unfold r. rewrite mul_ull_cases by (auto; lia).
  rewrite (finite_nonzero_flag d x Hd Fx Vx). cbn [orb]. destruct (Z.eqb_spec n 0); [lia|].
  destruct (Z.geb_spec n mask) as [Hm|Hm]; [|change mask with 100000000%Z in Hm; lia].
  destruct (of_ull_spec d n Hd ltac:(lia)) as (Fn & Pn & Vn & _ & En). rewrite <- Vn. apply mul_accuracy; auto.
  - rewrite Vn. intro E. apply (eq_IZR _ 0) in E. lia.
  - lia.
Qed.

Lemma mul_ull_special d x n : valid_digits d -> wf d x -> (0 <= n < 18446744073709551616)%Z ->
  (is_nan x -> is_nan (mul_ull d x n)) /\
  (forall b, is_inf x b -> n = 0%Z -> is_nan (mul_ull d x n)) /\
  (forall b, is_inf x b -> n <> 0%Z -> is_inf (mul_ull d x n) b) /\
  (cls x = Finite -> value x = 0 \/ n = 0%Z -> cls (mul_ull d x n) = Finite /\ value (mul_ull d x n) = 0).
Proof.
  intros Hd W Hn. split; [|split; [|split]].
  - intro H. unfold mul_ull. rewrite (is_nan_isnan x H). reflexivity.
  - intros b H ->. unfold mul_ull. destruct (is_inf_isinf x b H) as (-> & -> & _). reflexivity.
  - intros b H Hz. unfold mul_ull. destruct (is_inf_isinf x b H) as (-> & -> & _ & ->). cbn [orb andb].
    destruct (Z.eqb_spec n 0); [contradiction|]. apply signed_inf_is_inf.
  - intros C H. assert (F : finite d x) by (split; auto). rewrite mul_ull_cases by auto.
    assert (E : (iszero x || (n =? 0)%Z)%bool = true).
    { destruct H as [H| ->]; [rewrite (finite_zero_flag d) by auto; reflexivity|apply orb_true_r]. }
    rewrite E. split; [rewrite zero_eq; reflexivity|apply value_zero; auto].
Qed.

Lemma mul_ull_overflow_refuted :
  finite 30 (value_max 30) /\ finite 30 (mul_ull 30 (value_max 30) 2) /\ max_value 30 < value (mul_ull 30 (value_max 30) 2).
Proof.
  pose proof valid_30 as Hd. pose proof (value_max_finite 30 Hd) as F. split; auto.
  assert (F2 : finite 30 (mul_ull 30 (value_max 30) 2)) by (apply wfb_finite; vm_compute; reflexivity).
  split; auto. rewrite <- (value_max_value 30 Hd). apply Rgt_lt. apply (cmp_all_ops 30 _ _ Hd F2 F). vm_compute. reflexivity.
Qed.

(** ** Round trips *)
Lemma sll_round_trip d n : valid_digits d -> (-9223372036854775808 < n < 9223372036854775808)%Z ->
  extract_sll d (of_sll d n) = Defined n.
Proof.
  intros Hd Hn. destruct (of_sll_spec d n Hd ltac:(lia)) as (F & _ & V & _).
  rewrite (proj1 (extract_sll_spec d _ Hd F)).
  - rewrite V, Ztrunc_IZR. unfold clamp. f_equal. lia.
  - rewrite V. intro E. apply eq_IZR in E. lia.
Qed.

Lemma sll_round_trip_min d : valid_digits d -> extract_sll d (of_sll d (-9223372036854775808)) = Undefined.
Proof.
  intros Hd. destruct (of_sll_spec d (-9223372036854775808) Hd ltac:(lia)) as (F & _ & V & _).
  apply (proj2 (extract_sll_spec d _ Hd F)). exact V.
Qed.

Lemma ull_round_trip d n : valid_digits d -> (0 <= n < 18446744073709551616)%Z -> extract_ull d (of_ull d n) = Defined n.
Proof.
  intros Hd Hn. destruct (of_ull_spec d n Hd Hn) as (F & _ & V & _).
  rewrite extract_ull_spec; auto.
  - rewrite V, Ztrunc_IZR. unfold clamp. f_equal. lia.
  - rewrite V. apply IZR_le. lia.
Qed.

(** ** Refutations near the top of the integer range *)

(* 10^32 + 0.5 with 30 digits *)
Definition big_half : ef := mkef [1; 0; 0; 0; 0; 50000000; 0]%Z 32 false Finite 7.

Lemma big_half_value : value big_half = p10 32 + /2.
Proof.
  unfold value, big_half. cbn [data exp neg limbs_value sign].
  replace (32 - 8 - 8 - 8 - 8 - 8)%Z with (-(8))%Z by lia. rewrite p10_inv, (p10_nonneg 8) by lia. change (10 ^ 8)%Z with 100000000%Z.
  unfold sign. lra.
Qed.

Lemma big_half_parts :
  finite 30 big_half /\ value big_half = powerRZ 10 32 + /2 /\ isint 30 big_half = false /\
  integer_part 30 big_half = big_half /\ value (decimal_part 30 big_half) = 0 /\
  floor 30 big_half = big_half.
Proof.
  split; [apply wfb_finite; vm_compute; reflexivity|]. split; [apply big_half_value|].
  split; [vm_compute; reflexivity|]. split; [vm_compute; reflexivity|]. split; [|vm_compute; reflexivity].
  apply decimal_part_large; [exact valid_30|apply wfb_finite; vm_compute; reflexivity|]. cbn. lia.
Qed.

Lemma big_half_not_integer : ~ exists k, value big_half = IZR k.
Proof.
  intro H. apply (isint_spec 30) in H; [|exact valid_30|apply wfb_finite; vm_compute; reflexivity].
  vm_compute in H. discriminate.
Qed.

(** ** Products at the upper end *)

Lemma lt_by_ops d x y : valid_digits d -> finite d x -> finite d y -> op_lt x y = true -> value x < value y.
Proof. intros Hd Fx Fy H. apply (cmp_all_ops d x y Hd Fx Fy). exact H. Qed.

(* 99999999e1073741800 and 99999999e1073741808 *)
Definition big_u : ef := mkef [99999999; 0; 0; 0; 0; 0; 0]%Z 1073741800 false Finite 7.
Definition big_v : ef := mkef [99999999; 0; 0; 0; 0; 0; 0]%Z 1073741808 false Finite 7.

Lemma max_limit_refuted :
  is_inf (mul 30 (value_max 30) (one 30)) false /\
  finite 30 (mul 30 big_u big_v) /\ finite 30 big_u /\ finite 30 big_v /\
  value big_u < max_value 30 /\ value big_v < max_value 30 /\
  max_value 30 < value (mul 30 big_u big_v).
Proof.
  pose proof valid_30 as Hd. pose proof (value_max_finite 30 Hd) as F.
  assert (F0 : finite 30 (mul 30 big_u big_v)) by (apply wfb_finite; vm_compute; reflexivity).
  assert (F1 : finite 30 big_u) by (apply wfb_finite; vm_compute; reflexivity).
  assert (F2 : finite 30 big_v) by (apply wfb_finite; vm_compute; reflexivity).
  split; [vm_compute; split; reflexivity|]. split; auto. split; auto. split; auto.
  rewrite <- (value_max_value 30 Hd). split; [|split].
  - apply (lt_by_ops 30 _ _ Hd F1 F). vm_compute. reflexivity.
  - apply (lt_by_ops 30 _ _ Hd F2 F). vm_compute. reflexivity.
  - apply (lt_by_ops 30 _ _ Hd F F0). vm_compute. reflexivity.
Qed.

Lemma inc_rounding d x : valid_digits d -> finite d x -> cls (pre_inc d x) = Finite ->
  exists w, finite d w /\ value w = 1 /\ finite d (pre_inc d x) /\ sum_rounded d x w (pre_inc d x).
Proof.
  intros Hd F H. exists (one d). split; [apply one_finite; auto|]. split; [apply one_value; auto|].
  apply add_rounding; auto using one_finite.
Qed.

Lemma mixed_refuted :
  add_sll 30 (one 30) (-9223372036854775808) = Undefined /\
  sub_sll 30 (one 30) (-9223372036854775808) = Undefined /\
  mul_sll 30 (one 30) (-9223372036854775808) = Undefined /\
  mul_sll 30 (value_nan 30) 2 = Defined (signed_inf 30 false) /\
  mul_ull 30 (value_max 30) 1 = value_max 30 /\ mul 30 (value_max 30) (of_ull 30 1) = signed_inf 30 false.
Proof. repeat split; vm_compute; reflexivity. Qed.

Lemma conversion_refuted :
  (forall d, valid_digits d -> extract_sll d (of_sll d (-9223372036854775808)) = Undefined) /\
  extract_ull 30 (of_sll 30 (-1)) = Defined 18446744073709551615%Z /\
  extract_ull 30 (of_sll 30 (-9223372036854775808)) = Undefined.
Proof. split; [exact sll_round_trip_min|]. split; vm_compute; reflexivity. Qed.

Lemma parts_of_integers d x k : valid_digits d -> finite d x -> value x = IZR k ->
  value (integer_part d x) = IZR k /\ value (decimal_part d x) = 0.
Proof.
  intros Hd F V. rewrite (integer_part_int d x k Hd F V). split; auto. apply (decimal_part_int d x k); auto.
Qed.

Lemma floor_refuted : finite 30 big_half /\ floor 30 big_half = big_half /\ ~ exists k, value big_half = IZR k.
Proof.
  destruct big_half_parts as (F & _ & _ & _ & _ & E). split; auto. split; auto. apply big_half_not_integer.
Qed.
