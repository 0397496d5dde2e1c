(** * Addition and subtraction (proofs only). *)

From Coq Require Import ZArith List Bool Lia Reals Lra Psatz.
From Verif Require Import Model Spec Limbs Value CmpProofs.
Import ListNotations.
Open Scope R_scope.

Ltac Zify.zify_post_hook ::= Z.div_mod_to_equations.

(** ** Generic facts *)

Lemma ulp_shift d e k : ulp d (e + 8 * Z.of_nat k) = IZR (Bp k) * ulp d e.
Proof.
  unfold ulp. rewrite <- p10_Bp, <- p10_add. f_equal. lia.
Qed.

Lemma ulp_shift8 d e : ulp d (e + 8) = IZR mask * ulp d e.
Proof.
  replace (e + 8)%Z with (e + 8 * Z.of_nat 1)%Z by lia. rewrite ulp_shift.
  rewrite Bp_S, Bp_0, Z.mul_1_r. reflexivity.
Qed.

Lemma ulp_mono d a b : (a <= b)%Z -> ulp d a <= ulp d b.
Proof. intro. unfold ulp. apply p10_le. lia. Qed.

Lemma lead_nonzero l : limbs l -> (Bp (length l - 1) <= mv l)%Z -> limb l 0 <> 0%Z.
Proof. intros Hl H E. pose proof (mv_lead_small l Hl E). lia. Qed.

Lemma IZR_div_bounds a b : (0 < b)%Z -> IZR (a / b) * IZR b <= IZR a < IZR (a / b) * IZR b + IZR b.
Proof.
  intro H. rewrite <- mult_IZR, <- plus_IZR. split; [apply IZR_le|apply IZR_lt].
  - pose proof (Z.mul_div_le a b H). lia.
  - pose proof (Z.mul_succ_div_gt a b H). lia.
Qed.

Lemma add_loop_comm u : forall v, add_loop u v = add_loop v u.
Proof.
  induction u as [|a u IH]; destruct v as [|b v]; auto.
  simpl. rewrite IH. rewrite (Z.add_comm a b). reflexivity.
Qed.

(** magnitude represented by limbs *)
Definition mag d (l : list Z) (e : Z) : R := IZR (mv l) * ulp d e.

Lemma mag_nonneg d l e : limbs l -> 0 <= mag d l e.
Proof.
  intro H. unfold mag. pose proof (mv_bound l H). pose proof (ulp_pos d e).
  apply Rmult_le_pos; [apply IZR_le; lia | lra].
Qed.

Lemma value_mag d x : finite d x -> value x = sign (neg x) * mag d (data x) (exp x).
Proof.
  intros [Hw _]. unfold mag. rewrite (value_sv d x) by apply Hw.
  unfold sv, sign. destruct (neg x); rewrite ?opp_IZR; ring.
Qed.

Lemma value_abs_mag d x : finite d x -> Rabs (value x) = mag d (data x) (exp x).
Proof.
  intros [Hw _]. unfold mag. apply value_abs_mv; apply Hw.
Qed.

Lemma sign_abs b : Rabs (sign b) = 1.
Proof. unfold sign. destruct b; rewrite ?Rabs_Ropp, ?Rabs_R1; auto. rewrite Rabs_left; lra. Qed.

Lemma sign_sq b : sign b * sign b = 1.
Proof. unfold sign. destruct b; lra. Qed.

(** ** Same sign *)

Lemma add_core d a b e k r c :
  valid_digits d -> limbs a -> limbs b -> length a = Nn d -> length b = Nn d ->
  limb a 0 <> 0%Z -> (k <= Nn d)%nat ->
  add_loop a (shift_right k b) = (r, c) ->
  forall r' e', (r', e') = (if Z.eqb c 0 then (r, e) else (push_front (Nn d) c r, e + 8))%Z ->
  limbs r' /\ length r' = Nn d /\ limb r' 0 <> 0%Z /\
  mag d r' e' <= mag d a e + mag d b (e - 8 * Z.of_nat k) < mag d r' e' + ulp d e'.
Proof.
  intros Hd Ha Hb La Lb Ha0 Hk Hl r' e' Hr'.
  pose proof (Nn_ge7 d Hd) as HN.
  destruct (add_loop_spec a (shift_right k b) Ha (shift_right_limbs k b Hb)
              ltac:(rewrite shift_right_length; congruence) r c Hl) as (Hs & Hlr & Lr & Hc).
  rewrite mv_shift_right in Hs by (auto; lia).
  pose proof (mv_ge_lead a Ha ltac:(intro E; rewrite E in La; simpl in La; lia) Ha0) as Hge.
  pose proof (mv_bound b Hb) as Bb. pose proof (Bp_pos k) as HBk.
  pose proof (IZR_div_bounds (mv b) (Bp k) HBk) as Hdiv.
  assert (Hub : ulp d e = IZR (Bp k) * ulp d (e - 8 * Z.of_nat k)).
  { rewrite <- ulp_shift. f_equal. lia. }
  pose proof (ulp_pos d (e - 8 * Z.of_nat k)) as Hup. pose proof (ulp_pos d e) as Hue.
  (* b is its floor plus a fraction of the unit *)
  assert (Hfrac : IZR (mv b / Bp k) * ulp d e <= mag d b (e - 8 * Z.of_nat k)
                  < IZR (mv b / Bp k) * ulp d e + ulp d e).
  { unfold mag. rewrite Hub. nra. }
  assert (Hdn : (0 <= mv b / Bp k)%Z) by (apply Z.div_pos; lia).
  rewrite La in *.
  destruct (Z.eqb_spec c 0) as [E|E]; injection Hr' as -> ->.
  - subst c. assert (Hm : mv r = (mv a + mv b / Bp k)%Z) by lia.
    split; [auto|]. split; [lia|]. split.
    + apply lead_nonzero; auto. rewrite Lr. lia.
    + unfold mag in *. rewrite Hm, plus_IZR. lra.
  - assert (c = 1%Z) by lia. subst c.
    assert (Hlen : length r = Nn d) by lia.
    pose proof (push_front_full 1 r Hlr ltac:(lia)) as Hpf. rewrite Hlen in Hpf.
    split; [apply push_front_limbs; auto; unfold is_limb; lia|].
    split; [rewrite push_front_length by lia; lia|].
    split; [unfold push_front, limb; simpl; lia|].
    unfold mag in *. rewrite Hpf. rewrite ulp_shift8.
    replace (1 * Bp (Nn d) + mv r)%Z with (mv a + mv b / Bp k)%Z by lia.
    pose proof (IZR_div_bounds (mv a + mv b / Bp k) mask mask_pos) as Hd2.
    assert (Hint : IZR (mv a + mv b / Bp k) <= IZR ((mv a + mv b / Bp k) / mask) * IZR mask + IZR mask - 1).
    { rewrite <- mult_IZR, <- plus_IZR, <- minus_IZR. apply IZR_le.
      change mask with 100000000%Z. lia. }
    rewrite plus_IZR in Hd2, Hint. nra.
Qed.

(** ** Different signs *)

Lemma sub_core d a b k r :
  limbs a -> limbs b -> length a = Nn d -> length b = Nn d -> (k <= Nn d)%nat ->
  (mv b / Bp k <= mv a)%Z ->
  fst (sub_loop a (shift_right k b)) = r ->
  limbs r /\ length r = Nn d /\ mv r = (mv a - mv b / Bp k)%Z.
Proof.
  intros Ha Hb La Lb Hk Hle Hr.
  destruct (sub_loop a (shift_right k b)) as [r0 c] eqn:E. simpl in Hr. subst r0.
  destruct (sub_loop_spec a (shift_right k b) Ha (shift_right_limbs k b Hb)
              ltac:(rewrite shift_right_length; congruence) r c E) as (Hs & Hlr & Lr & Hc).
  rewrite mv_shift_right in Hs by (auto; lia).
  pose proof (mv_bound r Hlr) as Br. rewrite Lr in Br.
  assert (c = 0%Z) by nia. subst c. repeat split; auto; lia.
Qed.

Lemma justify_spec d x : limbs (data x) -> length (data x) = Nn d -> (1 <= Nn d)%nat ->
  let y := justify x in
  limbs (data y) /\ length (data y) = Nn d /\ cls y = cls x /\ prec y = prec x /\
  mag d (data y) (exp y) = mag d (data x) (exp x) /\
  (exp x mod 8 = 0 -> exp y mod 8 = 0)%Z /\
  (limb (data y) 0 = 0%Z -> mv (data x) = 0%Z /\ mv (data y) = 0%Z) /\
  (mv (data x) <> 0%Z -> neg y = neg x).
Proof.
  intros Hl Hlen HN. unfold justify. cbv zeta.
  pose proof (first_nonzero_le (data x)) as Hfn.
  destruct (Nat.eqb_spec (first_nonzero (data x)) 0) as [E0|E0].
  - assert (Hnz : limb (data x) 0 <> 0%Z).
    { apply first_nonzero_0; auto. intro E; rewrite E in Hlen; simpl in Hlen; lia. }
    repeat split; auto; contradiction.
  - destruct (Nat.eqb_spec (first_nonzero (data x)) (length (data x))) as [E1|E1]; simpl.
    + pose proof (first_nonzero_all _ E1) as Hz.
      assert (mv (data x) = 0%Z) by (apply mv_zeros; auto).
      repeat split; auto; try lia. unfold mag. rewrite H. ring. 
    + assert (Hlt : (first_nonzero (data x) < length (data x))%nat) by lia.
      pose proof (mv_shift_left (first_nonzero (data x)) (data x) Hfn) as Hms.
      rewrite mv_first_nonzero in Hms.
      repeat split.
      * apply shift_left_limbs; auto.
      * rewrite shift_left_length; auto.
      * unfold mag. rewrite Hms, mult_IZR.
        replace (exp x) with (exp x - Z.of_nat (first_nonzero (data x)) * 8 + 8 * Z.of_nat (first_nonzero (data x)))%Z at 2 by lia.
        rewrite ulp_shift. ring.
      * intro. lia.
      * rewrite limb_shift_left_0 in H by auto. exfalso. apply (first_nonzero_limb _ Hlt); auto.
      * rewrite limb_shift_left_0 in H by auto. exfalso. apply (first_nonzero_limb _ Hlt); auto.
Qed.

(** ** Constants *)

Lemma zero_eq d : zero d = mkef (repeat 0%Z (Nn d)) 0 false Finite (elem_number d).
Proof. unfold zero, of_ull. simpl ull_limbs. cbn. rewrite Nat.sub_0_r. reflexivity. Qed.

Lemma wf_repeat0 d b c p : valid_digits d -> (c = Finite -> b = false) -> (2 <= p <= elem_number d)%Z ->
  wf d (mkef (repeat 0%Z (Nn d)) 0 b c p).
Proof.
  intros Hd Hb Hp. constructor; simpl; auto.
  - rewrite repeat_length. apply Nn_Z; auto.
  - apply limbs_repeat0.
  - intros H1 _. split; auto. clear. induction (Nn d); simpl; constructor; auto.
  - intros _. split; auto. clear. induction (Nn d); simpl; constructor; auto.
Qed.

Lemma zero_finite d : valid_digits d -> finite d (zero d).
Proof.
  intro Hd. rewrite zero_eq. split; auto. apply wf_repeat0; auto.
  pose proof (elem_number_bounds d Hd). lia.
Qed.

Lemma value_zero d : valid_digits d -> value (zero d) = 0.
Proof.
  intro Hd. apply (finite_zero_value d). apply zero_finite; auto. rewrite zero_eq. simpl.
  destruct (Nn d); reflexivity.
Qed.

Lemma value_nan_wf d : valid_digits d -> wf d (value_nan d).
Proof.
  intro Hd. unfold value_nan. apply wf_repeat0; auto. unfold N.
  pose proof (elem_number_bounds d Hd). lia.
Qed.

Lemma signed_inf_eq d b : signed_inf d b = mkef (repeat 0%Z (Nn d)) 0 b Inf (elem_number d).
Proof. destruct b; reflexivity. Qed.

Lemma signed_inf_wf d b : valid_digits d -> wf d (signed_inf d b).
Proof.
  intro Hd. rewrite signed_inf_eq. apply wf_repeat0; auto. congruence.
  pose proof (elem_number_bounds d Hd). lia.
Qed.

(** ** Maximum *)

Lemma mv_nines n : (mv (repeat 99999999 n) = Bp n - 1)%Z.
Proof.
  induction n; simpl repeat; [reflexivity|]. rewrite mv_cons, repeat_length, IHn, Bp_S.
  change mask with 100000000%Z. lia.
Qed.

Definition vm_digits d : list Z :=
  (9 :: repeat 99999999 (Z.to_nat (max_digits10 d / 8)) ++
   (if max_digits10 d mod 8 =? 0 then []
    else [(10 ^ (max_digits10 d mod 8) - 1) * 10 ^ (8 - max_digits10 d mod 8)]))%Z.

Lemma pow_10_small r : (0 <= r < 8)%Z -> 
  (1 <= 10 ^ r)%Z /\ (1 <= 10 ^ (8 - r))%Z /\ (10 ^ r * 10 ^ (8 - r) = 100000000)%Z.
Proof.
  intro H. rewrite <- Z.pow_add_r by lia. replace (r + (8 - r))%Z with 8%Z by lia.
  pose proof (Z.pow_pos_nonneg 10 r). pose proof (Z.pow_pos_nonneg 10 (8 - r)).
  repeat split; lia.
Qed.

Lemma vm_digits_spec d : valid_digits d ->
  limbs (vm_digits d) /\ (Z.of_nat (length (vm_digits d)) + 2 = elem_number d)%Z /\
  limbs_value (vm_digits d) 2147483616 = max_value d.
Proof.
  intro Hd. unfold vm_digits, max_value.
  set (q := (max_digits10 d / 8)%Z). set (r := (max_digits10 d mod 8)%Z).
  assert (Hq : (0 <= q)%Z) by (unfold q, max_digits10, valid_digits in *; lia).
  assert (Hr : (0 <= r < 8)%Z) by (unfold r, max_digits10; lia).
  assert (Hqr : (d + 1 = 8 * q + r)%Z) by (unfold q, r, max_digits10; lia).
  assert (HE : elem_number d = (q + (if (r =? 0)%Z then 0 else 1) + 3)%Z) by reflexivity.
  destruct (pow_10_small r Hr) as (P1 & P2 & P3).
  assert (L99 : limbs (repeat 99999999%Z (Z.to_nat q))).
  { apply Forall_forall. intros x Hx. apply repeat_spec in Hx. subst. unfold is_limb; lia. }
  destruct (Z.eqb_spec r 0) as [E|E].
  - split; [|split].
    + constructor; [unfold is_limb; lia|]. rewrite app_nil_r; auto.
    + rewrite app_nil_r. simpl. rewrite repeat_length. lia.
    + rewrite app_nil_r. rewrite limbs_value_mv. simpl length. rewrite repeat_length.
      rewrite mv_cons, mv_nines, repeat_length.
      replace (9 * Bp (Z.to_nat q) + (Bp (Z.to_nat q) - 1))%Z with (10 * Bp (Z.to_nat q) - 1)%Z by ring.
      rewrite minus_IZR, mult_IZR, <- p10_Bp. rewrite !Z2Nat.id by lia.
      replace (8 * q)%Z with (d + 1)%Z by lia.
      replace (2147483616 - 8 * (Z.of_nat (S (Z.to_nat q)) - 1))%Z with (- (d + 1) + 2147483616)%Z by lia.
      rewrite (p10_add (- (d+1))). rewrite Rmult_minus_distr_r.
      rewrite Rmult_assoc, <- (Rmult_assoc (p10 (d + 1))), <- p10_add.
      replace (d + 1 + - (d + 1))%Z with 0%Z by lia. rewrite p10_0. ring.
  - assert (Hl : is_limb ((10 ^ r - 1) * 10 ^ (8 - r))).
    { unfold is_limb. nia. }
    split; [|split].
    + constructor; [unfold is_limb; lia|]. apply limbs_app; auto.
    + simpl. rewrite app_length, repeat_length. simpl. lia.
    + rewrite limbs_value_mv. simpl length. rewrite app_length, repeat_length. simpl length.
      rewrite mv_cons, mv_app, mv_nines, app_length, repeat_length. simpl length.
      rewrite Bp_add. rewrite (Bp_S 0), Bp_0.
      rewrite (mv_cons _ []), mv_nil. simpl length. rewrite Bp_0.
      change mask with 100000000%Z.
      replace (9 * (Bp (Z.to_nat q) * (100000000 * 1)) +
               ((Bp (Z.to_nat q) - 1) * (100000000 * 1) + ((10 ^ r - 1) * 10 ^ (8 - r) * 1 + 0)))%Z
        with (10 * (Bp (Z.to_nat q) * 100000000) - 10 ^ (8 - r))%Z by nia.
      rewrite minus_IZR, !mult_IZR, <- p10_Bp. rewrite !Z2Nat.id by lia.
      rewrite <- (p10_nonneg (8 - r)) by lia.
      replace (IZR 100000000) with (p10 8) by (rewrite p10_nonneg by lia; f_equal).
      replace (2147483616 - 8 * (Z.of_nat (S (Z.to_nat q + 1)) - 1))%Z with (- (8 * q + 8) + 2147483616)%Z by lia.
      rewrite (p10_add (- (8 * q + 8))). rewrite Rmult_minus_distr_r.
      rewrite <- p10_add. rewrite <- Rmult_assoc.
      replace (10 * p10 (8 * q + 8) * p10 (- (8 * q + 8))) with 10.
      2: { rewrite Rmult_assoc, <- p10_add. replace (8 * q + 8 + - (8 * q + 8))%Z with 0%Z by lia. rewrite p10_0. ring. }
      rewrite <- Rmult_assoc, <- p10_add.
      replace (8 - r + - (8 * q + 8))%Z with (- (d + 1))%Z by lia. ring.
Qed.

Lemma limbs_value_app a b e : limbs_value (a ++ b) e = limbs_value a e + limbs_value b (e - 8 * Z.of_nat (length a)).
Proof.
  revert e; induction a as [|x a IH]; intro e.
  - simpl. rewrite Rplus_0_l. f_equal. lia.
  - cbn [app limbs_value length]. rewrite IH. rewrite Rplus_assoc. do 3 f_equal. lia.
Qed.

Lemma limbs_value_repeat0 n e : limbs_value (repeat 0%Z n) e = 0.
Proof. rewrite limbs_value_mv, mv_repeat0. ring. Qed.

Lemma value_max_eq d : value_max d =
  mkef (vm_digits d ++ repeat 0%Z (Nn d - length (vm_digits d))) max_exp10 false Finite (N d).
Proof. reflexivity. Qed.

Lemma value_max_finite d : valid_digits d -> finite d (value_max d).
Proof.
  intro Hd. destruct (vm_digits_spec d Hd) as (Hl & Hlen & _).
  pose proof (elem_number_bounds d Hd). split; [|reflexivity].
  rewrite value_max_eq.
  constructor; cbn [data exp neg cls prec].
  - rewrite app_length, repeat_length. pose proof (Nn_Z d Hd). lia.
  - apply (limbs_app (vm_digits d)); auto. apply limbs_repeat0.
  - reflexivity.
  - unfold N. lia.
  - intros _ H0. discriminate H0.
  - congruence.
Qed.

Lemma value_max_value d : valid_digits d -> value (value_max d) = max_value d.
Proof.
  intro Hd. destruct (vm_digits_spec d Hd) as (_ & _ & Hv).
  unfold value. rewrite value_max_eq. cbn [data exp neg].
  rewrite limbs_value_app, limbs_value_repeat0. change max_exp10 with 2147483616%Z. rewrite Hv.
  unfold sign. ring.
Qed.

Lemma max_value_ge d : valid_digits d -> p10 max_exp10 <= max_value d.
Proof.
  intro Hd. unfold max_value. change max_exp10 with 2147483616%Z.
  assert (p10 (- (d + 1)) <= 1).
  { rewrite <- p10_0. apply p10_le. unfold valid_digits in Hd. lia. }
  pose proof (p10_pos 2147483616). nra.
Qed.

(** ** Negation *)

Lemma negate_wf d x : wf d x -> wf d (negate x).
Proof.
  intro H. unfold negate. destruct (iszero x) eqn:E; simpl; auto.
  destruct H. constructor; simpl; auto.
  intros Hc Hz. exfalso. unfold iszero, isfinite in E. rewrite Hc in E. simpl in E.
  apply Z.eqb_neq in E. auto.
Qed.

Lemma negate_cls x : cls (negate x) = cls x.
Proof. unfold negate. destruct (iszero x); auto. Qed.

Lemma negate_finite d x : finite d x -> finite d (negate x).
Proof. intros [H C]. split. apply negate_wf; auto. rewrite negate_cls; auto. Qed.

Lemma negate_value d x : valid_digits d -> finite d x -> value (negate x) = - value x.
Proof.
  intros Hd Hx. unfold negate. destruct (iszero x) eqn:E; simpl.
  - rewrite iszero_true in E by apply Hx. rewrite (finite_zero_value d x Hx E). ring.
  - unfold value. simpl. unfold sign. destruct (neg x); simpl; ring.
Qed.

Lemma negate_involutive x : negate (negate x) = x.
Proof.
  unfold negate. destruct (iszero x) eqn:E; simpl.
  - rewrite E. reflexivity.
  - unfold iszero, isfinite in *. simpl. rewrite E. simpl. destruct x as [da e b c p]; unfold set_neg; simpl.
    rewrite negb_involutive. reflexivity.
Qed.

Lemma negate_prec x : prec (negate x) = prec x.
Proof. unfold negate. destruct (iszero x); auto. Qed.
Lemma negate_exp x : exp (negate x) = exp x.
Proof. unfold negate. destruct (iszero x); auto. Qed.
Lemma negate_data x : data (negate x) = data x.
Proof. unfold negate. destruct (iszero x); auto. Qed.

Lemma fabs_finite d x : finite d x -> finite d (fabs x).
Proof. intro. unfold fabs. destruct (isneg x); auto. apply negate_finite; auto. Qed.

Lemma fabs_value d x : valid_digits d -> finite d x -> value (fabs x) = Rabs (value x).
Proof.
  intros Hd Hx. unfold fabs, isneg. destruct (Z.eq_dec (limb (data x) 0) 0) as [E|E].
  - rewrite (finite_zero_value d x Hx E), Rabs_R0. destruct (wf_zero _ _ (proj1 Hx) (proj2 Hx) E) as [_ ->].
    apply (finite_zero_value d x Hx E).
  - pose proof (finite_value_sign d x Hd Hx E). destruct (neg x).
    + rewrite (negate_value d) by auto. rewrite Rabs_left; auto.
    + rewrite Rabs_right; lra.
Qed.

(** ** Overflow check *)

Lemma add_finish_spec d r : valid_digits d -> finite d r ->
  limb (data r) 0 <> 0%Z ->
  (Rabs (value r) <= max_value d /\ add_finish d r = r) \/
  (max_value d < Rabs (value r) /\ add_finish d r = signed_inf d (neg r)).
Proof.
  intros Hd Hr H0. unfold add_finish. rewrite (proj2 (iszero_false r (proj2 Hr))) by auto.
  pose proof (op_gt_spec d (fabs r) (value_max d) Hd (fabs_finite d r Hr) (value_max_finite d Hd)) as Hgt.
  rewrite value_max_value, (fabs_value d) in Hgt by auto.
  destruct (Z.geb_spec (exp r) max_exp10) as [C|C]; simpl.
  - destruct (op_gt (fabs r) (value_max d)) eqn:E.
    + right. split; auto. apply Hgt; auto.
    + left. split; auto. apply Rnot_lt_le. intro F. apply Hgt in F. congruence.
  - left. split; auto. pose proof (finite_abs_bounds d r Hd Hr H0) as [_ Hb].
    pose proof (wf_exp _ _ (proj1 Hr)).
    pose proof (p10_le (exp r + 8) max_exp10) as Hp.
    change max_exp10 with 2147483616%Z in *.
    specialize (Hp ltac:(lia)). pose proof (max_value_ge d Hd). change max_exp10 with 2147483616%Z in *. lra.
Qed.

(** ** Well-formedness of addition for all operands *)

Lemma quot8 u v : (exp u mod 8 = 0)%Z -> (exp v mod 8 = 0)%Z ->
  exists k, (exp u - exp v = 8 * k)%Z /\ Z.quot (exp u - exp v) 8 = k.
Proof.
  intros Hu Hv. exists ((exp u - exp v) / 8)%Z.
  assert (E : (exp u - exp v = 8 * ((exp u - exp v) / 8))%Z) by lia.
  split; auto. rewrite E at 1. rewrite Z.mul_comm, Z.quot_mul; lia.
Qed.

Lemma add_finish_wf d r : valid_digits d -> limbs (data r) -> length (data r) = Nn d ->
  (exp r mod 8 = 0)%Z -> (2 <= prec r <= elem_number d)%Z -> cls r = Finite -> wf d (add_finish d r).
Proof.
  intros Hd Hl Hlen He Hp Hc. unfold add_finish.
  destruct (iszero r) eqn:E; [apply zero_finite; auto|].
  destruct ((exp r >=? max_exp10)%Z && op_gt (fabs r) (value_max d)); [apply signed_inf_wf; auto|].
  rewrite iszero_false in E by auto.
  constructor; auto.
  - rewrite Hlen. apply Nn_Z; auto.
  - intros _ H. contradiction.
  - congruence.
Qed.

Lemma add_loop_len a b r c : limbs a -> limbs b -> length a = length b -> add_loop a b = (r, c) ->
  limbs r /\ length r = length a /\ (0 <= c <= 1)%Z.
Proof. intros. destruct (add_loop_spec a b H H0 H1 r c H2) as (_ & ? & ? & ?). auto. Qed.

Lemma sub_loop_len a b r : limbs a -> limbs b -> length a = length b -> fst (sub_loop a b) = r ->
  limbs r /\ length r = length a.
Proof.
  intros. destruct (sub_loop a b) as [r' c] eqn:E. simpl in H2; subst.
  destruct (sub_loop_spec a b H H0 H1 r c E) as (_ & ? & ? & ?). auto.
Qed.

Lemma add_wf d u v : valid_digits d -> wf d u -> wf d v -> wf d (add d u v).
Proof.
  intros Hd Hu Hv. unfold add.
  destruct (isnan u) eqn:En; [auto|]. destruct (isinf u) eqn:Ei.
  { destruct (isinf v && negb (Bool.eqb (neg u) (neg v))); auto using value_nan_wf. }
  assert (Hc : cls u = Finite) by (unfold isnan, isinf in *; destruct (cls u); congruence).
  destruct (iszero u); [auto|].
  destruct (iszero v || (exp u - exp v >? (N d - 1) * 8)%Z); [auto|].
  destruct (exp u - exp v <? - ((N d - 1) * 8))%Z; [auto|].
  destruct (quot8 u v (wf_exp _ _ Hu) (wf_exp _ _ Hv)) as (k & Hk & ->).
  pose proof (Nn_len d u Hd Hu) as Lu. pose proof (Nn_len d v Hd Hv) as Lv.
  pose proof (wf_limbs _ _ Hu) as Bu. pose proof (wf_limbs _ _ Hv) as Bv.
  pose proof (wf_exp _ _ Hu) as Eu. pose proof (wf_exp _ _ Hv) as Ev.
  pose proof (wf_prec _ _ Hu) as Pu. pose proof (Nn_ge7 d Hd) as HN.
  destruct (Bool.eqb (neg u) (neg v)).
  - unfold add_same.
    destruct (Z.geb_spec k 0) as [C|C].
    + destruct (add_loop (data u) (shift_right (Z.to_nat k) (data v))) as [r c] eqn:E.
      apply add_loop_len in E; auto using shift_right_limbs; [|rewrite shift_right_length; congruence].
      destruct E as (Hl & Hlen & Hcc). rewrite Lu in Hlen. destruct (Z.eqb_spec c 0).
      * apply add_finish_wf; auto.
      * apply add_finish_wf; cbn [data exp neg cls prec]; auto.
        -- apply push_front_limbs; auto. unfold is_limb; lia.
        -- rewrite push_front_length; lia.
        -- lia.
    + destruct (add_loop (shift_right (Z.to_nat (-k)) (data u)) (data v)) as [r c] eqn:E.
      apply add_loop_len in E; auto using shift_right_limbs; [|rewrite shift_right_length; congruence].
      destruct E as (Hl & Hlen & Hcc). rewrite shift_right_length, Lu in Hlen. destruct (Z.eqb_spec c 0).
      * apply add_finish_wf; auto.
      * apply add_finish_wf; cbn [data exp neg cls prec]; auto.
        -- apply push_front_limbs; auto. unfold is_limb; lia.
        -- rewrite push_front_length; lia.
        -- lia.
  - unfold sub_diff.
    destruct ((k >? 0)%Z || ((k =? 0)%Z && (cmp_data (data u) (data v) >? 0)%Z)).
    + set (r := fst (sub_loop (data u) (shift_right (Z.to_nat k) (data v)))).
      destruct (sub_loop_len (data u) (shift_right (Z.to_nat k) (data v)) r Bu (shift_right_limbs _ _ Bv)
        ltac:(rewrite shift_right_length; congruence) eq_refl) as (Hl & Hlen).
      destruct (justify_spec d (mkef r (exp u) (neg u) (cls u) (prec u)) Hl ltac:(simpl; lia) ltac:(lia))
        as (J1 & J2 & J3 & J4 & _ & J6 & _). cbn [data exp neg cls prec] in *.
      apply add_finish_wf; auto; try congruence; lia.
    + set (r := fst (sub_loop (data v) (shift_right (Z.to_nat (-k)) (data u)))).
      destruct (sub_loop_len (data v) (shift_right (Z.to_nat (-k)) (data u)) r Bv (shift_right_limbs _ _ Bu)
        ltac:(rewrite shift_right_length; congruence) eq_refl) as (Hl & Hlen).
      destruct (justify_spec d (mkef r (exp v) (neg v) (cls u) (prec u)) Hl ltac:(simpl; lia) ltac:(lia))
        as (J1 & J2 & J3 & J4 & _ & J6 & _). cbn [data exp neg cls prec] in *.
      apply add_finish_wf; auto; try congruence; lia.
Qed.

(** ** Value of the sum of finite numbers *)

Lemma multiple_sv d x : finite d x -> value x = IZR (sv x) * ulp d (exp x).
Proof. intros [H _]. apply value_sv. apply H. Qed.

(* absolute value of a sum in terms of magnitudes *)
Lemma abs_same_sum b a c : 0 <= a -> 0 <= c -> Rabs (sign b * a + sign b * c) = a + c.
Proof.
  intros. replace (sign b * a + sign b * c) with (sign b * (a + c)) by ring.
  rewrite Rabs_mult, sign_abs, Rabs_pos_eq; lra.
Qed.

Lemma sign_prod_same b a c : 0 <= a -> 0 <= c -> 0 <= sign b * a * (sign b * c).
Proof.
  intros. replace (sign b * a * (sign b * c)) with ((sign b * sign b) * (a * c)) by ring.
  rewrite sign_sq. nra.
Qed.

Lemma add_same_finite d u v k : valid_digits d -> finite d u -> finite d v ->
  limb (data u) 0 <> 0%Z -> limb (data v) 0 <> 0%Z -> neg u = neg v ->
  (exp u - exp v = 8 * k)%Z -> (Z.abs k <= elem_number d - 1)%Z ->
  let r := add_same d u v k in
  finite d r /\ limb (data r) 0 <> 0%Z /\ neg r = neg u /\
  cut_to (ulp d (exp r)) (value u + value v) (value r).
Proof.
  intros Hd Fu Fv Zu Zv Hs Hk Hkb r.
  pose proof (proj1 Fu) as Hu. pose proof (proj1 Fv) as Hv.
  pose proof (Nn_len d u Hd Hu) as Lu. pose proof (Nn_len d v Hd Hv) as Lv.
  pose proof (wf_limbs _ _ Hu) as Bu. pose proof (wf_limbs _ _ Hv) as Bv.
  pose proof (wf_exp _ _ Hu) as Eu. pose proof (wf_exp _ _ Hv) as Ev.
  pose proof (wf_prec _ _ Hu) as Pu. pose proof (Nn_ge7 d Hd) as HN. pose proof (Nn_Z d Hd) as HNZ.
  assert (HH : limbs (data r) /\ length (data r) = Nn d /\ limb (data r) 0 <> 0%Z /\
    neg r = neg u /\ cls r = Finite /\ prec r = prec u /\ (exp r mod 8 = 0)%Z /\
    mag d (data r) (exp r) <= mag d (data u) (exp u) + mag d (data v) (exp v) < mag d (data r) (exp r) + ulp d (exp r)).
  { unfold r, add_same. destruct (Z.geb_spec k 0) as [C|C].
    - destruct (add_loop (data u) (shift_right (Z.to_nat k) (data v))) as [r0 c] eqn:E.
      destruct (add_core d _ _ (exp u) (Z.to_nat k) _ _ Hd Bu Bv Lu Lv Zu ltac:(lia) E _ _ (eq_sym (surjective_pairing _))) as (A1 & A2 & A3 & A4).
      replace (exp u - 8 * Z.of_nat (Z.to_nat k))%Z with (exp v) in A4 by lia.
      rewrite (proj2 Fu).
      destruct (Z.eqb c 0); cbn [data exp neg cls prec fst snd] in *; repeat split; auto; try apply A4; lia.
    - rewrite add_loop_comm.
      destruct (add_loop (data v) (shift_right (Z.to_nat (-k)) (data u))) as [r0 c] eqn:E.
      destruct (add_core d _ _ (exp v) (Z.to_nat (-k)) _ _ Hd Bv Bu Lv Lu Zv ltac:(lia) E _ _ (eq_sym (surjective_pairing _))) as (A1 & A2 & A3 & A4).
      replace (exp v - 8 * Z.of_nat (Z.to_nat (-k)))%Z with (exp u) in A4 by lia.
      rewrite (Rplus_comm (mag d (data v) _)) in A4. rewrite (proj2 Fu).
      destruct (Z.eqb c 0); cbn [data exp neg cls prec fst snd] in *; repeat split; auto; try apply A4; lia. }
  destruct HH as (H1 & H2 & H3 & H4 & H5 & H6 & H7 & H8).
  assert (Fr : finite d r).
  { split; auto. constructor; auto; try congruence; try lia. intros; contradiction. }
  split; auto. split; auto. split; auto.
  pose proof (mag_nonneg d _ (exp u) Bu). pose proof (mag_nonneg d _ (exp v) Bv). pose proof (mag_nonneg d _ (exp r) H1).
  unfold cut_to. rewrite (value_abs_mag d r Fr).
  rewrite (value_mag d u Fu), (value_mag d v Fv), <- Hs. rewrite abs_same_sum by auto.
  split; auto. split.
  - rewrite (value_mag d r Fr), H4.
    replace (sign (neg u) * mag d (data u) (exp u) + sign (neg u) * mag d (data v) (exp v)) with
     (sign (neg u) * (mag d (data u) (exp u) + mag d (data v) (exp v))) by ring.
    apply sign_prod_same; lra.
  - exists (sv r). apply multiple_sv; auto.
Qed.

(* subtraction of a smaller from a larger magnitude at scale e *)
Lemma sub_diff_finite d u v k : valid_digits d -> finite d u -> finite d v ->
  limb (data u) 0 <> 0%Z -> limb (data v) 0 <> 0%Z -> neg u <> neg v ->
  (exp u - exp v = 8 * k)%Z -> (Z.abs k <= elem_number d - 1)%Z ->
  let r := sub_diff u v k in
  (limb (data r) 0 = 0%Z /\ cls r = Finite /\ value u + value v = 0) \/
  (finite d r /\ limb (data r) 0 <> 0%Z /\
   raised_to (ulp d (Z.max (exp u) (exp v))) (value u + value v) (value r)).
Proof.
  intros Hd Fu Fv Zu Zv Hs Hk Hkb r.
  pose proof (proj1 Fu) as Hu. pose proof (proj1 Fv) as Hv.
  pose proof (Nn_len d u Hd Hu) as Lu. pose proof (Nn_len d v Hd Hv) as Lv.
  pose proof (wf_limbs _ _ Hu) as Bu. pose proof (wf_limbs _ _ Hv) as Bv.
  pose proof (wf_exp _ _ Hu) as Eu. pose proof (wf_exp _ _ Hv) as Ev.
  pose proof (wf_prec _ _ Hu) as Pu. pose proof (Nn_ge7 d Hd) as HN. pose proof (Nn_Z d Hd) as HNZ.
  pose proof (finite_mv_pos d u Hd Fu Zu) as Mu. pose proof (finite_mv_pos d v Hd Fv Zv) as Mv.
  (* one direction, for generic operands *)
  assert (Core : forall a b (q : Z), finite d a -> finite d b ->
     (exp a - exp b = 8 * q)%Z -> (0 <= q <= elem_number d - 1)%Z -> (mv (data b) / Bp (Z.to_nat q) < mv (data a))%Z ->
     neg a <> neg b ->
     let x := mkef (fst (sub_loop (data a) (shift_right (Z.to_nat q) (data b)))) (exp a) (neg a) Finite (prec u) in
     finite d (justify x) /\ limb (data (justify x)) 0 <> 0%Z /\
     raised_to (ulp d (Z.max (exp a) (exp b))) (value a + value b) (value (justify x))).
  { clear - Hd Pu HN HNZ. intros a b q Fa Fb Hq Hqb Hlt Hne x.
    pose proof (proj1 Fa) as Ha. pose proof (proj1 Fb) as Hb.
    pose proof (Nn_len d a Hd Ha) as La. pose proof (Nn_len d b Hd Hb) as Lb.
    pose proof (wf_limbs _ _ Ha) as Ba. pose proof (wf_limbs _ _ Hb) as Bb.
    pose proof (wf_exp _ _ Ha) as Ea.
    destruct (sub_core d (data a) (data b) (Z.to_nat q) _ Ba Bb La Lb ltac:(lia) ltac:(lia) eq_refl) as (S1 & S2 & S3).
    destruct (justify_spec d x S1 S2 ltac:(lia)) as (J1 & J2 & J3 & J4 & J5 & J6 & J7 & J8).
    cbn [data exp neg cls prec x] in J3, J4, J5, J6, J7, J8. rewrite S3 in J7, J8.
    set (y := justify x) in *.
    assert (Z0 : limb (data y) 0 <> 0%Z) by (intro E; apply J7 in E; lia).
    assert (Fy : finite d y).
    { split; auto. constructor; auto; try congruence; try lia. }
    split; auto. split; auto.
    replace (Z.max (exp a) (exp b)) with (exp a) by lia.
    assert (Hub : ulp d (exp a) = IZR (Bp (Z.to_nat q)) * ulp d (exp b)).
    { rewrite <- ulp_shift. f_equal. lia. }
    pose proof (IZR_div_bounds (mv (data b)) (Bp (Z.to_nat q)) (Bp_pos _)) as Hdiv.
    pose proof (ulp_pos d (exp b)) as Hup. pose proof (ulp_pos d (exp a)) as Hua.
    assert (Hneg : neg y = neg a) by (apply J8; lia).
    assert (My : mag d (data y) (exp y) = IZR (mv (data a) - mv (data b) / Bp (Z.to_nat q)) * ulp d (exp a)).
    { rewrite J5. unfold mag. unfold x. cbn [data]. rewrite S3. reflexivity. }
    assert (Hmb : IZR (mv (data b) / Bp (Z.to_nat q)) * ulp d (exp a) <= mag d (data b) (exp b)
                  < IZR (mv (data b) / Bp (Z.to_nat q)) * ulp d (exp a) + ulp d (exp a)).
    { unfold mag. rewrite Hub. nra. }
    assert (Hint : 1 <= IZR (mv (data a) - mv (data b) / Bp (Z.to_nat q))) by (apply IZR_le; lia).
    rewrite minus_IZR in My, Hint.
    assert (Hma : mag d (data a) (exp a) = IZR (mv (data a)) * ulp d (exp a)) by reflexivity.
    assert (Hsgn : sign (neg b) = - sign (neg a)).
    { destruct (neg a), (neg b); unfold sign; try congruence; lra. }
    assert (Hdiffnn : 0 <= mag d (data a) (exp a) - mag d (data b) (exp b)) by nra.
    assert (Hs : value a + value b = sign (neg a) * (mag d (data a) (exp a) - mag d (data b) (exp b))).
    { rewrite (value_mag d a Fa), (value_mag d b Fb), Hsgn. ring. }
    assert (HsA : Rabs (value a + value b) = mag d (data a) (exp a) - mag d (data b) (exp b)).
    { rewrite Hs, Rabs_mult, sign_abs, Rabs_pos_eq; lra. }
    unfold raised_to. rewrite HsA, (value_abs_mag d y Fy). split; [nra|]. split.
    - rewrite (value_mag d y Fy), Hs, Hneg. apply sign_prod_same; auto. rewrite My. nra.
    - rewrite (value_mag d y Fy), Hneg, My. unfold sign. destruct (neg a).
      + exists (- (mv (data a) - mv (data b) / Bp (Z.to_nat q)))%Z. rewrite opp_IZR, minus_IZR. ring.
      + exists (mv (data a) - mv (data b) / Bp (Z.to_nat q))%Z. rewrite minus_IZR. ring. }
  assert (Hbig : forall a b (q : Z), (Bp (Nn d - 1) <= a)%Z -> (0 <= b < Bp (Nn d))%Z -> (0 < q)%Z ->
                 (b / Bp (Z.to_nat q) < a)%Z).
  { clear - HN. intros a b q Ha Hb Hq.
    assert (b / Bp (Z.to_nat q) <= b / mask)%Z.
    { apply Z.div_le_compat_l; [lia|]. split; [reflexivity|].
      change mask with (mask * 1)%Z. rewrite <- Bp_0, <- Bp_S. apply Bp_mono. lia. }
    revert H. generalize (b / Bp (Z.to_nat q))%Z. intros x Hx.
    assert (Hbp : Bp (Nn d) = (mask * Bp (Nn d - 1))%Z) by (rewrite <- Bp_S; f_equal; lia).
    assert (b / mask < Bp (Nn d - 1))%Z by (apply Z.div_lt_upper_bound; [reflexivity | lia]). lia. }
  unfold r, sub_diff. rewrite (proj2 Fu). pose proof (Bp_pos (Nn d - 1)) as HBp.
  pose proof (cmp_data_spec (data u) (data v) Bu Bv ltac:(congruence)) as Hcmp.
  destruct (Z.gtb_spec k 0) as [C|C]; cbn [orb].
  - right. apply Core; auto; try lia. apply Hbig; lia.
  - destruct (Z.eqb_spec k 0) as [C0|C0]; cbn [andb].
    + subst k. change (Z.to_nat 0) with 0%nat. change (Z.to_nat (- 0)) with 0%nat.
      destruct (Z.compare_spec (mv (data u)) (mv (data v))) as [T|T|T]; rewrite Hcmp.
      * change (0 >? 0)%Z with false. cbv iota. left.
        assert (Hbd : (mv (data u) / Bp 0 = mv (data v))%Z) by (rewrite Bp_0, Z.div_1_r; lia).
        destruct (sub_core d (data v) (data u) 0 _ Bv Bu Lv Lu ltac:(lia) ltac:(lia) eq_refl) as (S1 & S2 & S3).
        set (x := mkef (fst (sub_loop (data v) (shift_right 0 (data u)))) (exp v) (neg v) Finite (prec u)).
        destruct (justify_spec d x S1 S2 ltac:(lia)) as (J1 & J2 & J3 & J4 & J5 & J6 & J7 & J8).
        split; [|split; auto].
        -- assert (mv (data (justify x)) = 0)%Z.
           { assert (mv (data x) = 0)%Z by (unfold x; cbn [data]; rewrite S3, Hbd; apply Z.sub_diag).
             unfold mag in J5. rewrite H in J5. rewrite Rmult_0_l in J5.
             apply Rmult_integral in J5. destruct J5 as [J5|J5]; [apply eq_IZR; auto|].
             pose proof (ulp_pos d (exp (justify x))). lra. }
           pose proof (mv_zero_inv _ J1 H) as Hz. unfold limb. destruct (data (justify x)); auto. inversion Hz; auto.
        -- rewrite (value_mag d u Fu), (value_mag d v Fv). unfold mag. rewrite T.
           replace (exp u) with (exp v) by (clear - Hk; lia).
           destruct (neg u), (neg v); unfold sign; try congruence; ring.
      * change (-1 >? 0)%Z with false. cbv iota. right.
        rewrite Rplus_comm, Z.max_comm. change 0%nat with (Z.to_nat 0).
        apply (Core v u 0%Z); auto; try lia.
        change (Z.to_nat 0) with 0%nat. rewrite Bp_0, Z.div_1_r. lia.
      * change (1 >? 0)%Z with true. cbv iota. right. change 0%nat with (Z.to_nat 0).
        apply (Core u v 0%Z); auto; try lia.
        change (Z.to_nat 0) with 0%nat. rewrite Bp_0, Z.div_1_r. lia.
    + right. rewrite Rplus_comm, Z.max_comm. apply Core; auto; try lia. apply Hbig; lia.
Qed.

Lemma cut_to_refl d x : finite d x -> cut_to (ulp d (exp x)) (value x) (value x).
Proof.
  intro F. unfold cut_to. pose proof (ulp_pos d (exp x)). split; [lra|]. split; [nra|].
  exists (sv x). apply multiple_sv; auto.
Qed.

(* a number far below the last limb of another one *)
Lemma add_tiny d u v : valid_digits d -> finite d u -> finite d v ->
  limb (data u) 0 <> 0%Z -> limb (data v) 0 <> 0%Z ->
  (exp u - exp v > (elem_number d - 1) * 8)%Z ->
  sum_rounded d u v u.
Proof.
  intros Hd Fu Fv Zu Zv He.
  pose proof (finite_abs_bounds d u Hd Fu Zu) as Hbu.
  pose proof (finite_abs_bounds d v Hd Fv Zv) as Hbv.
  pose proof (wf_exp _ _ (proj1 Fu)). pose proof (wf_exp _ _ (proj1 Fv)).
  pose proof (elem_number_bounds d Hd).
  assert (Hsmall : Rabs (value v) < ulp d (exp u)).
  { apply Rlt_le_trans with (1 := proj2 Hbv). unfold ulp. apply p10_le. lia. }
  pose proof (Rabs_pos (value v)).
  assert (Hul : ulp d (exp u) <= Rabs (value u)).
  { apply Rle_trans with (2 := proj1 Hbu). unfold ulp. apply p10_le. lia. }
  split; [|split]; intro Hp.
  3: { rewrite Hp, Rabs_R0 in Hul. pose proof (ulp_pos d (exp u)). lra. }
  - unfold cut_to.
    assert (Hm : Rabs (value u + value v) = Rabs (value u) + Rabs (value v)).
    { unfold Rabs. destruct (Rcase_abs (value u)), (Rcase_abs (value v)), (Rcase_abs (value u + value v)); nra. }
    rewrite Hm. split; [lra|]. split; [nra|]. eexists; apply multiple_sv; auto.
  - replace (Z.max (exp u) (exp v)) with (exp u) by lia.
    assert (Hm : Rabs (value u + value v) = Rabs (value u) - Rabs (value v)).
    { unfold Rabs in *. destruct (Rcase_abs (value u)), (Rcase_abs (value v)), (Rcase_abs (value u + value v)); nra. }
    unfold raised_to. rewrite Hm. split; [lra|]. split.
    + unfold Rabs in *. destruct (Rcase_abs (value u)), (Rcase_abs (value v)); nra.
    + eexists. apply multiple_sv; auto.
Qed.

Lemma sum_rounded_sym d u v r : sum_rounded d u v r -> sum_rounded d v u r.
Proof.
  unfold sum_rounded. intros (H1 & H2 & H3). rewrite (Rplus_comm (value v)), (Rmult_comm (value v)), Z.max_comm. auto.
Qed.

Lemma add_finite_spec d u v : valid_digits d -> finite d u -> finite d v ->
  exists r, finite d r /\ sum_rounded d u v r /\
  ((add d u v = r /\ (Rabs (value r) <= max_value d \/ r = u \/ r = v)) \/
   (max_value d < Rabs (value r) /\ add d u v = signed_inf d (neg r))).
Proof.
  intros Hd Fu Fv. unfold add.
  replace (isnan u) with false by (unfold isnan; rewrite (proj2 Fu); auto).
  replace (isinf u) with false by (unfold isinf; rewrite (proj2 Fu); auto). cbv iota.
  destruct (iszero u) eqn:Zu.
  { rewrite iszero_true in Zu by apply Fu. exists v. split; auto. split; [|left; auto].
    pose proof (finite_zero_value d u Fu Zu) as V0. split; [|split]; rewrite V0; intro H.
    - rewrite Rplus_0_l. apply cut_to_refl; auto.
    - lra.
    - lra. }
  rewrite iszero_false in Zu by apply Fu.
  destruct (iszero v) eqn:Zv; cbn [orb].
  { rewrite iszero_true in Zv by apply Fv. exists u. split; auto. split; [|left; auto].
    pose proof (finite_zero_value d v Fv Zv) as V0. split; [|split]; rewrite V0; intro H.
    - rewrite Rplus_0_r. apply cut_to_refl; auto.
    - lra.
    - lra. }
  rewrite iszero_false in Zv by apply Fv.
  destruct (Z.gtb_spec (exp u - exp v) ((N d - 1) * 8)) as [C|C].
  { exists u. split; auto. split; [|left; auto]. apply add_tiny; auto. unfold N in C. lia. }
  destruct (Z.ltb_spec (exp u - exp v) (- ((N d - 1) * 8))) as [C'|C'].
  { exists v. split; auto. split; [|left; auto]. apply sum_rounded_sym. apply add_tiny; auto. unfold N in C'. lia. }
  destruct (quot8 u v (wf_exp _ _ (proj1 Fu)) (wf_exp _ _ (proj1 Fv))) as (k & Hk & ->).
  unfold N in *.
  pose proof (finite_value_sign d u Hd Fu Zu) as Su. pose proof (finite_value_sign d v Hd Fv Zv) as Sv.
  destruct (Bool.eqb (neg u) (neg v)) eqn:Es.
  - apply Bool.eqb_prop in Es.
    destruct (add_same_finite d u v k Hd Fu Fv Zu Zv Es Hk ltac:(lia)) as (A1 & A2 & A3 & A4).
    exists (add_same d u v k). split; auto. split.
    + split; auto. split; intro H.
      * rewrite <- Es in Sv. destruct (neg u); nra.
      * apply (finite_zero_iff d) in H; auto. contradiction.
    + destruct (add_finish_spec d _ Hd A1 A2) as [[H1 ->]|[H1 ->]]; auto.
  - assert (Hne : neg u <> neg v) by (intro E; rewrite E, Bool.eqb_reflx in Es; discriminate).
    destruct (sub_diff_finite d u v k Hd Fu Fv Zu Zv Hne Hk ltac:(lia)) as [(A1 & A2 & A3)|(A1 & A2 & A3)].
    + exists (zero d). split; [apply zero_finite; auto|]. split.
      * split; [|split]; intro H; auto.
        -- destruct (neg u), (neg v); try congruence; nra.
        -- unfold raised_to. rewrite A3, value_zero, Rabs_R0 by auto. pose proof (ulp_pos d (Z.max (exp u) (exp v))).
           repeat split; try lra. exists 0%Z. lra.
      * left. split.
        -- unfold add_finish. rewrite (proj2 (iszero_true _ A2)) by auto. reflexivity.
        -- left. rewrite value_zero, Rabs_R0 by auto. pose proof (max_value_ge d Hd). pose proof (p10_pos max_exp10). lra.
    + exists (sub_diff u v k). split; auto. split.
      * split; [|split]; auto; intro H.
        -- destruct (neg u), (neg v); try congruence; nra.
        -- apply (finite_zero_iff d) in H; auto. contradiction.
      * destruct (add_finish_spec d _ Hd A1 A2) as [[H1 ->]|[H1 ->]]; auto.
Qed.

(** ** Consequences *)

Lemma multiple_small q r k : 0 < q -> r = IZR k * q -> Rabs r < q -> r = 0.
Proof.
  intros Hq -> H. rewrite Rabs_mult, (Rabs_pos_eq q) in H by lra.
  rewrite <- abs_IZR in H.
  assert (Hlt : IZR (Z.abs k) < 1) by nra. apply (lt_IZR _ 1) in Hlt.
  assert (k = 0%Z) by lia. subst. ring.
Qed.

Lemma add_error d u v : valid_digits d -> finite d u -> finite d v -> cls (add d u v) = Finite ->
  Rabs (value (add d u v) - (value u + value v)) <=
  2 * p10 (- (d + 17)) * Rmax (Rabs (value u)) (Rabs (value v)).
Proof.
  intros Hd Fu Fv Hc. destruct (add_finite_spec d u v Hd Fu Fv) as (r & Fr & (R1 & R2 & R3) & [[E _]|[_ E]]).
  2: { rewrite E, signed_inf_eq in Hc. discriminate. }
  rewrite E. clear E Hc.
  pose proof (elem_number_digits d Hd) as Hdig. pose proof (p10_pos (- (d + 17))) as Hp.
  assert (Hul : forall e, ulp d e <= p10 (- (d + 17)) * p10 e).
  { intro e. unfold ulp. rewrite <- p10_add. apply p10_le. lia. }
  assert (Hcut : forall q s x, cut_to q s x -> Rabs (x - s) < q).
  { intros q s x (H1 & H2 & _). unfold Rabs in *.
    destruct (Rcase_abs x), (Rcase_abs s), (Rcase_abs (x - s)); nra. }
  assert (Hrai : forall q s x, raised_to q s x -> Rabs (x - s) < q).
  { intros q s x (H1 & H2 & _). unfold Rabs in *.
    destruct (Rcase_abs x), (Rcase_abs s), (Rcase_abs (x - s)); nra. }
  set (M := Rmax (Rabs (value u)) (Rabs (value v))).
  assert (HM1 : Rabs (value u) <= M) by apply Rmax_l.
  assert (HM2 : Rabs (value v) <= M) by apply Rmax_r.
  assert (HM0 : 0 <= M) by (pose proof (Rabs_pos (value u)); lra).
  destruct (Rlt_dec (value u * value v) 0) as [Hs|Hs].
  - specialize (R2 Hs). apply Hrai in R2.
    assert (Zu : limb (data u) 0 <> 0%Z). { intro Z0. rewrite (finite_zero_value d u Fu Z0) in Hs. lra. }
    assert (Zv : limb (data v) 0 <> 0%Z). { intro Z0. rewrite (finite_zero_value d v Fv Z0) in Hs. lra. }
    pose proof (finite_abs_bounds d u Hd Fu Zu) as [Bu _].
    pose proof (finite_abs_bounds d v Hd Fv Zv) as [Bv _].
    pose proof (Hul (Z.max (exp u) (exp v))) as Hm.
    assert (p10 (Z.max (exp u) (exp v)) <= M).
    { destruct (Z.max_spec (exp u) (exp v)) as [[_ ->]|[_ ->]]; lra. }
    nra.
  - apply Rnot_lt_le in Hs. specialize (R1 Hs). pose proof (Hcut _ _ _ R1) as He.
    destruct (Z.eq_dec (limb (data r) 0) 0) as [Z0|Z0].
    + pose proof (finite_zero_value d r Fr Z0) as V0. rewrite (R3 V0), V0, Rminus_0_r, Rabs_R0. nra.
    + pose proof (finite_abs_bounds d r Hd Fr Z0) as [Br _]. destruct R1 as [[R1 _] _].
      pose proof (Rabs_triang (value u) (value v)). pose proof (Hul (exp r)). nra.
Qed.

Lemma add_exact d u v k : valid_digits d -> finite d u -> finite d v -> cls (add d u v) = Finite ->
  value u + value v = IZR k * ulp d (Z.max (exp (add d u v)) (Z.max (exp u) (exp v))) ->
  value (add d u v) = value u + value v.
Proof.
  intros Hd Fu Fv Hc Hk. destruct (add_finite_spec d u v Hd Fu Fv) as (r & Fr & (R1 & R2 & R3) & [[E _]|[_ E]]).
  2: { rewrite E, signed_inf_eq in Hc. discriminate. }
  rewrite E in *. clear E Hc.
  assert (Hmul : forall e e', (e <= e')%Z -> (e mod 8 = 0)%Z -> (e' mod 8 = 0)%Z -> exists m, ulp d e' = IZR m * ulp d e).
  { intros e e' H1 H2 H3. exists (Bp (Z.to_nat ((e' - e) / 8))). rewrite <- ulp_shift. f_equal. lia. }
  pose proof (wf_exp _ _ (proj1 Fu)). pose proof (wf_exp _ _ (proj1 Fv)). pose proof (wf_exp _ _ (proj1 Fr)).
  assert (Hfin : forall q s x, 0 < q -> (exists m, s = IZR m * q) -> (cut_to q s x \/ raised_to q s x) -> x = s).
  { intros q s x Hq [m Hm] HH. assert (Habs : Rabs (x - s) < q).
    { destruct HH as [(H3 & H4 & _)|(H3 & H4 & _)]; unfold Rabs in *;
      destruct (Rcase_abs x), (Rcase_abs s), (Rcase_abs (x - s)); nra. }
    assert (Hk' : exists k', x = IZR k' * q) by (destruct HH as [(_ & _ & ?)|(_ & _ & ?)]; auto).
    destruct Hk' as [k' Hk'].
    assert (x - s = 0). { apply (multiple_small q _ (k' - m)); auto. rewrite minus_IZR. lra. }
    lra. }
  destruct (Rlt_dec (value u * value v) 0) as [Hs|Hs].
  - specialize (R2 Hs). apply (Hfin (ulp d (Z.max (exp u) (exp v)))); auto using ulp_pos.
    destruct (Hmul (Z.max (exp u) (exp v)) (Z.max (exp r) (Z.max (exp u) (exp v)))) as [m Hm]; try lia.
    exists (k * m)%Z. rewrite Hk, Hm, mult_IZR. ring.
  - apply Rnot_lt_le in Hs. specialize (R1 Hs). apply (Hfin (ulp d (exp r))); auto using ulp_pos.
    destruct (Hmul (exp r) (Z.max (exp r) (Z.max (exp u) (exp v)))) as [m Hm]; try lia.
    exists (k * m)%Z. rewrite Hk, Hm, mult_IZR. ring.
Qed.

Lemma add_overflow d u v : valid_digits d -> finite d u -> finite d v ->
  Rabs (value u) <= max_value d -> Rabs (value v) <= max_value d ->
  exists r, finite d r /\ sum_rounded d u v r /\
  (Rabs (value r) <= max_value d -> add d u v = r) /\
  (max_value d < Rabs (value r) -> cls (add d u v) = Inf /\ neg (add d u v) = neg r).
Proof.
  intros Hd Fu Fv Mu Mv. destruct (add_finite_spec d u v Hd Fu Fv) as (r & Fr & R & [[E F]|[F E]]).
  - exists r. split; auto. split; auto. split; intro H; auto. exfalso.
    destruct F as [F|[F|F]]; [lra| |]; subst; rewrite F in H; lra.
  - exists r. split; auto. split; auto. split; intro H; [lra|]. rewrite E, signed_inf_eq. auto.
Qed.

(** ** Commutativity *)

Lemma shift_right_0 l : shift_right 0 l = l.
Proof. unfold shift_right. simpl. apply firstn_all. Qed.

Lemma cmp_data_antisym u : forall v, length u = length v -> cmp_data v u = (- cmp_data u v)%Z.
Proof.
  induction u as [|a u IH]; destruct v as [|b v]; intro H; try discriminate; auto.
  simpl. rewrite (Z.eqb_sym b a). destruct (Z.eqb_spec a b); [apply IH; simpl in H; lia|].
  rewrite !Z.gtb_ltb. destruct (Z.ltb_spec a b), (Z.ltb_spec b a); lia.
Qed.

Lemma cmp_data_0 u : forall v, length u = length v -> cmp_data u v = 0%Z -> u = v.
Proof.
  induction u as [|a u IH]; destruct v as [|b v]; intros H Hc; try discriminate; auto.
  simpl in Hc. destruct (Z.eqb_spec a b); [subst; f_equal; apply IH; auto|].
  destruct (Z.gtb a b); discriminate.
Qed.

Lemma justify_zero d x : limbs (data x) -> mv (data x) = 0%Z -> length (data x) = Nn d -> (1 <= Nn d)%nat ->
  exists b e, justify x = mkef (data x) e b (cls x) (prec x) /\ limb (data x) 0 = 0%Z.
Proof.
  intros Hl H0 Hlen HN. pose proof (mv_zero_inv _ Hl H0) as Hz.
  exists false, 0%Z. unfold justify.
  assert (Hf : first_nonzero (data x) = length (data x)).
  { clear - Hz. induction Hz; simpl; auto. subst. rewrite Z.eqb_refl. auto. }
  rewrite Hf, Hlen. destruct (Nat.eqb_spec (Nn d) 0); [lia|]. rewrite Nat.eqb_refl. split; auto.
  unfold limb. destruct (data x); auto. inversion Hz; auto.
Qed.

Lemma add_comm_nonzero d u v : valid_digits d -> finite d u -> finite d v ->
  limb (data u) 0 <> 0%Z -> limb (data v) 0 <> 0%Z -> prec u = prec v ->
  add d u v = add d v u.
Proof.
  intros Hd Fu Fv Zu Zv Hp. unfold add, isnan, isinf. rewrite (proj2 Fu), (proj2 Fv). cbv iota.
  rewrite (proj2 (iszero_false u (proj2 Fu))) by auto. rewrite (proj2 (iszero_false v (proj2 Fv))) by auto.
  cbn [orb].
  pose proof (elem_number_bounds d Hd) as HN. unfold N.
  set (D := ((elem_number d - 1) * 8)%Z). assert (HD : (0 < D)%Z) by (unfold D; lia).
  destruct (Z.gtb_spec (exp u - exp v) D), (Z.gtb_spec (exp v - exp u) D),
    (Z.ltb_spec (exp u - exp v) (- D)), (Z.ltb_spec (exp v - exp u) (- D)); try lia; auto.
  destruct (quot8 u v (wf_exp _ _ (proj1 Fu)) (wf_exp _ _ (proj1 Fv))) as (k & Hk & ->).
  destruct (quot8 v u (wf_exp _ _ (proj1 Fv)) (wf_exp _ _ (proj1 Fu))) as (k' & Hk' & ->).
  assert (k' = (- k)%Z) by lia. subst k'.
  replace (Bool.eqb (neg v) (neg u)) with (Bool.eqb (neg u) (neg v)) by (destruct (neg u), (neg v); reflexivity).
  pose proof (Nn_len d u Hd (proj1 Fu)) as Lu. pose proof (Nn_len d v Hd (proj1 Fv)) as Lv.
  pose proof (wf_limbs _ _ (proj1 Fu)) as Bu. pose proof (wf_limbs _ _ (proj1 Fv)) as Bv.
  destruct (Bool.eqb (neg u) (neg v)) eqn:Es.
  - apply Bool.eqb_prop in Es. f_equal. unfold add_same.
    rewrite (proj2 Fu), (proj2 Fv), Hp, Es.
    destruct (Z.geb_spec k 0), (Z.geb_spec (- k) 0); try lia.
    + assert (k = 0%Z) by lia. subst k. change (Z.to_nat 0) with 0%nat. change (Z.to_nat (-0)) with 0%nat. rewrite !shift_right_0.
      rewrite (add_loop_comm (data u)). replace (exp v) with (exp u) by lia. reflexivity.
    + rewrite Z.opp_involutive. rewrite (add_loop_comm (data u)). reflexivity.
    + rewrite (add_loop_comm (data v)). reflexivity.
  - unfold sub_diff. rewrite (proj2 Fu), (proj2 Fv), Hp.
    rewrite (cmp_data_antisym (data u) (data v)) by congruence.
    destruct (Z.gtb_spec k 0), (Z.gtb_spec (- k) 0); try lia; cbn [orb].
    + destruct (Z.eqb_spec (- k) 0); [lia|]. cbn [andb]. rewrite Z.opp_involutive. reflexivity.
    + destruct (Z.eqb_spec k 0); [lia|]. cbn [andb]. reflexivity.
    + assert (k = 0%Z) by lia. subst k. cbn [andb Z.eqb Z.opp]. 
      change (Z.to_nat 0) with 0%nat.
      destruct (Z.gtb_spec (cmp_data (data u) (data v)) 0), (Z.gtb_spec (- cmp_data (data u) (data v)) 0); try lia; auto.
      assert (Hc : cmp_data (data u) (data v) = 0%Z) by lia.
      apply cmp_data_0 in Hc; [|congruence].
      rewrite !shift_right_0, Hc.
      destruct (sub_core d (data v) (data v) 0 _ Bv Bv Lv Lv ltac:(lia) ltac:(rewrite Bp_0, Z.div_1_r; lia) eq_refl) as (S1 & S2 & S3).
      rewrite shift_right_0 in S1, S2, S3.
      assert (S0 : mv (fst (sub_loop (data v) (data v))) = 0%Z) by (rewrite S3, Bp_0, Z.div_1_r; apply Z.sub_diag).
      pose proof (Nn_ge7 d Hd) as HN7.
      destruct (justify_zero d (mkef (fst (sub_loop (data v) (data v))) (exp v) (neg v) Finite (prec v)) S1 S0 S2 ltac:(lia)) as (b1 & e1 & -> & Z1).
      destruct (justify_zero d (mkef (fst (sub_loop (data v) (data v))) (exp u) (neg u) Finite (prec v)) S1 S0 S2 ltac:(lia)) as (b2 & e2 & -> & Z2).
      unfold add_finish, iszero, isfinite. cbn [data exp neg cls prec] in *. rewrite Z1. reflexivity.
Qed.

(** Same number: both finite with the same value, or the same special value. *)
Lemma add_comm_value d u v : valid_digits d -> finite d u -> finite d v -> prec u = prec v ->
  cls (add d u v) = cls (add d v u) /\ neg (add d u v) = neg (add d v u) /\
  value (add d u v) = value (add d v u).
Proof.
  intros Hd Fu Fv Hp.
  destruct (Z.eq_dec (limb (data u) 0) 0) as [Zu|Zu]; destruct (Z.eq_dec (limb (data v) 0) 0) as [Zv|Zv].
  4: { rewrite (add_comm_nonzero d u v) by auto. auto. }
  all: unfold add, isnan, isinf; rewrite (proj2 Fu), (proj2 Fv); cbv iota.
  - rewrite (proj2 (iszero_true u (proj2 Fu))) by auto. rewrite (proj2 (iszero_true v (proj2 Fv))) by auto.
    rewrite (finite_zero_value d u), (finite_zero_value d v) by auto.
    rewrite (proj2 (wf_zero _ _ (proj1 Fu) (proj2 Fu) Zu)), (proj2 (wf_zero _ _ (proj1 Fv) (proj2 Fv) Zv)).
    rewrite (proj2 Fu), (proj2 Fv). auto.
  - rewrite (proj2 (iszero_true u (proj2 Fu))) by auto. rewrite (proj2 (iszero_false v (proj2 Fv))) by auto.
    cbn [orb]. auto.
  - rewrite (proj2 (iszero_false u (proj2 Fu))) by auto. rewrite (proj2 (iszero_true v (proj2 Fv))) by auto.
    cbn [orb]. auto.
Qed.

(** ** Subtraction *)

Lemma cut_to_opp q s r : cut_to q s r -> cut_to q (- s) (- r).
Proof.
  intros (H1 & H2 & k & H3). unfold cut_to. rewrite !Rabs_Ropp. split; auto. split; [lra|].
  exists (- k)%Z. rewrite opp_IZR, H3. ring.
Qed.
Lemma raised_to_opp q s r : raised_to q s r -> raised_to q (- s) (- r).
Proof.
  intros (H1 & H2 & k & H3). unfold raised_to. rewrite !Rabs_Ropp. split; auto. split; [lra|].
  exists (- k)%Z. rewrite opp_IZR, H3. ring.
Qed.

Lemma sub_finite_spec d u v : valid_digits d -> finite d u -> finite d v ->
  exists r, finite d r /\ sum_rounded d u (negate v) r /\
  ((sub d u v = r /\ (Rabs (value r) <= max_value d \/ r = u \/ r = negate v)) \/
   (max_value d < Rabs (value r) /\ sub d u v = signed_inf d (neg r))).
Proof.
  intros Hd Fu Fv. unfold sub.
  destruct (add_finite_spec d (negate u) v Hd (negate_finite d u Fu) Fv) as (r & Fr & (R1 & R2 & R3) & H).
  pose proof (negate_value d u Hd Fu) as Nu. pose proof (negate_value d v Hd Fv) as Nv.
  pose proof (negate_value d r Hd Fr) as Nr.
  exists (negate r). split; [apply negate_finite; auto|]. split.
  - unfold sum_rounded. rewrite Nr, Nv, !negate_exp. rewrite Nu, negate_exp in *.
    replace (value u + - value v) with (- (- value u + value v)) by ring.
    split; [|split]; intro Hs.
    + apply cut_to_opp, R1. lra.
    + apply raised_to_opp, R2. lra.
    + rewrite R3; lra.
  - destruct H as [[E H]|[H E]].
    + left. rewrite E. split; auto. rewrite Nr, Rabs_Ropp. destruct H as [H|[H|H]]; auto.
      * right; left. rewrite H. apply negate_involutive.
      * right; right. rewrite H. reflexivity.
    + assert (Hnz : iszero r = false).
      { apply iszero_false; [apply Fr|]. intro E0. rewrite (finite_zero_value d r Fr E0), Rabs_R0 in H.
        pose proof (max_value_ge d Hd). pose proof (p10_pos max_exp10). lra. }
      right. rewrite Nr, Rabs_Ropp. split; auto. rewrite E, !signed_inf_eq.
      unfold negate. rewrite Hnz. cbn. reflexivity.
Qed.

Lemma sub_wf d u v : valid_digits d -> wf d u -> wf d v -> wf d (sub d u v).
Proof. intros. unfold sub. auto using negate_wf, add_wf. Qed.

Lemma raised_to_0 q r : 0 < q -> raised_to q 0 r -> r = 0.
Proof.
  intros Hq ((_ & H) & _ & k & Hk). rewrite Rabs_R0, Rplus_0_l in H. apply (multiple_small q r k); auto.
Qed.

Lemma sub_same d u v : valid_digits d -> finite d u -> finite d v -> value u = value v ->
  cls (sub d u v) = Finite /\ value (sub d u v) = 0.
Proof.
  intros Hd Fu Fv E. destruct (sub_finite_spec d u v Hd Fu Fv) as (r & Fr & (R1 & R2 & R3) & H).
  rewrite (negate_value d v Hd Fv) in *. rewrite E in *. replace (value v + - value v) with 0 in * by ring.
  assert (V0 : value r = 0).
  { destruct (Req_dec (value v) 0) as [Z0|Z0].
    - destruct (R1 ltac:(rewrite Z0; lra)) as ((H1 & H2) & _). rewrite Rabs_R0 in H1.
      pose proof (Rabs_pos (value r)). destruct (Req_dec (value r) 0) as [|C]; auto.
      apply Rabs_no_R0 in C. lra.
    - specialize (R2 ltac:(nra)). apply raised_to_0 in R2; auto using ulp_pos. }
  destruct H as [[-> _]|[H _]].
  - split; auto. apply Fr.
  - rewrite V0, Rabs_R0 in H. pose proof (max_value_ge d Hd). pose proof (p10_pos max_exp10). lra.
Qed.
