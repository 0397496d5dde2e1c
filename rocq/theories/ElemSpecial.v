(** * Special arguments of the elementary functions, and failures of symmetry
    (proofs only). *)

From Coq Require Import ZArith List Bool Reals Lra Lia.
From Flocq Require Import Core Relative BinarySingleNaN.
From Verif Require Import OrderDec SpecObj LdexpProofs Model Spec Limbs Value CmpProofs AddProofs Decide OrderProofs AddExtra MulProofs MulValue MulExtra MulCor IntProofs IntPartProofs IntConv
  MixedProofs IntCor ModelDiv DoubleProofs NewtonProofs InvProofs ModelPow PowProofs ModelGen ModelElem WfProofs ElemProofs.
Import ListNotations.
Open Scope R_scope.

Section Special.
Variable d : Z.
Variable env : env.
Hypothesis Hd : valid_digits d.
Local Notation result v := (exists r, v = Defined r /\ isnan r = true).

Lemma isfinite_nan x : isnan x = true -> isfinite x = false.
Proof. unfold isnan, isfinite. destruct (cls x); congruence. Qed.
Lemma isfinite_inf x : isinf x = true -> isfinite x = false.
Proof. unfold isinf, isfinite. destruct (cls x); congruence. Qed.
Lemma isnan_inf x : isinf x = true -> isnan x = false.
Proof. unfold isinf, isnan. destruct (cls x); congruence. Qed.

Lemma mul_nan_r x y : isnan y = true -> isnan (mul d x y) = true.
Proof. intro H. unfold mul, mul_gen. rewrite H, ?orb_true_r. reflexivity. Qed.
Lemma mul_nan_l x y : isnan x = true -> isnan (mul d x y) = true.
Proof. intro H. unfold mul, mul_gen. rewrite H. reflexivity. Qed.
Lemma div_nan_l x y : isnan x = true -> isnan (div d x y) = true.
Proof.
  intro H. unfold div. replace (same_magnitude x y) with false; [apply mul_nan_l; exact H|].
  unfold same_magnitude. rewrite (isfinite_nan x H). reflexivity.
Qed.

Lemma nan_in_nan_out x : isnan x = true ->
  result (ModelElem.exp d env x) /\ result (log d env x) /\ result (log10 d env x) /\
  isnan (sin d env x) = true /\ isnan (cos d env x) = true /\ isnan (tan d env x) = true /\
  isnan (asin d env x) = true /\ isnan (acos d env x) = true /\ isnan (atan d env x) = true /\
  result (sinh d env x) /\ result (cosh d env x) /\ result (asinh d env x) /\ result (acosh d env x) /\
  (forall a, result (pow d env x a)).
Proof.
  intro H. pose proof (isfinite_nan x H) as F.
  assert (L : log d env x = Defined (value_nan d)) by (unfold log; rewrite H; reflexivity).
  assert (S : sin d env x = value_nan d) by (unfold sin; rewrite F; reflexivity).
  repeat apply conj.
  - eexists. split; [unfold ModelElem.exp; rewrite H; reflexivity|reflexivity].
  - eexists. split; [exact L|reflexivity].
  - eexists. split; [unfold log10; rewrite L; reflexivity|]. apply div_nan_l. reflexivity.
  - rewrite S. reflexivity.
  - unfold cos. rewrite F. reflexivity.
  - unfold tan. rewrite S. apply div_nan_l. reflexivity.
  - unfold asin. rewrite F. reflexivity.
  - unfold acos. rewrite F. reflexivity.
  - unfold atan. rewrite F. reflexivity.
  - eexists. split; [unfold sinh; rewrite F; reflexivity|exact H].
  - eexists. split; [unfold cosh; rewrite F; reflexivity|exact H].
  - eexists. split; [unfold asinh; rewrite F; reflexivity|reflexivity].
  - eexists. split; [unfold acosh; rewrite F; reflexivity|reflexivity].
  - intro a. eexists. split; [unfold pow; rewrite F; reflexivity|exact H].
Qed.

Lemma at_infinity x : isinf x = true ->
  (isneg x = false -> ModelElem.exp d env x = Defined (value_inf d)) /\ (isneg x = true -> ModelElem.exp d env x = Defined (zero d)) /\
  sinh d env x = Defined x /\ (isneg x = false -> cosh d env x = Defined x) /\
  isnan (sin d env x) = true /\ isnan (cos d env x) = true /\ isnan (asin d env x) = true /\ isnan (acos d env x) = true /\
  (isneg x = true -> result (log d env x) /\ result (acosh d env x)).
Proof.
  intro H. pose proof (isfinite_inf x H) as F. pose proof (isnan_inf x H) as N. repeat apply conj.
  - intro B. unfold ModelElem.exp. rewrite N, H, B. reflexivity.
  - intro B. unfold ModelElem.exp. rewrite N, H, B. reflexivity.
  - unfold sinh. rewrite F. reflexivity.
  - intros _. unfold cosh. rewrite F. reflexivity.
  - unfold sin. rewrite F. reflexivity.
  - unfold cos. rewrite F. reflexivity.
  - unfold asin. rewrite F. reflexivity.
  - unfold acos. rewrite F. reflexivity.
  - intro B. split; eexists; split; [unfold log; rewrite N, B; reflexivity|reflexivity|unfold acosh; rewrite F; reflexivity|reflexivity].
Qed.

Lemma flags x : finite d x -> isfinite x = true /\ isnan x = false /\ isinf x = false.
Proof. intros [_ C]. unfold isfinite, isnan, isinf. rewrite C. auto. Qed.

Lemma zero_flag x : finite d x -> value x = 0 -> iszero x = true.
Proof. intros F V. apply (iszero_isneg_spec d x Hd F). exact V. Qed.
Lemma neg_flag x : finite d x -> value x < 0 -> isneg x = true.
Proof. intros F V. apply (iszero_isneg_spec d x Hd F). exact V. Qed.
Lemma pos_flag x : finite d x -> 0 <= value x -> isneg x = false.
Proof. intros F V. destruct (isneg x) eqn:E; [|reflexivity]. apply (iszero_isneg_spec d x Hd F) in E. lra. Qed.

Lemma at_zero x : finite d x -> value x = 0 ->
  ModelElem.exp d env x = Defined (one d) /\ log d env x = Defined (negate (value_inf d)) /\
  sinh d env x = Defined (zero d) /\ cosh d env x = Defined (one d) /\ asinh d env x = Defined (zero d) /\
  (pi_sane d env -> sin d env x = zero d /\ cos d env x = one d) /\ asin d env x = zero d /\ atan d env x = zero d /\ acos d env x = pi_half d env.
Proof.
  intros F V. pose proof (zero_flag x F V) as Z. destruct (flags x F) as (FF & N & I). pose proof (pos_flag x F ltac:(lra)) as G.
  assert (O : op_gt x (one d) = false) by (apply (zero_not_greater d Hd); auto; [split; [apply one_wf; auto|reflexivity]|rewrite one_is_1 by auto; lra]).
  repeat apply conj.
  - unfold ModelElem.exp. rewrite N, I, Z. reflexivity.
  - unfold log. rewrite N, I, G, Z. reflexivity.
  - unfold sinh, sinhcosh. rewrite FF, Z. reflexivity.
  - unfold cosh, sinhcosh. rewrite FF, Z. reflexivity.
  - unfold asinh. rewrite FF, Z. reflexivity.
  - intro Hp. split; [apply sin_zero|apply cos_zero]; auto; apply F.
  - unfold asin. rewrite FF, G. cbn [negb]. rewrite O, Z. reflexivity.
  - unfold atan. rewrite FF, Z. cbn [negb]. replace (order x) with 0%Z.
    2: { unfold order. rewrite FF. unfold iszero in Z. apply andb_true_iff in Z. destruct Z as [_ ->]. reflexivity. }
    replace (0 >? tolerance d)%Z with false; [reflexivity|]. symmetry. rewrite Z.gtb_ltb. apply Z.ltb_ge. unfold tolerance, max_digits10. destruct Hd. apply Z.add_nonneg_nonneg; [lia|]. apply Z.div_pos; lia.
  - assert (one_finite : finite d (one d)) by (split; [apply one_wf; auto|reflexivity]).
    destruct (cmp_all_ops d x (one d) Hd F one_finite) as (L & _). rewrite one_is_1 in * by auto.
    destruct (cmp_all_ops d x (zero d) Hd F (zero_finite d Hd)) as (L0 & _).
    unfold acos. rewrite FF. cbn [negb]. replace (op_lt x (zero d)) with false.
    2: { symmetry. apply not_true_iff_false. intro B. apply L0 in B. rewrite value_zero in B by auto. lra. }
    cbn [negb]. rewrite O, Z. replace (op_lt x (one d)) with true by (symmetry; apply L; lra). reflexivity.
Qed.

Lemma outside x : finite d x ->
  (value x < 0 -> result (log d env x)) /\
  (1 < Rabs (value x) -> isnan (asin d env x) = true /\ isnan (acos d env x) = true) /\
  (value x < 1 -> result (acosh d env x)).
Proof.
  intros F. destruct (flags x F) as (FF & N & I).
  assert (F1 : finite d (one d)) by (split; [apply one_wf; auto|reflexivity]).
  assert (V1 : value (one d) = 1) by (apply one_is_1; auto).
  repeat apply conj.
  - intro V. eexists. split; [unfold log; rewrite N, (neg_flag x F V); reflexivity|reflexivity].
  - intro V. assert (M : forall b : bool, (b = true <-> value x < 0) -> op_gt (if negb b then x else negate x) (one d) = true).
    { intros b Hb. destruct b; cbn [negb].
      - apply (cmp_all_ops d (negate x) (one d) Hd (negate_finite d x F) F1). rewrite (negate_value d) by auto. rewrite V1. rewrite Rabs_left in V by (apply Hb; reflexivity). lra.
      - apply (cmp_all_ops d x (one d) Hd F F1). rewrite V1. destruct (Rlt_dec (value x) 0) as [L|L]; [apply Hb in L; discriminate|]. rewrite Rabs_pos_eq in V by lra. lra. }
    split.
    + unfold asin. rewrite FF. cbn [negb]. rewrite M by (apply (iszero_isneg_spec d x Hd F)). reflexivity.
    + unfold acos. rewrite FF. cbn [negb]. rewrite M; [reflexivity|]. destruct (cmp_all_ops d x (zero d) Hd F (zero_finite d Hd)) as (L0 & _). rewrite L0, value_zero by auto. tauto.
  - intro V. exists (value_nan d). split; [|reflexivity]. unfold acosh. rewrite FF. cbn [negb].
    replace (op_lt x (one d)) with true by (symmetry; apply (cmp_all_ops d x (one d) Hd F F1); rewrite V1; exact V). rewrite orb_true_r. reflexivity.
Qed.

End Special.

(** ** Where the functions fail *)

(** The digits of pi, as read from the literal of constants.cpp 84 for 30 digits. *)
Definition pi_30 : ef :=
  of_limbs 30 [3; 14159265; 35897932; 38462643; 38327950; 28841971; 69399375; 10582097]%Z 0 false.
Definition env_30 : env :=
  mkenv pi_30 (one 30) (one 30) (one 30) (one 30) (fun x => x) (fun x => x) (fun x => x) (fun x _ => x).

Definition positive_check (d : Z) (x : ef) : bool := wfb d x && isfinite x && negb (isneg x) && negb (iszero x).

Lemma check_pos d x : valid_digits d -> positive_check d x = true -> finite d x /\ 0 < value x.
Proof.
  intros Hd H. unfold positive_check in H. rewrite !andb_true_iff in H. destruct H as [[[H1 H2] H3] H4].
  assert (F : finite d x) by (apply wfb_finite; rewrite H1, H2; reflexivity). split; [exact F|].
  destruct (iszero_isneg_spec d x Hd F) as [Z G]. rewrite negb_true_iff in H3, H4.
  assert (value x <> 0) by (intro V; apply Z in V; congruence). assert (~ value x < 0) by (intro V; apply G in V; congruence). lra.
Qed.

Lemma pi_30_sane : pi_sane 30 env_30.
Proof.
  split; [apply wfb_finite; vm_compute; reflexivity|]. split; [vm_compute; reflexivity|].
  assert (F : finite 30 pi_30) by (apply wfb_finite; vm_compute; reflexivity).
  destruct (of_ull_spec 30 3 valid_30 ltac:(lia)) as (F3 & _ & V3 & _). destruct (of_ull_spec 30 4 valid_30 ltac:(lia)) as (F4 & _ & V4 & _).
  cbn [c_pi env_30]. rewrite <- V3, <- V4. split.
  - apply (cmp_all_ops 30 (of_ull 30 3) pi_30 valid_30 F3 F). vm_compute. reflexivity.
  - apply (cmp_all_ops 30 pi_30 (of_ull 30 4) valid_30 F F4). vm_compute. reflexivity.
Qed.

Definition ten_power (n : Z) : ef := of_limbs 30 [10 ^ (n mod 8)]%Z (n - n mod 8) false.

Lemma asin_check : positive_check 30 (asin 30 env_30 (ten_power (-10))) = true.
Proof. vm_compute. reflexivity. Qed.
Lemma atan_check1 : positive_check 30 (atan 30 env_30 (ten_power 10)) = true.
Proof. vm_compute. reflexivity. Qed.
Lemma atan_check2 : positive_check 30 (atan 30 env_30 (negate (ten_power 10))) = true.
Proof. vm_compute. reflexivity. Qed.

Lemma asin_wrong_sign : exists d env x, valid_digits d /\ pi_sane d env /\
  finite d x /\ 0 < value x < 1 /\ asin d env (negate x) = asin d env x /\ finite d (asin d env x) /\ 0 < value (asin d env x).
Proof.
  exists 30%Z, env_30, (ten_power (-10)). split; [exact valid_30|]. split; [exact pi_30_sane|].
  destruct (of_limbs1 30 1000000 (-16) valid_30 ltac:(lia) ltac:(reflexivity)) as (F & _ & V).
  assert (E : ten_power (-10) = of_limbs 30 [1000000%Z] (-16) false) by (vm_compute; reflexivity). 
  assert (V' : 0 < value (ten_power (-10)) < 1).
  { rewrite E, V. change (-16)%Z with (- (16))%Z. rewrite p10_inv, (p10_nonneg 16) by lia.
    change (10 ^ 16)%Z with 10000000000000000%Z. lra. }
  rewrite <- E in F. clear E V. pose proof asin_check as C. apply check_pos in C; [|exact valid_30].
  assert (Z : iszero (ten_power (-10)) = false) by (vm_compute; reflexivity).
  assert (S : small_arg 30 (ten_power (-10)) = true) by (vm_compute; reflexivity).
  revert F V' C Z S. generalize (ten_power (-10)). intros x F V' C Z S.
  split; [exact F|]. split; [exact V'|]. split; [|exact C].
  destruct (asin_even_small 30 env_30 valid_30 x F Z S) as [E|[_ E]]; [exact E|].
  destruct C as [[_ C] _]. unfold isnan in E. rewrite C in E. discriminate.
Qed.

Lemma atan_wrong_sign : exists d env x, valid_digits d /\ pi_sane d env /\ finite d x /\
  finite d (atan d env x) /\ 0 < value (atan d env x) /\ finite d (atan d env (negate x)) /\ 0 < value (atan d env (negate x)).
Proof.
  exists 30%Z, env_30, (ten_power 10). split; [exact valid_30|]. split; [exact pi_30_sane|].
  split; [apply wfb_finite; vm_compute; reflexivity|].
  pose proof (check_pos _ _ valid_30 atan_check1) as [A1 A2]. pose proof (check_pos _ _ valid_30 atan_check2) as [B1 B2].
  exact (conj A1 (conj A2 (conj B1 B2))).
Qed.

(** e^x for the x above the threshold of exp is far below the overflow limit. *)
Lemma e_sqr_10 : Rtrigo_def.exp 1 * Rtrigo_def.exp 1 < 10.
Proof. pose proof exp_le_3 as H. pose proof (exp_pos 1). nra. Qed.

Lemma exp_half_power k : (0 < k)%Z -> Rtrigo_def.exp (IZR (2 * k)) < powerRZ 10 k.
Proof.
  intro Hk. rewrite <- (Z2Nat.id k) by lia. assert (Hn : (0 < Z.to_nat k)%nat) by lia. generalize dependent (Z.to_nat k). clear. intros n Hn.
  replace (IZR (2 * Z.of_nat n)) with (INR n * 2). 2: { rewrite mult_IZR, <- INR_IZR_INZ. ring. }
  rewrite <- pow_powerRZ. induction n as [|n IH]; [lia|]. destruct n as [|n].
  - cbn [INR pow]. replace (1 * 2) with (1 + 1) by ring. rewrite exp_plus. rewrite pow_1. apply e_sqr_10.
  - rewrite S_INR, Rmult_plus_distr_r, exp_plus, Rmult_comm. rewrite <- tech_pow_Rmult. apply Rmult_gt_0_lt_compat.
    + apply exp_pos.
    + lra.
    + replace (1 * 2) with (1 + 1) by ring. rewrite exp_plus. apply e_sqr_10.
    + apply IH. lia.
Qed.

Lemma exp_too_early d env : valid_digits d ->
  let x := of_sll d 2147483618 in finite d x /\ value x = 2147483618 /\
  ModelElem.exp d env x = Defined (value_inf d) /\ Rtrigo_def.exp (value x) < powerRZ 10 1073741809.
Proof.
  intro Hd. cbv zeta. destruct (of_sll_spec d 2147483618 Hd ltac:(lia)) as (F & P & V & _). destruct (of_sll_spec d max_exp10 Hd ltac:(unfold max_exp10; lia)) as (F' & P' & V' & _).
  split; [exact F|]. split; [exact V|]. split.
  - destruct (flags d _ F) as (FF & N & I). pose proof (pos_flag d Hd _ F ltac:(lra)) as G. unfold ModelElem.exp. rewrite N, I, G. cbn [negb].
    assert (Z : iszero (of_sll d 2147483618) = false).
    { destruct (iszero _) eqn:Z; [|reflexivity]. apply (iszero_isneg_spec d _ Hd F) in Z. lra. }
    rewrite Z. cbn [orb].
    replace (order (of_sll d 2147483618) <? - tolerance d)%Z with false.
    2: { symmetry. apply Z.ltb_ge. unfold tolerance, max_digits10.
         assert (O : (0 <= order (of_sll d 2147483618))%Z).
         { destruct (order_spec d _ Hd F ltac:(lra)) as [_ O]. rewrite V, Rabs_pos_eq in O by lra. apply Z.nlt_ge. intro L. pose proof (p10_le (order (of_sll d 2147483618) + 1) 0 ltac:(lia)) as Q. rewrite p10_0 in Q. lra. }
         assert (0 <= (d + 1) / 10)%Z by (destruct Hd; apply Z.div_pos; lia). destruct Hd. lia. }
    replace (op_gt (of_sll d 2147483618) (of_sll d max_exp10)) with true; [reflexivity|]. symmetry.
    apply (cmp_all_ops d _ _ Hd F F'). rewrite V, V'. unfold max_exp10. lra.
  - rewrite V. apply (exp_half_power 1073741809). lia.
Qed.

Lemma isone_int d n : valid_digits d -> (2 <= n < 9223372036854775808)%Z -> isone (of_sll d n) = false.
Proof.
  intros Hd Hn. pose proof (proj1 Hn) as Hn'. destruct (isone (of_sll d n)) eqn:E; [|reflexivity]. destruct (of_sll_spec d n Hd ltac:(lia)) as (F & _ & V & _).
  apply (isone_spec d _ Hd F) in E. rewrite V in E. apply (IZR_le 2 n) in Hn'. pose proof (p10_pos (- (8 * elem_number d))). lra.
Qed.

Lemma at_infinity_wrong d env : valid_digits d ->
  isnan (atan d env (value_inf d)) = true /\
  (exists r, log d env (value_inf d) = Defined r /\ isnan r = true) /\
  cosh d env (negate (value_inf d)) = Defined (negate (value_inf d)) /\
  (exists r, tanh d env (value_inf d) = Defined r /\ isnan r = true) /\
  (exists r, asinh d env (value_inf d) = Defined r /\ isnan r = true) /\
  pow d env (value_inf d) (of_sll d (-2)) = Defined (value_inf d) /\
  pow d env (zero d) (of_sll d 2) = Defined (one d).
Proof.
  intro Hd. repeat apply conj.
  - reflexivity.
  - eexists. split; reflexivity.
  - reflexivity.
  - eexists. split; [reflexivity|]. unfold inv.
    assert (Z : iszero (ef_default d) = true).
    { unfold iszero, isfinite, limb. cbn [ef_default cls data]. destruct (Nn d); reflexivity. }
    change (iszero (set_neg (ef_default d) false)) with (iszero (ef_default d)). rewrite Z.
    unfold mul, mul_gen. rewrite Z. reflexivity.
  - eexists. split; reflexivity.
  - reflexivity.
  - assert (Z : iszero (zero d) = true) by (apply (zero_flag d); auto using zero_finite, value_zero).
    unfold pow. rewrite Z, (isone_int d 2) by (auto; lia). reflexivity.
Qed.
