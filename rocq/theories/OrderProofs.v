(** * Predicates, comparison with special values, precision (proofs only). *)

From Coq Require Import ZArith List Bool Lia Reals Lra Psatz.
From Verif Require Import Model Spec Limbs Value CmpProofs AddProofs Decide.
Import ListNotations.
Open Scope R_scope.

Ltac Zify.zify_post_hook ::= Z.div_mod_to_equations.

Lemma eq_repr d u v : valid_digits d -> finite d u -> finite d v ->
  op_eq u v = true -> value u <> 0 ->
  data u = data v /\ exp u = exp v /\ neg u = neg v.
Proof.
  intros Hd Fu Fv E H0. apply (value_inj d); auto.
  apply (proj1 (proj1 (proj2 (proj2 (cmp_all_ops d u v Hd Fu Fv)))) E).
Qed.

Lemma eq_repr_example :
  op_eq (of_sll 30 (-5)) (of_sll 30 (-5)) = true /\ value (of_sll 30 (-5)) <> 0.
Proof.
  assert (F : finite 30 (of_sll 30 (-5))) by (apply wfb_finite; vm_compute; reflexivity).
  split; [vm_compute; reflexivity|].
  intro H. apply (finite_zero_iff 30 _ valid_30 F) in H. vm_compute in H. discriminate.
Qed.

Lemma cmp_special d x y : valid_digits d -> wf d x -> wf d y ->
  (is_inf x false -> cls y = Finite -> op_gt x y = true /\ op_lt y x = true /\ op_eq x y = false /\ op_eq y x = false) /\
  (is_inf x true -> cls y = Finite -> op_lt x y = true /\ op_gt y x = true /\ op_eq x y = false /\ op_eq y x = false) /\
  (forall b, is_inf x b -> is_inf y b -> op_eq x y = true /\ op_lt x y = false /\ op_gt x y = false) /\
  (is_inf x true -> is_inf y false -> op_lt x y = true /\ op_gt y x = true /\ op_eq x y = false /\ op_eq y x = false) /\
  (is_nan x \/ is_nan y -> op_eq x y = false) /\
  op_ne x y = negb (op_eq x y).
Proof.
  intros _ _ _. unfold is_inf, is_nan, op_gt, op_lt, op_eq, op_ne, cmp, isfinite, isnan, isinf.
  split; [|split; [|split; [|split; [|split]]]].
  - intros [-> ->] ->. cbn. auto.
  - intros [-> ->] ->. cbn. auto.
  - intros b [-> ->] [-> ->]. destruct b; cbn; auto.
  - intros [-> ->] [-> ->]. cbn. auto.
  - intros [->| ->]; [reflexivity|]. destruct (cls x); reflexivity.
  - reflexivity.
Qed.

Lemma negate_spec d x : valid_digits d -> finite d x ->
  finite d (negate x) /\ value (negate x) = - value x /\ negate (negate x) = x /\
  finite d (fabs x) /\ value (fabs x) = Rabs (value x) /\
  prec (negate x) = prec x /\ prec (fabs x) = prec x /\
  (value x = 0 -> isneg (negate x) = false).
Proof.
  intros Hd F.
  split; [apply negate_finite; auto|]. split; [apply (negate_value d); auto|].
  split; [apply negate_involutive|]. split; [apply fabs_finite; auto|].
  split; [apply (fabs_value d); auto|]. split; [apply negate_prec|]. split.
  - unfold fabs. destruct (isneg x); auto using negate_prec.
  - intro V0. apply (finite_zero_iff d) in V0; auto. unfold negate.
    rewrite (proj2 (iszero_true x (proj2 F))) by auto. simpl.
    apply (wf_zero _ _ (proj1 F) (proj2 F) V0).
Qed.

Lemma negate_special x b : (is_inf x b -> is_inf (negate x) (negb b)) /\ (is_nan x -> is_nan (negate x)).
Proof.
  unfold is_inf, is_nan, negate, iszero, isfinite. split.
  - intros [H ->]. rewrite H. simpl. auto.
  - intros H. rewrite H. simpl. auto.
Qed.

Lemma iszero_isneg_spec d x : valid_digits d -> finite d x ->
  (iszero x = true <-> value x = 0) /\ (isneg x = true <-> value x < 0).
Proof.
  intros Hd F. rewrite iszero_true by apply F. rewrite (finite_zero_iff d) by auto. split; [tauto|].
  unfold isneg. destruct (Z.eq_dec (limb (data x) 0) 0) as [E|E].
  - rewrite (finite_zero_value d x F E), (proj2 (wf_zero _ _ (proj1 F) (proj2 F) E)).
    split; intro; [discriminate | lra].
  - pose proof (finite_value_sign d x Hd F E). destruct (neg x); split; intro; auto; try discriminate; lra.
Qed.

Lemma of_ull_small d n : valid_digits d -> (0 < n < mask)%Z ->
  of_ull d n = mkef (n :: repeat 0%Z (Nn d - 1)) 0 false Finite (elem_number d).
Proof.
  intros Hd Hn. pose proof (Nn_ge7 d Hd). unfold of_ull.
  assert (E : ull_limbs 9 n = [n]).
  { cbn [ull_limbs]. destruct (Z.eqb_spec n 0); [lia|].
    rewrite Z.mod_small by lia. rewrite Z.div_small by lia. reflexivity. }
  rewrite E. cbn [rev app length]. rewrite Nat.min_l by lia. reflexivity.
Qed.

Lemma small_finite d n : valid_digits d -> (0 < n < mask)%Z ->
  finite d (mkef (n :: repeat 0%Z (Nn d - 1)) 0 false Finite (elem_number d)).
Proof.
  intros Hd Hn. pose proof (Nn_ge7 d Hd). pose proof (elem_number_bounds d Hd). pose proof (Nn_Z d Hd).
  split; auto. constructor; cbn [data exp neg cls prec]; auto; try lia; try congruence.
  - cbn [length]. rewrite repeat_length. lia.
  - constructor; [unfold is_limb; change mask with 100000000%Z in Hn; lia | apply limbs_repeat0].
  - cbn. lia.
Qed.

Lemma small_value d n : 
  value (mkef (n :: repeat 0%Z (Nn d - 1)) 0 false Finite (elem_number d)) = IZR n.
Proof.
  unfold value. cbn [data exp neg limbs_value]. rewrite limbs_value_repeat0, p10_0. unfold sign. ring.
Qed.

Lemma one_finite d : valid_digits d -> finite d (one d).
Proof. intro. unfold one. rewrite of_ull_small by (auto; reflexivity || split; reflexivity). apply small_finite; auto. split; reflexivity. Qed.
Lemma one_value d : valid_digits d -> value (one d) = 1.
Proof. intro. unfold one. rewrite of_ull_small by (auto; split; reflexivity). apply small_value. Qed.

Lemma isone_refuted : exists x, finite 30 x /\ value x = 1 /\ isone x = false.
Proof.
  exists (one 30). split; [apply one_finite, valid_30|]. split; [apply one_value, valid_30|].
  vm_compute. reflexivity.
Qed.

Lemma forallb_repeat (a : Z) l : forallb (fun d => (d =? a)%Z) l = true <-> l = repeat a (length l).
Proof.
  induction l; simpl; [tauto|]. rewrite andb_true_iff, IHl, Z.eqb_eq. split.
  - intros [-> H]. f_equal. auto.
  - intro H. injection H as H1 H2. auto.
Qed.

Definition all_nines d := mkef (repeat 99999999%Z (Nn d)) (-8) false Finite (elem_number d).

Lemma all_nines_finite d : valid_digits d -> finite d (all_nines d).
Proof.
  intro Hd. pose proof (Nn_ge7 d Hd). pose proof (elem_number_bounds d Hd). pose proof (Nn_Z d Hd).
  split; auto. constructor; cbn [all_nines data exp neg cls prec]; auto; try lia; try congruence.
  - rewrite repeat_length. lia.
  - apply Forall_forall. intros a Ha. apply repeat_spec in Ha. subst. unfold is_limb; lia.
  - destruct (Nn d); [lia|]. cbn. discriminate.
Qed.

Lemma all_nines_value d : valid_digits d -> value (all_nines d) = 1 - p10 (- (8 * elem_number d)).
Proof.
  intro Hd. pose proof (Nn_Z d Hd).
  unfold value. cbn [all_nines data exp neg]. rewrite limbs_value_mv, repeat_length, mv_nines.
  rewrite minus_IZR, <- p10_Bp, H. replace (-8 - 8 * (elem_number d - 1))%Z with (- (8 * elem_number d))%Z by lia.
  rewrite Rmult_minus_distr_r, <- p10_add.
  replace (8 * elem_number d + - (8 * elem_number d))%Z with 0%Z by lia. rewrite p10_0. unfold sign. ring.
Qed.

Lemma isone_spec d x : valid_digits d -> finite d x ->
  (isone x = true <-> value x = 1 - p10 (- (8 * elem_number d))).
Proof.
  intros Hd F. pose proof (Nn_len d x Hd (proj1 F)) as Hlen. pose proof (Nn_ge7 d Hd) as HN. split.
  - unfold isone. unfold isfinite. rewrite (proj2 F). destruct (neg x) eqn:En; cbn [negb andb]; [discriminate|].
    destruct ((limb (data x) 0 =? 1) && (exp x =? 0))%Z eqn:E1.
    + apply andb_true_iff in E1. destruct E1 as [E1 _]. apply Z.eqb_eq in E1. intro H.
      apply (forallb_repeat 0%Z) in H. rewrite H in E1. unfold limb in E1. destruct (length (data x)); discriminate E1.
    + destruct ((limb (data x) 0 =? mask - 1) && (exp x =? -8))%Z eqn:E2; [|discriminate].
      apply andb_true_iff in E2. destruct E2 as [_ E2]. apply Z.eqb_eq in E2. intro H.
      apply (forallb_repeat (mask - 1)%Z) in H. change (mask - 1)%Z with 99999999%Z in H.
      rewrite <- (all_nines_value d Hd). unfold value, all_nines. cbn [data exp neg].
      rewrite En, E2. rewrite H, Hlen. reflexivity.
  - intro H. rewrite <- (all_nines_value d Hd) in H.
    assert (Hv : value (all_nines d) <> 0).
    { rewrite (all_nines_value d Hd). assert (p10 (- (8 * elem_number d)) < p10 0).
      { apply p10_lt. pose proof (elem_number_bounds d Hd). lia. } rewrite p10_0 in H0. lra. }
    destruct (value_inj d x (all_nines d) Hd F (all_nines_finite d Hd) ltac:(congruence) H) as (E1 & E2 & E3).
    unfold isone, isfinite. rewrite (proj2 F), E1, E2, E3. cbn [all_nines data exp neg negb andb].
    destruct (Nn d) eqn:EN; [lia|].
    replace (limb (repeat 99999999 (S n)) 0)%Z with 99999999%Z by reflexivity. 
    change ((99999999 =? 1) && (-8 =? 0))%Z with false. change ((99999999 =? mask - 1) && (-8 =? -8))%Z with true.
    cbv iota. apply (forallb_repeat (mask - 1)%Z). rewrite repeat_length. reflexivity.
Qed.

Lemma precision_spec d x p : valid_digits d -> (-2147483648 <= p <= 2147483647)%Z ->
  let y := precision d x p in
  (2 <= prec y <= elem_number d)%Z /\
  (p <= 8 * prec y \/ prec y = elem_number d)%Z /\
  (8 * (prec y - 1) < p \/ prec y = 2)%Z /\
  data y = data x /\ exp y = exp x /\ neg y = neg x /\ cls y = cls x.
Proof.
  intros Hd Hp y. unfold y, precision, set_prec. cbn [prec data exp neg cls]. unfold N.
  pose proof (elem_number_bounds d Hd) as HN.
  pose proof (Z.quot_rem p 8 ltac:(lia)) as Hq. pose proof (Z.rem_bound_abs p 8 ltac:(lia)) as Hr.
  pose proof (Z.rem_sign_nz p 8 ltac:(lia)) as Hs.
  destruct (Z.eqb_spec (Z.rem p 8) 0) as [E|E]; repeat split; try lia.
Qed.
