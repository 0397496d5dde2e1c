(** * Corollaries about addition (proofs only). *)

From Coq Require Import ZArith List Bool Lia Reals Lra Psatz.
From Verif Require Import Model Spec Limbs Value CmpProofs AddProofs Decide OrderProofs.
Import ListNotations.
Open Scope R_scope.

Lemma add_rounding d u v : valid_digits d -> finite d u -> finite d v -> cls (add d u v) = Finite ->
  finite d (add d u v) /\ sum_rounded d u v (add d u v).
Proof.
  intros Hd Fu Fv Hc. destruct (add_finite_spec d u v Hd Fu Fv) as (r & Fr & R & [[-> _]|[_ E]]); auto.
  rewrite E, signed_inf_eq in Hc. discriminate.
Qed.

Lemma add_not_nan d u v : valid_digits d -> finite d u -> finite d v ->
  wf d (add d u v) /\ ~ is_nan (add d u v).
Proof.
  intros Hd Fu Fv. split; [apply add_wf; auto; [apply Fu | apply Fv]|].
  destruct (add_finite_spec d u v Hd Fu Fv) as (r & Fr & R & [[-> _]|[_ E]]).
  - unfold is_nan. rewrite (proj2 Fr). discriminate.
  - rewrite E, signed_inf_eq. discriminate.
Qed.

Lemma add_nonfinite d u v : valid_digits d -> wf d u -> wf d v ->
  (is_nan u -> is_nan (add d u v)) /\
  (forall b, is_inf u b -> cls v = Finite -> is_inf (add d u v) b) /\
  (forall b, is_inf u b -> is_inf v b -> is_inf (add d u v) b) /\
  (forall b, is_inf u b -> is_inf v (negb b) -> is_nan (add d u v)) /\
  (cls u = Finite -> value u = 0 -> add d u v = v).
Proof.
  intros Hd Wu Wv. unfold is_nan, is_inf, add, isnan, isinf. split; [|split; [|split; [|split]]].
  - intros H. rewrite H. auto.
  - intros b [H1 H2] H3. rewrite H1, H3. cbn. auto.
  - intros b [H1 H2] [H3 H4]. rewrite H1, H3, H2, H4. destruct b; cbn; auto.
  - intros b [H1 H2] [H3 H4]. rewrite H1, H3, H2, H4. destruct b; cbn; auto.
  - intros H1 H2. rewrite H1. apply (finite_zero_iff d) in H2; [|auto|split; auto].
    rewrite (proj2 (iszero_true u H1)) by auto. reflexivity.
Qed.

Lemma add_nonfinite_refuted :
  wf 30 (signed_inf 30 true) /\ wf 30 (signed_inf 30 false) /\ wf 30 (value_nan 30) /\
  add 30 (one 30) (value_nan 30) = one 30 /\
  add 30 (one 30) (signed_inf 30 false) = one 30 /\
  add 30 (signed_inf 30 false) (value_nan 30) = signed_inf 30 false /\
  add 30 (half 30) (signed_inf 30 false) = zero 30 /\
  cls (add 30 (half 30) (signed_inf 30 true)) = Finite /\
  value (add 30 (half 30) (signed_inf 30 true)) = - (100000000 - / 2).
Proof.
  split; [apply signed_inf_wf, valid_30|]. split; [apply signed_inf_wf, valid_30|].
  split; [apply value_nan_wf, valid_30|].
  split; [vm_compute; reflexivity|]. split; [vm_compute; reflexivity|].
  split; [vm_compute; reflexivity|]. split; [vm_compute; reflexivity|].
  split; [vm_compute; reflexivity|].
  set (r := add _ _ _).
  assert (F : finite 30 r) by (apply wfb_finite; vm_compute; reflexivity).
  rewrite (value_sv 30 r) by apply F.
  assert (E : sv r = (- (999999995 * 10 ^ 47))%Z) by (vm_compute; reflexivity).
  assert (Ee : exp r = 0%Z) by (vm_compute; reflexivity).
  rewrite E, Ee. unfold ulp. replace (0 - 8 * (elem_number 30 - 1))%Z with (-(48))%Z by reflexivity.
  rewrite p10_inv, p10_nonneg by lia. rewrite opp_IZR, mult_IZR.
  change (10 ^ 48)%Z with (10 * 10 ^ 47)%Z. rewrite mult_IZR.
  assert (0 < IZR (10 ^ 47)) by (apply IZR_lt; reflexivity).
  field. lra.
Qed.

Lemma sub_all d u v : valid_digits d -> finite d u -> finite d v ->
  wf d (sub d u v) /\
  (exists r, finite d r /\ sum_rounded d u (negate v) r /\
    ((sub d u v = r /\ (Rabs (value r) <= max_value d \/ r = u \/ r = negate v)) \/
     (max_value d < Rabs (value r) /\ is_inf (sub d u v) (neg r)))) /\
  (value u = value v -> cls (sub d u v) = Finite /\ value (sub d u v) = 0).
Proof.
  intros Hd Fu Fv. split; [apply sub_wf; auto; [apply Fu|apply Fv]|]. split.
  - destruct (sub_finite_spec d u v Hd Fu Fv) as (r & Fr & R & [H|[H E]]); exists r; split; auto; split; auto.
    right. split; auto. rewrite E, signed_inf_eq. split; reflexivity.
  - apply sub_same; auto.
Qed.

Lemma sub_self_doubles d x : valid_digits d -> finite d x -> value x <> 0 ->
  cls (sub_self d x) = Finite -> sum_rounded d x x (sub_self d x).
Proof.
  intros Hd F H0 Hc. unfold sub_self in *. rewrite negate_cls in Hc.
  pose proof (negate_finite d x F) as Fn.
  destruct (add_rounding d (negate x) (negate x) Hd Fn Fn Hc) as (Fr & R1 & R2 & R3).
  pose proof (negate_value d x Hd F) as Nx. pose proof (negate_value d _ Hd Fr) as Nr.
  unfold sum_rounded. rewrite Nr, negate_exp. rewrite Nx in *. rewrite !negate_exp in R2.
  replace (value x + value x) with (- (- value x + - value x)) by ring.
  split; [|split]; intro Hs.
  - apply cut_to_opp, R1. lra.
  - apply raised_to_opp, R2. lra.
  - rewrite R3; lra.
Qed.

Lemma sub_self_refuted : exists x, finite 30 x /\ value x = 1 /\ value (sub_self 30 x) = 2.
Proof.
  exists (one 30). split; [apply one_finite, valid_30|]. split; [apply one_value, valid_30|].
  replace (sub_self 30 (one 30)) with (of_ull 30 2) by (vm_compute; reflexivity).
  rewrite of_ull_small by (auto using valid_30; split; reflexivity). apply small_value.
Qed.

Lemma add_comm_bits d u v : valid_digits d -> finite d u -> finite d v -> value u <> 0 -> value v <> 0 ->
  prec u = prec v -> add d u v = add d v u.
Proof.
  intros Hd Fu Fv U0 V0 Hp. apply add_comm_nonzero; auto; intro E; [apply U0|apply V0]; apply (finite_zero_value d); auto.
Qed.

Lemma add_exact_example :
  value (one 30) + value (one 30) = IZR (2 * 10 ^ 48) * ulp 30 (Z.max (exp (add 30 (one 30) (one 30))) (Z.max (exp (one 30)) (exp (one 30)))).
Proof.
  rewrite one_value by exact valid_30. replace (Z.max _ _) with 0%Z by (vm_compute; reflexivity).
  unfold ulp. replace (0 - 8 * (elem_number 30 - 1))%Z with (-(48))%Z by reflexivity.
  rewrite p10_inv, p10_nonneg by lia. rewrite mult_IZR.
  assert (0 < IZR (10 ^ 48)) by (apply IZR_lt; reflexivity). field. lra.
Qed.
