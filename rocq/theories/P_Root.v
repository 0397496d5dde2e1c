(** * Properties C33, C39, C40: square root, construction from double, decimal order. *)

From Flocq Require Import Core BinarySingleNaN.
From Coq Require Import ZArith List Bool Lia Reals Lra.
From Verif Require Import Model Spec Limbs Value CmpProofs AddProofs Decide OrderProofs MulValue MulCor IntProofs ModelDiv
  DoubleProofs SeedProofs InvProofs CtorProofs SqrtProofs OrderDec.
Import ListNotations.
Open Scope R_scope.
Local Notation exp := Model.exp.

(** C33: the square of sqrt(x) agrees with x to half of the digits (missing:
    the other half, which is false, see the refutation below). *)
Theorem C33_sqrt_partial :
  forall d x, valid_digits d -> (d <= 65000)%Z -> finite d x -> full d x -> in_range (value x) -> 0 < value x ->
  finite d (sqrt d x) /\ full d (sqrt d x) /\ 0 < value (sqrt d x) /\
  Rabs (value (sqrt d x) * value (sqrt d x) - value x) < powerRZ 10 (- (d / 2)) * value x.
Proof. exact sqrt_accurate. Qed.
Print Assumptions C33_sqrt_partial.

Example C33_hypotheses_met :
  valid_digits 30 /\ finite 30 (of_sll 30 2) /\ full 30 (of_sll 30 2) /\ in_range (value (of_sll 30 2)) /\ 0 < value (of_sll 30 2).
Proof.
  assert (F : finite 30 (of_sll 30 2)) by (apply wfb_finite; vm_compute; reflexivity).
  split; [apply valid_30|]. split; [exact F|]. split; [reflexivity|]. split.
  - apply (in_range_of_exp 30); [apply valid_30|exact F|vm_compute; discriminate|vm_compute; split; discriminate].
  - apply (finite_value_sign 30 _ valid_30 F). vm_compute. discriminate.
Qed.

(** C33: arguments for which the result is NaN, and zero. *)
Theorem C33_sqrt_special :
  forall d x, valid_digits d -> wf d x ->
  (finite d x -> value x < 0 -> is_nan (sqrt d x)) /\ (is_nan x -> is_nan (sqrt d x)) /\
  (forall b, is_inf x b -> is_nan (sqrt d x)) /\ (finite d x -> value x = 0 -> finite d (sqrt d x) /\ value (sqrt d x) = 0).
Proof. exact sqrt_special. Qed.
Print Assumptions C33_sqrt_special.

Example C33_special_hypotheses_met :
  finite 30 (of_sll 30 (-2)) /\ isneg (of_sll 30 (-2)) = true /\ cls (sqrt 30 (of_sll 30 (-2))) = NaN /\
  wf 30 (signed_inf 30 false) /\ finite 30 (zero 30).
Proof. meets. Qed.

(** C33: with 173 digits, x = 1 + 2*10^-97: the square of sqrt(x) differs from x
    by more than 10^-104. *)
Theorem C33_sqrt_refuted :
  exists x, finite 173 x /\ value x = 1 + 2 * powerRZ 10 (-97) /\ finite 173 (sqrt 173 x) /\
  value (sqrt 173 x) * value (sqrt 173 x) - value x > powerRZ 10 (-104).
Proof. exact (ex_intro _ near_one_173 sqrt_refuted_ex). Qed.
Print Assumptions C33_sqrt_refuted.

(** C39: e_float(m, e) for every finite double m that is normal.  Missing:
    well-formedness for |m| >= 10 and the value for m = 0, e = 0, both of which
    are false, see the refutation. *)
Theorem C39_from_double_partial :
  forall d m e, valid_digits d -> is_finite m = true ->
  IZR 4503599627370497 * bpow radix2 (-1074) <= Rabs (B2R m) ->
  exists r, ctor_double d m e = Defined r /\ cls r = Finite /\ full d r /\
  Rabs (value r - B2R m * powerRZ 10 e) <= / 1000000000000 * Rabs (B2R m * powerRZ 10 e) /\
  (Rabs (B2R m) < 10 -> finite d r).
Proof. exact ctor_ok. Qed.
Print Assumptions C39_from_double_partial.

Example C39_hypotheses_met :
  valid_digits 30 /\ is_finite (d_of_Z (-7)) = true /\ IZR 4503599627370497 * bpow radix2 (-1074) <= Rabs (B2R (d_of_Z (-7))) /\
  Rabs (B2R (d_of_Z (-7))) < 10.
Proof.
  destruct (d_of_Z_ok (-7) ltac:(lia)) as [F V]. unfold D in V. rewrite V, Rabs_left by lra.
  split; [apply valid_30|]. split; [exact F|]. split; [|lra].
  apply Rle_trans with (bpow radix2 53 * bpow radix2 (-1074)).
  - apply Rmult_le_compat_r; [apply bpow_ge_0|]. change (bpow radix2 53) with 9007199254740992. lra.
  - rewrite <- bpow_plus. apply Rle_trans with (bpow radix2 0); [apply bpow_le; lia|simpl; lra].
Qed.

(** C39: e_float(100.0, 6) holds a limb equal to 10^8, and e_float(0.0, 0) is one. *)
Theorem C39_from_double_refuted :
  B2R (d_of_Z 100) = 100 /\ B2R (d_of_Z 0) = 0 /\
  (exists r, ctor_double 30 (d_of_Z 100) 6 = Defined r /\ ~ wf 30 r) /\
  (exists r, ctor_double 30 (d_of_Z 0) 0 = Defined r /\ value r = 1).
Proof. exact ctor_refuted. Qed.
Print Assumptions C39_from_double_refuted.

(** C40: order() is floor(log10(|x|)), for exact logarithms ... *)
Theorem C40_order :
  forall d x, valid_digits d -> finite d x -> value x <> 0 ->
  powerRZ 10 (order x) <= Rabs (value x) < powerRZ 10 (order x + 1).
Proof. exact order_spec. Qed.
Print Assumptions C40_order.

(** ... and for every double-precision log10 that is not below k from 10^k on
    and keeps a distance of 10^-9 from k+1 below 10^(k+1), k = 0, ..., 7
    (the true distance is at least 4*10^-9). *)
Theorem C40_order_double_log10 :
  forall d (log10 : double -> double) x, valid_digits d -> finite d x ->
  (forall n k, (0 <= k <= 7)%Z -> (10 ^ k <= n < 10 ^ (k + 1))%Z ->
     is_finite (log10 (d_of_Z n)) = true /\ IZR k <= B2R (log10 (d_of_Z n)) <= IZR k + 1 - / 1000000000) ->
  order_log log10 x = order x.
Proof. exact order_log_spec. Qed.
Print Assumptions C40_order_double_log10.

Example C40_hypotheses_met :
  finite 30 (of_sll 30 (-123456789012)) /\ value (of_sll 30 (-123456789012)) <> 0 /\
  order (of_sll 30 (-123456789012)) = 11%Z /\
  exists log10 : double -> double, forall n k, (0 <= k <= 7)%Z -> (10 ^ k <= n < 10 ^ (k + 1))%Z ->
     is_finite (log10 (d_of_Z n)) = true /\ IZR k <= B2R (log10 (d_of_Z n)) <= IZR k + 1 - / 1000000000.
Proof.
  split; [meets|]. split; [meets|]. split; [vm_compute; reflexivity|].
  exists (fun y => d_of_Z (digits_minus_one 10 (Btrunc y))). intros n k Hk Hn.
  assert (P1 : (1 <= 10 ^ k)%Z) by (pose proof (Z.pow_pos_nonneg 10 k); lia).
  assert (P2 : (10 ^ (k + 1) <= 10 ^ 8)%Z) by (apply Z.pow_le_mono_r; lia). change (10 ^ 8)%Z with 100000000%Z in P2.
  destruct (d_of_Z_ok n ltac:(lia)) as [F V].
  assert (N0 : IZR 0 <= IZR n) by (apply IZR_le; lia).
  pose proof (Btrunc_floor (d_of_Z n) ltac:(rewrite V; exact N0)) as [T1 T2]. rewrite V in T1, T2.
  assert (T : Btrunc (d_of_Z n) = n).
  { apply le_IZR in T1. assert (n < Btrunc (d_of_Z n) + 1)%Z; [|lia]. apply lt_IZR. rewrite plus_IZR. exact T2. }
  rewrite T. destruct (digits_minus_one_spec 10 n) as (Hd & Hp); [change (10 ^ Z.of_nat 10)%Z with 10000000000%Z; lia|].
  set (j := digits_minus_one 10 n) in *.
  assert (j = k).
  { assert (k < j + 1)%Z by (apply (Z.pow_lt_mono_r_iff 10); lia). assert (j < k + 1)%Z by (apply (Z.pow_lt_mono_r_iff 10); lia). lia. }
  subst j. rewrite H. destruct (d_of_Z_ok k ltac:(lia)) as [Fk Vk]. unfold D in Vk. rewrite Vk. split; [exact Fk|]. lra.
Qed.
