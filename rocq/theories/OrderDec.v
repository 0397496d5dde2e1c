(** * Decimal order (proofs only). *)

From Flocq Require Import Core Relative BinarySingleNaN.
From Coq Require Import ZArith List Bool Reals Lra Lia Psatz.
From Verif Require Import Model Spec Limbs Value CmpProofs AddProofs Decide OrderProofs MulValue MulCor
  ModelDiv DoubleProofs SeedProofs.
Import ListNotations.
Open Scope R_scope.
Ltac Zify.zify_post_hook ::= Z.div_mod_to_equations.
Local Notation p10 := (powerRZ 10).
Local Notation exp := Model.exp.

Lemma order_spec d x : valid_digits d -> finite d x -> value x <> 0 ->
  p10 (order x) <= Rabs (value x) < p10 (order x + 1).
Proof.
  intros Hd F V. assert (L : limb (data x) 0 <> 0%Z) by (apply (value_nonzero_lead d); auto).
  destruct (lead_digits d x F L) as (Hk & Hl). unfold order. set (k := digits_minus_one 10 (limb (data x) 0)) in *.
  assert (O : negb (isfinite x) || (limb (data x) 0 =? 0)%Z = false).
  { destruct F as [_ C]. unfold isfinite. rewrite C. apply Z.eqb_neq in L. rewrite L. reflexivity. }
  rewrite O. rewrite (value_abs_mag d x F). unfold mag.
  pose proof (wf_limbs _ _ (proj1 F)) as Hlim. pose proof (Nn_len d x Hd (proj1 F)) as Hlen. pose proof (Nn_ge7 d Hd) as HN7.
  destruct (data x) as [|a t] eqn:E; [simpl in Hlen; lia|]. cbn [limb nth] in *.
  rewrite mv_cons. pose proof (mv_bound t (Forall_inv_tail Hlim)) as Bt.
  assert (Lt : length t = (Nn d - 1)%nat) by (simpl in Hlen; lia). rewrite Lt in *.
  assert (U : IZR (Bp (Nn d - 1)) * Spec.ulp d (exp x) = p10 (exp x)).
  { replace (Nn d - 1)%nat with (Z.to_nat (elem_number d - 1)) by (rewrite <- (Nn_Z d Hd); lia).
    rewrite (ulp_Bp d (exp x) 1); [f_equal; lia|pose proof (elem_number_bounds d Hd); lia|lia]. }
  pose proof (ulp_pos d (exp x)) as Up. change (limb (a :: t) 0) with a in *.
  rewrite plus_IZR, mult_IZR. destruct Bt as [T1 T2]. apply IZR_le in T1. apply IZR_lt in T2.
  pose proof (p10_pos (exp x)) as Pe.
  replace ((IZR a * IZR (Bp (Nn d - 1)) + IZR (mv t)) * Spec.ulp d (exp x)) with (IZR a * p10 (exp x) + IZR (mv t) * Spec.ulp d (exp x)) by (rewrite <- U; ring).
  assert (W : 0 <= IZR (mv t) * Spec.ulp d (exp x) < p10 (exp x)) by (rewrite <- U; split; [apply Rmult_le_pos; lra|apply Rmult_lt_compat_r; lra]).
  replace (exp x + k + 1)%Z with (exp x + (k + 1))%Z by lia. rewrite !(p10_add (exp x)), (p10_nonneg k), (p10_nonneg (k + 1)) by lia.
  destruct Hl as [H1 H2]. apply IZR_le in H1. assert (H3 : (a + 1 <= 10 ^ (k + 1))%Z) by lia. apply IZR_le in H3. rewrite plus_IZR in H3.
  split.
  - apply Rle_trans with (IZR a * p10 (exp x)); [|lra]. rewrite Rmult_comm. apply Rmult_le_compat_r; lra.
  - apply Rlt_le_trans with ((IZR a + 1) * p10 (exp x)); [lra|]. rewrite Rmult_comm. apply Rmult_le_compat_l; lra.
Qed.

Lemma order_special x : (cls x <> Finite -> order x = 0%Z) /\ (nth 0 (data x) 0%Z = 0%Z -> order x = 0%Z).
Proof.
  unfold order, isfinite. split; intro H.
  - destruct (cls x); [congruence| |]; reflexivity.
  - change (nth 0 (data x) 0%Z) with (limb (data x) 0) in H. rewrite H. rewrite orb_true_r. reflexivity.
Qed.

Lemma eps_ok : is_finite (dmul dbl_eps dbl_09) = true /\ 0 <= D (dmul dbl_eps dbl_09) <= / 4503599627370496.
Proof.
  assert (G : forall m e, (0 <= m < 9007199254740992)%Z -> (-1074 <= e <= 0)%Z ->
    is_finite (binary_normalize 53 1024 d_prec d_emax mode_NE m e false) = true /\
    D (binary_normalize 53 1024 d_prec d_emax mode_NE m e false) = IZR m * bpow radix2 e).
  { intros m e Hm He. pose proof (binary_normalize_correct 53 1024 d_prec d_emax mode_NE m e false) as C. cbv zeta in C.
    set (z := F2R _) in C. fold (rnd z) in C.
    assert (Hz : rnd z = z).
    { apply rnd_id. apply (generic_format_FLT radix2 (-1074) 53). exists (Float radix2 m e); [reflexivity| |simpl; lia]. simpl. lia. }
    rewrite Hz in C. rewrite Rlt_bool_true in C.
    - destruct C as (C1 & C2 & _). split; [exact C2|exact C1].
    - unfold z, F2R. cbn [Fnum Fexp]. pose proof (bpow_gt_0 radix2 e). assert (IZR 0 <= IZR m) by (apply IZR_le; lia). assert (IZR m < 9007199254740992) by (apply IZR_lt; lia).
      rewrite Rabs_pos_eq by nra. apply Rlt_le_trans with (bpow radix2 53 * bpow radix2 0).
      + apply Rlt_le_trans with (9007199254740992 * bpow radix2 e); [apply Rmult_lt_compat_r; lra|].
        apply Rmult_le_compat; try lra. { change (bpow radix2 53) with 9007199254740992. lra. } apply bpow_le. lia.
      + rewrite <- bpow_plus. apply bpow_le. lia. }
  destruct (G 1%Z (-52)%Z) as [F1 V1]; try lia. destruct (G 8106479329266893%Z (-53)%Z) as [F2 V2]; try lia.
  fold dbl_eps in F1, V1. fold dbl_09 in F2, V2.
  change (bpow radix2 (-52)) with (/ 4503599627370496) in V1. change (bpow radix2 (-53)) with (/ 9007199254740992) in V2.
  destruct (dmul_ok dbl_eps dbl_09 F1 F2) as [F V]. { rewrite V1, V2, Rabs_pos_eq; lra. }
  split; auto. rewrite V, V1, V2. split.
  - rewrite <- rnd_0. apply rnd_mono. lra.
  - apply Rle_trans with (rnd (/ 4503599627370496)); [apply rnd_mono; lra|]. right. apply rnd_id.
    apply (generic_format_FLT radix2 (-1074) 53). exists (Float radix2 1 (-52)); [|reflexivity|simpl; lia].
    unfold F2R. cbn [Fnum Fexp]. change (bpow radix2 (-52)) with (/ 4503599627370496). lra.
Qed.

Lemma order_log_spec d log10 x : valid_digits d -> finite d x ->
  (forall n k, (0 <= k <= 7)%Z -> (10 ^ k <= n < 10 ^ (k + 1))%Z ->
     is_finite (log10 (d_of_Z n)) = true /\ IZR k <= B2R (log10 (d_of_Z n)) <= IZR k + 1 - / 1000000000) ->
  order_log log10 x = order x.
Proof.
  intros Hd F HL. unfold order_log, order. destruct (negb (isfinite x) || (limb (data x) 0 =? 0)%Z) eqn:O; auto.
  apply orb_false_elim in O. destruct O as [_ L]. apply Z.eqb_neq in L.
  destruct (lead_digits d x F L) as (Hk & Hl). set (k := digits_minus_one 10 (limb (data x) 0)) in *.
  destruct (HL _ k Hk Hl) as [FL BL]. fold (D (log10 (d_of_Z (limb (data x) 0)))) in BL. set (y := log10 _) in *.
  destruct eps_ok as [Fe Ve]. set (c := dmul dbl_eps dbl_09) in *.
  assert (K : 0 <= IZR k <= 7) by (split; apply IZR_le; lia).
  destruct (dadd_ok y c FL Fe) as [Fs Vs]. { rewrite Rabs_pos_eq; lra. }
  assert (B : IZR k <= D (dadd y c) < IZR k + 1).
  { rewrite Vs. split.
    - rewrite <- (rnd_Z k) by lia. apply rnd_mono. lra.
    - apply Rle_lt_trans with (rnd (IZR ((k + 1) * 1073741824 - 1) * bpow radix2 (-30))).
      + apply rnd_mono. rewrite minus_IZR, mult_IZR, plus_IZR. change (bpow radix2 (-30)) with (/ 1073741824). lra.
      + rewrite rnd_id. { rewrite minus_IZR, mult_IZR, plus_IZR. change (bpow radix2 (-30)) with (/ 1073741824). lra. }
        apply (generic_format_FLT radix2 (-1074) 53). exists (Float radix2 ((k + 1) * 1073741824 - 1) (-30)); [reflexivity|simpl; lia|simpl; lia]. }
  pose proof (Btrunc_floor (dadd y c) ltac:(lra)) as [T1 T2].
  f_equal. assert (Btrunc (dadd y c) < k + 1)%Z by (apply lt_IZR; rewrite plus_IZR; lra).
  assert (k < Btrunc (dadd y c) + 1)%Z by (apply lt_IZR; rewrite plus_IZR; lra). lia.
Qed.
