(** * Arithmetic on double and the constructor from a double mantissa (proofs only). *)

From Coq Require Import ZArith List Bool Reals Lra Lia.
From Flocq Require Import Core Relative BinarySingleNaN.
From Verif Require Import Model Spec Limbs Value AddProofs MulProofs MulValue MulCor IntProofs ModelDiv.
Import ListNotations.
Open Scope R_scope.
Ltac Zify.zify_post_hook ::= Z.div_mod_to_equations.

Notation fexp64 := (SpecFloat.fexp 53 1024).
Notation p10 := (powerRZ 10).
Definition rnd (x : R) : R := round radix2 fexp64 (round_mode mode_NE) x.
Definition D (x : double) : R := B2R x.
Definition uu : R := / 9007199254740992.

Lemma fexp64_FLT : forall e, fexp64 e = FLT_exp (-1074) 53 e.
Proof. reflexivity. Qed.

#[export] Instance prec64 : Prec_gt_0 53 := d_prec.
#[export] Instance valid64 : Valid_exp fexp64.
Proof. apply (FLT_exp_valid (-1074) 53). Qed.

Lemma rnd_mono x y : x <= y -> rnd x <= rnd y.
Proof. apply round_le. apply valid64. apply valid_rnd_round_mode. Qed.

Lemma rnd_0 : rnd 0 = 0.
Proof. apply round_0. apply valid_rnd_round_mode. Qed.

Lemma rnd_id x : generic_format radix2 fexp64 x -> rnd x = x.
Proof. intro H. apply round_generic; auto. apply valid_rnd_round_mode. Qed.

Lemma rnd_D x : rnd (D x) = D x.
Proof. apply rnd_id. apply generic_format_B2R. Qed.

Lemma rnd_Z n : (Z.abs n < 9007199254740992)%Z -> rnd (IZR n) = IZR n.
Proof.
  intro H. apply rnd_id. apply (generic_format_FLT radix2 (-1074) 53).
  exists (Float radix2 n 0); simpl; [unfold F2R; simpl; ring|exact H|lia].
Qed.

Lemma rnd_small x : Rabs x <= 1000000000000 -> Rabs (rnd x) < bpow radix2 1024.
Proof.
  intro H. apply Rle_lt_trans with 1000000000000.
  - apply Rabs_le. apply Rabs_le_inv in H. split.
    + pose proof (rnd_mono (-1000000000000) x ltac:(lra)) as G. rewrite (rnd_Z (-1000000000000)) in G by lia. lra.
    + pose proof (rnd_mono x 1000000000000 ltac:(lra)) as G. rewrite (rnd_Z 1000000000000) in G by lia. lra.
  - apply Rlt_trans with (bpow radix2 53); [change (bpow radix2 53) with 9007199254740992; lra|]. apply bpow_lt. lia.
Qed.

Lemma rnd_rel x : / 1000000000000 <= Rabs x -> exists e, Rabs e <= uu /\ rnd x = x * (1 + e).
Proof.
  intro H. destruct (relative_error_N_FLT_ex radix2 (-1074) 53 eq_refl (fun z => negb (Z.even z)) x) as (e & H1 & H2).
  - apply Rle_trans with (2 := H). apply Rle_trans with (bpow radix2 (-40)); [apply bpow_le; lia|].
    change (bpow radix2 (-40)) with (/ 1099511627776). lra.
  - exists e. split; [|exact H2]. eapply Rle_trans; [exact H1|]. right. unfold uu. change (- (53) + 1)%Z with (-52)%Z. change (bpow radix2 (-52)) with (/ 4503599627370496). field.
Qed.

(* absolute error for |x| < 2^27 *)
Lemma rnd_abs x : Rabs x <= 100000000 -> Rabs (rnd x - x) <= / 134217728.
Proof.
  intro H. destruct (Req_dec x 0) as [->|Hx].
  { rewrite rnd_0, Rminus_0_r, Rabs_R0. lra. }
  eapply Rle_trans; [apply error_le_half_ulp; apply valid64|].
  assert (U : Ulp.ulp radix2 fexp64 x <= bpow radix2 (-26)).
  { rewrite ulp_neq_0 by auto. apply bpow_le. unfold cexp. unfold SpecFloat.fexp, SpecFloat.emin.
    assert (Raux.mag radix2 x <= 27)%Z; [|lia].
    apply mag_le_bpow; auto. eapply Rle_lt_trans; [exact H|]. change (bpow radix2 27) with 134217728. lra. }
  change (bpow radix2 (-26)) with (/ 67108864) in U. lra.
Qed.

(** ** The operations *)

Lemma dmul_ok x y : is_finite x = true -> is_finite y = true -> Rabs (D x * D y) <= 1000000000000 ->
  is_finite (dmul x y) = true /\ D (dmul x y) = rnd (D x * D y).
Proof.
  intros Fx Fy H. pose proof (Bmult_correct 53 1024 d_prec d_emax mode_NE x y) as C.
  rewrite Rlt_bool_true in C by (apply rnd_small; exact H). destruct C as (C1 & C2 & _). rewrite Fx, Fy in C2. auto.
Qed.

Lemma ddiv_ok x y : is_finite x = true -> D y <> 0 -> Rabs (D x / D y) <= 1000000000000 ->
  is_finite (ddiv x y) = true /\ D (ddiv x y) = rnd (D x / D y).
Proof.
  intros Fx Fy H. pose proof (Bdiv_correct 53 1024 d_prec d_emax mode_NE x y Fy) as C.
  rewrite Rlt_bool_true in C by (apply rnd_small; exact H). destruct C as (C1 & C2 & _). rewrite Fx in C2. auto.
Qed.

Lemma dadd_ok x y : is_finite x = true -> is_finite y = true -> Rabs (D x + D y) <= 1000000000000 ->
  is_finite (dadd x y) = true /\ D (dadd x y) = rnd (D x + D y).
Proof.
  intros Fx Fy H. pose proof (Bplus_correct 53 1024 d_prec d_emax mode_NE x y Fx Fy) as C.
  rewrite Rlt_bool_true in C by (apply rnd_small; exact H). destruct C as (C1 & C2 & _). auto.
Qed.

Lemma dsub_ok x y : is_finite x = true -> is_finite y = true -> Rabs (D x - D y) <= 1000000000000 ->
  is_finite (dsub x y) = true /\ D (dsub x y) = rnd (D x - D y).
Proof.
  intros Fx Fy H. pose proof (Bminus_correct 53 1024 d_prec d_emax mode_NE x y Fx Fy) as C.
  rewrite Rlt_bool_true in C by (apply rnd_small; exact H). destruct C as (C1 & C2 & _). auto.
Qed.

Lemma dsqrt_ok x : is_finite x = true -> 0 < D x ->
  is_finite (dsqrt x) = true /\ D (dsqrt x) = rnd (R_sqrt.sqrt (D x)).
Proof.
  intros Fx Hx. destruct (Bsqrt_correct 53 1024 d_prec d_emax mode_NE x) as (C1 & C2 & _).
  split; [|exact C1]. unfold dsqrt. rewrite C2. destruct x as [s|s| |s m e Hb]; try discriminate; auto.
  destruct s; auto. exfalso. apply (Rlt_irrefl 0). eapply Rlt_trans; [exact Hx|].
  apply (F2R_lt_0 radix2 (Float radix2 (Z.neg m) e)). reflexivity.
Qed.

Lemma d_of_Z_ok n : (Z.abs n < 9007199254740992)%Z -> is_finite (d_of_Z n) = true /\ D (d_of_Z n) = IZR n.
Proof.
  intro H. pose proof (binary_normalize_correct 53 1024 d_prec d_emax mode_NE n 0 false) as C. cbv zeta in C.
  replace (F2R (Float radix2 n 0)) with (IZR n) in C by (unfold F2R; simpl; ring).
  fold (rnd (IZR n)) in C. rewrite (rnd_Z n H) in C.
  rewrite Rlt_bool_true in C. destruct C as (C1 & C2 & _). auto.
  rewrite <- abs_IZR. apply Rlt_trans with (IZR 9007199254740992); [apply IZR_lt; exact H|].
  apply Rle_lt_trans with (bpow radix2 53); [change (bpow radix2 53) with 9007199254740992; lra|]. apply bpow_lt. lia.
Qed.

Lemma dlt_ok x y : is_finite x = true -> is_finite y = true -> dlt x y = true <-> D x < D y.
Proof.
  intros Fx Fy. unfold dlt. rewrite (Bcompare_correct 53 1024 x y Fx Fy). unfold D.
  destruct (Rcompare_spec (B2R x) (B2R y)); split; intro; try discriminate; auto; lra.
Qed.

Lemma dlt_false x y : is_finite x = true -> is_finite y = true -> dlt x y = false <-> D y <= D x.
Proof.
  intros Fx Fy. destruct (dlt x y) eqn:E.
  - apply dlt_ok in E; auto. split; intro; [discriminate|lra].
  - split; auto. intros _. destruct (Rle_dec (D y) (D x)) as [L|L]; auto. apply Rnot_le_lt in L. apply dlt_ok in L; auto. congruence.
Qed.

(** Truncation *)

Lemma Btrunc_floor x : 0 <= D x -> IZR (Btrunc x) <= D x < IZR (Btrunc x) + 1.
Proof.
  intro H. pose proof (Btrunc_correct 53 1024 d_emax x) as C.
  assert (E : Btrunc x = Zfloor (D x)).
  { apply eq_IZR. rewrite C. unfold round, F2R, scaled_mantissa, cexp, FIX_exp; simpl. unfold D.
    rewrite !Rmult_1_r. f_equal. apply Ztrunc_floor. exact H. }
  rewrite E. split; [apply Zfloor_lb|apply Zfloor_ub].
Qed.

(* the fractional part of a double is a double *)
Lemma frac_format x k : IZR k <= D x < IZR k + 1 -> (0 <= k)%Z -> rnd (D x - IZR k) = D x - IZR k.
Proof.
  intros [H1 H2] Hk. apply rnd_id. apply (generic_format_FLT radix2 (-1074) 53).
  destruct (FLT_format_generic radix2 (-1074) 53 (D x) (generic_format_B2R 53 1024 x)) as [f Hf Hm He].
  destruct (Z.le_gt_cases 0 (Fexp f)) as [L|L].
  - (* an integer *)
    assert (exists n, D x = IZR n) as [n Hn].
    { exists (Fnum f * 2 ^ Fexp f)%Z. rewrite Hf. unfold F2R. rewrite mult_IZR. f_equal.
      rewrite (IZR_Zpower radix2) by auto. reflexivity. }
    assert (n = k). { rewrite Hn in H1, H2. apply le_IZR in H1. rewrite <- plus_IZR in H2. apply lt_IZR in H2. lia. }
    subst. exists (Float radix2 0 0); simpl; [rewrite Hn; unfold F2R; simpl; ring|lia|lia].
  - exists (Float radix2 (Fnum f - k * 2 ^ (- Fexp f)) (Fexp f)); simpl; auto.
    + rewrite Hf at 1. unfold F2R; simpl. rewrite minus_IZR, mult_IZR.
      change 2%Z with (radix_val radix2). rewrite (IZR_Zpower radix2) by lia.
      rewrite Rmult_minus_distr_r, Rmult_assoc, <- bpow_plus. replace (- Fexp f + Fexp f)%Z with 0%Z by lia. simpl. ring.
    + pose proof (bpow_gt_0 radix2 (Fexp f)) as Hb.
      assert (P : IZR (k * 2 ^ (- Fexp f)) * bpow radix2 (Fexp f) = IZR k).
      { rewrite mult_IZR. change 2%Z with (radix_val radix2). rewrite (IZR_Zpower radix2) by lia.
        rewrite Rmult_assoc, <- bpow_plus. replace (- Fexp f + Fexp f)%Z with 0%Z by lia. simpl. ring. }
      rewrite Hf in H1. unfold F2R in H1.
      assert (k * 2 ^ (- Fexp f) <= Fnum f)%Z.
      { apply le_IZR. apply Rmult_le_reg_r with (bpow radix2 (Fexp f)); auto. lra. }
      assert (0 <= k * 2 ^ (- Fexp f))%Z by (apply Z.mul_nonneg_nonneg; auto; apply Z.pow_nonneg; lia).
      eapply Z.le_lt_trans; [|exact Hm]. lia.
Qed.

(** ** Rounding next to a power of ten *)

Lemma rnd_half z q : (-1000 <= q <= 1000)%Z -> Rabs z < bpow radix2 (53 - q) -> Rabs (rnd z - z) <= / 2 * bpow radix2 (- q).
Proof.
  intros Hq H. destruct (Req_dec z 0) as [->|Hx].
  { rewrite rnd_0, Rminus_0_r, Rabs_R0. pose proof (bpow_gt_0 radix2 (- q)). lra. }
  eapply Rle_trans; [apply error_le_half_ulp; apply valid64|].
  apply Rmult_le_compat_l; [lra|]. rewrite ulp_neq_0 by auto. apply bpow_le. unfold cexp, SpecFloat.fexp, SpecFloat.emin.
  assert (Raux.mag radix2 z <= 53 - q)%Z; [|lia]. apply mag_le_bpow; auto.
Qed.

Lemma below_gap x n q : D x < IZR n -> (0 <= q)%Z -> bpow radix2 (52 - q) + bpow radix2 (- q) <= IZR n ->
  D x <= IZR n - bpow radix2 (- q).
Proof.
  intros H Hq Hn.
  destruct (FLT_format_generic radix2 (-1074) 53 (D x) (generic_format_B2R 53 1024 x)) as [f Hf Hm He].
  destruct (Z.le_gt_cases (- q) (Fexp f)) as [L|L].
  - pose proof (bpow_gt_0 radix2 (- q)) as Hb.
    assert (E : D x = IZR (Fnum f * 2 ^ (Fexp f + q)) * bpow radix2 (- q)).
    { rewrite Hf. unfold F2R. rewrite mult_IZR. change 2%Z with (radix_val radix2). rewrite (IZR_Zpower radix2) by lia.
      rewrite Rmult_assoc, <- bpow_plus. do 2 f_equal. lia. }
    assert (E2 : IZR n = IZR (n * 2 ^ q) * bpow radix2 (- q)).
    { rewrite mult_IZR. change 2%Z with (radix_val radix2). rewrite (IZR_Zpower radix2) by lia.
      rewrite Rmult_assoc, <- bpow_plus. replace (q + - q)%Z with 0%Z by lia. simpl. ring. }
    rewrite E, E2 in H |- *. apply Rmult_lt_reg_r in H; auto. apply lt_IZR in H.
    assert (G : (Fnum f * 2 ^ (Fexp f + q) <= n * 2 ^ q - 1)%Z) by lia. apply IZR_le in G. rewrite minus_IZR in G. nra.
  - assert (D x <= bpow radix2 (52 - q)); [|lra]. rewrite Hf.
    apply Rle_trans with (Rabs (F2R f)); [apply Rle_abs|]. unfold F2R. rewrite Rabs_mult, (Rabs_pos_eq (bpow _ _)) by apply bpow_ge_0. rewrite <- abs_IZR.
    replace (bpow radix2 (52 - q)) with (bpow radix2 53 * bpow radix2 (- q - 1)) by (rewrite <- bpow_plus; f_equal; lia).
    apply Rmult_le_compat; [apply IZR_le; lia|apply bpow_ge_0| |apply bpow_le; lia].
    change (bpow radix2 53) with (IZR (radix2 ^ 53)). apply IZR_le. apply Z.lt_le_incl. exact Hm.
Qed.

(* multiplication by ten (or 10^8) does not reach the next power of ten *)
Lemma times_below x a n q q' : D x < IZR n -> (0 <= q <= 1000)%Z -> (0 <= q' <= 53)%Z ->
  bpow radix2 (52 - q) + bpow radix2 (- q) <= IZR n ->
  0 <= D x -> 1 <= IZR a ->
  IZR a * IZR n < bpow radix2 (53 - q') -> / 2 * bpow radix2 (- q') < IZR a * bpow radix2 (- q) ->
  rnd (D x * IZR a) < IZR n * IZR a.
Proof.
  intros H Hq Hq' Hn H0 Ha H1 H2. pose proof (below_gap x n q H ltac:(lia) Hn) as G.
  assert (Hz : D x * IZR a <= IZR n * IZR a - IZR a * bpow radix2 (- q)) by nra.
  assert (Hz0 : 0 <= D x * IZR a) by nra.
  assert (Hl : Rabs (D x * IZR a) < bpow radix2 (53 - q')).
  { rewrite Rabs_pos_eq by auto. apply Rle_lt_trans with (2 := H1). nra. }
  pose proof (rnd_half _ q' ltac:(lia) Hl) as R. apply Rabs_le_inv in R. lra.
Qed.

Ltac bp k v := change (bpow radix2 k) with v.

Lemma times10 x k : (0 <= k <= 7)%Z -> 0 <= D x -> D x < p10 k -> rnd (D x * 10) < p10 (k + 1).
Proof.
  intros Hk H0 H. rewrite !p10_nonneg in * by lia.
  assert (Hn : IZR (10 ^ (k + 1)) = IZR (10 ^ k) * 10) by (rewrite Z.pow_add_r, mult_IZR by lia; reflexivity). rewrite Hn.
  assert (k = 0 \/ k = 1 \/ k = 2 \/ k = 3 \/ k = 4 \/ k = 5 \/ k = 6 \/ k = 7)%Z as C by lia.
  destruct C as [->|[->|[->|[->|[->|[->|[->| ->]]]]]]].
  - apply (times_below x 10 _ 53 49); auto; try lia; simpl; lra.
  - apply (times_below x 10 _ 49 46); auto; try lia; simpl; lra.
  - apply (times_below x 10 _ 46 43); auto; try lia; simpl; lra.
  - apply (times_below x 10 _ 43 39); auto; try lia; simpl; lra.
  - apply (times_below x 10 _ 39 36); auto; try lia; simpl; lra.
  - apply (times_below x 10 _ 36 33); auto; try lia; simpl; lra.
  - apply (times_below x 10 _ 33 29); auto; try lia; simpl; lra.
  - apply (times_below x 10 _ 29 26); auto; try lia; simpl; lra.
Qed.

Lemma times_mask x : 0 <= D x -> D x < 1 -> rnd (D x * 100000000) < 100000000.
Proof.
  intros H0 H. replace 100000000 with (IZR 1 * 100000000) at 2 by lra.
  apply (times_below x 100000000 1 53 26); auto; try lia; simpl; lra.
Qed.

(** ** Accumulated relative errors *)

Definition near (k : Z) (a b : R) : Prop := Rabs (a - b) <= IZR k * (2 * uu) * Rabs b.

Lemma near_refl a : near 0 a a.
Proof. unfold near. rewrite Rminus_diag_eq, Rabs_R0 by auto. lra. Qed.

Lemma near_step k a b e : (0 <= k <= 1000)%Z -> near k a b -> Rabs e <= uu -> near (k + 1) (a * (1 + e)) b.
Proof.
  intros Hk H He. unfold near in *. replace (a * (1 + e) - b) with ((a - b) * (1 + e) + b * e) by ring.
  eapply Rle_trans; [apply Rabs_triang|]. rewrite !Rabs_mult. rewrite plus_IZR.
  assert (A : Rabs (1 + e) <= 1 + uu).
  { eapply Rle_trans; [apply Rabs_triang|]. rewrite Rabs_R1. lra. }
  pose proof (Rabs_pos b). pose proof (Rabs_pos (a - b)). pose proof (Rabs_pos e). pose proof (Rabs_pos (1 + e)).
  assert (K : 0 <= IZR k <= 1000) by (split; apply IZR_le; lia).
  assert (U : 0 < uu < / 1000000) by (unfold uu; lra).
  assert (Rabs (a - b) * Rabs (1 + e) <= IZR k * (2 * uu) * Rabs b * (1 + uu)) by (apply Rmult_le_compat; auto).
  assert (Rabs b * Rabs e <= Rabs b * uu) by (apply Rmult_le_compat_l; auto).
  assert (IZR k * uu <= 1 / 2) by nra.
  assert (IZR k * (2 * uu) * Rabs b * uu <= uu * Rabs b).
  { replace (IZR k * (2 * uu) * Rabs b * uu) with ((IZR k * uu) * 2 * (uu * Rabs b)) by ring.
    assert (0 <= uu * Rabs b) by nra. nra. }
  lra.
Qed.

Lemma near_weaken k l a b : (k <= l)%Z -> near k a b -> near l a b.
Proof.
  intros H N. unfold near in *. eapply Rle_trans; [exact N|]. apply Rmult_le_compat_r; [apply Rabs_pos|].
  apply Rmult_le_compat_r; [unfold uu; lra|]. apply IZR_le. exact H.
Qed.

Lemma near_scale k a b c : near k a b -> near k (a * c) (b * c).
Proof.
  unfold near. intro H. replace (a * c - b * c) with ((a - b) * c) by ring. rewrite !Rabs_mult.
  rewrite <- Rmult_assoc. apply Rmult_le_compat_r; auto using Rabs_pos.
Qed.

(** ** The constructor *)

Lemma p10_pred a : p10 (a - 1) * 10 = p10 a.
Proof. transitivity (p10 (a - 1) * p10 1); [rewrite p10_1; reflexivity|]. rewrite <- p10_add. f_equal. lia. Qed.

Lemma ten_ok : is_finite (d_of_Z 10) = true /\ D (d_of_Z 10) = 10.
Proof. apply d_of_Z_ok. lia. Qed.
Lemma one_ok : is_finite (d_of_Z 1) = true /\ D (d_of_Z 1) = 1.
Proof. apply d_of_Z_ok. lia. Qed.
Lemma mask_ok : is_finite (d_of_Z mask) = true /\ D (d_of_Z mask) = 100000000.
Proof. apply d_of_Z_ok. unfold mask; lia. Qed.

(* one multiplication by ten *)
Lemma mul10_ok x : is_finite x = true -> / 1000000 <= D x <= 100000000 ->
  is_finite (dmul x (d_of_Z 10)) = true /\ D (dmul x (d_of_Z 10)) = rnd (D x * 10) /\
  exists e, Rabs e <= uu /\ D (dmul x (d_of_Z 10)) = D x * 10 * (1 + e).
Proof.
  intros Fx H. destruct ten_ok as [F10 V10].
  destruct (dmul_ok x (d_of_Z 10) Fx F10) as [F V]. { rewrite V10, Rabs_pos_eq; lra. }
  rewrite V10 in V. split; [exact F|]. split; [exact V|].
  destruct (rnd_rel (D x * 10)) as (e & He & E). { rewrite Rabs_pos_eq; lra. }
  exists e. split; auto. rewrite V. exact E.
Qed.

Lemma scale_up_ok f x e : is_finite x = true -> 1 / 16 <= D x < 10 ->
  exists x' e', scale_up (S (S (S f))) x e = (x', e') /\ is_finite x' = true /\ 1 <= D x' < 10 /\
    near 2 (D x' * p10 e') (D x * p10 e).
Proof.
  intros Fx H. destruct one_ok as [F1 V1].
  assert (Step : forall y a, is_finite y = true -> 1 / 16 <= D y < 1 ->
    let y' := dmul y (d_of_Z 10) in is_finite y' = true /\ 10 / 16 <= D y' < 10 /\ (1 / 10 <= D y -> 99 / 100 <= D y') /\ 9 * D y <= D y' /\
    exists h, Rabs h <= uu /\ D y' * p10 (a - 1) = D y * p10 a * (1 + h)).
  { intros y a Fy Hy y'. destruct (mul10_ok y Fy ltac:(lra)) as (F' & R' & h & Hh & E').
    fold y' in F', R', E'.
    assert (L : D y' < 10). { rewrite R'. pose proof (times10 y 0 ltac:(lia) ltac:(lra) ltac:(rewrite p10_0; lra)) as T. change (0 + 1)%Z with 1%Z in T. rewrite p10_1 in T. exact T. }
    assert (Hu : -(1 / 1000) <= h <= 1 / 1000). { apply Rabs_le_inv in Hh. unfold uu in Hh. lra. }
    assert (L2 : 10 / 16 <= D y').
    { rewrite R'. replace (10 / 16) with (rnd (10 / 16)). apply rnd_mono. lra.
      apply rnd_id. apply (generic_format_FLT radix2 (-1074) 53).
      exists (Float radix2 5 (-3)); simpl; [unfold F2R; simpl; lra|lia|lia]. }
    split; [exact F'|]. split; [lra|]. split; [rewrite E'; nra|]. split; [rewrite E'; nra|].
    exists h. split; [exact Hh|]. rewrite E'. replace (p10 a) with (p10 (a - 1) * 10).
    - ring.
    - apply p10_pred. }
  cbn [scale_up]. destruct (dlt x (d_of_Z 1)) eqn:C1.
  - apply dlt_ok in C1; auto. rewrite V1 in C1.
    destruct (Step x e Fx ltac:(lra)) as (F' & B' & _ & _ & h & Hh & E').
    set (x1 := dmul x (d_of_Z 10)) in *. cbn [scale_up].
    destruct (dlt x1 (d_of_Z 1)) eqn:C2.
    + apply dlt_ok in C2; auto. rewrite V1 in C2.
      destruct (Step x1 (e - 1)%Z F' ltac:(lra)) as (F2 & B2 & _ & B3 & h2 & Hh2 & E2).
      set (x2 := dmul x1 (d_of_Z 10)) in *.
      assert (C3 : dlt x2 (d_of_Z 1) = false) by (apply dlt_false; auto; rewrite V1; lra).
      exists x2, (e - 1 - 1)%Z. rewrite C3.
      split; [reflexivity|]. split; auto. split; [lra|].
      rewrite E2, E'. change 2%Z with (0 + 1 + 1)%Z. apply near_step; auto; [lia|]. apply near_step; auto; [lia|]. apply near_refl.
    + apply dlt_false in C2; auto. rewrite V1 in C2. exists x1, (e - 1)%Z. split; auto. split; auto. split; [lra|].
      rewrite E'. apply near_weaken with 1%Z; [lia|]. change 1%Z with (0 + 1)%Z. apply near_step; auto; [lia|]. apply near_refl.
  - apply dlt_false in C1; auto. rewrite V1 in C1. exists x, e. split; auto. split; auto. split; [lra|].
    apply near_weaken with 0%Z; [lia|]. apply near_refl.
Qed.

Lemma shift_loop_ok : forall j f s x e b k, (Z.of_nat j <= Z.of_nat f)%Z -> (s mod 8 = Z.of_nat j)%Z -> (-8 <= s < 8)%Z -> (Z.of_nat j + k <= 8)%Z -> (0 <= k)%Z ->
  is_finite x = true -> 1 <= D x < p10 k -> near (1 + k) (D x * p10 e) b ->
  exists x', shift_loop f s x e = (x', e - Z.of_nat j)%Z /\ is_finite x' = true /\ 1 <= D x' < p10 (k + Z.of_nat j) /\
    near (1 + k + Z.of_nat j) (D x' * p10 (e - Z.of_nat j)) b.
Proof.
  induction j as [|j IH]; intros f s x e b k Hf Hs Hr Hk Hk0 Fx Hx Hn.
  - exists x. replace (e - Z.of_nat 0)%Z with e by lia. replace (k + Z.of_nat 0)%Z with k by lia.
    replace (1 + k + Z.of_nat 0)%Z with (1 + k)%Z by lia. split; auto.
    destruct f; cbn [shift_loop]; auto. replace (Z.rem s 8 =? 0)%Z with true; auto. symmetry. apply Z.eqb_eq.
    assert (s = 0 \/ s = -8)%Z as [->| ->] by lia; reflexivity.
  - destruct f; [lia|]. cbn [shift_loop].
    replace (Z.rem s 8 =? 0)%Z with false.
    2: { symmetry. apply Z.eqb_neq. intro R. assert (s mod 8 = 0)%Z; [|lia]. apply Z.mod_divide; [lia|]. apply Z.rem_divide in R; [exact R|lia]. }
    assert (P8 : p10 k <= 100000000).
    { apply Rle_trans with (p10 8); [apply p10_le; lia|]. rewrite p10_nonneg by lia. simpl. lra. }
    destruct (mul10_ok x Fx ltac:(lra)) as (F' & R' & h & Hh & E').
    assert (B : 1 <= D (dmul x (d_of_Z 10)) < p10 (k + 1)).
    { split.
      - rewrite R'. apply Rle_trans with (rnd 1); [right; symmetry; apply (rnd_Z 1); lia|]. apply rnd_mono. lra.
      - rewrite R'. apply times10; [lia|lra|lra]. }
    destruct (IH f (s - 1)%Z (dmul x (d_of_Z 10)) (e - 1)%Z b (k + 1)%Z) as (x' & EQ & Fx' & Bx & Nx); auto; try lia.
    { replace (D (dmul x (d_of_Z 10)) * p10 (e - 1)) with (D x * p10 e * (1 + h)).
      - replace (1 + (k + 1))%Z with (1 + k + 1)%Z by lia. apply near_step; auto. lia.
      - rewrite E'. replace (p10 e) with (p10 (e - 1) * 10); [ring|]. apply p10_pred. }
    exists x'. rewrite EQ. replace (e - Z.of_nat (S j))%Z with (e - 1 - Z.of_nat j)%Z by lia.
    replace (k + Z.of_nat (S j))%Z with (k + 1 + Z.of_nat j)%Z by lia.
    replace (1 + k + Z.of_nat (S j))%Z with (1 + (k + 1) + Z.of_nat j)%Z by lia. auto.
Qed.

Lemma limb_step x : is_finite x = true -> 0 <= D x < 100000000 ->
  let k := u32_of_d x in
  let x' := dmul (dsub x (d_of_Z k)) (d_of_Z mask) in
  is_limb k /\ IZR k <= D x < IZR k + 1 /\ is_finite x' = true /\ 0 <= D x' < 100000000 /\
  Rabs (D x' - (D x - IZR k) * 100000000) <= / 134217728.
Proof.
  intros Fx H k x'. pose proof (Btrunc_floor x (proj1 H)) as [T1 T2].
  assert (Bt : (0 <= Btrunc x < 100000000)%Z).
  { split.
    - assert (-1 < Btrunc x)%Z; [|lia]. apply lt_IZR. lra.
    - apply lt_IZR. lra. }
  assert (Ek : k = Btrunc x). { unfold k, u32_of_d. rewrite u64_small by lia. apply u32_small. lia. }
  rewrite Ek in *. clear Ek. fold x'. 
  split; [unfold is_limb; lia|]. split; [lra|].
  destruct (d_of_Z_ok (Btrunc x) ltac:(lia)) as [Fk Vk].
  assert (B1 : 0 <= D x - IZR (Btrunc x) < 1) by lra.
  destruct (dsub_ok x (d_of_Z (Btrunc x)) Fx Fk) as [Fs Vs]. { rewrite Vk, Rabs_pos_eq; lra. }
  rewrite Vk, (frac_format x (Btrunc x) ltac:(lra) ltac:(lia)) in Vs.
  destruct mask_ok as [Fm Vm].
  destruct (dmul_ok (dsub x (d_of_Z (Btrunc x))) (d_of_Z mask) Fs Fm) as [F' V']. { rewrite Vs, Vm, Rabs_pos_eq; lra. }
  assert (Ex : x' = dmul (dsub x (d_of_Z (Btrunc x))) (d_of_Z mask)).
  { unfold x', k, u32_of_d. rewrite u64_small by lia. rewrite u32_small by lia. reflexivity. }
  rewrite <- Ex in F', V'. split; [exact F'|].
  rewrite Vm in V'. rewrite V'. split; [split|].
  - rewrite <- rnd_0. apply rnd_mono. rewrite Vs. lra.
  - apply times_mask; rewrite Vs; lra.
  - rewrite Vs. apply rnd_abs. rewrite Rabs_pos_eq; lra.
Qed.

Lemma double_limbs_ok x : is_finite x = true -> 1 <= D x < 100000000 ->
  exists a b c, double_limbs 3 x = [a; b; c] /\ is_limb a /\ is_limb b /\ is_limb c /\ (1 <= a)%Z /\
  Rabs (IZR a + IZR b / 100000000 + IZR c / 10000000000000000 - D x) <= / 5000000000000000.
Proof.
  intros Fx H. destruct (limb_step x Fx ltac:(lra)) as (La & Ta & F1 & B1 & E1).
  set (a := u32_of_d x) in *. set (x1 := dmul (dsub x (d_of_Z a)) (d_of_Z mask)) in *.
  destruct (limb_step x1 F1 B1) as (Lb & Tb & F2 & B2 & E2).
  set (b := u32_of_d x1) in *. set (x2 := dmul (dsub x1 (d_of_Z b)) (d_of_Z mask)) in *.
  destruct (limb_step x2 F2 B2) as (Lc & Tc & _). set (c := u32_of_d x2) in *.
  exists a, b, c. split; [reflexivity|]. split; auto. split; auto. split; auto.
  split. { assert (0 < a)%Z; [|lia]. apply lt_IZR. lra. }
  apply Rabs_le_inv in E1. apply Rabs_le_inv in E2. apply Rabs_le. lra.
Qed.

Lemma min_eps_small : is_finite dbl_min_eps = true /\ D dbl_min_eps <= 1 / 1024.
Proof.
  pose proof (binary_normalize_correct 53 1024 d_prec d_emax mode_NE 4503599627370497 (-1074) false) as C. cbv zeta in C.
  set (z := F2R _) in C.
  assert (Hz : 0 <= z <= 1 / 1024).
  { unfold z, F2R. cbn [Fnum Fexp]. pose proof (bpow_gt_0 radix2 (-1074)). split; [nra|].
    apply Rle_trans with (bpow radix2 53 * bpow radix2 (-1074)).
    - apply Rmult_le_compat_r; [lra|]. change (bpow radix2 53) with 9007199254740992. lra.
    - rewrite <- bpow_plus. apply Rle_trans with (bpow radix2 (-10)); [apply bpow_le; lia|]. change (bpow radix2 (-10)) with (/ 1024). lra. }
  rewrite Rlt_bool_true in C.
  - destruct C as (C1 & C2 & _). split; [exact C2|]. unfold D, dbl_min_eps. rewrite C1.
    apply Rle_trans with (rnd (1 / 1024)); [apply rnd_mono; lra|]. right. apply rnd_id.
    apply (generic_format_FLT radix2 (-1074) 53). exists (Float radix2 1 (-10)); simpl; [unfold F2R; simpl; lra|lia|lia].
  - apply rnd_small. rewrite Rabs_pos_eq; lra.
Qed.

Lemma value_three d a b c e n : value (mkef ([a; b; c] ++ repeat 0%Z n) e false Finite d) =
  (IZR a + IZR b / 100000000 + IZR c / 10000000000000000) * p10 e.
Proof.
  unfold value, sign. cbn [data exp neg app limbs_value]. rewrite limbs_value_repeat0.
  replace (e - 8 - 8)%Z with (e + - (16))%Z by lia. replace (e - 8)%Z with (e + - (8))%Z by lia. rewrite !p10_add, !p10_inv.
  rewrite (p10_nonneg 8), (p10_nonneg 16) by lia. change (10 ^ 8)%Z with 100000000%Z. change (10 ^ 16)%Z with 10000000000000000%Z. field.
Qed.

Lemma scale_down_id f m e : is_finite m = true -> D m < 10 -> scale_down f m e = (m, e).
Proof.
  intros Fm Hm. destruct ten_ok as [F10 V10]. destruct f; auto. cbn [scale_down].
  assert (H : dlt (d_of_Z 10) m = false) by (apply dlt_false; auto; rewrite V10; lra). rewrite H. reflexivity.
Qed.

Lemma of_double_ok d m e : valid_digits d -> is_finite m = true -> 1 / 16 <= D m < 10 ->
  let r := of_double d m e in
  finite d r /\ prec r = elem_number d /\ neg r = false /\ 0 < value r /\
  Rabs (value r - D m * p10 e) <= / 100000000000000 * (D m * p10 e).
Proof.
  intros Hd Fm Hm. pose proof (elem_number_bounds d Hd) as HN. pose proof (Nn_Z d Hd) as HNn.
  unfold of_double. destruct min_eps_small as [Fe Ve]. destruct one_ok as [F1 V1]. destruct ten_ok as [F10 V10].
  assert (A : dlt (dabs m) dbl_min_eps = false).
  { apply dlt_false; auto; unfold dabs. rewrite is_finite_Babs; auto. unfold D in *. rewrite B2R_Babs, Rabs_pos_eq; lra. }
  rewrite A.
  assert (B : dlt m (d_of_Z 0) = false).
  { destruct (d_of_Z_ok 0 ltac:(lia)). apply dlt_false; auto. rewrite H0. lra. }
  rewrite B. cbn [negb].
  rewrite scale_down_id by (auto; lra).
  destruct (scale_up_ok 397 m e Fm Hm) as (x1 & e1 & E1 & Fx1 & B1 & N1).
  change 400%nat with (S (S (S 397))). rewrite E1.
  destruct (shift_loop_ok (Z.to_nat (e1 mod 8)) 8 (Z.rem e1 8) x1 e1 (D m * p10 e) 1) as (x2 & E2 & Fx2 & B2 & N2); auto; try lia.
  { rewrite Z2Nat.id by lia. pose proof (Z.quot_rem e1 8 ltac:(lia)).
    replace e1 with (Z.rem e1 8 + (e1 ÷ 8) * 8)%Z at 2 by lia. rewrite Z.mod_add by lia. reflexivity. }
  { pose proof (Z.rem_bound_abs e1 8 ltac:(lia)). lia. }
  { rewrite p10_1. lra. }
  rewrite Z2Nat.id in * by lia. rewrite E2.
  assert (B3 : 1 <= D x2 < 100000000).
  { split; [lra|]. apply Rlt_le_trans with (1 := proj2 B2). apply Rle_trans with (p10 8); [apply p10_le; lia|].
    rewrite p10_nonneg by lia. simpl. lra. }
  destruct (double_limbs_ok x2 Fx2 B3) as (a & b & c & El & La & Lb & Lc & Ha & Hv). rewrite El.
  set (e2 := (e1 - e1 mod 8)%Z) in *.
  assert (Hdiv : (e2 mod 8 = 0)%Z) by (unfold e2; lia).
  cbv zeta. rewrite value_three.
  set (V := IZR a + IZR b / 100000000 + IZR c / 10000000000000000) in *.
  pose proof (p10_pos e2) as P2. pose proof (p10_pos e) as Pe.
  assert (HV : 0 < V). { apply Rabs_le_inv in Hv. lra. }
  split.
  { split; [|reflexivity]. constructor; cbn [data exp neg cls prec].
    - rewrite app_length, repeat_length. simpl length. unfold Nn in *. lia.
    - apply limbs_app; [do 3 (apply Forall_cons; [assumption|]); constructor|apply limbs_repeat0].
    - exact Hdiv.
    - unfold N. lia.
    - intros _ H. simpl in H. lia.
    - congruence. }
  split; [reflexivity|]. split; [reflexivity|]. split; [nra|].
  assert (N3 : near 9 (D x2 * p10 e2) (D m * p10 e)). { apply near_weaken with (2 := N2). lia. }
  unfold near in N3. rewrite (Rabs_pos_eq (D m * p10 e)) in N3 by nra.
  set (M := D m * p10 e) in *. assert (HM : 0 < M) by (unfold M; nra).
  replace (V * p10 e2 - M) with ((V - D x2) * p10 e2 + (D x2 * p10 e2 - M)) by ring.
  eapply Rle_trans; [apply Rabs_triang|].
  rewrite Rabs_mult, (Rabs_pos_eq (p10 e2)) by lra.
  assert (Q1 : Rabs (V - D x2) * p10 e2 <= / 5000000000000000 * (D x2 * p10 e2)).
  { apply Rle_trans with (/ 5000000000000000 * p10 e2); [apply Rmult_le_compat_r; lra|]. apply Rmult_le_compat_l; [lra|]. nra. }
  apply Rabs_le_inv in N3 as N4. unfold uu in *. lra.
Qed.
