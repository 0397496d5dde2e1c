(** * The constructor from mantissa and exponent for every finite double
    (proofs only). *)

From Flocq Require Import Core Relative BinarySingleNaN.
From Coq Require Import ZArith List Bool Reals Lra Lia Psatz.
From Verif Require Import Model Spec Limbs Value CmpProofs AddProofs Decide OrderProofs MulProofs MulValue MulCor
  IntProofs ModelDiv DoubleProofs InvProofs.
Import ListNotations.
Open Scope R_scope.
Ltac Zify.zify_post_hook ::= Z.div_mod_to_equations.
Local Notation p10 := (powerRZ 10).
Local Notation exp := Model.exp.

Lemma rnd_rel_normal x : bpow radix2 (-1022) <= Rabs x -> exists e, Rabs e <= uu /\ rnd x = x * (1 + e).
Proof.
  intro H. destruct (relative_error_N_FLT_ex radix2 (-1074) 53 eq_refl (fun z => negb (Z.even z)) x) as (e & H1 & H2).
  - exact H.
  - exists e. split; [|exact H2]. eapply Rle_trans; [exact H1|]. right. unfold uu. change (- (53) + 1)%Z with (-52)%Z.
    change (bpow radix2 (-52)) with (/ 4503599627370496). field.
Qed.

Lemma D_below x : is_finite x = true -> Rabs (D x) < bpow radix2 1024.
Proof. intro F. unfold D. apply abs_B2R_lt_emax. Qed.

Lemma small_bpow : bpow radix2 (-1022) <= 1 / 16.
Proof. apply Rle_trans with (bpow radix2 (-4)); [apply bpow_le; lia|]. change (bpow radix2 (-4)) with (/ 16). lra. Qed.

Lemma div10_ok x : is_finite x = true -> 10 < D x ->
  is_finite (ddiv x (d_of_Z 10)) = true /\ 1 <= D (ddiv x (d_of_Z 10)) <= D x / 9 /\
  exists e, Rabs e <= uu /\ D (ddiv x (d_of_Z 10)) = D x / 10 * (1 + e).
Proof.
  intros F H. destruct ten_ok as [F10 V10].
  pose proof (Bdiv_correct 53 1024 d_prec d_emax mode_NE x (d_of_Z 10)) as C. fold (D (d_of_Z 10)) in C. rewrite V10 in C.
  specialize (C ltac:(lra)). fold (D x) in C. fold (rnd (D x / 10)) in C.
  assert (B : 1 <= rnd (D x / 10) <= D x).
  { split.
    - apply Rle_trans with (rnd 1); [right; symmetry; apply (rnd_Z 1); lia|]. apply rnd_mono. lra.
    - apply Rle_trans with (rnd (D x)); [apply rnd_mono; lra|]. right. apply rnd_D. }
  rewrite Rlt_bool_true in C.
  2: { rewrite Rabs_pos_eq by lra. pose proof (D_below x F) as G. rewrite Rabs_pos_eq in G by lra. lra. }
  destruct C as (C1 & C2 & _). rewrite F in C2. fold (ddiv x (d_of_Z 10)) in C1, C2.
  split; [exact C2|]. fold (D (ddiv x (d_of_Z 10))) in C1.
  destruct (rnd_rel_normal (D x / 10)) as (e & He & E).
  { rewrite Rabs_pos_eq by lra. pose proof small_bpow. lra. }
  rewrite C1, E. split.
  - split; [lra|]. apply Rabs_le_inv in He. unfold uu in He. nra.
  - exists e. auto.
Qed.

Lemma scale_down_ok : forall f x e b n, is_finite x = true -> 1 < D x < 10 * 9 ^ f -> (0 <= n)%Z -> (n + Z.of_nat f <= 1000)%Z ->
  near n (D x * p10 e) b ->
  exists x' e', scale_down f x e = (x', e') /\ is_finite x' = true /\ 1 <= D x' <= 10 /\
    near (n + Z.of_nat f) (D x' * p10 e') b.
Proof.
  destruct ten_ok as [F10 V10].
  induction f as [|f IH]; intros x e b n Fx Hx Hn Hm Nx.
  - exists x, e. replace (n + Z.of_nat 0)%Z with n by lia. simpl in Hx. split; [reflexivity|]. split; auto. split; [lra|auto].
  - cbn [scale_down]. destruct (dlt (d_of_Z 10) x) eqn:C.
    + apply dlt_ok in C; auto. rewrite V10 in C.
      destruct (div10_ok x Fx C) as (F' & B' & h & Hh & E').
      assert (Nx' : near (n + 1) (D (ddiv x (d_of_Z 10)) * p10 (e + 1)) b).
      { replace (D (ddiv x (d_of_Z 10)) * p10 (e + 1)) with (D x * p10 e * (1 + h)).
        - apply near_step; auto. lia.
        - rewrite E', p10_add, p10_1. field. }
      destruct (Rle_lt_dec (D (ddiv x (d_of_Z 10))) 1) as [L1|L1].
      * (* exactly one: the loop stops *)
        assert (S1 : scale_down f (ddiv x (d_of_Z 10)) (e + 1) = (ddiv x (d_of_Z 10), e + 1)%Z).
        { destruct f; auto. cbn [scale_down]. replace (dlt (d_of_Z 10) (ddiv x (d_of_Z 10))) with false; auto.
          symmetry. apply dlt_false; auto. rewrite V10. lra. }
        exists (ddiv x (d_of_Z 10)), (e + 1)%Z. split; auto. split; auto. split; [lra|]. apply near_weaken with (n + 1)%Z; auto. lia.
      * destruct (IH (ddiv x (d_of_Z 10)) (e + 1)%Z b (n + 1)%Z) as (x' & e' & Es & Fs & Bs & Ns); auto; try lia.
        { split; auto. simpl in Hx. lra. }
        exists x', e'. split; auto. split; auto. split; auto. replace (n + Z.of_nat (S f))%Z with (n + 1 + Z.of_nat f)%Z by lia. exact Ns.
    + apply dlt_false in C; auto. rewrite V10 in C. exists x, e. split; auto. split; auto. split; [lra|]. apply near_weaken with n; auto. lia.
Qed.

Lemma scale_up_gen : forall f x e b n, is_finite x = true -> D x <= 10 -> bpow radix2 (-1022) <= D x -> 1 <= D x * 9 ^ f ->
  (0 <= n)%Z -> (n + Z.of_nat f <= 1000)%Z -> near n (D x * p10 e) b ->
  exists x' e', scale_up f x e = (x', e') /\ is_finite x' = true /\ 1 <= D x' <= 10 /\ (D x < 10 -> D x' < 10) /\
    near (n + Z.of_nat f) (D x' * p10 e') b.
Proof.
  destruct one_ok as [F1 V1]. destruct ten_ok as [F10 V10].
  induction f as [|f IH]; intros x e b n Fx Hx Hs H9 Hn Hm Nx.
  - exists x, e. replace (n + Z.of_nat 0)%Z with n by lia. simpl in H9. split; [reflexivity|]. split; auto. split; [lra|auto].
  - cbn [scale_up]. destruct (dlt x (d_of_Z 1)) eqn:C.
    + apply dlt_ok in C; auto. rewrite V1 in C. pose proof (bpow_gt_0 radix2 (-1022)) as Pb.
      destruct (dmul_ok x (d_of_Z 10) Fx F10) as [F' V']. { rewrite V10, Rabs_pos_eq; lra. }
      rewrite V10 in V'.
      destruct (rnd_rel_normal (D x * 10)) as (h & Hh & E). { rewrite Rabs_pos_eq; lra. }
      assert (L : rnd (D x * 10) < 10).
      { pose proof (times10 x 0 ltac:(lia) ltac:(lra) ltac:(rewrite p10_0; lra)) as T. change (0 + 1)%Z with 1%Z in T. rewrite p10_1 in T. exact T. }
      assert (Hu : -(1 / 1000) <= h <= 1 / 1000). { apply Rabs_le_inv in Hh. unfold uu in Hh. lra. }
      assert (L9 : 9 * D x <= rnd (D x * 10)) by (rewrite E; nra).
      destruct (IH (dmul x (d_of_Z 10)) (e - 1)%Z b (n + 1)%Z) as (x' & e' & Es & Fs & Bs & Ts & Ns); auto; try lia; try lra.
      { rewrite V'. pose proof (pow_lt 9 f ltac:(lra)). simpl in H9. nra. }
      { rewrite V', E. replace (D x * 10 * (1 + h) * p10 (e - 1)) with (D x * p10 e * (1 + h)); [apply near_step; auto; lia|].
        rewrite <- (p10_pred e). ring. }
      exists x', e'. split; auto. split; auto. split; auto. split; [intros _; apply Ts; lra|].
      replace (n + Z.of_nat (S f))%Z with (n + 1 + Z.of_nat f)%Z by lia. exact Ns.
    + apply dlt_false in C; auto. rewrite V1 in C. exists x, e. split; auto. split; auto. split; [lra|]. split; auto. apply near_weaken with n; auto. lia.
Qed.

Lemma shift_loop_gen : forall j f s x e b k n, (Z.of_nat j <= Z.of_nat f)%Z -> (s mod 8 = Z.of_nat j)%Z -> (-8 <= s < 8)%Z ->
  (Z.of_nat j + k <= 8)%Z -> (0 <= k)%Z -> (0 <= n)%Z -> (n + Z.of_nat j <= 1000)%Z ->
  is_finite x = true -> 1 <= D x <= p10 k -> near n (D x * p10 e) b ->
  exists x', shift_loop f s x e = (x', e - Z.of_nat j)%Z /\ is_finite x' = true /\ 1 <= D x' <= p10 (k + Z.of_nat j) /\
    (D x < p10 k -> D x' < p10 (k + Z.of_nat j)) /\
    near (n + Z.of_nat j) (D x' * p10 (e - Z.of_nat j)) b.
Proof.
  induction j as [|j IH]; intros f s x e b k n Hf Hs Hr Hk Hk0 Hn0 Hn1 Fx Hx Hn.
  - exists x. replace (e - Z.of_nat 0)%Z with e by lia. replace (k + Z.of_nat 0)%Z with k by lia.
    replace (n + Z.of_nat 0)%Z with n by lia. split; auto.
    destruct f; cbn [shift_loop]; auto. replace (Z.rem s 8 =? 0)%Z with true; auto. symmetry. apply Z.eqb_eq.
    assert (s = 0 \/ s = -8)%Z as [->| ->] by lia; reflexivity.
  - destruct f; [lia|]. cbn [shift_loop].
    replace (Z.rem s 8 =? 0)%Z with false.
    2: { symmetry. apply Z.eqb_neq. intro R. assert (s mod 8 = 0)%Z; [|lia]. apply Z.mod_divide; [lia|]. apply Z.rem_divide in R; [exact R|lia]. }
    assert (P8 : p10 k <= 100000000).
    { apply Rle_trans with (p10 8); [apply p10_le; lia|]. rewrite p10_nonneg by lia. simpl. lra. }
    destruct (mul10_ok x Fx ltac:(lra)) as (F' & R' & h & Hh & E').
    assert (B : 1 <= D (dmul x (d_of_Z 10)) <= p10 (k + 1)).
    { split.
      - rewrite R'. apply Rle_trans with (rnd 1); [right; symmetry; apply (rnd_Z 1); lia|]. apply rnd_mono. lra.
      - rewrite R'. apply Rle_trans with (rnd (p10 (k + 1))).
        + apply rnd_mono. rewrite p10_add, p10_1. lra.
        + right. rewrite p10_nonneg by lia. apply rnd_Z. rewrite Z.abs_eq by (apply Z.pow_nonneg; lia).
          apply Z.le_lt_trans with (10 ^ 8)%Z; [apply Z.pow_le_mono_r; lia|reflexivity]. }
    destruct (IH f (s - 1)%Z (dmul x (d_of_Z 10)) (e - 1)%Z b (k + 1)%Z (n + 1)%Z) as (x' & EQ & Fx' & Bx & Sx & Nx); auto; try lia.
    { replace (D (dmul x (d_of_Z 10)) * p10 (e - 1)) with (D x * p10 e * (1 + h)).
      - apply near_step; auto. lia.
      - rewrite E'. rewrite <- (p10_pred e). ring. }
    exists x'. rewrite EQ. replace (e - Z.of_nat (S j))%Z with (e - 1 - Z.of_nat j)%Z by lia.
    replace (k + Z.of_nat (S j))%Z with (k + 1 + Z.of_nat j)%Z by lia.
    replace (n + Z.of_nat (S j))%Z with (n + 1 + Z.of_nat j)%Z by lia.
    split; auto. split; auto. split; auto. split; auto. intro Hs'. apply Sx. rewrite R'. apply times10; [lia|lra|lra].
Qed.

Lemma double_limbs_gen x : is_finite x = true -> 1 <= D x <= 100000000 ->
  exists a b c, double_limbs 3 x = [a; b; c] /\ is_limb b /\ is_limb c /\ (1 <= a)%Z /\ (D x < 100000000 -> is_limb a) /\
  Rabs (IZR a + IZR b / 100000000 + IZR c / 10000000000000000 - D x) <= / 5000000000000000.
Proof.
  intros Fx [H1 H2]. destruct (Rle_lt_or_eq_dec _ _ H2) as [L|E].
  - destruct (double_limbs_ok x Fx (conj H1 L)) as (a & b & c & A & B & C & F & G & K). exists a, b, c. auto 8.
  - exists 100000000%Z, 0%Z, 0%Z.
    assert (T : Btrunc x = 100000000%Z).
    { pose proof (Btrunc_floor x ltac:(lra)) as [T1 T2]. rewrite E in T1, T2.
      apply le_IZR in T1. assert (100000000 < Btrunc x + 1)%Z; [|lia]. apply lt_IZR. rewrite plus_IZR. exact T2. }
    assert (K : u32_of_d x = 100000000%Z) by (unfold u32_of_d; rewrite T; reflexivity).
    cbn [double_limbs]. rewrite K.
    destruct (d_of_Z_ok 100000000 ltac:(lia)) as [Fk Vk]. destruct mask_ok as [Fm Vm].
    destruct (dsub_ok x (d_of_Z 100000000) Fx Fk) as [Fs Vs]. { rewrite Vk, E, Rminus_diag_eq, Rabs_R0 by auto. lra. }
    rewrite Vk, E, Rminus_diag_eq, rnd_0 in Vs by auto.
    set (y := dsub x (d_of_Z 100000000)) in *.
    assert (Z0 : forall y, is_finite y = true -> D y = 0 -> u32_of_d y = 0%Z /\ 
      is_finite (dmul (dsub y (d_of_Z 0)) (d_of_Z mask)) = true /\ D (dmul (dsub y (d_of_Z 0)) (d_of_Z mask)) = 0).
    { clear - Fm Vm. intros y Fs Vs. pose proof (Btrunc_floor y ltac:(lra)) as [T1 T2]. rewrite Vs in T1, T2.
      assert (T : Btrunc y = 0%Z). { apply le_IZR in T1. assert (0 < Btrunc y + 1)%Z; [|lia]. apply lt_IZR. rewrite plus_IZR. exact T2. }
      split; [unfold u32_of_d; rewrite T; reflexivity|].
      destruct (d_of_Z_ok 0 ltac:(lia)) as [F0 V0].
      destruct (dsub_ok y (d_of_Z 0) Fs F0) as [Fd Vd]. { rewrite Vs, V0, Rminus_0_r, Rabs_R0. lra. }
      rewrite Vs, V0, Rminus_0_r, rnd_0 in Vd.
      destruct (dmul_ok (dsub y (d_of_Z 0)) (d_of_Z mask) Fd Fm) as [Fq Vq]. { rewrite Vd, Rmult_0_l, Rabs_R0. lra. }
      rewrite Vd, Rmult_0_l, rnd_0 in Vq. auto. }
    destruct (dmul_ok y (d_of_Z mask) Fs Fm) as [Fq Vq]. { rewrite Vs, Rmult_0_l, Rabs_R0. lra. }
    rewrite Vs, Rmult_0_l, rnd_0 in Vq.
    destruct (Z0 _ Fq Vq) as (K1 & Fq1 & Vq1). rewrite K1. destruct (Z0 _ Fq1 Vq1) as (K2 & _). rewrite K2.
    split; [reflexivity|]. unfold is_limb. split; [lia|]. split; [lia|]. split; [lia|]. split; [lra|].
    rewrite E. replace (100000000 + 0 / 100000000 + 0 / 10000000000000000 - 100000000) with 0 by field. rewrite Rabs_R0. lra.
Qed.

Lemma scale_down_le f m e : is_finite m = true -> D m <= 10 -> scale_down f m e = (m, e).
Proof.
  intros Fm Hm. destruct ten_ok as [F10 V10]. destruct f; auto. cbn [scale_down].
  assert (H : dlt (d_of_Z 10) m = false) by (apply dlt_false; auto; rewrite V10; lra). rewrite H. reflexivity.
Qed.

Lemma pow9_big : bpow radix2 1024 <= 10 * 9 ^ 400.
Proof.
  rewrite <- (IZR_Zpower radix2) by lia. rewrite (pow_IZR 9 400). rewrite <- mult_IZR. apply IZR_le.
  apply Z.leb_le. vm_compute. reflexivity.
Qed.

Lemma pow9_small : 1 <= bpow radix2 (-1022) * 9 ^ 400.
Proof.
  change (-1022)%Z with (- (1022))%Z. rewrite bpow_opp. apply Rmult_le_reg_l with (bpow radix2 1022); [apply bpow_gt_0|].
  rewrite <- Rmult_assoc, Rinv_r, Rmult_1_l, Rmult_1_r by (apply Rgt_not_eq, bpow_gt_0).
  rewrite <- (IZR_Zpower radix2) by lia. rewrite (pow_IZR 9 400). apply IZR_le. apply Z.leb_le. vm_compute. reflexivity.
Qed.

Lemma min_eps_value : is_finite dbl_min_eps = true /\ D dbl_min_eps = IZR 4503599627370497 * bpow radix2 (-1074).
Proof.
  pose proof (binary_normalize_correct 53 1024 d_prec d_emax mode_NE 4503599627370497 (-1074) false) as C. cbv zeta in C.
  set (z := F2R _) in C. fold (rnd z) in C.
  assert (Hz : rnd z = z).
  { apply rnd_id. apply (generic_format_FLT radix2 (-1074) 53). exists (Float radix2 4503599627370497 (-1074)); [reflexivity|reflexivity|simpl; lia]. }
  rewrite Hz in C. destruct min_eps_small as [F _].
  rewrite Rlt_bool_true in C.
  - destruct C as (C1 & _). split; [exact F|exact C1].
  - unfold z, F2R. cbn [Fnum Fexp]. rewrite Rabs_pos_eq by (apply Rmult_le_pos; [lra|apply bpow_ge_0]).
    apply Rle_lt_trans with (bpow radix2 53 * bpow radix2 (-1074)).
    + apply Rmult_le_compat_r; [apply bpow_ge_0|]. change (bpow radix2 53) with 9007199254740992. lra.
    + rewrite <- bpow_plus. apply bpow_lt. lia.
Qed.

Lemma limbs_value3 a b c e n : limbs_value ([a; b; c] ++ repeat 0%Z n) e =
  (IZR a + IZR b / 100000000 + IZR c / 10000000000000000) * p10 e.
Proof. pose proof (value_three 0 a b c e n) as H. unfold value, sign in H. cbn [data exp neg] in H. lra. Qed.

Lemma ctor_ok d m e : valid_digits d -> is_finite m = true ->
  IZR 4503599627370497 * bpow radix2 (-1074) <= Rabs (B2R m) ->
  exists r, ctor_double d m e = Defined r /\ cls r = Finite /\ prec r = elem_number d /\
  Rabs (value r - B2R m * p10 e) <= / 1000000000000 * Rabs (B2R m * p10 e) /\
  (Rabs (B2R m) < 10 -> finite d r).
Proof.
  intros Hd Fm Hm. pose proof (elem_number_bounds d Hd) as HN. pose proof (Nn_Z d Hd) as HNn.
  unfold ctor_double. rewrite Fm. eexists. split; [reflexivity|].
  unfold of_double. destruct min_eps_value as [Fe Ve].
  fold (D m) in *.
  assert (A : dlt (dabs m) dbl_min_eps = false).
  { apply dlt_false; auto; unfold dabs. rewrite is_finite_Babs; auto. unfold D in *. rewrite B2R_Babs, Ve. exact Hm. }
  rewrite A. cbv zeta. destruct (d_of_Z_ok 0 ltac:(lia)) as [F0 V0].
  set (b := dlt m (d_of_Z 0)).
  set (x := if negb b then m else dopp m).
  assert (Fx : is_finite x = true). { unfold x. destruct b; cbn [negb]; auto. unfold dopp. rewrite is_finite_Bopp. exact Fm. }
  assert (Vx : D x = Rabs (D m) /\ D m = sign b * D x).
  { unfold x. destruct b eqn:B; unfold b in B; cbn [negb].
    - apply dlt_ok in B; auto. rewrite V0 in B. unfold dopp, D in *. rewrite B2R_Bopp, Rabs_left by auto. unfold sign. lra.
    - apply dlt_false in B; auto. rewrite V0 in B. rewrite Rabs_pos_eq by auto. unfold sign. lra. }
  destruct Vx as [Vx Vm].
  pose proof (bpow_gt_0 radix2 (-1022)) as Pb.
  assert (Lx : bpow radix2 (-1022) <= D x).
  { rewrite Vx. apply Rle_trans with (2 := Hm). replace (bpow radix2 (-1022)) with (4503599627370496 * bpow radix2 (-1074)).
    - apply Rmult_le_compat_r; [apply bpow_ge_0|lra].
    - change (-1022)%Z with (52 + -1074)%Z. rewrite bpow_plus. f_equal. }
  assert (N0 : near 0 (D x * p10 e) (D x * p10 e)) by apply near_refl.
  pose proof pow9_big as P9. pose proof pow9_small as P9'.
  (* first loop *)
  assert (S1 : exists x1 e1, scale_down 400 x e = (x1, e1) /\ is_finite x1 = true /\ D x1 <= 10 /\ bpow radix2 (-1022) <= D x1 /\
     (D x < 10 -> D x1 < 10) /\ near 400 (D x1 * p10 e1) (D x * p10 e)).
  { destruct (Rlt_dec 10 (D x)) as [L|L].
    - destruct (scale_down_ok 400 x e (D x * p10 e) 0) as (x1 & e1 & E1 & F1 & B1 & N1); auto; try lia.
      { split; [lra|]. eapply Rlt_le_trans; [|exact P9]. pose proof (D_below x Fx) as G. rewrite Rabs_pos_eq in G by lra. exact G. }
      exists x1, e1. split; auto. split; auto. split; [lra|]. split; [pose proof small_bpow; lra|]. split; [lra|]. exact N1.
    - exists x, e. split. { apply scale_down_le; auto. lra. }
      split; auto. split; [lra|]. split; auto. split; [lra|]. apply near_weaken with 0%Z; [lia|auto]. }
  destruct S1 as (x1 & e1 & E1 & F1 & B1 & B1' & T1 & N1).
  match goal with |- context [scale_down 400 ?t e] => change t with x end. rewrite E1.
  destruct (scale_up_gen 400 x1 e1 (D x * p10 e) 400) as (x2 & e2 & E2 & F2 & B2 & T2 & N2); auto; try lia.
  { eapply Rle_trans; [exact P9'|]. apply Rmult_le_compat_r; [apply pow_le; lra|exact B1']. }
  rewrite E2.
  destruct (shift_loop_gen (Z.to_nat (e2 mod 8)) 8 (Z.rem e2 8) x2 e2 (D x * p10 e) 1 800) as (x3 & E3 & F3 & B3 & T3 & N3); auto; try lia.
  { rewrite Z2Nat.id by lia. pose proof (Z.quot_rem e2 8 ltac:(lia)).
    replace e2 with (Z.rem e2 8 + (e2 ÷ 8) * 8)%Z at 2 by lia. rewrite Z.mod_add by lia. reflexivity. }
  { pose proof (Z.rem_bound_abs e2 8 ltac:(lia)). lia. }
  { rewrite p10_1. lra. }
  rewrite Z2Nat.id in * by lia. rewrite E3.
  assert (P8 : p10 (1 + e2 mod 8) <= 100000000).
  { apply Rle_trans with (p10 8); [apply p10_le; lia|]. rewrite p10_nonneg by lia. simpl. lra. }
  destruct (double_limbs_gen x3 F3 ltac:(lra)) as (a & c1 & c2 & El & Lb & Lc & Ha & La & Hv). rewrite El.
  set (e3 := (e2 - e2 mod 8)%Z) in *.
  assert (Hdiv : (e3 mod 8 = 0)%Z) by (unfold e3; lia).
  set (V := IZR a + IZR c1 / 100000000 + IZR c2 / 10000000000000000) in *.
  split; [reflexivity|]. split; [reflexivity|]. 
  pose proof (p10_pos e3) as P2. pose proof (p10_pos e) as Pe.
  split.
  - unfold value. cbn [data exp neg]. rewrite limbs_value3. fold V. rewrite Vm.
    replace (sign b * (V * p10 e3) - sign b * D x * p10 e) with (sign b * (V * p10 e3 - D x * p10 e)) by ring.
    rewrite Rmult_assoc, !Rabs_mult.
    assert (SA : Rabs (sign b) = 1) by (unfold sign; destruct b; [rewrite Rabs_left; lra|apply Rabs_R1]).
    rewrite SA, !Rmult_1_l. rewrite <- Rabs_mult.
    assert (N4 : near 807 (D x3 * p10 e3) (D x * p10 e)) by (apply near_weaken with (2 := N3); lia).
    unfold near in N4. set (M := D x * p10 e) in *. assert (HM : 0 < M) by (unfold M; nra).
    rewrite (Rabs_pos_eq M) in * by lra.
    replace (V * p10 e3 - M) with ((V - D x3) * p10 e3 + (D x3 * p10 e3 - M)) by ring.
    eapply Rle_trans; [apply Rabs_triang|].
    rewrite Rabs_mult, (Rabs_pos_eq (p10 e3)) by lra.
    assert (Q1 : Rabs (V - D x3) * p10 e3 <= / 5000000000000000 * (D x3 * p10 e3)).
    { apply Rle_trans with (/ 5000000000000000 * p10 e3); [apply Rmult_le_compat_r; lra|]. apply Rmult_le_compat_l; [lra|]. nra. }
    apply Rabs_le_inv in N4 as N5. unfold uu in *. lra.
  - intro H10. split; [|reflexivity]. 
    assert (is_limb a).
    { apply La. apply Rlt_le_trans with (2 := P8). apply T3. rewrite p10_1. apply T2, T1. lra. }
    constructor; cbn [data exp neg cls prec].
    + rewrite app_length, repeat_length. simpl length. unfold Nn in *. lia.
    + apply limbs_app; [do 3 (apply Forall_cons; [assumption|]); constructor|apply limbs_repeat0].
    + exact Hdiv.
    + unfold N. lia.
    + intros _ H'. simpl in H'. lia.
    + congruence.
Qed.

(* e_float(100.0, 6) has a limb equal to 10^8; e_float(0.0, 0) is one *)
Lemma ctor_refuted :
  B2R (d_of_Z 100) = 100 /\ B2R (d_of_Z 0) = 0 /\
  (exists r, ctor_double 30 (d_of_Z 100) 6 = Defined r /\ ~ wf 30 r) /\
  (exists r, ctor_double 30 (d_of_Z 0) 0 = Defined r /\ value r = 1).
Proof.
  split; [apply (d_of_Z_ok 100); lia|]. split; [apply (d_of_Z_ok 0); lia|]. split.
  - eexists. split; [vm_compute; reflexivity|]. intro W. pose proof (wf_limbs _ _ W) as L. cbn [data] in L.
    apply Forall_inv in L. unfold is_limb in L. lia.
  - exists (one 30). split; [vm_compute; reflexivity|apply (one_value 30 valid_30)].
Qed.

Lemma ctor_nonfinite d m e : is_finite m = false -> ctor_double d m e = Undefined.
Proof. intro H. unfold ctor_double. rewrite H. reflexivity. Qed.
