(** * The floating point parts of the prime functions: limit of the sieve and
      square root. *)

From Coq Require Import ZArith List Bool Reals Lra Lia Znumtheory Sorted.
From Flocq Require Import Core Relative BinarySingleNaN.
From Verif Require Import Model Spec ModelDiv DoubleProofs ModelPrime SpecPrime PrimeProofs FactorProofs.
Import ListNotations.
Open Scope R_scope.
Local Notation exp := Rtrigo_def.exp.
Local Notation sqrt := R_sqrt.sqrt.

Lemma rnd_eighth n : (Z.abs n < 9007199254740992)%Z -> rnd (IZR n / 8) = IZR n / 8.
Proof.
  intro H. apply rnd_id. apply (generic_format_FLT radix2 (-1074) 53).
  exists (Float radix2 n (-3)); simpl; [|exact H|lia]. unfold F2R; simpl. lra.
Qed.

Lemma rnd_ge n x : (Z.abs n < 9007199254740992)%Z -> IZR n / 8 <= x -> IZR n / 8 <= rnd x.
Proof. intros H L. rewrite <- (rnd_eighth n H). apply rnd_mono; auto. Qed.

Lemma rnd_le n x : (Z.abs n < 9007199254740992)%Z -> x <= IZR n / 8 -> rnd x <= IZR n / 8.
Proof. intros H L. rewrite <- (rnd_eighth n H). apply rnd_mono; auto. Qed.

(** ** Logarithms *)

Lemma exp_pow k x : exp (INR k * x) = exp x ^ k.
Proof.
  induction k.
  - cbn. rewrite Rmult_0_l. apply exp_0.
  - rewrite S_INR. replace ((INR k + 1) * x) with (INR k * x + x) by ring. rewrite exp_plus, IHk. cbn. ring.
Qed.

Lemma exp_1_le : exp 1 <= 2724 / 1000.
Proof.
  assert (E1 : exp (/ 256) <= 256 / 255).
  { pose proof (exp_ineq1_le (- / 256)) as Q. assert (P : 0 < exp (- / 256)) by apply exp_pos.
    replace (exp (/ 256)) with (/ exp (- / 256)) by (rewrite <- exp_Ropp, Ropp_involutive; auto).
    replace (256 / 255) with (/ (255 / 256)) by lra. apply Rinv_le_contravar; lra. }
  replace 1 with (INR 256 * / 256) by (rewrite INR_IZR_INZ; change (Z.of_nat 256) with 256%Z; lra). rewrite exp_pow.
  apply Rle_trans with ((256 / 255) ^ 256).
  - apply pow_incr. split; [left; apply exp_pos|auto].
  - assert (P9 : 0 < 255 ^ 256) by (apply pow_lt; lra).
    unfold Rdiv. rewrite Rpow_mult_distr, pow_inv by lra. apply (Rmult_le_reg_r (255 ^ 256 * 1000)); [lra|].
    replace (256 ^ 256 * / 255 ^ 256 * (255 ^ 256 * 1000)) with (256 ^ 256 * 1000) by (field; lra).
    replace (2724 * / 1000 * (255 ^ 256 * 1000)) with (2724 * 255 ^ 256) by field.
    rewrite !pow_IZR, <- !mult_IZR. apply IZR_le, Z.leb_le. vm_compute. reflexivity.
Qed.

Lemma exp_1_ge : 2712 / 1000 <= exp 1.
Proof.
  assert (E1 : 257 / 256 <= exp (/ 256)) by (pose proof (exp_ineq1_le (/ 256)); lra).
  replace 1 with (INR 256 * / 256) at 1 by (rewrite INR_IZR_INZ; change (Z.of_nat 256) with 256%Z; lra). rewrite exp_pow.
  apply Rle_trans with ((257 / 256) ^ 256).
  - assert (P9 : 0 < 256 ^ 256) by (apply pow_lt; lra).
    unfold Rdiv. rewrite Rpow_mult_distr, pow_inv by lra. apply (Rmult_le_reg_r (256 ^ 256 * 1000)); [lra|].
    replace (257 ^ 256 * / 256 ^ 256 * (256 ^ 256 * 1000)) with (257 ^ 256 * 1000) by (field; lra).
    replace (2712 * / 1000 * (256 ^ 256 * 1000)) with (2712 * 256 ^ 256) by field.
    rewrite !pow_IZR, <- !mult_IZR. apply IZR_le, Z.leb_le. vm_compute. reflexivity.
  - apply pow_incr. lra.
Qed.

Lemma ln_pow q x : 0 < x -> INR q * ln x = ln (x ^ q).
Proof.
  intro H. induction q.
  - cbn. rewrite ln_1. ring.
  - rewrite S_INR. cbn [pow]. rewrite ln_mult, <- IHq by (auto; apply pow_lt; auto). ring.
Qed.

Lemma ln_ge k q a b : (0 < q)%nat -> (0 < a)%Z -> (0 < b)%Z -> (2724 ^ Z.of_nat k * b ^ Z.of_nat q <= a ^ Z.of_nat q * 1000 ^ Z.of_nat k)%Z ->
  INR k / INR q <= ln (IZR a / IZR b).
Proof.
  intros Hq Ha Hb H. assert (Pb : 0 < IZR b) by (apply IZR_lt; auto). assert (Pa : 0 < IZR a) by (apply IZR_lt; auto).
  assert (P : 0 < IZR a / IZR b) by (apply Rdiv_lt_0_compat; auto).
  assert (Pq : 0 < INR q) by (apply lt_0_INR; auto). apply (Rmult_le_reg_l (INR q)); auto.
  replace (INR q * (INR k / INR q)) with (INR k) by (field; lra). rewrite ln_pow by auto.
  rewrite <- (ln_exp (INR k)).
  assert (E : exp (INR k) <= (IZR a / IZR b) ^ q).
  { replace (INR k) with (INR k * 1) by ring. rewrite exp_pow.
    apply Rle_trans with ((2724 / 1000) ^ k).
    - apply pow_incr. split; [left; apply exp_pos|apply exp_1_le].
    - assert (P9 : 0 < 1000 ^ k) by (apply pow_lt; lra). assert (Pbq : 0 < IZR b ^ q) by (apply pow_lt; lra).
      unfold Rdiv. rewrite !Rpow_mult_distr, !pow_inv by lra. apply (Rmult_le_reg_r (1000 ^ k * IZR b ^ q)); [apply Rmult_lt_0_compat; auto|].
      replace (2724 ^ k * / 1000 ^ k * (1000 ^ k * IZR b ^ q)) with (2724 ^ k * IZR b ^ q) by (field; lra).
      replace (IZR a ^ q * / IZR b ^ q * (1000 ^ k * IZR b ^ q)) with (IZR a ^ q * 1000 ^ k) by (field; lra).
      rewrite !pow_IZR, <- !mult_IZR. apply IZR_le. auto. }
  destruct E as [E|E]; [left; apply ln_increasing; auto; apply exp_pos|right; rewrite E; auto].
Qed.

Lemma ln_le k q a b : (0 < q)%nat -> (0 < a)%Z -> (0 < b)%Z -> (a ^ Z.of_nat q * 1000 ^ Z.of_nat k <= 2712 ^ Z.of_nat k * b ^ Z.of_nat q)%Z ->
  ln (IZR a / IZR b) <= INR k / INR q.
Proof.
  intros Hq Ha Hb H. assert (Pb : 0 < IZR b) by (apply IZR_lt; auto). assert (Pa : 0 < IZR a) by (apply IZR_lt; auto).
  assert (P : 0 < IZR a / IZR b) by (apply Rdiv_lt_0_compat; auto).
  assert (Pq : 0 < INR q) by (apply lt_0_INR; auto). apply (Rmult_le_reg_l (INR q)); auto.
  replace (INR q * (INR k / INR q)) with (INR k) by (field; lra). rewrite ln_pow by auto.
  rewrite <- (ln_exp (INR k)).
  assert (E : (IZR a / IZR b) ^ q <= exp (INR k)).
  { replace (INR k) with (INR k * 1) by ring. rewrite exp_pow.
    apply Rle_trans with ((2712 / 1000) ^ k).
    - assert (P9 : 0 < 1000 ^ k) by (apply pow_lt; lra). assert (Pbq : 0 < IZR b ^ q) by (apply pow_lt; lra).
      unfold Rdiv. rewrite !Rpow_mult_distr, !pow_inv by lra. apply (Rmult_le_reg_r (1000 ^ k * IZR b ^ q)); [apply Rmult_lt_0_compat; auto|].
      replace (2712 ^ k * / 1000 ^ k * (1000 ^ k * IZR b ^ q)) with (2712 ^ k * IZR b ^ q) by (field; lra).
      replace (IZR a ^ q * / IZR b ^ q * (1000 ^ k * IZR b ^ q)) with (IZR a ^ q * 1000 ^ k) by (field; lra).
      rewrite !pow_IZR, <- !mult_IZR. apply IZR_le. auto.
    - apply pow_incr. split; [lra|apply exp_1_ge]. }
  assert (Pw : 0 < (IZR a / IZR b) ^ q) by (apply pow_lt; auto).
  destruct E as [E|E]; [left; apply ln_increasing; auto|right; rewrite E; auto].
Qed.

Lemma ln_mono x y : 0 < x -> x <= y -> ln x <= ln y.
Proof. intros H [L|L]; [left; apply ln_increasing; auto|right; subst; auto]. Qed.

(** ** The limit of the sieve *)

Lemma dbl_18_ok : is_finite dbl_18 = true /\ 14 / 8 <= D dbl_18 <= 2.
Proof.
  assert (E : dbl_18 = binary_normalize 53 1024 d_prec d_emax mode_NE 8106479329266893 (-52) false) by reflexivity.
  pose proof (binary_normalize_correct 53 1024 d_prec d_emax mode_NE 8106479329266893 (-52) false) as C. cbv zeta in C. rewrite <- E in C.
  replace (F2R (Float radix2 8106479329266893 (-52))) with (8106479329266893 / 4503599627370496) in C
    by (unfold F2R; simpl; lra).
  fold (rnd (8106479329266893 / 4503599627370496)) in C. rewrite Rlt_bool_true in C.
  - destruct C as (C1 & C2 & _). split; auto. unfold D. rewrite C1. split.
    + apply (rnd_ge 14); [lia|lra].
    + apply Rle_trans with (IZR 16 / 8); [apply rnd_le; [lia|lra]|lra].
  - apply rnd_small. rewrite Rabs_pos_eq; lra.
Qed.

(** bounds in eighths *)
Lemma top_bounds (xn a b : double) n la ha lb hb s1 s2 m q s3 :
  is_finite xn = true -> D xn = IZR n -> (100 <= n <= 4294967295)%Z ->
  is_finite a = true -> la <= D a <= ha -> 2 <= la -> ha <= 24 ->
  is_finite b = true -> lb <= D b <= hb -> 1 <= lb -> hb <= 24 ->
  (0 <= s1 <= 1000)%Z -> (0 <= s2 <= 1000)%Z -> (0 <= m <= 1000)%Z -> (0 <= q <= 1000)%Z -> (0 <= s3 <= 1000)%Z ->
  IZR s1 / 8 <= la + lb -> (s2 <= s1 - 8)%Z -> IZR m / 8 <= 14 / 8 * lb -> IZR q / 8 * ha <= IZR m / 8 -> (s3 <= s2 + q)%Z ->
  let top := dmul xn (dadd (dsub (dadd a b) (d_of_Z 1)) (ddiv (dmul dbl_18 b) a)) in
  is_finite top = true /\ IZR n * (IZR s3 / 8) <= D top <= IZR n * 72.
Proof.
  intros Fx Dx Hn Fa Ha La Ha' Fb Hb Lb Hb' H1 H2 H3 H4 H5 E1 E2 E3 E4 E5 top.
  assert (R1 : 0 <= IZR s1) by (apply IZR_le; lia). assert (R2 : 0 <= IZR s2) by (apply IZR_le; lia).
  assert (R3 : 0 <= IZR m) by (apply IZR_le; lia). assert (R4 : 0 <= IZR q) by (apply IZR_le; lia). assert (R5 : 0 <= IZR s3) by (apply IZR_le; lia).
  assert (R6 : IZR s3 <= 1000) by (apply IZR_le; lia).
  apply IZR_le in E2, E5. rewrite minus_IZR in E2. rewrite plus_IZR in E5.
  assert (Rn : 100 <= IZR n <= 4294967295) by (split; apply IZR_le; lia).
  destruct (dadd_ok a b Fa Fb) as [F1 D1]. { rewrite Rabs_pos_eq; lra. }
  assert (B1 : IZR s1 / 8 <= D (dadd a b) <= 48).
  { rewrite D1. split; [apply rnd_ge; [lia|lra]|]. apply Rle_trans with (IZR 384 / 8); [apply rnd_le; [lia|lra]|lra]. }
  destruct (d_of_Z_ok 1) as [Fo Do]; [lia|].
  destruct (dsub_ok (dadd a b) (d_of_Z 1) F1 Fo) as [F2 D2]. { rewrite Do. apply Rabs_le. lra. }
  assert (B2 : IZR s2 / 8 <= D (dsub (dadd a b) (d_of_Z 1)) <= 48).
  { rewrite D2, Do. split; [apply rnd_ge; [lia|lra]|]. apply Rle_trans with (IZR 384 / 8); [apply rnd_le; [lia|lra]|lra]. }
  destruct dbl_18_ok as [F18 D18].
  assert (M1 : IZR m / 8 <= D dbl_18 * D b <= 48).
  { split; [apply Rle_trans with (14 / 8 * D b); [lra|apply Rmult_le_compat_r; lra]|].
    apply Rle_trans with (2 * D b); [apply Rmult_le_compat_r; lra|lra]. }
  destruct (dmul_ok dbl_18 b F18 Fb) as [F3 D3]. { rewrite Rabs_pos_eq; lra. }
  assert (B3 : IZR m / 8 <= D (dmul dbl_18 b) <= 48).
  { rewrite D3. split; [apply rnd_ge; [lia|lra]|]. apply Rle_trans with (IZR 384 / 8); [apply rnd_le; [lia|lra]|lra]. }
  assert (Q1 : IZR q / 8 <= D (dmul dbl_18 b) / D a <= 24).
  { split.
    - apply (Rmult_le_reg_r (D a)); [lra|]. replace (D (dmul dbl_18 b) / D a * D a) with (D (dmul dbl_18 b)) by (field; lra). nra.
    - apply (Rmult_le_reg_r (D a)); [lra|]. replace (D (dmul dbl_18 b) / D a * D a) with (D (dmul dbl_18 b)) by (field; lra). nra. }
  destruct (ddiv_ok (dmul dbl_18 b) a F3) as [F4 D4]; [lra|rewrite Rabs_pos_eq; lra|].
  assert (B4 : IZR q / 8 <= D (ddiv (dmul dbl_18 b) a) <= 24).
  { rewrite D4. split; [apply rnd_ge; [lia|lra]|]. apply Rle_trans with (IZR 192 / 8); [apply rnd_le; [lia|lra]|lra]. }
  set (u := dsub (dadd a b) (d_of_Z 1)) in *. set (v := ddiv (dmul dbl_18 b) a) in *.
  destruct (dadd_ok u v F2 F4) as [F5 D5]. { rewrite Rabs_pos_eq; lra. }
  assert (B5 : IZR s3 / 8 <= D (dadd u v) <= 72).
  { rewrite D5. split; [apply rnd_ge; [lia|lra]|]. apply Rle_trans with (IZR 576 / 8); [apply rnd_le; [lia|lra]|lra]. }
  destruct (dmul_ok xn (dadd u v) Fx F5) as [F6 D6]. { rewrite Dx, Rabs_pos_eq; nra. }
  unfold top. split; auto. rewrite D6, Dx. split.
  - replace (IZR n * (IZR s3 / 8)) with (IZR (n * s3) / 8) by (rewrite mult_IZR; field). apply rnd_ge; [nia|].
    rewrite mult_IZR. nra.
  - replace (IZR n * 72) with (IZR (n * 576) / 8) by (rewrite mult_IZR; field). apply rnd_le; [lia|].
    rewrite mult_IZR. nra.
Qed.

Lemma limit_of (log : double -> double) n x : (100 <= n)%Z ->
  let top := dmul (d_of_Z n) (dadd (dsub (dadd (log (d_of_Z n)) (log (log (d_of_Z n)))) (d_of_Z 1)) (ddiv (dmul dbl_18 (log (log (d_of_Z n)))) (log (d_of_Z n)))) in
  x = (if dlt (d_of_Z 4294967295) top then d_of_Z 4294967295 else top) -> sieve_limit log n = Z.max n (u32 (Btrunc x)).
Proof. intros Hn top ->. unfold sieve_limit. rewrite (Z.max_r 100 n) by lia. reflexivity. Qed.

Lemma limit_table log : usable_log log -> (65582 <= sieve_limit log 6550 <= 4294836225)%Z.
Proof.
  intro U. destruct (d_of_Z_ok 6550) as [Fx Dx]; [lia|]. destruct (d_of_Z_ok 4294967295) as [Fm Dm]; [lia|].
  unfold usable_log in U. fold D in U. change (@B2R 53 1024) with D in U.
  assert (L1 : 870 / 100 <= ln 6550).
  { pose proof (ln_ge 35 4 6550 1 ltac:(lia) ltac:(lia) ltac:(lia)) as Q. rewrite !INR_IZR_INZ in Q. change (Z.of_nat 35) with 35%Z in Q. change (Z.of_nat 4) with 4%Z in Q.
    replace (6550 / 1) with 6550 in Q by lra.
    refine (_ (Q _)); [intro Q'; lra|]. apply Z.leb_le. vm_compute. reflexivity. }
  assert (L2 : ln 6550 <= 900 / 100).
  { pose proof (ln_le 9 1 6550 1 ltac:(lia) ltac:(lia) ltac:(lia)) as Q. rewrite !INR_IZR_INZ in Q. change (Z.of_nat 9) with 9%Z in Q. change (Z.of_nat 1) with 1%Z in Q.
    replace (6550 / 1) with 6550 in Q by lra.
    refine (_ (Q _)); [intro Q'; lra|]. apply Z.leb_le. vm_compute. reflexivity. }
  assert (L3 : 210 / 100 <= ln (869 / 100)).
  { pose proof (ln_ge 15 7 869 100 ltac:(lia) ltac:(lia) ltac:(lia)) as Q. rewrite !INR_IZR_INZ in Q. change (Z.of_nat 15) with 15%Z in Q. change (Z.of_nat 7) with 7%Z in Q.
    refine (_ (Q _)); [intro Q'; lra|]. apply Z.leb_le. vm_compute. reflexivity. }
  assert (L4 : ln (901 / 100) <= 230 / 100).
  { pose proof (ln_le 9 4 901 100 ltac:(lia) ltac:(lia) ltac:(lia)) as Q. rewrite !INR_IZR_INZ in Q. change (Z.of_nat 9) with 9%Z in Q. change (Z.of_nat 4) with 4%Z in Q.
    refine (_ (Q _)); [intro Q'; lra|]. apply Z.leb_le. vm_compute. reflexivity. }
  destruct (U (d_of_Z 6550) Fx) as [Fa Ea]; [rewrite Dx; lra|]. rewrite Dx in Ea. apply Rabs_le_inv in Ea.
  set (a := log (d_of_Z 6550)) in *.
  assert (Ba : 869 / 100 <= D a <= 901 / 100) by lra.
  destruct (U a Fa) as [Fb Eb]; [lra|]. apply Rabs_le_inv in Eb.
  assert (Bl : ln (869 / 100) <= ln (D a) <= ln (901 / 100)) by (split; apply ln_mono; lra).
  set (b := log a) in *. assert (Bb : 209 / 100 <= D b <= 231 / 100) by lra.
  destruct (top_bounds (d_of_Z 6550) a b 6550 (869/100) (901/100) (209/100) (231/100) 86 78 29 3 81) as [Ft Bt]; auto; try lra; try lia.
  rewrite (limit_of log 6550 _ ltac:(lia) eq_refl). fold a. fold b.
  set (top := dmul (d_of_Z 6550) _) in *. clearbody top.
  assert (NL : dlt (d_of_Z 4294967295) top = false) by (apply dlt_false; auto; rewrite Dm; lra). rewrite NL.
  destruct (Btrunc_floor top) as [T1 T2]; [lra|].
  assert (T3 : (66318 <= Btrunc top)%Z).
  { apply Z.lt_succ_r, lt_IZR. rewrite succ_IZR. lra. }
  assert (T4 : (Btrunc top <= 471600)%Z) by (apply le_IZR; lra).
  unfold u32. rewrite Z.mod_small by lia. lia.
Qed.

Lemma limit_overflow log n : usable_log log -> (250000000 <= n <= 4294967295)%Z -> sieve_limit log n = 4294967295%Z.
Proof.
  intros U Hn. destruct (d_of_Z_ok n) as [Fx Dx]; [lia|]. destruct (d_of_Z_ok 4294967295) as [Fm Dm]; [lia|].
  unfold usable_log in U. change (@B2R 53 1024) with D in U.
  assert (Rn : 250000000 <= IZR n <= 4294967295) by (split; apply IZR_le; lia).
  assert (L1 : 1900 / 100 <= ln 250000000).
  { pose proof (ln_ge 19 1 250000000 1 ltac:(lia) ltac:(lia) ltac:(lia)) as Q. rewrite !INR_IZR_INZ in Q. change (Z.of_nat 19) with 19%Z in Q. change (Z.of_nat 1) with 1%Z in Q.
    replace (250000000 / 1) with 250000000 in Q by lra.
    refine (_ (Q _)); [intro Q'; lra|]. apply Z.leb_le. vm_compute. reflexivity. }
  assert (L2 : ln 4294967295 <= 2300 / 100).
  { pose proof (ln_le 23 1 4294967295 1 ltac:(lia) ltac:(lia) ltac:(lia)) as Q. rewrite !INR_IZR_INZ in Q. change (Z.of_nat 23) with 23%Z in Q. change (Z.of_nat 1) with 1%Z in Q.
    replace (4294967295 / 1) with 4294967295 in Q by lra.
    refine (_ (Q _)); [intro Q'; lra|]. apply Z.leb_le. vm_compute. reflexivity. }
  assert (L3 : 290 / 100 <= ln (1899 / 100)).
  { pose proof (ln_ge 29 10 1899 100 ltac:(lia) ltac:(lia) ltac:(lia)) as Q. rewrite !INR_IZR_INZ in Q. change (Z.of_nat 29) with 29%Z in Q. change (Z.of_nat 10) with 10%Z in Q.
    refine (_ (Q _)); [intro Q'; lra|]. apply Z.leb_le. vm_compute. reflexivity. }
  assert (L4 : ln (2301 / 100) <= 320 / 100).
  { pose proof (ln_le 16 5 2301 100 ltac:(lia) ltac:(lia) ltac:(lia)) as Q. rewrite !INR_IZR_INZ in Q. change (Z.of_nat 16) with 16%Z in Q. change (Z.of_nat 5) with 5%Z in Q.
    refine (_ (Q _)); [intro Q'; lra|]. apply Z.leb_le. vm_compute. reflexivity. }
  destruct (U (d_of_Z n) Fx) as [Fa Ea]; [rewrite Dx; lra|]. rewrite Dx in Ea. apply Rabs_le_inv in Ea.
  assert (Bn : ln 250000000 <= ln (IZR n) <= ln 4294967295) by (split; apply ln_mono; lra).
  set (a := log (d_of_Z n)) in *.
  assert (Ba : 1899 / 100 <= D a <= 2301 / 100) by lra.
  destruct (U a Fa) as [Fb Eb]; [lra|]. apply Rabs_le_inv in Eb.
  assert (Bl : ln (1899 / 100) <= ln (D a) <= ln (2301 / 100)) by (split; apply ln_mono; lra).
  set (b := log a) in *. assert (Bb : 289 / 100 <= D b <= 321 / 100) by lra.
  destruct (top_bounds (d_of_Z n) a b n (1899/100) (2301/100) (289/100) (321/100) 175 167 0 0 167) as [Ft Bt]; auto; try lra; try lia.
  rewrite (limit_of log n _ ltac:(lia) eq_refl). fold a. fold b.
  set (top := dmul (d_of_Z n) _) in *. clearbody top.
  assert (NL : dlt (d_of_Z 4294967295) top = true) by (apply dlt_ok; auto; rewrite Dm; lra). rewrite NL.
  destruct (Btrunc_floor (d_of_Z 4294967295)) as [T1 T2]; [rewrite Dm; lra|]. rewrite Dm in T1, T2.
  assert (T3 : Btrunc (d_of_Z 4294967295) = 4294967295%Z).
  { apply Z.le_antisymm; [apply le_IZR; auto|]. apply Z.lt_succ_r, lt_IZR. rewrite succ_IZR. lra. }
  rewrite T3. unfold u32. rewrite Z.mod_small by lia. lia.
Qed.

(** With this limit the sieve does not end. *)
Lemma mark_forever : forall fuel j v, (0 <= j < 4294967296)%Z -> Z.even j = true -> mark fuel 4294967295 2 j v = None.
Proof.
  induction fuel; intros j v Hj He; [reflexivity|]. cbn [mark].
  assert (NE : j <> 4294967295%Z) by (intros ->; discriminate). destruct (Z.ltb_spec j 4294967295); [|lia].
  apply IHfuel; unfold u32.
  - apply Z.mod_pos_bound. lia.
  - rewrite Zeven_mod in He |- *. apply Zeq_bool_eq in He.
    assert (E : ((j + 2) mod 4294967296 mod 2 = 0)%Z) by (Z.div_mod_to_equations; lia). rewrite E. reflexivity.
Qed.

Lemma sift_forever fuel inner : sift fuel inner 4294967295 2 all_false = None.
Proof.
  destruct fuel; [reflexivity|]. cbn [sift]. change (u32 (2 * 2)) with 4%Z. change (4 <? 4294967295)%Z with true. cbv iota.
  rewrite is_set_false. cbv iota. rewrite mark_forever by (lia || reflexivity). reflexivity.
Qed.

Lemma generate_forever fuel n : generate fuel n 4294967295 = None.
Proof. unfold generate. rewrite sift_forever. reflexivity. Qed.

(** ** The square root *)

Lemma dbl_half_ok : is_finite dbl_half = true /\ D dbl_half = / 2.
Proof.
  pose proof (binary_normalize_correct 53 1024 d_prec d_emax mode_NE 1 (-1) false) as C. cbv zeta in C. fold dbl_half in C.
  replace (F2R (Float radix2 1 (-1))) with (IZR 4 / 8) in C by (unfold F2R; simpl; lra).
  fold (rnd (IZR 4 / 8)) in C. rewrite rnd_eighth in C by lia. rewrite Rlt_bool_true in C.
  - destruct C as (C1 & C2 & _). split; auto. unfold D. rewrite C1. lra.
  - rewrite Rabs_pos_eq by lra. apply Rlt_trans with (bpow radix2 53); [change (bpow radix2 53) with 9007199254740992; lra|]. apply bpow_lt. lia.
Qed.

Lemma sqrt_n_ok n p : (0 < n < 4294967296)%Z -> (2 <= p)%Z -> (p * p + p + 1 <= n)%Z ->
  (p < u32 (Btrunc (dadd (dsqrt (d_of_Z n)) dbl_half)))%Z.
Proof.
  intros Hn Hp H. destruct (d_of_Z_ok n) as [Fx Dx]; [lia|]. assert (Rn : 0 < IZR n < 4294967296) by (split; apply IZR_lt; lia).
  destruct (dsqrt_ok (d_of_Z n) Fx) as [Fs Ds]; [rewrite Dx; lra|]. rewrite Dx in Ds. destruct dbl_half_ok as [Fh Dh].
  assert (P : 2 <= IZR p) by (apply IZR_le; auto). assert (P' : (p < 65536)%Z) by nia. assert (P6 : IZR p < 65536) by (apply IZR_lt; auto).
  assert (S1 : IZR p + / 2 <= R_sqrt.sqrt (IZR n)).
  { rewrite <- (sqrt_square (IZR p + / 2)) by lra. apply sqrt_le_1_alt. apply IZR_le in H. rewrite !plus_IZR, mult_IZR in H. lra. }
  assert (S2 : R_sqrt.sqrt (IZR n) <= 65536).
  { rewrite <- (sqrt_square 65536) by lra. apply sqrt_le_1_alt. lra. }
  assert (B1 : IZR p + / 2 <= D (dsqrt (d_of_Z n)) <= 65536).
  { rewrite Ds. split.
    - replace (IZR p + / 2) with (IZR (8 * p + 4) / 8) by (rewrite plus_IZR, mult_IZR; field). apply rnd_ge; [lia|]. rewrite plus_IZR, mult_IZR. lra.
    - apply Rle_trans with (IZR 524288 / 8); [apply rnd_le; [lia|lra]|lra]. }
  destruct (dadd_ok (dsqrt (d_of_Z n)) dbl_half Fs Fh) as [Fa Da]. { rewrite Dh, Rabs_pos_eq; lra. }
  assert (B2 : IZR p + 1 <= D (dadd (dsqrt (d_of_Z n)) dbl_half) <= 65537).
  { rewrite Da, Dh. split.
    - replace (IZR p + 1) with (IZR (8 * p + 8) / 8) by (rewrite plus_IZR, mult_IZR; field). apply rnd_ge; [lia|]. rewrite plus_IZR, mult_IZR. lra.
    - apply Rle_trans with (IZR 524296 / 8); [apply rnd_le; [lia|lra]|lra]. }
  destruct (Btrunc_floor (dadd (dsqrt (d_of_Z n)) dbl_half)) as [T1 T2]; [lra|]. set (t := Btrunc _) in *.
  assert (p < t)%Z by (apply lt_IZR; lra).
  assert (t <= 65537)%Z by (apply le_IZR; lra). unfold u32. rewrite Z.mod_small by lia. auto.
Qed.

(** ** Factorisation *)

Lemma factors_correct data n : good_table data -> (2 <= n < 4294967296)%Z ->
  exists r f, factors data n = Some r /\ factorization n f /\ (r = f \/ r = f ++ [(1, 1)])%Z.
Proof.
  intros G Hn. unfold factors. apply factors_loop_spec; auto; [|apply inv_start; auto; lia].
  intros p Hp H. apply sqrt_n_ok; lia.
Qed.

Lemma prime_factors_table data n : good_table data -> (4 <= n < 10000)%Z ->
  prime_factors data n = if prime_dec n then Some [(n, 1)]%Z else factors data n.
Proof.
  intros [Gs Gi] Hn. unfold prime_factors. destruct (Z.ltb_spec n 10000); [|lia].
  unfold prime_factors_list.
  destruct (find_from_spec 5 data Gs) as [A B]. { apply Gi. split; [apply prime_5|lia]. }
  assert (C : Z.of_nat 9996 = 9996%Z) by (vm_compute; reflexivity). set (count := 9996%nat) in *.
  assert (E : exists j, (Z.to_nat n = 4 + j)%nat /\ (n = 4 + Z.of_nat j)%Z /\ (Z.of_nat j < 9996)%Z).
  { exists (Z.to_nat n - 4)%nat. zify. lia. }
  destruct E as (j & E1 & E2 & E3). rewrite E1. cbn [plus nth]. clearbody count.
  rewrite factor_table_spec with (i := 4%Z); auto; try lia.
  - rewrite <- E2. reflexivity.
  - intro p. rewrite B, Gi. split; intros [K1 K2]; [split; [tauto|lia]|]. split; [split; [auto|lia]|].
    destruct (Z.eq_dec p 4) as [->|]; [destruct (not_prime_4 K1)|lia].
Qed.

Lemma prime_factors_correct data n : good_table data -> (2 <= n < 4294967296)%Z ->
  exists r f, prime_factors data n = Some r /\ factorization n f /\ (r = f \/ r = f ++ [(1, 1)])%Z.
Proof.
  intros G Hn. destruct (Z_lt_le_dec n 10000) as [L|L].
  2: { unfold prime_factors. destruct (Z.ltb_spec n 10000); [lia|]. apply factors_correct; auto. }
  destruct (Z.eq_dec n 2) as [->|]; [|destruct (Z.eq_dec n 3) as [->|]].
  - exists [(2, 1)]%Z, [(2, 1)]%Z. split; [reflexivity|]. split; auto. apply prime_factorization, prime_2.
  - exists [(3, 1)]%Z, [(3, 1)]%Z. split; [reflexivity|]. split; auto. apply prime_factorization, prime_3.
  - rewrite prime_factors_table by (auto; lia). destruct (prime_dec n).
    + exists [(n, 1)]%Z, [(n, 1)]%Z. split; auto. split; auto. apply prime_factorization; auto.
    + apply factors_correct; auto.
Qed.

Lemma good_head data : good_table data -> exists t, data = 2%Z :: t.
Proof.
  intros [Gs Gi]. assert (I : In 2%Z data) by (apply Gi; split; [apply prime_2|lia]).
  destruct data as [|x t]; [destruct I|]. exists t. f_equal. inversion Gs; subst. rewrite Forall_forall in H2.
  assert (P : prime x) by (apply (Gi x); left; auto). pose proof (prime_ge_2 x P).
  destruct I as [I|I]; auto. apply H2 in I. lia.
Qed.

Lemma factors_4 data : good_table data -> prime_factors data 4 = Some [(2, 2); (1, 1)]%Z.
Proof.
  intro G. rewrite prime_factors_table by (auto; lia). destruct (prime_dec 4) as [P|P]; [destruct (not_prime_4 P)|].
  destruct (good_head data G) as [t ->]. reflexivity.
Qed.

Lemma not_factorization n f : In (1, 1)%Z f -> ~ factorization n f.
Proof. intros I (_ & H & _). apply H in I. destruct I as [I _]. apply not_prime_1 in I. auto. Qed.

(** ** The library *)

Lemma prime_table log fuel : usable_log log -> (sieve_limit log 6550 <= Z.of_nat fuel)%Z ->
  exists data, prime_data log fuel = Some data /\ Z.of_nat (length data) = 6550%Z /\ first_primes data /\ good_table data.
Proof. intros U H. apply table_good; auto. apply limit_table; auto. Qed.

Lemma first_primes_first k l : first_primes l -> first_primes (firstn k l).
Proof.
  intros (F1 & F2 & F3). assert (A : forall p, In p (firstn k l) -> In p l).
  { intros p I. rewrite <- (firstn_skipn k l). apply in_or_app; auto. }
  assert (B : StronglySorted Z.lt (firstn k l)).
  { clear F2 F3 A. revert k. induction l; intro k; destruct k; cbn; try constructor; inversion F1; subst; auto.
    rewrite Forall_forall in H2 |- *. intros x I. apply H2. rewrite <- (firstn_skipn k l). apply in_or_app; auto. }
  split; [auto|]. split; [auto|]. intros p q Iq Pp L. pose proof (F3 p q (A q Iq) Pp L) as I.
  rewrite <- (firstn_skipn k l) in I. apply in_app_or in I. destruct I as [I|I]; auto. exfalso.
  assert (C : forall u v l1 l2, StronglySorted Z.lt (l1 ++ l2) -> In u l1 -> In v l2 -> (u < v)%Z).
  { clear. intros u v l1. induction l1; intros l2 S Iu Iv; [destruct Iu|]. cbn in S. inversion S; subst. rewrite Forall_forall in H2.
    destruct Iu as [<-|Iu]; [apply H2, in_or_app; auto|eauto]. }
  rewrite <- (firstn_skipn k l) in F1. pose proof (C q p _ _ F1 Iq I). lia.
Qed.

Lemma prime_list_small log fuel n : usable_log log -> (sieve_limit log 6550 <= Z.of_nat fuel)%Z -> (0 <= n < 6550)%Z ->
  exists l, prime_list log fuel n = Some l /\ first_primes l /\ Z.of_nat (length l) = n.
Proof.
  intros U H Hn. destruct (prime_table log fuel U H) as (data & E & L & F & _).
  unfold prime_list. destruct (Z.ltb_spec n 6550); [|lia]. rewrite E. eexists. split; [reflexivity|].
  split; [apply first_primes_first; auto|]. rewrite firstn_length_le by lia. lia.
Qed.

Lemma prime_list_large log fuel n m : (6550 <= n)%Z -> (2 <= sieve_limit log n <= 4294836225)%Z -> (sieve_limit log n <= Z.of_nat fuel)%Z ->
  NoDup m -> (forall p, In p m -> prime p /\ (p < sieve_limit log n)%Z) -> (n <= Z.of_nat (length m))%Z ->
  exists l, prime_list log fuel n = Some l /\ first_primes l /\ Z.of_nat (length l) = n.
Proof.
  intros Hn H F N I L. unfold prime_list. destruct (Z.ltb_spec n 6550); [lia|]. unfold generator.
  destruct (generate_first fuel n (sieve_limit log n) m) as (l & E & Q & R & _); auto; [lia|]. eauto.
Qed.

Lemma prime_list_forever log n : usable_log log -> (250000000 <= n <= 4294967295)%Z -> forall fuel, prime_list log fuel n = None.
Proof.
  intros U Hn fuel. unfold prime_list. destruct (Z.ltb_spec n 6550); [lia|]. unfold generator.
  rewrite limit_overflow by auto. apply generate_forever.
Qed.

Lemma prime_factors_all log fuel : usable_log log -> (sieve_limit log 6550 <= Z.of_nat fuel)%Z ->
  exists data, prime_data log fuel = Some data /\
  forall n, (2 <= n < 4294967296)%Z ->
  exists r f, prime_factors data n = Some r /\ factorization n f /\ (r = f \/ r = f ++ [(1, 1)]%Z).
Proof.
  intros U H. destruct (prime_table log fuel U H) as (data & E & _ & _ & G). exists data. split; auto.
  intros n Hn. apply prime_factors_correct; auto.
Qed.

Lemma prime_factors_wrong log fuel : usable_log log -> (sieve_limit log 6550 <= Z.of_nat fuel)%Z ->
  exists data, prime_data log fuel = Some data /\
  prime_factors data 0 = Some [(0, 1)]%Z /\ prime_factors data 1 = Some [(1, 1)]%Z /\ prime_factors data 4 = Some [(2, 2); (1, 1)]%Z /\
  ~ prime 0 /\ ~ factorization 1 [(1, 1)]%Z /\ ~ factorization 4 [(2, 2); (1, 1)]%Z.
Proof.
  intros U H. destruct (prime_table log fuel U H) as (data & E & _ & _ & G). exists data. split; auto.
  split; [reflexivity|]. split; [reflexivity|]. split; [apply factors_4; auto|]. split; [apply not_prime_0|].
  split; apply not_factorization; [left|right; left]; auto.
Qed.

(** A logarithm of the required accuracy. *)
Definition some_log (x : double) : double := binary_normalize 53 1024 d_prec d_emax mode_NE (Zfloor (1024 * ln (B2R x))) (-10) false.

Lemma some_log_usable : usable_log some_log.
Proof.
  intros x Fx Hx. unfold some_log. set (k := Zfloor (1024 * ln (B2R x))).
  assert (L0 : 0 <= ln (B2R x)) by (rewrite <- ln_1; apply ln_mono; lra).
  assert (L1 : ln (B2R x) <= 23).
  { apply Rle_trans with (ln 4294967295); [apply ln_mono; lra|].
    pose proof (ln_le 23 1 4294967295 1 ltac:(lia) ltac:(lia) ltac:(lia)) as Q. rewrite !INR_IZR_INZ in Q. change (Z.of_nat 23) with 23%Z in Q. change (Z.of_nat 1) with 1%Z in Q.
    replace (4294967295 / 1) with 4294967295 in Q by lra.
    refine (_ (Q _)); [intro Q'; lra|]. apply Z.leb_le. vm_compute. reflexivity. }
  assert (K1 : IZR k <= 1024 * ln (B2R x)) by apply Zfloor_lb. assert (K2 : 1024 * ln (B2R x) < IZR k + 1) by apply Zfloor_ub.
  assert (K3 : (0 <= k)%Z) by (apply Zfloor_lub; simpl; lra). assert (K4 : (k <= 23552)%Z) by (apply le_IZR; lra).
  pose proof (binary_normalize_correct 53 1024 d_prec d_emax mode_NE k (-10) false) as C. cbv zeta in C.
  change (round radix2 (SpecFloat.fexp 53 1024) (round_mode mode_NE) (F2R (Float radix2 k (-10)))) with (rnd (F2R (Float radix2 k (-10)))) in C.
  assert (E : F2R (Float radix2 k (-10)) = IZR k / 1024) by (unfold F2R; simpl; lra).
  assert (E' : rnd (F2R (Float radix2 k (-10))) = IZR k / 1024).
  { rewrite <- E. apply rnd_id. apply (generic_format_FLT radix2 (-1074) 53). exists (Float radix2 k (-10)); simpl; [auto| |lia].
    rewrite Z.abs_eq by lia. apply Z.le_lt_trans with (1 := K4). reflexivity. }
  rewrite E', Rlt_bool_true in C.
  - destruct C as (C1 & C2 & _). split; auto. rewrite C1. apply Rabs_le. lra.
  - assert (0 <= IZR k <= 23552) by (split; [apply IZR_le|apply IZR_le]; lia).
    rewrite Rabs_pos_eq by lra. apply Rlt_trans with (bpow radix2 53); [change (bpow radix2 53) with 9007199254740992; lra|]. apply bpow_lt. lia.
Qed.
