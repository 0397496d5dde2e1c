(** * The zeta function at integers (proofs only) *)

From Coq Require Import ZArith Znumtheory List Bool Arith Reals Lra Lia.
From Flocq Require Import BinarySingleNaN.
From Coquelicot Require Import Coquelicot.
From Verif Require Import Model Spec SpecBern SpecZeta Limbs Value AddProofs Decide AddExtra MulCor ModelDiv ModelElem ModelPow ModelStr PowProofs PowExtra ModelTables TabProofs ModelConst ExpReal SeriesFloat FloatEval ExpFloat
  ElemProofs ExpAcc SinFloat SinAcc ModelFact FactProofs TabBern ModelBern BernReal BernFloat BernTab EulerProduct EulerEven ModelZeta P_Pow P_Bern P_Const P_Tables.
Import ListNotations.
Open Scope R_scope.
Local Notation p10 := (powerRZ 10).

(** ** Real numbers *)

Lemma zeta_bounds s z : 2 <= s -> is_zeta s z -> 1 <= z <= 1 + 8 * Rpower 2 (- s).
Proof.
  intros Hs Hz. destruct (euler_product s ltac:(lra) z [2%nat] 2 Hz ltac:(lia)) as [E1 E2].
  - constructor; [intros []|constructor].
  - intros p [<-|[]]. exact prime_2.
  - intros p Pp L. assert (2 <= p)%nat by (destruct Pp; lia). left. lia.
  - change (euler s [2%nat]) with ((1 - Rpower 2 (- s)) * 1) in E1, E2. rewrite Rmult_1_r in E1, E2. set (q := Rpower 2 (- s)) in *.
    assert (Q : 0 < q <= / 4). { split; [apply exp_pos|]. unfold q. replace (/ 4) with (Rpower 2 (- (2))); [apply Rle_Rpower; lra|]. rewrite Rpower_Ropp. replace 2 with (INR 2) at 2 by reflexivity. rewrite Rpower_pow by lra. cbn. f_equal. ring. }
    assert (P : pw s (INR 2) / (s - 1) <= 2 * q).
    { assert (PW : pw s (INR 2) = 2 * q) by (unfold pw, q; change (INR 2) with 2; replace (1 - s) with (1 + - s) by ring; rewrite Rpower_plus, Rpower_1 by lra; reflexivity). rewrite PW. apply Rmult_le_reg_r with (s - 1); [lra|]. unfold Rdiv. rewrite Rmult_assoc, Rinv_l by lra. nra. }
    nra.
Qed.

Lemma ten_pow n : p10 (Z.of_nat n) = 10 ^ n.
Proof. symmetry. apply pow_powerRZ. Qed.

Lemma fact_bound n : (n <= 200)%nat -> 1 <= INR (fact n) <= p10 600.
Proof.
  intro N. split; [change 1 with (INR 1); apply le_INR; pose proof (lt_O_fact n); lia|].
  assert (F : forall m, (m <= 200)%nat -> INR (fact m) <= 1000 ^ m). { induction m as [|m IH]; intro M; [cbn; lra|]. rewrite fact_simpl, mult_INR. rewrite <- tech_pow_Rmult. apply Rmult_le_compat; try apply pos_INR; [|apply IH; lia]. rewrite INR_IZR_INZ. apply IZR_le. lia. }
  eapply Rle_trans; [apply (F n N)|]. change 600%Z with (Z.of_nat (3 * 200)). rewrite ten_pow, pow_mult. replace (10 ^ 3) with 1000 by ring. apply Rle_pow; [lra|exact N].
Qed.

Lemma bern_size b n : is_bernoulli b -> (1 <= n)%nat -> exists z, is_zeta (INR (2 * n)) z /\ 1 <= z <= 3 /\ z = (2 * PI) ^ (2 * n) * Rabs (b (2 * n)%nat) / (2 * INR (fact (2 * n))).
Proof.
  intros Hb N. destruct n as [|k]; [lia|]. pose proof (euler_formula b Hb k) as E. eexists. split; [exact E|]. split; [|reflexivity].
  assert (S2 : 2 <= INR (2 * S k)) by (change 2 with (INR 2); apply le_INR; lia). pose proof (zeta_bounds _ _ S2 E) as B.
  assert (Rpower 2 (- INR (2 * S k)) <= / 4). { replace (/ 4) with (Rpower 2 (- (2))); [apply Rle_Rpower; lra|]. rewrite Rpower_Ropp. replace 2 with (INR 2) at 2 by reflexivity. rewrite Rpower_pow by lra. cbn. f_equal. ring. }
  lra.
Qed.

Lemma two_pi_pow n : (n <= 200)%nat -> 1 <= (2 * PI) ^ n <= p10 200.
Proof.
  intro N. pose proof pi_bounds. split; [apply pow_R1_Rle; lra|]. change 200%Z with (Z.of_nat 200). rewrite ten_pow. apply Rle_trans with (10 ^ n); [apply pow_incr; lra|apply Rle_pow; [lra|exact N]].
Qed.

(** ** Rounding *)

Section Digits.
Variable d : Z.
Hypothesis Hd : valid_digits d.
Hypothesis Hd' : (d <= 1009)%Z.
Local Notation u := (p10 (- d)).
Variable pi : ef.
Hypothesis Hpi : const_pi d = Ok pi.

Lemma pi_near : finite d pi /\ full d pi /\ Rabs (value pi - PI) <= u / 100000000.
Proof.
  destruct (C60_constants_partial d _ _ Hd ltac:(lia) (is_pi d ltac:(lia))) as (l & L1 & L2 & L3 & L4). rewrite Hpi in L1. injection L1 as <-. split; [exact L2|]. split; [exact L3|].
  eapply Rle_trans; [exact L4|]. rewrite <- p_8. apply p10_le. lia.
Qed.

Lemma two_pi_near : finite d (two_pi d pi) /\ full d (two_pi d pi) /\ 6 < value (two_pi d pi) < 7 /\ rel (u / 10000000) (value (two_pi d pi)) (2 * PI).
Proof.
  destruct pi_near as (F & P & B). pose proof (u_small d Hd) as U. pose proof pi_bounds as PB. apply Rabs_le_inv in B.
  assert (T : 10 <= p10 1900000000) by (rewrite <- p10_1 at 1; apply p10_le; lia).
  destruct (mul_int_pos d Hd pi 2 F P ltac:(lra) ltac:(lia)) as (F2 & P2 & B2). fold (two_pi d pi) in *. rewrite (p_17 d) in B2. apply Rabs_le_inv in B2.
  split; [exact F2|]. split; [exact P2|]. split; [nra|]. unfold rel. rewrite (Rabs_pos_eq (2 * PI)) by lra. apply Rabs_le. nra.
Qed.

Lemma power_near n : (1 <= n <= 200)%Z -> exists p, pown d (two_pi d pi) n = Defined p /\ finite d p /\ full d p /\ ok d 201 p /\ 0 < value p /\ rel (u / 1000) (value p) ((2 * PI) ^ Z.to_nat n).
Proof.
  intro Hn. destruct two_pi_near as (F & P & B & R). pose proof (u_small d Hd) as U. set (t := two_pi d pi) in *.
  assert (IN : INR (Z.to_nat n) <= 200) by (rewrite INR_IZR_INZ, Z2Nat.id by lia; apply IZR_le; lia). pose proof (pos_INR (Z.to_nat n)) as IN0.
  assert (R1 : rel (102 / 100 * INR (Z.to_nat n) * (u / 10000000)) (value t ^ Z.to_nat n) ((2 * PI) ^ Z.to_nat n)) by (apply rel_pow; [lra|nra|exact R]).
  apply (rel_le _ (u / 10000)) in R1; [|nra]. pose proof (two_pi_pow (Z.to_nat n) ltac:(lia)) as W. set (w := (2 * PI) ^ Z.to_nat n) in *. pose proof R1 as R1'. unfold rel in R1'. rewrite (Rabs_pos_eq w) in R1' by lra. apply Rabs_le_inv in R1'.
  assert (V1 : / 2 * w <= value t ^ Z.to_nat n <= 2 * w) by nra. set (v := value t ^ Z.to_nat n) in *.
  assert (T : 10 * p10 200 <= p10 201) by (change 201%Z with (1 + 200)%Z; rewrite p10_add, p10_1; lra).
  assert (IR : in_range (powerRZ (value t) n)).
  { rewrite (powerRZ_pow (value t) n) by lia. fold v. unfold in_range. pose proof (p10_le (-2147483590) (- (1)) ltac:(lia)) as Q1. pose proof (p10_le 201 2147483590 ltac:(lia)) as Q2. rewrite p10_inv, p10_1 in Q1. rewrite Rabs_pos_eq by lra. lra. }
  destruct (proj1 (C34_defined d t) n ltac:(lia)) as (_ & p & Ep). exists p. split; [exact Ep|].
  destruct (pow_accurate d t n Hd F P ltac:(lra) ltac:(lia) IR p (or_intror Ep)) as (FP & PP & SP & LP & AP).
  rewrite (powerRZ_pow (value t) n) in SP, LP, AP by lia. fold v in SP, LP, AP. assert (VP : 0 < value p) by (apply Rmult_lt_reg_r with v; lra).
  rewrite (Rabs_pos_eq v), (Rabs_pos_eq (value p)) in LP, AP by lra. rewrite (eps_u d ltac:(lia)) in AP. assert (I2 : IZR n <= 200) by (apply IZR_le; lia). assert (I1 : 1 <= IZR n) by (apply IZR_le; lia).
  assert (AP' : v - value p <= u / 5000 * v). { eapply Rle_trans; [exact AP|]. apply Rmult_le_compat_r; [lra|]. nra. }
  split; [exact FP|]. split; [exact PP|]. split; [|split; [exact VP|]].
  - apply (ok_of_bounds d 201 p FP PP). rewrite Rabs_pos_eq by lra. pose proof (p10_le (- (201)) (- (1)) ltac:(lia)) as Q1. rewrite (p10_inv 1), p10_1 in Q1. nra.
  - eapply rel_le; [|eapply (rel_trans (u / 5000)); [lra| |exact R1]]; [nra|]. unfold rel. rewrite Rabs_left1, (Rabs_pos_eq v) by lra. lra.
Qed.

Lemma closed_form series_f series_b b n : is_bernoulli b -> (1 <= n <= 100)%nat -> let m := (2 * Z.of_nat n)%Z in
  exists p B f, pown d (two_pi d pi) m = Defined p /\ bernoulli d series_b m = Ok B /\ factorial d series_f m = Ok f /\
  let r := div_int d (div d (mul d p (fabs B)) f) 2 in finite d r /\ full d r /\
  rel (p10 (- d) + p10 (-413)) (value r) ((2 * PI) ^ (2 * n) * Rabs (b (2 * n)%nat) / (2 * INR (fact (2 * n)))).
Proof.
  intros Hb Hn m. pose proof (u_small d Hd) as U. destruct (power_near m ltac:(lia)) as (p & P1 & P2 & P3 & P4 & P5 & P6). replace (Z.to_nat m) with (2 * n)%nat in P6 by lia.
  destruct (C45_bernoulli_partial d series_b b m Hd ltac:(lia) Hb ltac:(lia) ltac:(left; lia)) as (B & B1 & B2 & B3 & B4). replace (Z.to_nat m) with (2 * n)%nat in B4 by lia.
  assert (F : exists f, factorial d series_f m = Ok f /\ finite d f /\ full d f /\ rel (2 * p10 (- (d + 17)) + p10 (-414)) (value f) (INR (fact (2 * n)))).
  { destruct (fact_read d m Hd ltac:(lia)) as (f & F1 & F2 & F3 & F4 & _). exists f. unfold factorial. rewrite fact_length. replace (m <? 1001)%Z with true by (symmetry; apply Z.ltb_lt; lia).
    replace (Z.to_nat m) with (2 * n)%nat in F4 by lia. auto. }
  destruct F as (f & F1 & F2 & F3 & F4). exists p, B, f. split; [exact P1|]. split; [exact B1|]. split; [exact F1|].
  destruct (bern_size b n Hb ltac:(lia)) as (z & _ & Z1 & Z2). pose proof (two_pi_pow (2 * n) ltac:(lia)) as Wb. pose proof (fact_bound (2 * n) ltac:(lia)) as Fb.
  set (W := (2 * PI) ^ (2 * n)) in *. set (phi := INR (fact (2 * n))) in *. set (bt := Rabs (b (2 * n)%nat)) in *. rewrite (p_17 d) in F4.
  set (t := p10 (-414)) in *. assert (T0 : 0 < t <= / 1000000000000). { unfold t. split; [apply p10_pos|]. apply Rle_trans with (p10 (- (12))); [apply p10_le; lia|]. rewrite p10_inv. change 12%Z with (Z.of_nat 12). rewrite ten_pow. lra. }
  assert (T1 : p10 (-413) = 10 * t) by (unfold t; change (-413)%Z with (1 + -414)%Z; rewrite p10_add, p10_1; reflexivity). rewrite T1.
  assert (Bt : bt * W = 2 * phi * z) by (rewrite Z2; field; lra). assert (G2 : 0 < p10 200) by apply p10_pos. assert (G6 : 0 < p10 600) by apply p10_pos.
  assert (Bt1 : / p10 200 <= bt). { apply Rmult_le_reg_r with W; [lra|]. rewrite Bt. apply Rle_trans with 1; [|nra]. apply Rmult_le_reg_l with (p10 200); [exact G2|]. rewrite <- Rmult_assoc, Rinv_r, Rmult_1_l by lra. lra. }
  assert (Bt2 : bt <= 6 * p10 600). { assert (0 <= bt) by apply Rabs_pos. apply Rle_trans with (bt * W); [nra|]. rewrite Bt. nra. }
  assert (Bi : 0 < / p10 200) by (apply Rinv_0_lt_compat; exact G2).
  assert (VB : Rabs (Rabs (value B) - bt) <= u / 5 * bt) by (eapply Rle_trans; [apply Rabs_triang_inv2|exact B4]). pose proof (Rabs_le_inv _ _ VB) as VB'.
  assert (VB1 : / 2 * bt <= Rabs (value B) <= 2 * bt) by nra.
  assert (OB : ok d 701 (fabs B)).
  { apply ok_of_bounds; [apply fabs_finite; exact B2|unfold full in *; unfold fabs; destruct (isneg B); [rewrite negate_prec|]; exact B3|]. rewrite (fabs_value d B Hd B2), Rabs_Rabsolu. split.
    - apply Rle_trans with (/ 2 * / p10 200); [|apply Rle_trans with (/ 2 * bt); [lra|apply VB1]]. rewrite p10_inv, <- Rinv_mult. apply Rinv_le_contravar; [lra|]. replace 701%Z with (501 + 200)%Z by reflexivity. rewrite p10_add. pose proof (p10_le 1 501 ltac:(lia)) as Q. rewrite p10_1 in Q. nra.
    - replace 701%Z with (101 + 600)%Z by reflexivity. rewrite p10_add. pose proof (p10_le 2 101 ltac:(lia)) as Q. replace (p10 2) with 100 in Q by (change 2%Z with (1 + 1)%Z; rewrite p10_add, p10_1; lra). nra. }
  destruct (ok_rel_mul d Hd ltac:(lia) 201 701 p (fabs B) ltac:(lia) ltac:(lia) ltac:(lia) P4 OB) as (Oq & Rq). set (q := mul d p (fabs B)) in *. rewrite (fabs_value d B Hd B2) in Rq.
  assert (VB2 : 0 < Rabs (value B)) by lra. assert (Vq : 0 < value q). { unfold rel in Rq. assert (0 < value p * Rabs (value B)) by nra. rewrite (Rabs_pos_eq (value p * _)) in Rq by lra. apply Rabs_le_inv in Rq. nra. }
  pose proof F4 as F4'. unfold rel in F4'. rewrite (Rabs_pos_eq phi) in F4' by lra. apply Rabs_le_inv in F4'. assert (Ef : 0 <= 2 * (u / 100000000000000000) + t <= / 100) by lra. set (ef := 2 * (u / 100000000000000000) + t) in *.
  assert (Vf : / 2 * phi <= value f <= 2 * phi) by nra.
  assert (Of : ok d 601 f).
  { apply ok_of_bounds; [exact F2|exact F3|]. rewrite Rabs_pos_eq by lra. split.
    - pose proof (p10_le (- (601)) (- (1)) ltac:(lia)) as Q. rewrite (p10_inv 1), p10_1 in Q. lra.
    - replace 601%Z with (1 + 600)%Z by reflexivity. rewrite p10_add, p10_1. lra. }
  destruct (ok_div d Hd ltac:(lia) 903 601 q f ltac:(lia) ltac:(lia) ltac:(lia) Oq Of ltac:(lra) ltac:(lra) ltac:(right; exact Vq)) as (Od & Sd & Rd). set (x := div d q f) in *.
  assert (Vx : value x <> 0) by (intro Q; rewrite Q in Sd; lra).
  destruct (ok_div_int d Hd (903 + 601 + 1) x 2 ltac:(lia) Od Vx ltac:(lia)) as ((Fr & Pr & _) & _ & Rr). cbv zeta. fold q x. split; [exact Fr|]. split; [exact Pr|].
  assert (RB : rel (u / 5) (Rabs (value B)) bt) by (unfold rel; rewrite (Rabs_pos_eq bt) by apply Rabs_pos; exact VB).
  pose proof (rel_mult (u / 1000) (u / 5) _ _ _ _ ltac:(lra) P6 RB) as R1. apply (rel_le _ (202 / 1000 * u)) in R1; [|nra].
  pose proof (rel_trans (u / 1000000) _ _ _ _ ltac:(lra) Rq R1) as R2. apply (rel_le _ (203 / 1000 * u)) in R2; [|nra].
  assert (Nf : value f <> 0) by lra. assert (Np : phi <> 0) by lra.
  pose proof (rel_div (203 / 1000 * u) ef _ _ _ _ Nf Np ltac:(lra) Ef R2 F4) as R3. apply (rel_le _ (204 / 1000 * u + 2 * t)) in R3; [|unfold ef in *; nra].
  pose proof (rel_trans (u / 10) _ _ _ _ ltac:(lra) Rd R3) as R4. apply (rel_le _ (305 / 1000 * u + 3 * t)) in R4; [|nra].
  pose proof (rel_mult (305 / 1000 * u + 3 * t) 0 _ _ (/ 2) (/ 2) ltac:(lra) R4 (rel_refl (/ 2))) as R5.
  pose proof (rel_trans (u / 10) _ _ _ _ ltac:(lra) Rr R5) as R6. replace (W * bt / (2 * phi)) with (W * bt / phi * / 2) by (field; lra). eapply rel_le; [|exact R6]. nra.
Qed.

Lemma pi_sq_near : ok d 3 (pi_squared d pi) /\ value (pi_squared d pi) <> 0 /\ rel (u / 100000) (value (pi_squared d pi)) (PI ^ 2).
Proof.
  destruct pi_near as (F & P & B). pose proof (u_small d Hd) as U. pose proof pi_bounds as PB. pose proof B as B'. apply Rabs_le_inv in B.
  assert (O : ok d 1 pi) by (apply ok_of_bounds; [exact F|exact P|]; rewrite p10_inv, p10_1, Rabs_pos_eq by lra; lra).
  destruct (ok_rel_mul d Hd ltac:(lia) 1 1 pi pi ltac:(lia) ltac:(lia) ltac:(lia) O O) as (Om & Rm). fold (pi_squared d pi) in Om, Rm.
  assert (R0 : rel (u / 100000000) (value pi) PI) by (unfold rel; rewrite (Rabs_pos_eq PI) by lra; nra).
  pose proof (rel_mult (u / 100000000) _ _ _ _ _ ltac:(lra) R0 R0) as R1. pose proof (rel_trans (u / 1000000) _ _ _ _ ltac:(lra) Rm R1) as R2. replace (PI * PI) with (PI ^ 2) in R2 by ring. apply (rel_le _ (u / 100000)) in R2; [|nra].
  split; [exact Om|]. split; [|exact R2]. intro Z. unfold rel in R2. rewrite Z, Rminus_0_l, Rabs_Ropp, (Rabs_pos_eq (PI ^ 2)) in R2 by nra. nra.
Qed.

Lemma zeta_2_near : let r := div_int d (pi_squared d pi) 6 in finite d r /\ full d r /\ rel u (value r) (PI ^ 2 / 6).
Proof.
  destruct pi_sq_near as (O & N & R). pose proof (u_small d Hd) as U. destruct (ok_div_int d Hd 3 (pi_squared d pi) 6 ltac:(lia) O N ltac:(lia)) as ((F & P & _) & _ & Rr).
  cbv zeta. split; [exact F|]. split; [exact P|]. pose proof (rel_mult (u / 100000) 0 _ _ (/ 6) (/ 6) ltac:(lra) R (rel_refl (/ 6))) as R5. pose proof (rel_trans (u / 10) _ _ _ _ ltac:(lra) Rr R5) as R6. eapply rel_le; [|exact R6]. nra.
Qed.

Lemma zeta_4_near : let r := div_int d (mul d (pi_squared d pi) (pi_squared d pi)) 90 in finite d r /\ full d r /\ rel u (value r) (PI ^ 4 / 90).
Proof.
  destruct pi_sq_near as (O & N & R). pose proof (u_small d Hd) as U. destruct (ok_rel_mul d Hd ltac:(lia) 3 3 _ _ ltac:(lia) ltac:(lia) ltac:(lia) O O) as (Om & Rm). set (q := mul d (pi_squared d pi) (pi_squared d pi)) in *.
  pose proof (rel_mult (u / 100000) _ _ _ _ _ ltac:(lra) R R) as R1. pose proof (rel_trans (u / 1000000) _ _ _ _ ltac:(lra) Rm R1) as R2. replace (PI ^ 2 * PI ^ 2) with (PI ^ 4) in R2 by ring. apply (rel_le _ (u / 10000)) in R2; [|nra].
  assert (P4 : 0 < PI ^ 4) by (apply pow_lt, PI_RGT_0).
  assert (Nq : value q <> 0). { intro Z. unfold rel in R2. rewrite Z, Rminus_0_l, Rabs_Ropp, (Rabs_pos_eq (PI ^ 4)) in R2 by lra. nra. }
  destruct (ok_div_int d Hd (3 + 3 + 1) q 90 ltac:(lia) Om Nq ltac:(lia)) as ((F & P & _) & _ & Rr).
  cbv zeta. split; [exact F|]. split; [exact P|]. pose proof (rel_mult (u / 10000) 0 _ _ (/ 90) (/ 90) ltac:(lra) R2 (rel_refl (/ 90))) as R5. pose proof (rel_trans (u / 10) _ _ _ _ ltac:(lra) Rr R5) as R6. eapply rel_le; [|exact R6]. nra.
Qed.

Lemma large_near n z : (2 <= n)%Z -> is_zeta (IZR n) z -> p10 (tolerance d) <= 2 * powerRZ 2 n -> rel u 1 z.
Proof.
  intros N Hz L. assert (N2 : 2 <= IZR n) by (apply IZR_le; exact N). pose proof (zeta_bounds _ _ N2 Hz) as B.
  assert (E : Rpower 2 (- IZR n) = / powerRZ 2 n) by (rewrite Rpower_Ropp, powerRZ_Rpower by lra; reflexivity). rewrite E in B.
  assert (T : 1000 * p10 d <= p10 (tolerance d)). { replace 1000 with (p10 3) by (change 3%Z with (Z.of_nat 3); rewrite ten_pow; lra). rewrite <- p10_add. apply p10_le. unfold tolerance, max_digits10. destruct Hd. assert (3 <= (d + 1) / 10)%Z by (apply Z.div_le_lower_bound; lia). lia. }
  pose proof (p10_pos d) as P0. assert (P2 : 0 < powerRZ 2 n) by (apply powerRZ_lt; lra). assert (I : / powerRZ 2 n <= / (500 * p10 d)) by (apply Rinv_le_contravar; lra). rewrite Rinv_mult, <- p10_inv in I.
  pose proof (p10_pos (- d)). unfold rel. rewrite Rabs_left1, (Rabs_pos_eq z) by lra. nra.
Qed.

(** ** Negative integers *)

Lemma negative_near series_b b n : is_bernoulli b -> (1 <= n <= 100)%nat -> let m := (2 * Z.of_nat n)%Z in
  exists B, bernoulli d series_b m = Ok B /\ let r := div_int d (negate B) m in finite d r /\ full d r /\ rel u (value r) (- b (2 * n)%nat / IZR m).
Proof.
  intros Hb Hn m. pose proof (u_small d Hd) as U. destruct (C45_bernoulli_partial d series_b b m Hd ltac:(lia) Hb ltac:(lia) ltac:(left; lia)) as (B & B1 & B2 & B3 & B4). replace (Z.to_nat m) with (2 * n)%nat in B4 by lia.
  exists B. split; [exact B1|]. destruct (bern_size b n Hb ltac:(lia)) as (z & _ & Z1 & Z2).
  assert (Nb : b (2 * n)%nat <> 0). { intro Q. rewrite Q, Rabs_R0 in Z2. unfold Rdiv in Z2. rewrite Rmult_0_r, Rmult_0_l in Z2. lra. }
  apply Rabs_pos_lt in Nb. assert (NB : value B <> 0). { intro Q. rewrite Q, Rminus_0_l, Rabs_Ropp in B4. nra. }
  assert (Fn : finite d (negate B)) by (apply negate_finite; exact B2). assert (Pn : full d (negate B)) by (unfold full in *; rewrite negate_prec; exact B3). pose proof (negate_value d B Hd B2) as Vn.
  destruct (div_int_small d Hd (negate B) m Fn Pn ltac:(lra) ltac:(lia)) as (F & P & _ & R). rewrite (p_1 d) in R. cbv zeta. split; [exact F|]. split; [exact P|].
  assert (R0 : rel (u / 5) (value (negate B)) (- b (2 * n)%nat)). { unfold rel. rewrite Vn, Rabs_Ropp. replace (- value B - - b (2 * n)%nat) with (- (value B - b (2 * n)%nat)) by ring. rewrite Rabs_Ropp. exact B4. }
  pose proof (rel_mult (u / 5) 0 _ _ (/ IZR m) (/ IZR m) ltac:(lra) R0 (rel_refl (/ IZR m))) as R5. pose proof (rel_trans (u / 10) _ _ _ _ ltac:(lra) R R5) as R6. eapply rel_le; [|exact R6]. nra.
Qed.
End Digits.

Lemma bern_2 b : is_bernoulli b -> b 2%nat = / 6.
Proof. intro Hb. change 2%nat with (2 * 1)%nat. rewrite (bernoulli_tang b 1 Hb ltac:(lia)), (tang_first 1 ltac:(lia)). cbn. field. Qed.
Lemma bern_4 b : is_bernoulli b -> b 4%nat = - / 30.
Proof. intro Hb. change 4%nat with (2 * 2)%nat. rewrite (bernoulli_tang b 2 Hb ltac:(lia)), (tang_step 2 2 ltac:(lia)). change (2 - 1)%nat with 1%nat. rewrite (tang_first 2 ltac:(lia)). cbn. field. Qed.

Lemma simple_even n : (0 <= n <= 200)%Z -> Z.even n = true -> has_simple_form b2n_table_max n = true.
Proof.
  intros N E. unfold has_simple_form, b2n_table_max. rewrite num_length, den_length. change (2 * Z.min 1001 1001)%Z with 2002%Z. replace (n <? 2002)%Z with true by (symmetry; apply Z.ltb_lt; lia). replace (n <? 0)%Z with false by (symmetry; apply Z.ltb_ge; lia).
  rewrite Zmod_even, E. reflexivity.
Qed.
Lemma simple_negative n : (n < 0)%Z -> has_simple_form b2n_table_max n = true.
Proof.
  intro N. unfold has_simple_form, b2n_table_max. rewrite num_length, den_length. change (2 * Z.min 1001 1001)%Z with 2002%Z. replace (n <? 2002)%Z with true by (symmetry; apply Z.ltb_lt; lia). replace (n <? 0)%Z with true by (symmetry; apply Z.ltb_lt; lia).
  cbn [andb negb orb]. reflexivity.
Qed.
