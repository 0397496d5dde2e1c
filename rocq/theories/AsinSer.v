(** * Accuracy of the arc sine: the series for small arguments (proofs only) *)

From Coq Require Import ZArith List Bool Reals Lra Lia Psatz.
From Verif Require Import Model Spec SpecGen Limbs Value CmpProofs AddProofs Decide OrderProofs OrderDec AddExtra MulProofs MulValue MulExtra MulCor
  IntProofs IntPartProofs IntConv MixedProofs IntCor ModelDiv DoubleProofs NewtonProofs InvProofs SqrtProofs ModelPow PowGen PowProofs PowExtra LdexpProofs
  StrAny FloatEval ModelGen ModelElem ElemProofs SeriesFloat ExpReal ExpFloat ExpAcc ConstReal SinReal SinFloat SinStep SinAcc AtanAcc HyperFloat AtanSer AsinAcc.
Import ListNotations.
Open Scope R_scope.
Ltac Zify.zify_post_hook ::= Z.div_mod_to_equations.
Local Notation p10 := (powerRZ 10).
Local Notation sin := Rtrigo_def.sin.
Local Notation cos := Rtrigo_def.cos.
Local Notation asin := Ratan.asin.
Local Notation sqrt := R_sqrt.sqrt.

(** ** Real numbers *)

(* the coefficients of 1 / sqrt (1 - t) *)
Fixpoint bco (n : nat) : R := match n with O => 1 | S k => bco k * (INR (2 * k + 1) / INR (2 * k + 2)) end.

Lemma bco_bound n : 0 < bco n <= 1.
Proof.
  induction n as [|n IH]; cbn [bco]; [lra|]. assert (0 < INR (2 * n + 1)) by (apply lt_0_INR; lia). assert (0 < INR (2 * n + 2)) by (apply lt_0_INR; lia).
  assert (Q : 0 < INR (2 * n + 1) / INR (2 * n + 2) <= 1).
  { split; [apply Rmult_lt_0_compat; [lra|apply Rinv_0_lt_compat; lra]|]. apply (Rmult_le_reg_r (INR (2 * n + 2))); [lra|]. unfold Rdiv. rewrite Rmult_assoc, Rinv_l by lra. rewrite Rmult_1_r, Rmult_1_l. apply le_INR. lia. }
  split; [apply Rmult_lt_0_compat; lra|]. apply Rle_trans with (1 * 1); [apply Rmult_le_compat; lra|lra].
Qed.

Lemma g_asin_term z n : g_term (/ 2) (/ 2) (3 / 2) z (Z.of_nat n) = bco n * z ^ n / INR (2 * n + 1).
Proof.
  induction n as [|n IH].
  - change (Z.of_nat 0) with 0%Z. rewrite g_term_0. cbn. field.
  - rewrite Nat2Z.inj_succ. unfold Z.succ. rewrite g_term_step, IH by (try lra; lia). cbn [bco]. rewrite plus_IZR, <- INR_IZR_INZ, <- tech_pow_Rmult.
    replace (INR (2 * S n + 1)) with (2 * INR n + 3) by (rewrite plus_INR, mult_INR, !S_INR; cbn [INR]; ring). rewrite !plus_INR, mult_INR. cbn [INR]. pose proof (pos_INR n). field; lra.
Qed.

Fixpoint dsum (n : nat) (x : R) : R := match n with O => 0 | S k => dsum k x + bco k * x ^ (2 * k) end.
Fixpoint ddsum (n : nat) (x : R) : R := match n with O => 0 | S k => ddsum k x + bco k * (INR (2 * k) * x ^ pred (2 * k)) end.
Fixpoint asum (n : nat) (x : R) : R := match n with O => 0 | S k => asum k x + bco k * x ^ (2 * k + 1) / INR (2 * k + 1) end.

Lemma dsum_deriv n x : derivable_pt_lim (dsum n) x (ddsum n x).
Proof.
  induction n as [|n IH]; [apply derivable_pt_lim_const|]. change (dsum (S n)) with (plus_fct (dsum n) (mult_real_fct (bco n) (fun y => y ^ (2 * n)))).
  apply derivable_pt_lim_plus; [exact IH|]. apply derivable_pt_lim_scal. apply derivable_pt_lim_pow.
Qed.

Lemma asum_deriv n x : derivable_pt_lim (asum n) x (dsum n x).
Proof.
  induction n as [|n IH]; [apply derivable_pt_lim_const|]. change (asum (S n)) with (plus_fct (asum n) (fun y => bco n * y ^ (2 * n + 1) / INR (2 * n + 1))).
  cbn [dsum]. apply derivable_pt_lim_plus; [exact IH|].
  replace (bco n * x ^ (2 * n)) with (bco n / INR (2 * n + 1) * (INR (2 * n + 1) * x ^ pred (2 * n + 1))).
  2: { replace (pred (2 * n + 1)) with (2 * n)%nat by lia. field. apply not_0_INR. lia. }
  apply (derivable_pt_lim_ext (mult_real_fct (bco n / INR (2 * n + 1)) (fun y => y ^ (2 * n + 1)))).
  - intro y. unfold mult_real_fct. field. apply not_0_INR. lia.
  - apply derivable_pt_lim_scal. apply derivable_pt_lim_pow.
Qed.

Lemma dsum_equation n x : (1 - x * x) * ddsum (S n) x - x * dsum (S n) x = - (INR (2 * n + 1) * bco n * x ^ (2 * n + 1)).
Proof.
  induction n as [|n IH].
  - cbn. ring.
  - change (ddsum (S (S n)) x) with (ddsum (S n) x + bco (S n) * (INR (2 * S n) * x ^ pred (2 * S n))). change (dsum (S (S n)) x) with (dsum (S n) x + bco (S n) * x ^ (2 * S n)).
    replace (pred (2 * S n)) with (2 * n + 1)%nat by lia. replace (2 * S n + 1)%nat with (S (S (2 * n + 1))) by lia. replace (2 * S n)%nat with (S (2 * n + 1)) by lia.
    rewrite !S_INR. rewrite <- !tech_pow_Rmult.
    transitivity (((1 - x * x) * ddsum (S n) x - x * dsum (S n) x) + bco (S n) * x ^ (2 * n + 1) * ((1 - x * x) * (INR (2 * n + 1) + 1) - x * x)); [ring|]. rewrite IH. cbn [bco].
    assert (N2 : INR (2 * n + 2) = INR (2 * n + 1) + 1) by (replace (2 * n + 2)%nat with (S (2 * n + 1)) by lia; apply S_INR). rewrite N2. pose proof (pos_INR (2 * n + 1)). field. lra.
Qed.

Lemma dsum_zero n : dsum (S n) 0 = 1.
Proof. induction n as [|n IH]; [cbn; ring|]. change (dsum (S (S n)) 0) with (dsum (S n) 0 + bco (S n) * 0 ^ (2 * S n)). rewrite IH, pow_i by lia. ring. Qed.
Lemma asum_zero n : asum n 0 = 0.
Proof. induction n as [|n IH]; [reflexivity|]. cbn [asum]. rewrite IH, pow_i by lia. field. apply not_0_INR. lia. Qed.

(** The partial sums at sin t are close to t *)
Lemma asum_close n t : 0 < t <= / 10 -> Rabs (asum (S n) (sin t) - t) <= INR (2 * n + 1) * t ^ (2 * n + 3).
Proof.
  intro H. set (M := INR (2 * n + 1)). assert (M0 : 0 < M) by (apply lt_0_INR; lia).
  assert (SB : forall s, 0 <= s <= t -> 0 <= sin s <= s).
  { intros s Hs. pose proof pi_bounds. split; [apply sin_ge_0; lra|]. destruct (Req_dec s 0) as [->|N]; [rewrite sin_0; lra|]. left. apply sin_lt_x. lra. }
  assert (D1 : forall s, derivable_pt_lim (mult_fct (comp (dsum (S n)) sin) cos) s (- (M * bco n * sin s ^ (2 * n + 1)))).
  { intro s. replace (- (M * bco n * sin s ^ (2 * n + 1))) with (ddsum (S n) (sin s) * cos s * cos s + comp (dsum (S n)) sin s * - sin s).
    - apply derivable_pt_lim_mult; [|apply derivable_pt_lim_cos]. apply derivable_pt_lim_comp; [apply derivable_pt_lim_sin|apply dsum_deriv].
    - unfold M. rewrite <- dsum_equation. unfold comp. pose proof (sin2_cos2 s) as E. unfold Rsqr in E. replace (1 - sin s * sin s) with (cos s * cos s) by lra. ring. }
  assert (K : forall s, 0 <= s <= t -> Rabs (dsum (S n) (sin s) * cos s - 1) <= M * t ^ (2 * n + 2)).
  { intros s Hs. destruct (Req_dec s 0) as [->|N].
    - rewrite sin_0, cos_0, dsum_zero. replace (1 * 1 - 1) with 0 by ring. rewrite Rabs_R0. apply Rmult_le_pos; [lra|apply pow_le; lra].
    - destruct (MVT_cor2 (mult_fct (comp (dsum (S n)) sin) cos) (fun s => - (M * bco n * sin s ^ (2 * n + 1))) 0 s ltac:(lra)) as (c & E & Hc); [intros; apply D1|].
      unfold mult_fct, comp in E. rewrite sin_0, cos_0, dsum_zero, Rmult_1_l, Rminus_0_r in E. rewrite E, Rabs_mult, Rabs_Ropp, (Rabs_pos_eq s) by lra.
      destruct (SB c ltac:(lra)) as [S0 S1]. destruct (bco_bound n) as [b0 b1]. assert (P0 : 0 <= sin c ^ (2 * n + 1)) by (apply pow_le; lra).
      assert (P1 : sin c ^ (2 * n + 1) <= t ^ (2 * n + 1)) by (apply pow_incr; lra).
      rewrite Rabs_pos_eq by (apply Rmult_le_pos; [apply Rmult_le_pos; lra|lra]).
      replace (2 * n + 2)%nat with (S (2 * n + 1)) by lia. rewrite <- tech_pow_Rmult. replace (M * (t * t ^ (2 * n + 1))) with (M * 1 * t ^ (2 * n + 1) * t) by ring.
      apply Rmult_le_compat; [apply Rmult_le_pos; [apply Rmult_le_pos; lra|lra]|lra| |lra]. apply Rmult_le_compat; [apply Rmult_le_pos; lra|lra| |lra]. apply Rmult_le_compat_l; lra. }
  assert (D2 : forall s, derivable_pt_lim (minus_fct (comp (asum (S n)) sin) id) s (dsum (S n) (sin s) * cos s - 1)).
  { intro s. apply derivable_pt_lim_minus; [|apply derivable_pt_lim_id]. apply derivable_pt_lim_comp; [apply derivable_pt_lim_sin|apply asum_deriv]. }
  destruct (MVT_cor2 (minus_fct (comp (asum (S n)) sin) id) (fun s => dsum (S n) (sin s) * cos s - 1) 0 t ltac:(lra)) as (c & E & Hc); [intros; apply D2|].
  unfold minus_fct, comp, id in E. rewrite sin_0, asum_zero in E. replace (asum (S n) (sin t) - t) with (asum (S n) (sin t) - t - (0 - 0)) by ring. rewrite E, Rabs_mult, Rminus_0_r, (Rabs_pos_eq t) by lra.
  replace (2 * n + 3)%nat with (S (2 * n + 2)) by lia. rewrite <- tech_pow_Rmult. rewrite (Rmult_comm t), <- Rmult_assoc. apply Rmult_le_compat_r; [lra|]. apply K. lra.
Qed.

Lemma asum_terms x n : asum (S n) x = x * sum_f_R0 (fun i => g_term (/ 2) (/ 2) (3 / 2) (x * x) (Z.of_nat i)) n.
Proof.
  induction n as [|n IH].
  - cbn [asum sum_f_R0]. rewrite g_asin_term. cbn. field.
  - change (asum (S (S n)) x) with (asum (S n) x + bco (S n) * x ^ (2 * S n + 1) / INR (2 * S n + 1)). rewrite IH. cbn [sum_f_R0]. rewrite g_asin_term, Rmult_plus_distr_l. f_equal.
    rewrite Rpow_mult_distr, <- pow_add. replace (2 * S n + 1)%nat with (S (S n + S n)) by lia. rewrite <- tech_pow_Rmult. field. apply not_0_INR. lia.
Qed.

Lemma INR_pow2 n : INR (2 * n + 1) <= 3 ^ n.
Proof. induction n as [|n IH]; [cbn; lra|]. replace (2 * S n + 1)%nat with (S (S (2 * n + 1))) by lia. rewrite !S_INR, <- tech_pow_Rmult. assert (1 <= 3 ^ n) by (apply pow_R1_Rle; lra). lra. Qed.

Lemma asin_series t : 0 < t <= / 10 -> infinite_sum (fun i => g_term (/ 2) (/ 2) (3 / 2) (sin t * sin t) (Z.of_nat i)) (t / sin t).
Proof.
  intros H eps He. pose proof pi_bounds. assert (S0 : 0 < sin t) by (apply sin_gt_0; lra).
  destruct (pow_lt_1_zero (3 * (t * t))) with (y := eps * sin t / (t * t * t)) as [M HM].
  - rewrite Rabs_pos_eq by nra. nra.
  - apply Rmult_lt_0_compat; [apply Rmult_lt_0_compat; lra|apply Rinv_0_lt_compat; repeat apply Rmult_lt_0_compat; lra].
  - exists M. intros n Hn. unfold R_dist. set (s := sum_f_R0 _ n). assert (E : s = asum (S n) (sin t) / sin t) by (rewrite asum_terms; fold s; field; lra). rewrite E.
    replace (asum (S n) (sin t) / sin t - t / sin t) with ((asum (S n) (sin t) - t) / sin t) by (field; lra). unfold Rdiv. rewrite Rabs_mult, (Rabs_pos_eq (/ sin t)) by (left; apply Rinv_0_lt_compat; lra).
    apply (Rmult_lt_reg_r (sin t)); [exact S0|]. rewrite Rmult_assoc, Rinv_l, Rmult_1_r by lra. eapply Rle_lt_trans; [apply asum_close; exact H|].
    specialize (HM n Hn). rewrite Rabs_pos_eq in HM by (apply pow_le; nra). assert (T3 : 0 < t * t * t) by (repeat apply Rmult_lt_0_compat; lra).
    apply (Rmult_lt_compat_r (t * t * t)) in HM; [|exact T3]. unfold Rdiv in HM. rewrite (Rmult_assoc _ (/ (t * t * t))), Rinv_l, Rmult_1_r in HM by lra. eapply Rle_lt_trans; [|exact HM].
    replace (t ^ (2 * n + 3)) with ((t * t) ^ n * (t * t * t)) by (rewrite pow_add, pow_mult; replace (t ^ 2) with (t * t) by ring; cbn [Rpow_def.pow]; ring).
    rewrite <- Rmult_assoc. apply Rmult_le_compat_r; [lra|]. rewrite (Rpow_mult_distr 3). apply Rmult_le_compat_r; [apply pow_le; nra|]. apply INR_pow2.
Qed.

(** asin on small arguments *)
Lemma asin_small x : 0 < x <= / 20 -> x <= asin x <= 101 / 100 * x /\ sin (asin x) = x.
Proof.
  intro H. destruct (asin_facts x ltac:(lra)) as (T0 & T1 & _ & _ & T4). split; [|exact T1]. split; [lra|]. set (t := asin x) in *.
  pose proof (sin_lower t ltac:(lra)) as L. rewrite T1 in L. nra.
Qed.

Lemma asin_lipschitz a b : 0 < a <= / 20 -> 0 < b <= / 20 -> Rabs (asin a - asin b) <= 102 / 100 * Rabs (a - b).
Proof.
  assert (W : forall a b, 0 < a -> a < b -> b <= / 20 -> 0 <= asin b - asin a <= 102 / 100 * (b - a)).
  { intros x y Hx L Hy. destruct (asin_small x ltac:(lra)) as [A1 A2]. destruct (asin_small y ltac:(lra)) as [B1 B2]. set (s := asin x) in *. set (t := asin y) in *.
    assert (st : s < t). { apply Rnot_le_lt. intro C. pose proof pi_bounds. destruct C as [C|C]; [pose proof (sin_increasing_1 t s ltac:(lra) ltac:(lra) ltac:(lra) ltac:(lra) C); lra|rewrite C in B2; lra]. }
    split; [lra|]. destruct (MVT_cor2 sin cos s t st) as (c & E & Hc); [intros; apply derivable_pt_lim_sin|]. rewrite A2, B2 in E.
    assert (C : 99 / 100 <= cos c). { pose proof (one_minus_cos c) as [_ D]. nra. } nra. }
  intros Ha Hb. destruct (Rtotal_order a b) as [L|[->|L]].
  - specialize (W a b ltac:(lra) L ltac:(lra)). rewrite (Rabs_left1 (asin a - asin b)), (Rabs_left1 (a - b)) by lra. lra.
  - unfold Rminus. rewrite !Rplus_opp_r, Rabs_R0. lra.
  - specialize (W b a ltac:(lra) L ltac:(lra)). rewrite (Rabs_pos_eq (asin a - asin b)), (Rabs_pos_eq (a - b)) by lra. lra.
Qed.

Lemma asin_quotient a y : 0 < a <= / 20 -> 0 < y <= / 20 -> Rabs (asin y / y - asin a / a) <= 204 / 100 * Rabs (y - a) / y.
Proof.
  intros Ha Hy. replace (asin y / y - asin a / a) with (((asin y - asin a) + (a - y) * (asin a / a)) / y) by (field; lra).
  set (w := asin y - asin a + (a - y) * (asin a / a)). set (b := 204 / 100 * Rabs (y - a)). cut (Rabs w <= b).
  { intro C. unfold Rdiv. rewrite Rabs_mult, (Rabs_pos_eq (/ y)) by (left; apply Rinv_0_lt_compat; lra). apply Rmult_le_compat_r; [left; apply Rinv_0_lt_compat; lra|exact C]. }
  unfold w, b. eapply Rle_trans; [apply Rabs_triang|]. pose proof (asin_lipschitz y a Hy Ha) as L. rewrite Rabs_mult, (Rabs_minus_sym a y).
  assert (Q : 0 <= asin a / a <= 101 / 100).
  { destruct (asin_small a ltac:(lra)) as [[A B] _]. split; [apply Rmult_le_pos; [lra|left; apply Rinv_0_lt_compat; lra]|]. apply (Rmult_le_reg_r a); [lra|]. unfold Rdiv. rewrite Rmult_assoc, Rinv_l by lra. lra. }
  rewrite (Rabs_pos_eq (asin a / a)) by lra. pose proof (Rabs_pos (y - a)). assert (Rabs (y - a) * (asin a / a) <= Rabs (y - a) * (101 / 100)) by (apply Rmult_le_compat_l; lra). lra.
Qed.

Section FixedDigits.
Variable d : Z.
Hypothesis Hd : valid_digits d.
Hypothesis Hd' : (d <= 4967)%Z.
Variable env : env.
Local Notation u := (p10 (- d)).

(** The series of asin y / y at an argument close to the square of a *)
Lemma h2f1_asin m z a e : (0 <= m <= 1000000)%Z -> ok d m z -> 0 < a <= / 50 -> 0 <= e <= / 1000 -> Rabs (value z - a * a) <= e * (a * a) ->
  let h := h2f1 d (half d) (half d) (three_half d) z in
  ok d 1 h /\ 99 / 100 <= value h <= 101 / 100 /\ Rabs (value h - asin a / a) <= (23 / 100 * (a * a) + / 100000) * u + 21 / 10 * e.
Proof.
  intros Hm Oz Ha He Hz h. pose proof (u_small d Hd) as Us.
  assert (Hz' : Rabs (- value z - - (a * a)) <= e * (a * a)) by (replace (- value z - - (a * a)) with (- (value z - a * a)) by ring; rewrite Rabs_Ropp; exact Hz).
  destruct (near_square (- value z) a e ltac:(lra) ltac:(lra) Hz') as (y & Y0 & Ez' & Ry). assert (Ez : value z = y * y) by lra.
  destruct (half_facts d Hd) as [Oh Vh]. destruct (three_half_facts d Hd Hd') as [Ot Vt].
  assert (ea : 0 <= e * a <= / 1000 * a) by (split; [apply Rmult_le_pos; lra|apply Rmult_le_compat_r; lra]).
  assert (Y1 : 999 / 1000 * a <= y <= 1001 / 1000 * a) by (apply Rabs_le_inv in Ry; lra).
  assert (YY : y * y <= 1003 / 1000 * (a * a)) by nra. assert (aa : a * a <= / 2500) by nra. assert (Y3 : 0 < y * y) by nra.
  assert (Nz : value z <> 0) by lra. assert (Bz : Rabs (value z) <= / 1000) by (rewrite Ez, Rabs_pos_eq; lra).
  destruct (asin_small y ltac:(lra)) as [S1 S2].
  assert (G : ok d 1 h /\ 99 / 100 <= value h <= 101 / 100 /\ Rabs (value h - asin y / y) <= (22 / 100 * Rabs (value z) + / 100000) * u).
  { apply (h2f1_ok d Hd Hd' m (/ 2) (/ 2) (3 / 2)); try assumption; try lra. rewrite Ez. pose proof (asin_series (asin y) ltac:(lra)) as A. rewrite S2 in A. exact A. }
  destruct G as (G1 & G2 & G3). split; [exact G1|]. split; [exact G2|].
  pose proof (asin_quotient a y ltac:(lra) ltac:(lra)) as Q.
  assert (Q' : 204 / 100 * Rabs (y - a) / y <= 21 / 10 * e). { apply (Rmult_le_reg_r y); [exact Y0|]. unfold Rdiv. rewrite Rmult_assoc, Rinv_l by lra. assert (e * (999 / 1000 * a) <= e * y) by (apply Rmult_le_compat_l; lra). lra. }
  replace (value h - asin a / a) with ((value h - asin y / y) + (asin y / y - asin a / a)) by ring. eapply Rle_trans; [apply Rabs_triang|].
  rewrite Ez, (Rabs_pos_eq (y * y)) in G3 by lra.
  assert ((22 / 100 * (y * y) + / 100000) * u <= (23 / 100 * (a * a) + / 100000) * u) by (apply Rmult_le_compat_r; lra). lra.
Qed.

Lemma asin_at_zero_ok m x : (0 <= m <= 499000)%Z -> ok d m x -> 0 < value x <= / 1000 ->
  let r := mul d x (h2f1 d (half d) (half d) (three_half d) (mul d x x)) in
  ok d (m + 2) r /\ Rabs (value r - asin (value x)) <= / 10000 * u * asin (value x).
Proof.
  intros Hm Ox Hx r. pose proof (u_small d Hd) as U.
  destruct (ok_rel_mul d Hd Hd' m m x x ltac:(lia) ltac:(lia) ltac:(lia) Ox Ox) as [Oq Rq]. set (z := mul d x x) in *. set (a := value x) in *.
  unfold rel in Rq. rewrite (Rabs_pos_eq (a * a)) in Rq by nra.
  destruct (h2f1_asin (m + m + 1) z a (u / 1000000) ltac:(lia) Oq ltac:(lra) ltac:(lra) Rq) as (Oh & Vh & Bh).
  set (h := h2f1 d (half d) (half d) (three_half d) z) in *.
  destruct (ok_rel_mul d Hd Hd' m 1 x h ltac:(lia) ltac:(lia) ltac:(lia) Ox Oh) as [Or Rr]. change (mul d x h) with r in Or, Rr. fold a in Rr.
  split; [apply (ok_le d (m + 1 + 1)); [lia|exact Or]|]. destruct (asin_small a ltac:(lra)) as [[A1 A2] _].
  replace (value r - asin a) with ((value r - a * value h) + a * (value h - asin a / a)) by (field; lra).
  eapply Rle_trans; [apply Rabs_triang|]. rewrite (Rabs_mult a (_ - _)), (Rabs_pos_eq a) by lra. unfold rel in Rr. rewrite Rabs_mult, (Rabs_pos_eq (value h)), (Rabs_pos_eq a) in Rr by lra.
  assert (B' : Rabs (value h - asin a / a) <= / 50000 * u). { eapply Rle_trans; [exact Bh|]. assert (aa : a * a <= / 1000000) by nra. assert (a * a * u <= / 1000000 * u) by (apply Rmult_le_compat_r; lra). lra. }
  assert (X1 : u / 1000000 * (a * value h) <= u / 1000000 * (a * 2)) by (apply Rmult_le_compat_l; [lra|]; apply Rmult_le_compat_l; lra).
  assert (X2 : a * Rabs (value h - asin a / a) <= a * (/ 50000 * u)) by (apply Rmult_le_compat_l; lra).
  assert (X3 : u * a <= u * asin a) by (apply Rmult_le_compat_l; lra).
  assert (X4 : 0 <= u * a) by (apply Rmult_le_pos; lra). lra.
Qed.

End FixedDigits.
