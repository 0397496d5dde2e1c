(** * Proofs about the generic functions *)

From Coq Require Import ZArith List Bool Reals Lra Lia Psatz.
From Coquelicot Require Import Coquelicot.
From Verif Require Import Model Spec SpecGen Value ModelPow PowProofs ModelGenFun.
Import ListNotations.
Open Scope R_scope.
Ltac Zify.zify_post_hook ::= Z.div_mod_to_equations.
Local Notation p10 := (powerRZ 10).

(** ** Integer powers *)
Section Powers.
Open Scope Z_scope.
Context {T : Type}.
Variables (one : T) (mul div : T -> T -> T) (b : T).
Hypothesis one_l : forall x, mul one x = x.
Hypothesis one_r : forall x, mul x one = x.
Hypothesis assoc : forall x y z, mul (mul x y) z = mul x (mul y z).
Local Notation power n := (Nat.iter n (mul b) one).

Lemma power_add m n : power (m + n) = mul (power m) (power n).
Proof.
  induction m as [|m IH]; [cbn; rewrite one_l; reflexivity|].
  change (mul b (power (m + n)) = mul (mul b (power m)) (power n)). rewrite IH, assoc. reflexivity.
Qed.

Lemma square_loop_spec p : forall fuel n value, 1 <= n <= p -> p < n * 2 ^ Z.of_nat fuel -> value = power (Z.to_nat n) ->
  let '(v, m) := square_loop mul fuel p value n in v = power (Z.to_nat m) /\ 1 <= m <= p /\ p < 2 * m.
Proof.
  induction fuel as [|f IH]; intros n value H1 H2 V.
  - cbn [Z.of_nat] in H2. rewrite Z.pow_0_r in H2. lia.
  - cbn [square_loop]. rewrite Nat2Z.inj_succ, Z.pow_succ_r in H2 by lia. destruct (Z.leb_spec n (p / 2)) as [L|L].
    + apply IH; [lia|nia|]. rewrite V, <- power_add. f_equal. lia.
    + split; [exact V|]. lia.
Qed.

Lemma g_pown_nonneg_spec : forall fuel p, 0 <= p < 2 ^ Z.of_nat fuel -> p < 2 ^ 63 -> g_pown_nonneg one mul fuel b p = power (Z.to_nat p).
Proof.
  induction fuel as [|f IH]; intros p H H63.
  - cbn [Z.of_nat] in H. rewrite Z.pow_0_r in H. assert (p = 0) by lia. subst p. reflexivity.
  - rewrite Nat2Z.inj_succ, Z.pow_succ_r in H by lia. cbn [g_pown_nonneg].
    destruct (Z.eqb_spec p 0) as [->|N0]; [reflexivity|]. destruct (Z.eqb_spec p 1) as [->|N1]; [change (b = mul b one); rewrite one_r; reflexivity|].
    destruct (Z.eqb_spec p 2) as [->|N2]; [change (mul b b = mul b (mul b one)); rewrite one_r; reflexivity|]. destruct (Z.eqb_spec p 3) as [->|N3]; [change (mul (mul b b) b = mul b (mul b (mul b one))); rewrite one_r, assoc; reflexivity|].
    destruct (Z.eqb_spec p 4) as [->|N4]; [change (mul (mul b b) (mul b b) = mul b (mul b (mul b (mul b one)))); rewrite one_r, !assoc; reflexivity|].
    pose proof (square_loop_spec p 64 1 b ltac:(lia) ltac:(cbn [Z.of_nat]; lia) (eq_sym (one_r b))) as S.
    destruct (square_loop mul 64 p b 1) as [v m]. destruct S as (V & M1 & M2).
    destruct (Z.eqb_spec (p - m) 0) as [E|E]; [rewrite V; f_equal; lia|]. rewrite IH by lia. rewrite V, <- power_add. f_equal. lia.
Qed.

Lemma g_pown_spec p :
  (0 <= p < 9223372036854775808 -> g_pown one mul div b p = Defined (power (Z.to_nat p))) /\
  (-9223372036854775808 < p < 0 -> g_pown one mul div b p = Defined (div one (power (Z.to_nat (- p))))).
Proof.
  unfold g_pown. split; intro H.
  - replace (p <? 0) with false by lia. rewrite g_pown_nonneg_spec by (cbn [Z.of_nat]; lia). reflexivity.
  - replace (p <? 0) with true by lia. replace (p =? -9223372036854775808) with false by lia. rewrite g_pown_nonneg_spec by (cbn [Z.of_nat]; lia). reflexivity.
Qed.
End Powers.

(** ** Square root *)
Lemma Rabs_le_inv x y : Rabs x <= y -> - y <= x <= y.
Proof. apply Rabs_le_between. Qed.

Lemma r_iter x n : Nat.iter n (Rmult x) 1 = x ^ n.
Proof. induction n as [|n IH]; [reflexivity|]. cbn [Nat.iter pow]. rewrite <- IH. reflexivity. Qed.

Lemma sqrt_step A e f : 0 < A <= / 1000 -> Rabs e <= A -> f * f <= 3 / 10 * A ->
  let f' := - e - 2 * e * f - f * f - e * (f * f) in
  let e' := - (e * e / 2) - f' * e - f' * (e * e) / 2 in
  Rabs e' <= 6 * (A * A) /\ f' * f' <= 3 / 10 * (6 * (A * A)).
Proof.
  intros HA He Hf f' e'. assert (F : Rabs f <= / 50).
  { apply Rnot_lt_le. intro C. assert (Rabs f * Rabs f = f * f) by (rewrite <- Rabs_mult; apply Rabs_pos_eq; nra). nra. }
  assert (F0 : 0 <= f * f) by nra.
  assert (Ef : Rabs (e * f) <= A / 50) by (rewrite Rabs_mult; replace (A / 50) with (A * / 50) by field; apply Rmult_le_compat; try apply Rabs_pos; lra).
  assert (Eff : Rabs (e * (f * f)) <= A / 2500).
  { replace (e * (f * f)) with (e * f * f) by ring. rewrite Rabs_mult. replace (A / 2500) with (A / 50 * / 50) by field. apply Rmult_le_compat; try apply Rabs_pos; lra. }
  assert (B : Rabs f' <= 1341 / 1000 * A) by (apply Rabs_le_inv in He, Ef, Eff; apply Rabs_le; unfold f'; lra).
  assert (EE : 0 <= e * e <= A * A) by (split; [nra|]; rewrite <- (Rabs_pos_eq (e * e)) by nra; rewrite Rabs_mult; apply Rmult_le_compat; try apply Rabs_pos; lra).
  assert (Fe : Rabs (f' * e) <= 1341 / 1000 * (A * A)) by (rewrite Rabs_mult, <- Rmult_assoc; apply Rmult_le_compat; try apply Rabs_pos; lra).
  assert (Fee : Rabs (f' * (e * e)) <= 1341 / 1000 * (A * A)).
  { rewrite Rabs_mult, (Rabs_pos_eq (e * e)) by lra. apply Rle_trans with (1341 / 1000 * A * (A * A)); [apply Rmult_le_compat; try apply Rabs_pos; lra|]. nra. }
  split.
  - apply Rabs_le_inv in Fe, Fee. apply Rabs_le. unfold e'. lra.
  - assert (P : f' * f' <= (1341 / 1000 * A) * (1341 / 1000 * A)). { rewrite <- (Rabs_pos_eq (f' * f')) by nra. rewrite Rabs_mult. apply Rmult_le_compat; try apply Rabs_pos; lra. }
    revert P. generalize (f' * f'). intros y P. assert (0 < A * A) by nra. lra.
Qed.

Local Notation r_sqrt_loop := (sqrt_loop Rplus Rmult Ropp IZR).

Lemma p10_double k : p10 (- (k * 2)) = p10 (- k) * p10 (- k).
Proof. rewrite <- p10_add. f_equal. ring. Qed.

Lemma sqrt_loop_spec digits x r : 0 < r -> x = r * r -> forall fuel dg result vi, (14 <= dg)%Z -> (digits < dg * 2 ^ Z.of_nat fuel)%Z ->
  Rabs (result - r) <= p10 (- dg) / 6 * r -> (2 * r * vi - 1) * (2 * r * vi - 1) <= p10 (- dg) / 20 ->
  Rabs (r_sqrt_loop digits fuel x result vi dg - r) <= p10 (- (digits + 1)) / 6 * r.
Proof.
  intros Hr Hx. induction fuel as [|k IH]; intros dg result vi Hdg Hf He Hv.
  - cbn [Z.of_nat] in Hf. rewrite Z.pow_0_r in Hf. cbn [sqrt_loop]. eapply Rle_trans; [exact He|]. apply Rmult_le_compat_r; [lra|].
    assert (p10 (- dg) <= p10 (- (digits + 1))) by (apply p10_le; lia). lra.
  - cbn [sqrt_loop]. destruct (Z.leb_spec dg digits) as [L|L].
    + rewrite Nat2Z.inj_succ, Z.pow_succ_r in Hf by lia. set (e := result / r - 1). set (f := 2 * r * vi - 1) in *.
      assert (E1 : result = r * (1 + e)) by (unfold e; field; lra). assert (E2 : vi = (1 + f) / (2 * r)) by (unfold f; field; lra).
      set (A := p10 (- dg) / 6). assert (PA : 0 < A) by (unfold A; pose proof (p10_pos (- dg)); lra).
      assert (LA : A <= / 1000).
      { assert (p10 (- dg) <= p10 (- (3))) by (apply p10_le; lia). rewrite (p10_inv 3), (powerRZ_pow 10 3) in H by lia. change (Z.to_nat 3) with 3%nat in H. cbn [pow] in H. unfold A. lra. }
      assert (HE : Rabs e <= A).
      { apply Rmult_le_reg_r with r; [exact Hr|]. rewrite <- (Rabs_pos_eq r) at 1 by lra. rewrite <- Rabs_mult. replace (e * r) with (result - r) by (unfold e; field; lra). exact He. }
      assert (HF : f * f <= 3 / 10 * A) by (unfold A; lra).
      destruct (sqrt_step A e f (conj PA LA) HE HF) as [G1 G2]. cbv zeta in G1, G2. set (f' := - e - 2 * e * f - f * f - e * (f * f)) in *.
      assert (AA : 6 * (A * A) = p10 (- (dg * 2)) / 6) by (rewrite p10_double; unfold A; field).
      apply IH; [lia|rewrite <- Z.mul_assoc; lia| |].
      * rewrite AA in G1. match goal with |- Rabs (?a - r) <= _ => replace (a - r) with (r * (- (e * e / 2) - f' * e - f' * (e * e) / 2)) end.
        { rewrite Rabs_mult, (Rabs_pos_eq r), Rmult_comm by lra. apply Rmult_le_compat_r; lra. }
        rewrite E1, E2, Hx. unfold f'. field. lra.
      * rewrite AA in G2. match goal with |- ?a * ?a <= _ => replace a with f' end; [lra|]. rewrite E1, E2. unfold f'. field. lra.
    + eapply Rle_trans; [exact He|]. apply Rmult_le_compat_r; [lra|]. assert (p10 (- dg) <= p10 (- (digits + 1))) by (apply p10_le; lia). lra.
Qed.

(** ** Roots *)
Lemma pow_linear e p : INR p * Rabs e <= / 100 -> Rabs ((1 + e) ^ p - 1 - INR p * e) <= INR p * INR p * (e * e).
Proof.
  intro H. assert (Q : 0 <= e * e) by nra. assert (G : forall k, (k <= p)%nat -> Rabs ((1 + e) ^ k - 1 - INR k * e) <= INR k * INR k * (e * e)); [|apply G; lia].
  induction k as [|k IH]; intro Hk.
  - cbn [pow INR]. replace (1 - 1 - 0 * e) with 0 by ring. rewrite Rabs_R0. lra.
  - specialize (IH ltac:(lia)). rewrite S_INR. cbn [pow]. set (K := INR k) in *. assert (HK : 0 <= K <= INR p) by (split; [apply pos_INR|apply le_INR; lia]).
    replace ((1 + e) * (1 + e) ^ k - 1 - (K + 1) * e) with ((1 + e) * ((1 + e) ^ k - 1 - K * e) + K * (e * e)) by ring.
    eapply Rle_trans; [apply Rabs_triang|]. rewrite (Rabs_mult (1 + e)), (Rabs_pos_eq (K * (e * e))) by (apply Rmult_le_pos; lra).
    assert (E1 : Rabs (1 + e) <= 1 + Rabs e) by (eapply Rle_trans; [apply Rabs_triang|]; rewrite Rabs_R1; lra).
    assert (KE : K * Rabs e <= / 100) by (eapply Rle_trans; [|exact H]; apply Rmult_le_compat_r; [apply Rabs_pos|lra]).
    apply Rle_trans with ((1 + Rabs e) * (K * K * (e * e)) + K * (e * e)).
    { apply Rplus_le_compat_r. apply Rmult_le_compat; try apply Rabs_pos; assumption. }
    assert (KKE : K * Rabs e * (K * (e * e)) <= / 100 * (K * (e * e))) by (apply Rmult_le_compat_r; [apply Rmult_le_pos; lra|lra]).
    assert (0 <= K * (e * e)) by (apply Rmult_le_pos; lra). nra.
Qed.

Lemma root_step p e eta : (1 <= p)%nat -> 0 <= eta <= / 100 -> (INR p + 2) * Rabs e <= eta ->
  (INR p + 2) * Rabs ((1 + e) * ((1 - (1 + e) ^ p) / INR p + 1) - 1) <= eta * eta.
Proof.
  intros Hp He H. assert (P1 : 1 <= INR p) by (apply (le_INR 1); exact Hp). pose proof (Rabs_pos e) as A0.
  assert (Pe : INR p * Rabs e <= / 100) by nra. pose proof (pow_linear e p Pe) as L. set (P := INR p) in *. set (g := ((1 + e) ^ p - 1) / P).
  assert (Q : 0 <= e * e) by nra. assert (QQ : e * e = Rabs e * Rabs e) by (rewrite <- Rabs_mult, Rabs_pos_eq; [reflexivity|exact Q]).
  assert (G : Rabs (g - e) <= P * (e * e)).
  { apply Rmult_le_reg_l with P; [lra|]. rewrite <- (Rabs_pos_eq P) at 1 by lra. rewrite <- Rabs_mult. replace (P * (g - e)) with ((1 + e) ^ p - 1 - P * e) by (unfold g; field; lra). lra. }
  replace ((1 + e) * ((1 - (1 + e) ^ p) / P + 1) - 1) with (- (g - e) - e * e - e * (g - e)) by (unfold g; field; lra).
  assert (T : Rabs (- (g - e) - e * e - e * (g - e)) <= (P + 2) * (e * e)).
  { assert (E3 : Rabs (e * (g - e)) <= / 100 * (e * e)).
    { rewrite Rabs_mult. apply Rle_trans with (Rabs e * (P * (e * e))); [apply Rmult_le_compat_l; assumption|]. replace (Rabs e * (P * (e * e))) with (P * Rabs e * (e * e)) by ring. apply Rmult_le_compat_r; lra. }
    apply Rabs_le_inv in G, E3. apply Rabs_le. lra. }
  apply Rle_trans with ((P + 2) * ((P + 2) * (e * e))); [apply Rmult_le_compat_l; lra|]. rewrite QQ.
  replace ((P + 2) * ((P + 2) * (Rabs e * Rabs e))) with ((P + 2) * Rabs e * ((P + 2) * Rabs e)) by ring. apply Rmult_le_compat; nra.
Qed.

Local Notation r_root_loop := (root_loop 1 Rplus Rmult Rdiv Ropp IZR).

Lemma root_loop_spec digits x r p : 0 < r -> (1 <= p < 2147483648)%Z -> x = r ^ Z.to_nat p -> forall fuel dg rtn eta, (14 <= dg)%Z -> (digits < dg * 2 ^ Z.of_nat fuel)%Z ->
  0 <= eta <= / 100 -> (IZR p + 2) * Rabs (rtn * r - 1) <= eta ->
  exists w k, r_root_loop digits fuel x p rtn dg = Defined w /\ (digits < dg * 2 ^ Z.of_nat k)%Z /\ (IZR p + 2) * Rabs (w * r - 1) <= eta ^ (2 ^ k).
Proof.
  intros Hr Hp Hx. induction fuel as [|fu IH]; intros dg rtn eta Hdg Hf He H.
  - exists rtn, O. split; [reflexivity|]. split; [exact Hf|]. cbn [Nat.pow]. rewrite pow_1. exact H.
  - cbn [root_loop]. destruct (Z.leb_spec dg digits) as [L|L].
    + destruct (g_pown_spec 1 Rmult Rdiv rtn Rmult_1_l Rmult_1_r Rmult_assoc p) as [Pw _]. rewrite Pw by lia. rewrite r_iter.
      rewrite Nat2Z.inj_succ, Z.pow_succ_r in Hf by lia. set (e := rtn * r - 1) in *.
      assert (IP : IZR p = INR (Z.to_nat p)) by (rewrite INR_IZR_INZ, Z2Nat.id by lia; reflexivity). rewrite IP in *.
      pose proof (root_step (Z.to_nat p) e eta ltac:(lia) He H) as S. assert (N : INR (Z.to_nat p) <> 0) by (apply not_0_INR; lia).
      match goal with |- context [root_loop _ _ _ _ _ _ _ _ _ _ ?t (dg * 2)] => set (rtn' := t) end.
      assert (R' : rtn' * r - 1 = (1 + e) * ((1 - (1 + e) ^ Z.to_nat p) / INR (Z.to_nat p) + 1) - 1).
      { unfold rtn'. replace (- rtn ^ Z.to_nat p * x + 1) with (1 - (1 + e) ^ Z.to_nat p) by (rewrite Hx; unfold e; replace (1 + (rtn * r - 1)) with (rtn * r) by ring; rewrite Rpow_mult_distr; ring).
        unfold e. field. exact N. }
      rewrite <- R' in S. destruct (IH (dg * 2)%Z rtn' (eta * eta) ltac:(lia) ltac:(rewrite <- Z.mul_assoc; lia) ltac:(nra) S) as (w & k & W1 & W2 & W3).
      exists w, (Datatypes.S k). split; [exact W1|]. split; [rewrite Nat2Z.inj_succ, Z.pow_succ_r by lia; lia|].
      eapply Rle_trans; [exact W3|]. cbn [Nat.pow]. rewrite pow_mult. right. f_equal. cbn [pow]. ring.
    + exists rtn, O. split; [reflexivity|]. split; [cbn [Z.of_nat]; rewrite Z.pow_0_r; lia|]. cbn [Nat.pow]. rewrite pow_1. exact H.
Qed.

(** ** Euler's constant *)
Lemma harmonic_gap n : 1 - ln 2 <= sum_f_R0 (fun k => / INR (S k)) n - ln (INR (S (S n))).
Proof.
  induction n as [|n IH].
  - cbn [sum_f_R0 INR]. replace (1 + 1) with 2 by ring. lra.
  - change (sum_f_R0 (fun k => / INR (S k)) (S n)) with (sum_f_R0 (fun k => / INR (S k)) n + / INR (S (S n))).
    set (m := INR (S (S n))) in *. assert (M : 0 < m) by (apply lt_0_INR; lia). rewrite (S_INR (S (S n))). fold m.
    assert (L : ln (m + 1) <= ln m + / m); [|lra]. replace (m + 1) with (m * (1 + / m)) by (field; lra). pose proof (Rinv_0_lt_compat m M).
    rewrite ln_mult by lra. apply Rplus_le_compat_l. rewrite <- (ln_exp (/ m)) at 2. apply Rcomplements.ln_le; [lra|]. left. apply exp_ineq1. lra.
Qed.

Lemma euler_gamma_positive g : is_lim_seq (fun n => sum_f_R0 (fun k => / INR (S k)) n - ln (INR (S n))) (Rbar.Finite g) -> 0 < g.
Proof.
  intro H. assert (L : ln 2 < 1). { rewrite <- (ln_exp 1). apply ln_increasing; [lra|]. pose proof (exp_ineq1 1 ltac:(lra)). lra. }
  assert (K : Rbar_le (Rbar.Finite (1 - ln 2)) (Rbar.Finite g)); [|cbn in K; lra].
  apply (is_lim_seq_le (fun _ => 1 - ln 2) (fun n => sum_f_R0 (fun k => / INR (S k)) n - ln (INR (S n)))); [|apply is_lim_seq_const|exact H].
  intro n. pose proof (harmonic_gap n) as G. assert (ln (INR (S n)) <= ln (INR (S (S n)))); [|lra]. apply Rcomplements.ln_le; [apply lt_0_INR; lia|apply le_INR; lia].
Qed.
