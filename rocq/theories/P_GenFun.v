(** * C78: the generic functions for any type of numbers *)

From Coq Require Import ZArith List Bool Reals Lra Lia Psatz.
From Coquelicot Require Import Coquelicot.
From Verif Require Import Model Spec SpecGen Value MulCor ModelPow PowProofs ModelGenFun GenFunProofs.
Import ListNotations.
Open Scope R_scope.
Local Notation p10 := (powerRZ 10).

(** C78: integer powers, for every type of numbers with an associative product and a
    unit: [b] multiplied [p] times, for every 64-bit exponent but the most negative
    one. *)
Theorem C78_powers :
  forall (T : Type) (one : T) (mul div : T -> T -> T) (b : T),
  (forall x, mul one x = x) -> (forall x, mul x one = x) -> (forall x y z, mul (mul x y) z = mul x (mul y z)) ->
  let power n := Nat.iter n (mul b) one in
  forall p,
  ((0 <= p < 9223372036854775808)%Z -> g_pown one mul div b p = Defined (power (Z.to_nat p))) /\
  ((-9223372036854775808 < p < 0)%Z -> g_pown one mul div b p = Defined (div one (power (Z.to_nat (- p))))).
Proof. intros T one mul div b H1 H2 H3 power p. exact (g_pown_spec one mul div b H1 H2 H3 p). Qed.
Print Assumptions C78_powers.

Example C78_powers_hypotheses_met :
  (forall x, 1 * x = x)%Z /\ (forall x, x * 1 = x)%Z /\ (forall x y z, (x * y) * z = x * (y * z))%Z /\
  g_pown 1%Z Z.mul Z.div 3%Z 22 = Defined (3 ^ 22)%Z.
Proof. split; [|split; [|split]]; try (intros; ring). vm_compute. reflexivity. Qed.

(** The templates with real numbers, the smallest positive number mn and the number
    of digits D. *)
Definition sqrt_of_reals (mn nan : R) (D : Z) := g_sqrt Rplus Rminus Rmult Ropp IZR rltb mn nan D.
Definition rootn_of_reals (mn nan : R) (D : Z) := g_rootn 1 Rplus Rminus Rmult Rdiv Ropp IZR rltb mn nan D.

Lemma r_fabs x : g_fabs Ropp IZR rltb x = Rabs x.
Proof. unfold g_fabs, g_isneg, rltb. destruct (Rlt_dec x 0); [rewrite Rabs_left; lra|rewrite Rabs_pos_eq; lra]. Qed.

Lemma r_iszero mn x : g_iszero Rmult Ropp IZR rltb mn x = true <-> Rabs x < 2 * mn.
Proof. unfold g_iszero. rewrite r_fabs. unfold rltb. rewrite (Rmult_comm mn). destruct (Rlt_dec (Rabs x) (2 * mn)); split; intro H; try lra; discriminate. Qed.

Lemma p10_15 : p10 (-15) = / 1000000000000000.
Proof. change (-15)%Z with (- (15))%Z. rewrite p10_inv, (powerRZ_pow 10 15) by lia. change (Z.to_nat 15) with 15%nat. cbn [pow]. f_equal. ring. Qed.
Lemma p10_14 : p10 (-14) = / 100000000000000.
Proof. change (-14)%Z with (- (14))%Z. rewrite p10_inv, (powerRZ_pow 10 14) by lia. change (Z.to_nat 14) with 14%nat. cbn [pow]. f_equal. ring. Qed.

(** C78: the square root of every x that the tests for 0 and 1 do not catch, in exact
    arithmetic: if both starting values have relative errors of at most 10^-15, the
    relative error of the result is at most 10^-D / 60. *)
Theorem C78_sqrt_partial :
  forall mn nan D est x, (D <= 1000000000)%Z -> 0 < mn -> 2 * mn <= x -> 2 * mn <= Rabs (x - 1) ->
  Rabs (fst (est x) - sqrt x) <= p10 (-15) * sqrt x -> Rabs (2 * sqrt x * snd (est x) - 1) <= p10 (-15) ->
  Rabs (sqrt_of_reals mn nan D est x - sqrt x) <= p10 (- D) / 60 * sqrt x.
Proof.
  intros mn nan D est x HD Hm H0 H1 E1 E2. assert (Px : 0 < x) by lra. pose proof (sqrt_lt_R0 x Px) as Ps.
  unfold sqrt_of_reals, g_sqrt. assert (N : g_isneg IZR rltb x = false) by (unfold g_isneg, rltb; destruct (Rlt_dec x 0); [lra|reflexivity]). rewrite N.
  assert (Z0 : g_iszero Rmult Ropp IZR rltb mn x = false) by (apply not_true_is_false; intro G; apply r_iszero in G; rewrite Rabs_pos_eq in G; lra).
  assert (Z1 : g_isone Rminus Rmult Ropp IZR rltb mn x = false) by (apply not_true_is_false; intro G; unfold g_isone in G; apply r_iszero in G; rewrite Rabs_minus_sym in G; lra).
  rewrite Z0, Z1. cbn [orb]. destruct (est x) as [r v] eqn:E. cbn [fst snd] in E1, E2.
  eapply Rle_trans; [apply (sqrt_loop_spec D x (sqrt x) Ps (eq_sym (sqrt_sqrt x (Rlt_le _ _ Px))) 40 14 r v); [lia|cbn [Z.of_nat]; lia| |]|].
  - eapply Rle_trans; [exact E1|]. apply Rmult_le_compat_r; [lra|]. change (- (14))%Z with (-14)%Z. rewrite p10_14, p10_15. lra.
  - set (f := 2 * sqrt x * v - 1) in *. rewrite <- (Rabs_pos_eq (f * f)) by nra. rewrite Rabs_mult. apply Rle_trans with (p10 (-15) * p10 (-15)); [apply Rmult_le_compat; try apply Rabs_pos; assumption|].
    change (- (14))%Z with (-14)%Z. rewrite p10_14, p10_15. lra.
  - replace (- (D + 1))%Z with (- D + - (1))%Z by ring. rewrite p10_add, (p10_inv 1), p10_1. lra.
Qed.
Print Assumptions C78_sqrt_partial.

Example C78_sqrt_hypotheses_met :
  let x := 2 in let mn := / 1000000 in let est := fun x => (sqrt x, / (2 * sqrt x)) in
  0 < mn /\ 2 * mn <= x /\ 2 * mn <= Rabs (x - 1) /\ Rabs (fst (est x) - sqrt x) <= p10 (-15) * sqrt x /\ Rabs (2 * sqrt x * snd (est x) - 1) <= p10 (-15).
Proof.
  cbv zeta. cbn [fst snd]. pose proof (sqrt_lt_R0 2 ltac:(lra)) as P. pose proof (p10_pos (-15)) as Q. rewrite Rinv_r, !Rminus_eq_0, !Rabs_R0 by lra.
  split; [lra|]. split; [lra|]. split; [rewrite Rabs_pos_eq; lra|]. split; [|lra]. apply Rmult_le_pos; lra.
Qed.

Lemma root_of_positive mn nan D est rest x p delta : (D <= 1000000000)%Z -> 0 < x -> (3 <= p < 2147483648)%Z -> 0 <= delta -> (IZR p + 2) * delta <= / 100 ->
  let root := Rpower x (/ IZR p) in Rabs (rest x p * root - 1) <= delta ->
  exists r k, root_nonneg 1 Rplus Rminus Rmult Rdiv Ropp IZR rltb mn nan D est rest x p = Defined r /\ (D < 14 * 2 ^ Z.of_nat k)%Z /\
  Rabs (r - root) <= 2 * ((IZR p + 2) * delta) ^ (2 ^ k) * root.
Proof.
  intros HD Px Hp D0 HB root He. assert (PR : 0 < root) by apply exp_pos. pose proof (IZR_le 3 p ltac:(lia)) as P3.
  assert (X : x = root ^ Z.to_nat p). { rewrite <- Rpower_pow by exact PR. unfold root. rewrite Rpower_mult. rewrite INR_IZR_INZ, Z2Nat.id, Rinv_l, Rpower_1 by (try lia; lra). reflexivity. }
  set (B := IZR p + 2) in *. assert (HE : B * Rabs (rest x p * root - 1) <= B * delta) by (apply Rmult_le_compat_l; [unfold B; lra|exact He]).
  destruct (root_loop_spec D x root p PR ltac:(lia) X 40 14 (rest x p) (B * delta) ltac:(lia) ltac:(cbn [Z.of_nat]; lia) ltac:(split; [apply Rmult_le_pos; unfold B; lra|exact HB]) HE) as (w & k & W1 & W2 & W3).
  exists (1 / w), k. split; [|split; [exact W2|]].
  - unfold root_nonneg. replace (p =? 0)%Z with false by lia. assert (N : g_isneg IZR rltb x = false) by (unfold g_isneg, rltb; destruct (Rlt_dec x 0); [lra|reflexivity]). rewrite N.
    replace (p =? 1)%Z with false by lia. replace (p =? 2)%Z with false by lia. cbn [orb]. rewrite W1. reflexivity.
  - set (eta := (B * delta) ^ (2 ^ k)) in *. set (e := w * root - 1) in *. fold B in W3. assert (E1 : eta <= / 100).
    { unfold eta. apply Rle_trans with ((B * delta) ^ 1); [|rewrite pow_1; exact HB]. assert (0 <= B * delta) by (apply Rmult_le_pos; unfold B; lra).
      destruct (2 ^ k)%nat as [|j] eqn:J; [exfalso; revert J; apply Nat.pow_nonzero; discriminate|]. cbn [pow]. rewrite Rmult_1_r. rewrite <- (Rmult_1_r (B * delta)) at 3. apply Rmult_le_compat_l; [assumption|].
      rewrite <- (pow1 j). apply pow_incr. lra. }
    assert (EB : Rabs e <= eta) by (pose proof (Rabs_pos e); unfold B in W3; nra). pose proof (Rabs_le_inv _ _ EB) as EE.
    assert (W : w = (1 + e) / root) by (unfold e; field; lra). replace (1 / w - root) with (- (e / (1 + e)) * root) by (rewrite W; field; split; [lra|]; lra).
    rewrite Rabs_mult, Rabs_Ropp, (Rabs_pos_eq root) by lra. apply Rmult_le_compat_r; [lra|]. unfold Rdiv. rewrite Rabs_mult, Rabs_inv.
    assert (/ 2 <= Rabs (1 + e)) by (rewrite Rabs_pos_eq; lra). rewrite (Rmult_comm 2). apply Rmult_le_compat; [apply Rabs_pos| |exact EB|].
    + left. apply Rinv_0_lt_compat. lra.
    + replace 2 with (/ / 2) by field. apply Rinv_le_contravar; lra.
Qed.

(** C78: roots of positive numbers, in exact arithmetic.  If the starting value, which
    is to be an approximation of the reciprocal root, has a relative error of at most delta,
    every step squares (|p| + 2) delta; for (|p| + 2) delta <= 10^-14 the relative error of
    the result is at most 10^-D / 5. *)
Theorem C78_rootn_partial :
  forall mn nan D est rest x p delta, (D <= 1000000000)%Z -> 0 < x -> (3 <= Z.abs p < 2147483648)%Z ->
  0 <= delta -> (IZR (Z.abs p) + 2) * delta <= / 100 ->
  let root := Rpower x (/ IZR p) in
  let a := if (p <? 0)%Z then 1 / x else x in
  Rabs (rest a (Z.abs p) * root - 1) <= delta ->
  exists r, rootn_of_reals mn nan D est rest x p = Defined r /\
  (exists k, (D < 14 * 2 ^ Z.of_nat k)%Z /\ Rabs (r - root) <= 2 * ((IZR (Z.abs p) + 2) * delta) ^ (2 ^ k) * root) /\
  ((IZR (Z.abs p) + 2) * delta <= p10 (-14) -> Rabs (r - root) <= p10 (- D) / 5 * root).
Proof.
  intros mn nan D est rest x p delta HD Px Hp D0 HB root a He.
  assert (PR : 0 < root) by apply exp_pos. assert (Pa : 0 < a) by (unfold a; destruct (p <? 0)%Z; [apply Rdiv_lt_0_compat; lra|lra]).
  assert (RA : root = Rpower a (/ IZR (Z.abs p))).
  { unfold root, a. destruct (Z.ltb_spec p 0); [|rewrite Z.abs_eq by lia; reflexivity]. rewrite Z.abs_neq, opp_IZR by lia. unfold Rdiv. rewrite Rmult_1_l. unfold Rpower.
    assert (N : IZR p <> 0) by (apply not_0_IZR; lia). rewrite ln_Rinv by exact Px. f_equal. field. exact N. }
  rewrite RA in He. destruct (root_of_positive mn nan D est rest a (Z.abs p) delta HD Pa Hp D0 HB He) as (r & k & R1 & R2 & R3). rewrite <- RA in R3.
  exists r. split; [|split; [exists k; split; [exact R2|exact R3]|]].
  - rewrite <- R1. unfold rootn_of_reals, g_rootn, a. destruct (Z.ltb_spec p 0).
    + replace (p =? -2147483648)%Z with false by lia. rewrite Z.abs_neq by lia. reflexivity.
    + rewrite Z.abs_eq by lia. reflexivity.
  - intro HT. eapply Rle_trans; [exact R3|]. apply Rmult_le_compat_r; [lra|].
    assert (Q : ((IZR (Z.abs p) + 2) * delta) ^ 2 ^ k <= p10 (- (D + 1))).
    { apply Rle_trans with (p10 (-14) ^ 2 ^ k). { apply pow_incr. split; [|exact HT]. apply Rmult_le_pos; [|exact D0]. pose proof (IZR_le 3 (Z.abs p) ltac:(lia)). lra. }
      assert (PP : forall m, p10 (-14) ^ m = p10 (- (14 * Z.of_nat m))).
      { induction m as [|m IH]; [reflexivity|]. cbn [pow]. rewrite IH, <- p10_add. f_equal. lia. }
      rewrite PP. apply p10_le. rewrite Nat2Z.inj_pow. change (Z.of_nat 2) with 2%Z. lia. }
    replace (- (D + 1))%Z with (- D + - (1))%Z in Q by ring. rewrite p10_add, (p10_inv 1), p10_1 in Q. lra.
Qed.
Print Assumptions C78_rootn_partial.

Example C78_rootn_hypotheses_met :
  let x := 8 in let p := (-3)%Z in let root := Rpower x (/ IZR p) in let rest := fun (_ : R) (_ : Z) => / root in let a := if (p <? 0)%Z then 1 / x else x in
  0 < x /\ (3 <= Z.abs p < 2147483648)%Z /\ (IZR (Z.abs p) + 2) * p10 (-15) <= p10 (-14) /\ Rabs (rest a (Z.abs p) * root - 1) <= p10 (-15) /\ root = / 2.
Proof.
  cbv beta zeta. pose proof (exp_pos (/ IZR (-3) * ln 8)) as P. fold (Rpower 8 (/ IZR (-3))) in P. rewrite Rinv_l, Rminus_eq_0, Rabs_R0 by lra. pose proof (p10_pos (-15)) as Q.
  split; [lra|]. split; [lia|]. split; [change (Z.abs (-3)) with 3%Z; rewrite p10_14, p10_15; lra|]. split; [lra|].
  replace 8 with (2 ^ 3) by ring. rewrite <- Rpower_pow by lra. rewrite Rpower_mult. replace (INR 3 * / IZR (-3)) with (Ropp 1) by (cbn [INR]; field; lra). rewrite Rpower_Ropp, Rpower_1 by lra. reflexivity.
Qed.

(** C78, remaining cases: p = 1 and p = 2, and NaN for p = 0, for roots of negative
    numbers with p > 0 and for their square root. *)
Theorem C78_rootn_special :
  forall mn nan D est rest x,
  rootn_of_reals mn nan D est rest x 0 = Defined nan /\
  (0 <= x -> rootn_of_reals mn nan D est rest x 1 = Defined x /\ rootn_of_reals mn nan D est rest x 2 = Defined (sqrt_of_reals mn nan D est x)) /\
  (x < 0 -> sqrt_of_reals mn nan D est x = nan /\ forall p, (0 < p)%Z -> rootn_of_reals mn nan D est rest x p = Defined nan).
Proof.
  intros mn nan D est rest x. unfold rootn_of_reals, sqrt_of_reals, g_rootn, root_nonneg. split; [reflexivity|]. split; intro H.
  - assert (N : g_isneg IZR rltb x = false) by (unfold g_isneg, rltb; destruct (Rlt_dec x 0); [lra|reflexivity]). rewrite N. split; reflexivity.
  - assert (N : g_isneg IZR rltb x = true) by (unfold g_isneg, rltb; destruct (Rlt_dec x 0); [reflexivity|lra]). unfold g_sqrt. rewrite N. split; [reflexivity|].
    intros p Hp. replace (p <? 0)%Z with false by lia. rewrite orb_true_r. reflexivity.
Qed.
Print Assumptions C78_rootn_special.

(** What is false: the specialisations of rootn for the built-in types return the power
    x^p instead of the root, rootn<double>(8, 3) is 512 and not 2; the smallest positive
    number is its own square root; euler_gamma<T>() is 0; the most negative exponents overflow. *)
Theorem C78_generic_refuted :
  (builtin_rootn IZR Rpower 8 3 = 512 /\ Rpower 8 (/ 3) = 2) /\
  (forall mn nan D est, 0 < mn < 1 -> sqrt_of_reals mn nan D est mn = mn /\ mn < sqrt mn) /\
  (forall g : R, is_lim_seq (fun n => sum_f_R0 (fun k => / INR (S k)) n - ln (INR (S n))) g -> g_euler_gamma IZR < g) /\
  (forall (T : Type) (one : T) (mul div : T -> T -> T) (b : T), g_pown one mul div b (-9223372036854775808) = Undefined) /\
  (forall mn nan D est rest x, rootn_of_reals mn nan D est rest x (-2147483648) = Undefined).
Proof.
  split; [|split; [|split; [|split]]].
  - split.
    + unfold builtin_rootn. change 3 with (IZR (Z.of_nat 3)). rewrite <- INR_IZR_INZ, Rpower_pow by lra. ring.
    + replace 8 with (2 ^ 3) by ring. rewrite <- Rpower_pow by lra. rewrite Rpower_mult. replace (INR 3 * / 3) with 1 by (cbn [INR]; field). apply Rpower_1. lra.
  - intros mn nan D est H. split.
    + unfold sqrt_of_reals, g_sqrt. assert (N : g_isneg IZR rltb mn = false) by (unfold g_isneg, rltb; destruct (Rlt_dec mn 0); [lra|reflexivity]). rewrite N.
      assert (Z0 : g_iszero Rmult Ropp IZR rltb mn mn = true) by (apply r_iszero; rewrite Rabs_pos_eq; lra). rewrite Z0. reflexivity.
    + pose proof (sqrt_lt_R0 mn ltac:(lra)) as P. pose proof (sqrt_sqrt mn ltac:(lra)) as S. assert (sqrt mn < 1) by (rewrite <- sqrt_1; apply sqrt_lt_1; lra). nra.
  - intros g H. unfold g_euler_gamma. exact (euler_gamma_positive g H).
  - reflexivity.
  - reflexivity.
Qed.
Print Assumptions C78_generic_refuted.
