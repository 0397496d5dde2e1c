(** * C76: the gamma function and the Pochhammer symbol *)

From Coq Require Import ZArith List Bool Reals Lra Lia.
From Coquelicot Require Import Complex.
From Flocq Require Import BinarySingleNaN.
From Verif Require Import Model Spec SpecFact Limbs Value AddProofs Decide AddExtra MulCor ModelStr ModelDiv PowExtra ModelTables TabProofs TabFact TabFact2 TabBin TabCheck
  ExpReal SeriesFloat ExpFloat ModelFact FactProofs ModelPow ModelGen ModelElem SpecGen SpecCplx SpecGamma ComplexReal ModelCplx CmpProofs IntConv ModelGamma GammaReal GammaProofs GammaTop P_Int P_Elem ExpAcc IntPartProofs OrderProofs ElemSpecial IntProofs P_Tables.
Import ListNotations.
Open Scope R_scope.
Ltac Zify.zify_post_hook ::= Z.div_mod_to_equations.

(** C76, values: over the real numbers, if the asymptotic series is exact above
    its smallest argument, the series for small arguments is exact where it is used and the
    factorials are exact, then the result is that of every function with the recurrence and the
    reflection formula (of the gamma function in particular), for every argument that is not a
    pole.  Any choice of the smallest argument and of the size of the table will do.
    Missing: the accuracy of the two series, and rounding. *)
Theorem C76_gamma_partial :
  forall nan factorial min_arg_n table_size small series stirling G,
  (1 <= min_arg_n < 2147483647)%Z -> (table_size <= 9223372036854775807)%Z -> (forall n, (0 <= n < table_size)%Z -> factorial n = Ok (INR (fact (Z.to_nat n)))) ->
  gamma_like G -> (forall x, 0 < x -> small x = true -> series x = G x) -> (forall y, IZR min_arg_n <= y -> stirling y = Ok (G y)) ->
  forall x, (forall k, (k <= 0)%Z -> x <> IZR k) -> gamma (real_ops nan factorial small series stirling) min_arg_n table_size x = Ok (G x).
Proof. intros nan factorial m t small series stirling G Hm Ht Hf HG Hs Hst. exact (values nan factorial m t Hm Ht Hf small series stirling G HG Hs Hst). Qed.
Print Assumptions C76_gamma_partial.

(** C76, the recurrence holds between any two results for arguments below the
    smallest one of the asymptotic series, however wrong the series is. *)
Theorem C76_recurrence :
  forall nan factorial min_arg_n table_size small series stirling x g, (1 <= min_arg_n < 2147483647)%Z ->
  0 < x -> x + 1 < IZR min_arg_n -> fractional x -> small x = false -> small (x + 1) = false ->
  gamma (real_ops nan factorial small series stirling) min_arg_n table_size x = Ok g ->
  gamma (real_ops nan factorial small series stirling) min_arg_n table_size (x + 1) = Ok (x * g).
Proof.
  intros nan factorial m t small series stirling x g Hm P L I S1 S2 E. rewrite (real_recurrence nan factorial m t Hm small series stirling x P L I S1 S2) in E.
  destruct (gamma _ m t (x + 1)) as [h| |]; try discriminate E. cbn [bind] in E. injection E as <-. f_equal. field. lra.
Qed.
Print Assumptions C76_recurrence.

(** C76, complex arguments whose real part is no integer. *)
Theorem C76_complex_partial :
  forall nan factorial min_arg_n table_size small series stirling G, (1 <= min_arg_n < 2147483647)%Z ->
  gamma_like_C G -> (forall z, 0 < re z -> small z = true -> toC (series z) = G (toC z)) -> (forall z, IZR min_arg_n <= re z -> exists g, stirling z = Ok g /\ toC g = G (toC z)) ->
  forall z, fractional (re z) -> exists g, gamma (cplx_ops nan factorial small series stirling) min_arg_n table_size z = Ok g /\ toC g = G (toC z).
Proof. intros nan factorial m t small series stirling G Hm HG Hs Ht z I. exact (cvalues nan factorial m t Hm small series stirling G HG Hs Ht z I). Qed.
Print Assumptions C76_complex_partial.

(** C76, gamma_near_n(n, x) is gamma(n + x), gamma of x and -x together, and the
    Pochhammer symbol is the product x (x+1) ... (x+n-1); for n >= 50, where it is a quotient, at
    positive x. *)
Theorem C76_callers_partial :
  forall nan factorial min_arg_n table_size small series stirling G,
  (1 <= min_arg_n < 2147483647)%Z -> (table_size <= 9223372036854775807)%Z -> (forall n, (0 <= n < table_size)%Z -> factorial n = Ok (INR (fact (Z.to_nat n)))) ->
  gamma_like G -> (forall x, 0 < x -> small x = true -> series x = G x) -> (forall y, IZR min_arg_n <= y -> stirling y = Ok (G y)) ->
  let o := real_ops nan factorial small series stirling in
  (forall n x, (-2147483648 < n <= 2147483647)%Z -> ((0 <= n)%Z -> forall k, (k <= 0)%Z -> IZR n + x <> IZR k) -> ((n < 0)%Z -> IZR n + x < 0 /\ fractional x) ->
     gamma_near_n o min_arg_n table_size n x = Ok (G (IZR n + x))) /\
  (forall x, fractional x -> gamma_plus_minus o min_arg_n table_size Rabs x = Ok (G x, G (- x))) /\
  (forall x n, (0 <= n)%Z -> ((50 <= n)%Z -> 0 < x /\ G x <> 0) -> pochhammer_n o min_arg_n table_size 1 (fun t k => t + IZR k) x n = Ok (rising_factorial x (Z.to_nat n))).
Proof.
  intros nan factorial m t small series stirling G Hm Ht Hf HG Hs Hst o. pose proof (values nan factorial m t Hm Ht Hf small series stirling G HG Hs Hst) as V. split; [|split].
  - intros n x. apply near_n_value; assumption.
  - intro x. apply plus_minus_value; assumption.
  - intros x n. apply (pochhammer_value nan factorial m t small series stirling G HG V).
Qed.
Print Assumptions C76_callers_partial.

(** C76, e_float: at the integers up to 1000 the result is the factorial, with
    the accuracy of the table; NaN at the poles; what is not finite is returned. *)
Theorem C76_integers :
  forall d env fact_series coef bernoulli min_arg_n x n, valid_digits d -> finite d x -> value x = IZR n ->
  let g := gamma (ef_ops d env fact_series coef bernoulli) min_arg_n (Z.of_nat (length A000142)) x in
  ((n <= 0)%Z -> exists r, g = Ok r /\ is_nan r) /\
  ((1 <= n <= 1000)%Z -> exists r, g = Ok r /\ finite d r /\ Rabs (value r - INR (fact (Z.to_nat (n - 1)))) <= (powerRZ 10 (- d) + powerRZ 10 (-414)) * INR (fact (Z.to_nat (n - 1)))).
Proof.
  intros d env fs coef bern m x n Hd F E. assert (I : isint d x = true) by (apply C18_isint_decides; eauto). destruct (iszero_isneg_spec d x Hd F) as [Zs Ns]. cbv zeta.
  unfold gamma. cbn [g_real r_isfinite r_isneg r_isint r_iszero r_to64 r_nan g_of g_fact ef_ops]. rewrite (finite_isfinite d x F), I. cbn [negb]. split.
  - intro H. exists (value_nan d). split; [|reflexivity]. replace (isneg x || iszero x) with true; [reflexivity|]. symmetry. apply orb_true_iff. destruct (Z.eq_dec n 0) as [Z|Z].
    + right. apply Zs. rewrite E, Z. reflexivity.
    + left. apply Ns. rewrite E. apply IZR_lt. lia.
  - intro H. assert (P : 0 < value x) by (rewrite E; apply IZR_lt; lia). replace (isneg x || iszero x) with false.
    2:{ symmetry. apply orb_false_iff. split; apply not_true_is_false; intro G; [apply Ns in G|apply Zs in G]; lra. }
    destruct (extract_sll_spec d x Hd F) as [X _]. rewrite E in X at 2. rewrite Ztrunc_IZR in X. assert (Nn : value x <> -9223372036854775808) by lra. specialize (X Nn).
    assert (C : clamp (-9223372036854775808) 9223372036854775807 n = n) by (unfold clamp; lia). rewrite C in X. rewrite X. cbn [io_of bind]. rewrite fact_length. unfold u64. rewrite Z.mod_small by lia.
    destruct (Z.ltb_spec n 1001); [|lia]. destruct (C44_factorial_partial d fs (n - 1) Hd ltac:(lia)) as (r & R1 & R2 & _ & R4 & _). rewrite R1. exists r. split; [reflexivity|]. split; [exact R2|exact R4].
Qed.
Print Assumptions C76_integers.

Theorem C76_nonfinite : forall d env fact_series coef bernoulli min_arg_n table_size x, isfinite x = false -> gamma (ef_ops d env fact_series coef bernoulli) min_arg_n table_size x = Ok x.
Proof. intros. unfold gamma. cbn [g_real r_isfinite ef_ops]. rewrite H. reflexivity. Qed.
Print Assumptions C76_nonfinite.

(** C76, refuted for complex arguments with an integer real part: the imaginary
    part is ignored.  gamma(1 + iy) = gamma(2 + iy) = 1 for every y other than 0, against the
    recurrence gamma(z + 1) = z gamma(z), and gamma(iy) is NaN, which is no pole. *)
Theorem C76_complex_refuted :
  forall d env fact_series coef bernoulli c_small c_sin c_series c_stirling min_arg_n z w, valid_digits d ->
  finite d (re z) -> finite d (im z) -> value (im z) <> 0 -> value (re z) = 1 -> finite d (re w) -> value (re w) = 2 -> im w = im z ->
  let g := gamma_complex d env fact_series coef bernoulli c_small c_sin c_series c_stirling min_arg_n (Z.of_nat (length A000142)) in
  (exists a b, g z = Ok a /\ g w = Ok b /\ value (re a) = 1 /\ value (im a) = 0 /\ value (re b) = 1 /\ value (im b) = 0) /\
  (forall v, finite d (re v) -> value (re v) = 0 -> im v = im z -> exists a, g v = Ok a /\ is_nan (re a)).
Proof.
  intros d env fs coef bern csm csn cse cst m z w Hd Fz Fi Ni Vz Fw Vw Ew. cbv zeta.
  assert (Zi : iszero (im z) = false). { apply not_true_is_false. intro G. apply (proj1 (iszero_isneg_spec d (im z) Hd Fi)) in G. contradiction. }
  assert (K : forall v n, finite d (re v) -> value (re v) = IZR n -> im v = im z -> (1 <= n <= 2)%Z -> exists a, gamma_complex d env fs coef bern csm csn cse cst m (Z.of_nat (length A000142)) v = Ok a /\ value (re a) = 1 /\ value (im a) = 0).
  { intros v n F V Ev Hn. unfold gamma_complex. rewrite Ev, Zi. unfold gamma. cbn [g_real r_isfinite r_isneg r_isint r_iszero r_to64 r_nan g_of g_fact complex_ops].
    assert (I : isint d (re v) = true) by (apply C18_isint_decides; eauto). rewrite (finite_isfinite d _ F), I. cbn [negb]. destruct (iszero_isneg_spec d (re v) Hd F) as [Zs Ns].
    assert (P : 0 < value (re v)) by (rewrite V; apply IZR_lt; lia). replace (isneg (re v) || iszero (re v)) with false.
    2:{ symmetry. apply orb_false_iff. split; apply not_true_is_false; intro G; [apply Ns in G|apply Zs in G]; lra. }
    destruct (extract_sll_spec d _ Hd F) as [X _]. rewrite V in X at 2. rewrite Ztrunc_IZR in X. assert (Nn : value (re v) <> -9223372036854775808) by lra. specialize (X Nn).
    assert (C : clamp (-9223372036854775808) 9223372036854775807 n = n) by (unfold clamp; lia). rewrite C in X. rewrite X. cbn [io_of bind]. rewrite fact_length. unfold u64. rewrite Z.mod_small by lia.
    destruct (Z.ltb_spec n 1001); [|lia]. destruct (C44_factorial_partial d fs (n - 1) Hd ltac:(lia)) as (r & R1 & R2 & _ & _ & R5). rewrite R1. cbn [bind]. exists (mkcx r (zero d)). split; [reflexivity|]. cbn [re im].
    assert (E1 : INR (fact (Z.to_nat (n - 1))) = 1) by (assert (n = 1 \/ n = 2)%Z as [-> | ->] by lia; reflexivity). rewrite E1 in R5. split; [|apply (zero_ok d Hd)].
    apply R5; [lia|]. change 1 with (IZR (10 ^ 0)). rewrite <- (p10_nonneg 0) by lia. apply p10_lt. unfold valid_digits in Hd. lia. }
  split.
  - destruct (K z 1%Z Fz Vz eq_refl ltac:(lia)) as (a & A1 & A2 & A3). destruct (K w 2%Z Fw Vw Ew ltac:(lia)) as (b & B1 & B2 & B3). exists a, b. auto 10.
  - intros v F V Ev. unfold gamma_complex. rewrite Ev, Zi. unfold gamma. cbn [g_real r_isfinite r_isneg r_isint r_iszero r_to64 r_nan g_of g_fact complex_ops].
    assert (I : isint d (re v) = true) by (apply C18_isint_decides; [exact Hd|exact F|exists 0%Z; exact V]). rewrite (finite_isfinite d _ F), I. cbn [negb].
    replace (iszero (re v)) with true by (symmetry; apply (proj1 (iszero_isneg_spec d (re v) Hd F)); exact V). rewrite orb_true_r. eexists. split; [reflexivity|]. reflexivity.
Qed.
Print Assumptions C76_complex_refuted.

(** C76, refuted: pochhammer(-3, 50) is NaN, and the product of 50 factors, one of which is 0, is 0. *)
Theorem C76_pochhammer_refuted :
  forall env fact_series coef bernoulli min_arg_n,
  (exists r, pochhammer_n (ef_ops 30 env fact_series coef bernoulli) min_arg_n (Z.of_nat (length A000142)) (one 30) (fun t k => add 30 t (of_ull 30 k)) (of_sll 30 (-3)) 50 = Ok r /\ is_nan r) /\
  rising_factorial (-3) 50 = 0.
Proof.
  intros env fs coef bern m. split.
  - eexists. split; [vm_compute; reflexivity|reflexivity].
  - assert (E : forall n, (4 <= n)%nat -> rising_factorial (-3) n = 0). { induction n as [|n IH]; [lia|]. intro H. cbn [rising_factorial]. destruct (Nat.eq_dec n 3) as [->|N]; [cbn [rising_factorial INR]; ring|]. rewrite IH by lia. ring. }
    apply E. lia.
Qed.
Print Assumptions C76_pochhammer_refuted.

(** gamma_near_n negates its argument: undefined for the smallest int32 *)
Theorem C76_near_n_refuted : forall (T TR : Type) (o : gops T TR) min_arg_n table_size x, gamma_near_n o min_arg_n table_size (-2147483648) x = UB.
Proof. reflexivity. Qed.
Print Assumptions C76_near_n_refuted.

(** The hypotheses of the theorems on values are met by a function of this kind. *)
Example C76_gamma_hypotheses_met :
  exists factorial min_arg_n table_size small series stirling G,
  (1 <= min_arg_n < 2147483647)%Z /\ (table_size <= 9223372036854775807)%Z /\ (forall n, (0 <= n < table_size)%Z -> factorial n = Ok (INR (fact (Z.to_nat n)))) /\
  gamma_like G /\ (forall x, 0 < x -> small x = true -> series x = G x) /\ (forall y, IZR min_arg_n <= y -> stirling y = Ok (G y)) /\
  (forall k, (k <= 0)%Z -> (/ 2) <> IZR k) /\ G (/ 2 + 1) = / 2 * G (/ 2) /\ 0 < G (/ 2) /\ fractional (/ 2) /\ / 2 + 1 < IZR min_arg_n.
Proof.
  destruct toy_gamma_like as [H P].
  assert (I : fractional (/ 2)). { intros k K. assert (E : IZR (2 * k) = IZR 1) by (rewrite mult_IZR; lra). apply eq_IZR in E. lia. }
  exists (fun n => Ok (INR (fact (Z.to_nat n)))), 40%Z, 1001%Z, (fun _ => false), toy, (fun y => Ok (toy y)), toy.
  repeat split; try lia; try reflexivity; try apply H; try (intros; discriminate); try lra.
  - intros k _. apply I.
  - apply P. lra.
  - exact I.
Qed.

Example C76_complex_hypotheses_met :
  exists min_arg_n small series stirling G, (1 <= min_arg_n < 2147483647)%Z /\ gamma_like_C G /\
  (forall z, 0 < re z -> small z = true -> toC (series z) = G (toC z)) /\ (forall z, IZR min_arg_n <= re z -> exists g, stirling z = Ok g /\ toC g = G (toC z)) /\ fractional (re (mkcx (- / 2) 1)).
Proof.
  exists 40%Z, (fun _ => false), (fun z => z), (fun z => Ok (mkcx (Re (ctoy (toC z))) (Im (ctoy (toC z))))), ctoy. split; [lia|]. split; [exact ctoy_gamma_like|]. split; [intros; discriminate|]. split.
  - intros z _. eexists. split; [reflexivity|]. unfold toC at 1. cbn [re im]. destruct (ctoy (toC z)) as [a b]. reflexivity.
  - intros k K. cbn [re] in K. assert (E : IZR (2 * k) = IZR (-1)) by (rewrite mult_IZR; lra). apply eq_IZR in E. lia.
Qed.

Example C76_integers_hypotheses_met :
  finite 30 (of_sll 30 21) /\ value (of_sll 30 21) = 21 /\ finite 30 (of_sll 30 (-3)) /\ value (of_sll 30 (-3)) = -3 /\
  finite 30 (one 30) /\ value (one 30) = 1 /\ finite 30 (of_sll 30 2) /\ value (of_sll 30 2) = 2 /\ isfinite (value_inf 30) = false.
Proof.
  destruct (of_sll_spec 30 21 valid_30 ltac:(unfold sll_min, sll_max; lia)) as (A1 & _ & A2 & _). destruct (of_sll_spec 30 (-3) valid_30 ltac:(unfold sll_min, sll_max; lia)) as (B1 & _ & B2 & _).
  destruct (of_sll_spec 30 2 valid_30 ltac:(unfold sll_min, sll_max; lia)) as (D1 & _ & D2 & _).
  repeat (split; [assumption|]). split; [meets|]. split; [apply one_value; exact valid_30|]. repeat (split; [assumption|]). reflexivity.
Qed.
