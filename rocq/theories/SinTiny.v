(** * Sine and cosine of very small arguments (proofs only) *)

From Coq Require Import ZArith List Bool Reals Lra Lia Psatz.
From Verif Require Import Model Spec SpecGen Limbs Value CmpProofs AddProofs Decide OrderProofs OrderDec AddExtra MulProofs MulValue MulExtra MulCor
  IntProofs IntPartProofs IntConv MixedProofs IntCor ModelDiv DoubleProofs NewtonProofs InvProofs SqrtProofs WfProofs ModelPow PowGen PowProofs PowExtra LdexpProofs
  FloatEval ModelGen ModelElem ElemProofs SeriesFloat ExpReal ExpFloat ExpAcc SinFloat SinStep SinAcc.
Import ListNotations.
Open Scope R_scope.
Ltac Zify.zify_post_hook ::= Z.div_mod_to_equations.
Local Notation p10 := (powerRZ 10).

Section FixedDigits.
Variable d : Z.
Hypothesis Hd : valid_digits d.
Hypothesis Hd' : (d <= 4967)%Z.
Local Notation u := (p10 (- d)).

Lemma zero_flag' : iszero (zero d) = true.
Proof. destruct (zero_ok d Hd) as (F & _ & V). apply (iszero_isneg_spec d (zero d) Hd F). exact V. Qed.

Lemma negate_zero : negate (zero d) = zero d.
Proof. unfold negate. rewrite zero_flag'. reflexivity. Qed.

Lemma div_int_zero n : (1 <= n < 100000000)%Z -> div_int d (zero d) n = zero d.
Proof.
  intro H. unfold div_int, div_sll. replace (n =? sll_min)%Z with false by (symmetry; apply Z.eqb_neq; unfold sll_min; lia).
  replace (n <? 0)%Z with false by (symmetry; apply Z.ltb_ge; lia). cbn [negb]. rewrite u64_small by lia. unfold div_ull.
  assert (SN : set_neg (zero d) false = zero d) by reflexivity. rewrite SN. destruct (zero_ok d Hd) as (F & _ & _). destruct (finite_flags d _ F) as [Ni Nn]. rewrite Ni, Nn.
  replace (n =? 0)%Z with false by (symmetry; apply Z.eqb_neq; lia). rewrite zero_flag'. reflexivity.
Qed.

Lemma add_zero_r x : isnan x = false -> isinf x = false -> iszero x = false -> add d x (zero d) = x.
Proof. intros A B C. unfold add. rewrite A, B, C, zero_flag'. reflexivity. Qed.

Lemma div_zero_l m pb : (0 <= m <= 1000000)%Z -> ok d m pb -> value pb <> 0 -> div d (zero d) pb = zero d.
Proof.
  intros Hm O N. destruct (zero_ok d Hd) as (Fz & _ & Vz). destruct (ok_inv d m pb Hd ltac:(lia) ltac:(lia) O N) as [Oi _].
  unfold div. destruct (same_magnitude (zero d) pb) eqn:S.
  - apply (same_magnitude_spec d (zero d) pb Hd Fz (proj1 O) N) in S. rewrite Vz, Rabs_R0 in S. pose proof (Rabs_pos_lt _ N). lra.
  - apply (mul_zero_l d); [exact Hd|exact Fz|apply Oi|left; exact Vz].
Qed.

(* pochham_b and the counter, for all n *)
Definition z_inv (n : Z) (st : ef * (ef * ef)) : Prop :=
  fst st = zero d /\ ok d (n * 8) (fst (snd st)) /\ value (fst (snd st)) <> 0 /\ finite d (snd (snd st)) /\ full d (snd (snd st)) /\ / 2 <= value (snd (snd st)) <= 2 * IZR n.

Lemma z_inv_step n st : (2 <= n <= 10000)%Z -> z_inv (n - 1) st ->
  z_inv n (let '(xp, pb) := st in (next_x (mul d) (div_int d) (zero d) n xp, next_p (mul d) (pre_inc d) pb)).
Proof.
  intros Hn (A & B1 & B2 & C1 & C2 & C3). destruct st as [xp [pb bp]]. cbn [fst snd] in *. subst xp. pose proof (u_small d Hd) as U.
  assert (In : 2 <= IZR n <= 10000) by (split; apply IZR_le; lia). rewrite minus_IZR in C3.
  assert (P5 : p10 5 = 100000) by (rewrite (p10_nonneg 5) by lia; reflexivity).
  assert (Ob : ok d 5 bp) by (apply (ok_of_bounds d); [exact C1|exact C2|]; rewrite p10_inv, P5, Rabs_pos_eq; lra).
  destruct (PowExtra.one_ok d Hd) as (F1 & P1 & V1).
  assert (O1 : ok d 5 (one d)) by (apply (ok_of_bounds d); [exact F1|exact P1|]; rewrite V1, Rabs_R1, p10_inv, P5; lra).
  unfold next_x, next_p, pre_inc. cbn [fst snd].
  destruct (ok_add d 5 bp (one d) Hd ltac:(lia) ltac:(lia) Ob O1) as [Oq Eq]. rewrite V1, (p_17 d) in Eq.
  assert (M : Rmax (Rabs (value bp)) (Rabs 1) <= 20001) by (rewrite (Rabs_pos_eq 1), (Rabs_pos_eq (value bp)) by lra; apply Rmax_lub; lra).
  assert (Eq' : Rabs (value (add d bp (one d)) - (value bp + 1)) <= 2 * (u / 100000000000000000) * 20001) by (eapply Rle_trans; [exact Eq|]; apply Rmult_le_compat_l; lra).
  set (bq := add d bp (one d)) in *. clearbody bq. apply Rabs_le_inv in Eq'.
  assert (Vq : / 2 <= value bq <= 2 * IZR n) by lra.
  assert (Oq' : ok d 5 bq) by (apply (ok_of_bounds d); [apply Oq|apply Oq|]; rewrite p10_inv, P5, Rabs_pos_eq; lra).
  destruct (ok_rel_mul d Hd Hd' ((n - 1) * 8) 5 pb bq ltac:(lia) ltac:(lia) ltac:(lia) B1 Oq') as [Om Rm].
  destruct (zero_ok d Hd) as (Fz & _ & Vz).
  split; [|split; [|split; [|split; [|split]]]]; cbn [fst snd].
  - rewrite (mul_zero_l d) by auto. apply div_int_zero. lia.
  - apply (ok_le d ((n - 1) * 8 + 5 + 1)); [lia|exact Om].
  - intro Z. unfold rel in Rm. rewrite Z in Rm. unfold Rminus in Rm. rewrite Rplus_0_l, Rabs_Ropp in Rm.
    assert (P : 0 < Rabs (value pb * value bq)) by (apply Rabs_pos_lt, Rmult_integral_contrapositive_currified; [exact B2|lra]). nra.
  - apply Oq.
  - apply Oq.
  - exact Vq.
Qed.

Lemma order_zero : order (zero d) = 0%Z.
Proof. unfold order. pose proof zero_flag' as Z. apply iszero_true in Z; [|reflexivity]. rewrite Z. rewrite orb_true_r. reflexivity. Qed.

Lemma order_one : order (one d) = 0%Z.
Proof.
  destruct (PowExtra.one_ok d Hd) as (F & _ & V). destruct (order_spec d (one d) Hd F ltac:(lra)) as [A B]. rewrite V, Rabs_R1, <- p10_0 in A, B.
  apply p10_lt_inv in B. destruct (Z_lt_le_dec 0 (order (one d))) as [C|C]; [|lia]. pose proof (p10_lt 0 (order (one d)) C). lra.
Qed.

Lemma tolerance_pos : (0 <= tolerance d)%Z.
Proof. unfold tolerance, max_digits10. destruct Hd. lia. Qed.

Lemma zero_series fuel : forall n st, (2 <= n)%Z -> (n + Z.of_nat fuel <= 10000)%Z -> z_inv (n - 1) st ->
  series (add d) (small_ef d) (fun n '(xp, pb) => (next_x (mul d) (div_int d) (zero d) n xp, next_p (mul d) (pre_inc d) pb))
    (fun '(xp, pb) => div d xp (fst pb)) fuel n st (one d) = None.
Proof.
  induction fuel as [|f IH]; intros n st H1 H2 I; cbn [series]; [reflexivity|]. pose proof (z_inv_step n st ltac:(lia) I) as I'.
  set (st' := let '(xp, pb) := st in _) in *. clearbody st'. destruct st' as [xp pb]. destruct I' as (A & B & B2 & C). cbn [fst snd] in A, B, B2. subst xp.
  assert (T : div d (zero d) (fst pb) = zero d) by (apply (div_zero_l (n * 8)); [lia|exact B|exact B2]). rewrite T.
  assert (S : small_ef d (zero d) (one d) = false) by (unfold small_ef; rewrite order_zero, order_one; apply Z.ltb_ge; pose proof tolerance_pos; lia). rewrite S, andb_false_r.
  destruct (PowExtra.one_ok d Hd) as (F & _ & V). destruct (finite_flags d _ F) as [N1 N2].
  assert (Z1 : iszero (one d) = false) by (apply (finite_nonzero_flag d); auto; lra).
  rewrite (add_zero_r (one d) N2 N1 Z1) || rewrite (add_zero_r (one d) N1 N2 Z1).
  apply IH; [lia|lia|]. replace (n + 1 - 1)%Z with n by lia. split; [reflexivity|]. split; [exact B|]. split; [exact B2|exact C].
Qed.

Lemma h0f1_zero bf : ok d 1 bf -> / 2 <= value bf <= 3 / 2 -> h0f1 d bf (zero d) = value_nan d.
Proof.
  intros O V. unfold h0f1, hyper_0f1, series_from.
  assert (T : div d (zero d) bf = zero d) by (apply (div_zero_l 1); [lia|exact O|lra]). cbn [fst]. rewrite T.
  destruct (PowExtra.one_ok d Hd) as (F & _ & V1). destruct (finite_flags d _ F) as [N1 N2].
  assert (Z1 : iszero (one d) = false) by (apply (finite_nonzero_flag d); auto; lra).
  rewrite (add_zero_r (one d) N2 N1 Z1) || rewrite (add_zero_r (one d) N1 N2 Z1).
  assert (G : exists f, f = Z.to_nat (max_iteration - 2) /\ (2 + Z.of_nat f <= 10000)%Z).
  { eexists. split; [reflexivity|]. rewrite Z2Nat.id; unfold max_iteration; lia. }
  destruct G as (f & <- & G). rewrite zero_series; [reflexivity|lia|lia|].
  change (2 - 1)%Z with 1%Z. split; [reflexivity|]. cbn [fst snd]. split; [apply (ok_le d 1); [lia|exact O]|]. split; [lra|]. split; [apply O|]. split; [apply O|lra].
Qed.

Lemma quarter_tiny x : finite d x -> value x <> 0 -> Rabs (value x) < p10 (-1073741808) -> div_int d (negate (mul d x x)) 4 = zero d.
Proof.
  intros F N B. pose proof (exp_of_bound d x _ Hd F B N) as E.
  assert (M : mul d x x = zero d).
  { destruct (mul_finite_cases d x x Hd F F) as [[_ E1]|(_ & _ & [[H _]|[[_ E1]|(_ & H & _)]])]; auto; exfalso.
    - unfold exp_over in H. lia.
    - apply H. unfold exp_under. lia. }
  rewrite M, negate_zero. apply div_int_zero. lia.
Qed.

Variable env : env.
Hypothesis Hpi : pi_sane d env.

Lemma isnan_mul_nan x : wf d x -> isnan (mul d x (value_nan d)) = true.
Proof.
  intro W. destruct (mul_special d x (value_nan d) Hd W (value_nan_wf d Hd)) as (A & _). unfold isnan. rewrite (A (or_intror eq_refl)). reflexivity.
Qed.

Lemma tiny_reduced x : finite d x -> value x <> 0 -> Rabs (value x) < p10 (-1073741808) ->
  isnan (sin_reduced d env x) = true /\ isnan (cos_reduced d env x) = true.
Proof.
  intros F N B. destruct (pi_half_sane d env Hd Hpi) as (Fh & Ph & Vh).
  assert (Z : iszero x = false) by (apply (finite_nonzero_flag d); auto).
  assert (B1 : Rabs (value x) < 1) by (eapply Rlt_trans; [exact B|]; rewrite <- p10_0; apply p10_lt; lia).
  assert (Zs : iszero (sub d x (pi_half d env)) = false).
  { destruct (iszero (sub d x (pi_half d env))) eqn:Q; [exfalso|reflexivity].
    destruct (iszero_cls _ Q) as (C & _).
    assert (W : finite d (sub d x (pi_half d env))).
    { destruct (sub_finite_spec d x (pi_half d env) Hd F Fh) as (r & Fr & _ & [[E _]|[_ E]]); [rewrite E; exact Fr|]. rewrite E, signed_inf_eq in C. discriminate C. }
    destruct (iszero_isneg_spec d _ Hd W) as [Q1 _]. pose proof (sub_zero_eq d Hd x _ F Fh C (proj1 Q1 Q)) as E. rewrite E in B1. apply Rabs_def2 in B1. lra. }
  assert (S : small_arg d x = true).
  { unfold small_arg, arg_limit, tolerance, max_digits10. destruct (order_spec d x Hd F N) as [O _]. assert (O' : p10 (order x) < p10 (-1073741808)) by lra. apply p10_lt_inv in O'.
    apply Z.ltb_lt. destruct Hd. assert (Z.quot (d + 1 + (d + 1) / 10) 10 <= 1000)%Z by (rewrite Z.quot_div_nonneg by lia; lia). lia. }
  unfold sin_reduced, cos_reduced. rewrite Z, Zs, S. rewrite (quarter_tiny x F N B).
  destruct (half_facts d Hd) as [Oh Vhh]. destruct (three_half_facts d Hd Hd') as [O3 V3].
  rewrite (h0f1_zero (three_half d) O3) by lra. rewrite (h0f1_zero (half d) Oh) by lra.
  split; [apply isnan_mul_nan; apply F|reflexivity].
Qed.

Lemma tiny_nan x : finite d x -> value x <> 0 -> Rabs (value x) < p10 (-1073741808) ->
  isnan (ModelElem.sin d env x) = true /\ isnan (ModelElem.cos d env x) = true.
Proof.
  intros F N B. unfold ModelElem.sin, ModelElem.cos. rewrite (finite_isfinite d x F). cbn [negb].
  assert (M : exists xx, xx = (if isneg x then negate x else x) /\ finite d xx /\ value xx <> 0 /\ Rabs (value xx) = Rabs (value x)).
  { exists (if isneg x then negate x else x). split; [reflexivity|]. destruct (isneg x); [|auto]. pose proof (negate_value d x Hd F) as V.
    split; [apply negate_finite; exact F|]. rewrite V. split; [lra|apply Rabs_Ropp]. }
  destruct M as (xx & <- & Fx & Nx & Ex). rewrite <- Ex in B.
  assert (B1 : Rabs (value xx) < 1) by (eapply Rlt_trans; [exact B|]; rewrite <- p10_0; apply p10_lt; lia). apply Rabs_def2 in B1.
  destruct (pi_half_sane d env Hd Hpi) as (Fh & Ph & Vh).
  assert (R : reduce d env xx = (xx, false, false)).
  { unfold reduce. assert (G1 : op_gt xx (c_pi env) = false).
    { destruct Hpi as (Fp & _ & Vp). destruct (op_gt xx (c_pi env)) eqn:G; [|reflexivity]. apply (cmp_all_ops d xx (c_pi env) Hd Fx Fp) in G. lra. }
    rewrite G1. assert (G2 : op_gt xx (pi_half d env) = false).
    { destruct (op_gt xx (pi_half d env)) eqn:G; [|reflexivity]. apply (cmp_all_ops d xx (pi_half d env) Hd Fx Fh) in G. lra. }
    rewrite G2. reflexivity. }
  rewrite R. destruct (tiny_reduced xx Fx Nx B) as [A1 A2]. split.
  - destruct (xorb (isneg x) false); [rewrite isnan_negate|]; exact A1.
  - exact A2.
Qed.

End FixedDigits.
