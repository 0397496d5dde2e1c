(** * atan and asin of numbers whose square underflows (proofs only) *)

From Coq Require Import ZArith List Bool Reals Lra Lia Psatz.
From Verif Require Import Model Spec SpecGen Limbs Value CmpProofs AddProofs Decide OrderProofs OrderDec AddExtra MulProofs MulValue MulExtra MulCor
  IntProofs IntPartProofs IntConv MixedProofs IntCor ModelDiv DoubleProofs NewtonProofs InvProofs SqrtProofs ModelPow PowGen PowProofs PowExtra LdexpProofs
  StrAny FloatEval ModelGen ModelElem ElemProofs SeriesFloat ExpReal ExpFloat ExpAcc ConstReal SinReal SinFloat SinStep SinAcc SinTiny HyperFloat AtanSer AtanTop LogSer LogAcc.
Import ListNotations.
Open Scope R_scope.
Ltac Zify.zify_post_hook ::= Z.div_mod_to_equations.
Local Notation p10 := (powerRZ 10).

Section FixedDigits.
Variable d : Z.
Hypothesis Hd : valid_digits d.
Hypothesis Hd' : (d <= 4967)%Z.
Variable env : env.

(** The series 2F1 at zero is NaN *)
Lemma h2f1_zero a b c : ok d 1 a -> ok d 1 b -> ok d 1 c -> / 2 <= value a <= 2 -> / 2 <= value b <= 2 -> / 2 <= value c <= 2 -> h2f1 d a b c (zero d) = value_nan d.
Proof.
  intros Oa Ob Oc Va Vb Vc.
  assert (Q : forall y, ok d 1 y -> / 2 <= value y <= 2 -> q_inv d 1 (y, y)).
  { intros y Oy Vy. unfold q_inv. cbn [fst snd]. split; [apply (ok_le d 1); [lia|exact Oy]|]. split; [lra|]. split; [apply Oy|]. split; [apply Oy|lra]. }
  unfold h2f1, hyper_2f1, series_from. pose proof (zero_term d Hd Hd' 1 (a, a) (b, b) (c, c) ltac:(lia) (Q a Oa Va) (Q b Ob Vb) (Q c Oc Vc)) as T. rewrite T.
  destruct (PowExtra.one_ok d Hd) as (F & _ & V). destruct (finite_flags d _ F) as [N1 N2].
  assert (Z1 : iszero (one d) = false) by (apply (finite_nonzero_flag d); auto; lra).
  rewrite (add_zero_r d Hd (one d) N2 N1 Z1) || rewrite (add_zero_r d Hd (one d) N1 N2 Z1).
  assert (G : exists f, f = Z.to_nat (max_iteration - 2) /\ (2 + Z.of_nat f <= 10000)%Z).
  { eexists. split; [reflexivity|]. rewrite Z2Nat.id; unfold max_iteration; lia. }
  destruct G as (f & <- & G). rewrite (zero_series2 d Hd Hd'); [reflexivity|lia|lia| | |]; apply Q; assumption.
Qed.

Lemma square_zero x : finite d x -> value x <> 0 -> Rabs (value x) < p10 (-1073741807) -> mul d x x = zero d.
Proof.
  intros F N B. pose proof (finite_abs_bounds d x Hd F (value_nonzero_lead d x Hd F N)) as [B1 _].
  assert (E : (Model.exp x < -1073741807)%Z) by (apply p10_lt_inv; lra).
  destruct (mul_finite_cases d x x Hd F F) as [[[H|H] _]|(_ & _ & [[H _]|[[_ E']|(_ & H & _)]])]; try contradiction; [exfalso; unfold exp_over in H; lia|exact E'|exfalso; unfold exp_under in H; lia].
Qed.

Lemma tiny_order x : finite d x -> value x <> 0 -> Rabs (value x) < p10 (-1073741807) -> (order x <= -1073741807)%Z.
Proof.
  intros F N B. destruct (order_spec d x Hd F N) as [O _]. assert (order x < -1073741807)%Z; [|lia]. apply p10_lt_inv. lra.
Qed.

Lemma tiny_small x : finite d x -> value x <> 0 -> Rabs (value x) < p10 (-1073741807) -> small_arg d x = true.
Proof.
  intros F N B. pose proof (tiny_order x F N B) as O. unfold small_arg, arg_limit. apply Z.ltb_lt. destruct (tol_bounds d Hd Hd') as [Tl _].
  assert (Dl : (12 <= d)%Z) by (destruct Hd; lia). rewrite Z.quot_div_nonneg by lia. lia.
Qed.

Lemma atan_tiny x : finite d x -> value x <> 0 -> Rabs (value x) < p10 (-1073741807) -> isnan (atan d env x) = true.
Proof.
  intros F N B. pose proof (tiny_order x F N B) as O. pose proof (tiny_small x F N B) as S. destruct (tol_bounds d Hd Hd') as [Tl _]. assert (Dl : (12 <= d)%Z) by (destruct Hd; lia).
  unfold atan. rewrite (finite_isfinite d x F). cbn [negb]. replace (order x >? tolerance d)%Z with false by (symmetry; rewrite Z.gtb_ltb; apply Z.ltb_ge; lia).
  rewrite (finite_nonzero_flag d x Hd F N), S. unfold atan_at_zero. rewrite (square_zero x F N B), (negate_zero d Hd).
  destruct (one_facts d Hd) as [O1 V1]. destruct (half_facts d Hd) as [Oh Vh]. destruct (three_half_facts d Hd Hd') as [Ot Vt].
  rewrite h2f1_zero; [apply (isnan_mul_nan d Hd); apply F| | | | | |]; try assumption; lra.
Qed.

Lemma asin_tiny x : finite d x -> value x <> 0 -> Rabs (value x) < p10 (-1073741807) -> isnan (asin d env x) = true.
Proof.
  intros F N B. destruct (iszero_isneg_spec d x Hd F) as [_ Sg]. destruct (PowExtra.one_ok d Hd) as (F1 & _ & V1).
  assert (P1 : p10 (-1073741807) < 1) by (rewrite <- p10_0; apply p10_lt; lia).
  set (xx := if negb (isneg x) then x else negate x).
  assert (Fx : finite d xx) by (unfold xx; destruct (isneg x); cbn [negb]; [apply negate_finite|]; exact F).
  assert (Vx : value xx = Rabs (value x)).
  { unfold xx. destruct (isneg x) eqn:E; cbn [negb].
    - rewrite (negate_value d x Hd F). assert (value x < 0) by (apply Sg; reflexivity). rewrite Rabs_left; lra.
    - rewrite Rabs_pos_eq; [reflexivity|]. destruct (Rlt_le_dec (value x) 0) as [L|L]; [|exact L]. apply Sg in L. discriminate. }
  assert (Nx : value xx <> 0) by (rewrite Vx; apply Rabs_no_R0; exact N).
  unfold asin. rewrite (finite_isfinite d x F). cbn [negb]. fold xx.
  assert (G : op_gt xx (one d) = false).
  { destruct (op_gt xx (one d)) eqn:E; [|reflexivity]. apply (cmp_all_ops d xx (one d) Hd Fx F1) in E. rewrite V1 in E. lra. }
  rewrite G, (finite_nonzero_flag d x Hd F N).
  assert (I : isone xx = false).
  { destruct (isone xx) eqn:E; [|reflexivity]. apply (isone_spec d _ Hd Fx) in E. pose proof (elem_number_bounds d Hd) as Eb.
    assert (p10 (- (8 * elem_number d)) <= p10 (- (1))) by (apply p10_le; lia). rewrite (p10_inv 1), p10_1 in H.
    assert (p10 (-1073741807) <= p10 (- (1))) by (apply p10_le; lia). rewrite (p10_inv 1), p10_1 in H0. lra. }
  rewrite I. rewrite (tiny_small xx Fx Nx) by (rewrite Vx, Rabs_Rabsolu; exact B). rewrite (square_zero x F N B).
  destruct (half_facts d Hd) as [Oh Vh]. destruct (three_half_facts d Hd Hd') as [Ot Vt].
  rewrite h2f1_zero; try assumption; try lra. pose proof (isnan_mul_nan d Hd x (proj1 F)) as M. destruct (negb (isneg x)); [exact M|]. rewrite isnan_negate. exact M.
Qed.

(** A product with a tiny number does not change a sum with one *)
Lemma one_plus_tiny h x : ok d 30 h -> value h <> 0 -> finite d x -> value x <> 0 -> Rabs (value x) < p10 (-1073741807) -> add d (one d) (mul d h x) = one d.
Proof.
  intros Oh Nh F N B. pose proof (finite_abs_bounds d x Hd F (value_nonzero_lead d x Hd F N)) as [B1 _].
  assert (E : (Model.exp x < -1073741807)%Z) by (apply p10_lt_inv; lra). pose proof (ok_exp d 30 h Hd Oh Nh) as Eh.
  destruct (PowExtra.one_ok d Hd) as (F1 & _ & V1). destruct (finite_flags d _ F1) as [N1 N2].
  assert (Z1 : iszero (one d) = false) by (apply (finite_nonzero_flag d); auto; lra).
  assert (A : (Model.exp (mul d h x) < -1000000)%Z \/ mul d h x = zero d).
  { destruct (mul_finite_cases d h x Hd (proj1 Oh) F) as [[_ Z]|(_ & _ & [[H _]|[[_ Z]|(H1 & H2 & _)]])]; [right; exact Z|exfalso; unfold exp_over in H; lia|right; exact Z|left].
    destruct (mul_in_range d h x Hd (proj1 Oh) F Nh N) as (_ & _ & _ & _ & _ & _ & X); [exact H1|exact H2|lia]. }
  destruct A as [A|A]; [|rewrite A; first [apply (add_zero_r d Hd (one d) N2 N1 Z1)|apply (add_zero_r d Hd (one d) N1 N2 Z1)]].
  unfold add. assert (I : isnan (one d) = false /\ isinf (one d) = false) by (split; assumption). destruct I as [-> ->]. rewrite Z1. cbv zeta.
  replace (Model.exp (one d) - Model.exp (mul d h x) >? (Model.N d - 1) * 8)%Z with true; [rewrite orb_true_r; reflexivity|].
  symmetry. rewrite Z.gtb_ltb. apply Z.ltb_lt. pose proof (elem_number_digits d Hd). unfold Model.N. change (Model.exp (one d)) with 0%Z. lia.
Qed.

(** Once the power of the argument is zero the series never ends *)
Lemma zero_series3 y fuel : finite d y -> forall n pa pb pc, (2 <= n)%Z -> (n + Z.of_nat fuel <= 10000)%Z -> q_inv d (n - 1) pa -> q_inv d (n - 1) pb -> q_inv d (n - 1) pc ->
  series (add d) (small_ef d) (fun n '(xp, pa, pb, pc) => (next_x (mul d) (div_int d) y n xp, next_p (mul d) (pre_inc d) pa, next_p (mul d) (pre_inc d) pb, next_p (mul d) (pre_inc d) pc))
    (fun '(xp, pa, pb, pc) => mul d (div d (mul d (fst pa) (fst pb)) (fst pc)) xp) fuel n (zero d, pa, pb, pc) (one d) = None.
Proof.
  intro Fy. induction fuel as [|f IH]; intros n pa pb pc H1 H2 I1 I2 I3; cbn [series]; [reflexivity|].
  pose proof (q_inv_step d Hd Hd' n pa ltac:(lia) I1) as J1. pose proof (q_inv_step d Hd Hd' n pb ltac:(lia) I2) as J2. pose proof (q_inv_step d Hd Hd' n pc ltac:(lia) I3) as J3.
  set (qa := next_p _ _ pa) in *. set (qb := next_p _ _ pb) in *. set (qc := next_p _ _ pc) in *. clearbody qa qb qc. destruct (zero_ok d Hd) as (Fz & _ & Vz).
  assert (X : next_x (mul d) (div_int d) y n (zero d) = zero d) by (unfold next_x; rewrite (mul_zero_l d) by auto; apply div_int_zero; [exact Hd|lia]). rewrite X.
  rewrite (zero_term d Hd Hd' n qa qb qc ltac:(lia) J1 J2 J3).
  assert (S : small_ef d (zero d) (one d) = false) by (unfold small_ef; rewrite (order_zero d Hd), (order_one d Hd); apply Z.ltb_ge; pose proof (tolerance_pos d Hd); lia). rewrite S, andb_false_r.
  destruct (PowExtra.one_ok d Hd) as (F & _ & V). destruct (finite_flags d _ F) as [N1 N2].
  assert (Z1 : iszero (one d) = false) by (apply (finite_nonzero_flag d); auto; lra).
  rewrite (add_zero_r d Hd (one d) N2 N1 Z1) || rewrite (add_zero_r d Hd (one d) N1 N2 Z1).
  apply IH; try lia; replace (n + 1 - 1)%Z with n by lia; assumption.
Qed.

Lemma log1p_tiny x : finite d x -> value x <> 0 -> Rabs (value x) < p10 (-1073741807) -> isnan (log1p d x) = true.
Proof.
  intros F N B. unfold log1p, log_at_one. assert (Fn : finite d (negate x)) by (apply negate_finite; exact F). pose proof (negate_value d x Hd F) as Vn.
  assert (Nn' : value (negate x) <> 0) by lra. assert (Bn : Rabs (value (negate x)) < p10 (-1073741807)) by (rewrite Vn, Rabs_Ropp; exact B).
  assert (E : h2f1 d (one d) (one d) (two d) (negate x) = value_nan d).
  { set (y := negate x) in *. clearbody y. clear F N B Vn. unfold h2f1, hyper_2f1, series_from. destruct (one_facts d Hd) as [O1 V1]. destruct (two_facts d Hd) as [O2 V2].
    assert (Q1 : q_inv d 1 (one d, one d)) by (unfold q_inv; cbn [fst snd]; rewrite V1; split; [apply (ok_le d 1); [lia|exact O1]|]; split; [lra|]; split; [apply O1|]; split; [apply O1|lra]).
    assert (Q2 : q_inv d 1 (two d, two d)) by (unfold q_inv; cbn [fst snd]; rewrite V2; split; [apply (ok_le d 1); [lia|exact O2]|]; split; [lra|]; split; [apply O2|]; split; [apply O2|lra]).
    cbn [fst]. pose proof (u_small d Hd) as U. destruct (ok_rel_mul d Hd Hd' 1 1 (one d) (one d) ltac:(lia) ltac:(lia) ltac:(lia) O1 O1) as [Om Rm].
    assert (Pm : 0 < value (mul d (one d) (one d))). { unfold rel in Rm. rewrite V1 in Rm. replace (1 * 1) with 1 in Rm by ring. rewrite Rabs_R1 in Rm. apply Rabs_le_inv in Rm. lra. }
    destruct (ok_div d Hd Hd' (1 + 1 + 1) 1 (mul d (one d) (one d)) (two d) ltac:(lia) ltac:(lia) ltac:(lia) Om O2 ltac:(lra) ltac:(lra) ltac:(right; lra)) as (Oh & Sh & _).
    assert (Nh : value (div d (mul d (one d) (one d)) (two d)) <> 0) by (intro Z; rewrite Z in Sh; lra).
    rewrite one_plus_tiny; [|apply (ok_le d (1 + 1 + 1 + 1 + 1)); [lia|exact Oh]|exact Nh|exact Fn|exact Nn'|exact Bn].
    assert (G : exists f, S f = Z.to_nat (max_iteration - 2) /\ (3 + Z.of_nat f <= 10000)%Z).
    { exists (Z.to_nat 9997). split; [unfold max_iteration; lia|lia]. }
    destruct G as (f & <- & G). cbn [series]. change (20 <? 2)%Z with false. cbn [andb].
    assert (X : next_x (mul d) (div_int d) y 2 y = zero d) by (unfold next_x; rewrite (square_zero y Fn Nn' Bn); apply (div_int_zero d Hd); lia). rewrite X.
    pose proof (q_inv_step d Hd Hd' 2 _ ltac:(lia) Q1) as J1. pose proof (q_inv_step d Hd Hd' 2 _ ltac:(lia) Q2) as J2.
    set (qa := next_p _ _ (one d, one d)) in *. set (qc := next_p _ _ (two d, two d)) in *. clearbody qa qc.
    rewrite (zero_term d Hd Hd' 2 qa qa qc ltac:(lia) J1 J1 J2).
    destruct (PowExtra.one_ok d Hd) as (F1 & _ & _). destruct (finite_flags d _ F1) as [N1 N2].
    assert (Z1 : iszero (one d) = false) by (apply (finite_nonzero_flag d); auto; lra).
    rewrite (add_zero_r d Hd (one d) N2 N1 Z1) || rewrite (add_zero_r d Hd (one d) N1 N2 Z1).
    change (2 + 1)%Z with 3%Z. rewrite (zero_series3 y); [reflexivity|exact Fn|lia|lia| | |]; assumption. }
  rewrite E. apply (isnan_mul_nan d Hd). apply F.
Qed.

End FixedDigits.
