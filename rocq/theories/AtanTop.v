(** * Accuracy of the arc tangent (proofs only) *)

From Coq Require Import ZArith List Bool Reals Lra Lia Psatz.
From Verif Require Import Model Spec SpecGen Limbs Value CmpProofs AddProofs Decide OrderProofs OrderDec AddExtra MulProofs MulValue MulExtra MulCor
  IntProofs IntPartProofs IntConv MixedProofs IntCor ModelDiv DoubleProofs NewtonProofs InvProofs SqrtProofs ModelPow PowGen PowProofs PowExtra LdexpProofs
  StrAny FloatEval ModelGen ModelElem ElemProofs SeriesFloat ExpReal ExpFloat ExpAcc ConstReal SinReal SinFloat SinStep SinAcc HyperFloat AtanAcc AtanSer.
Import ListNotations.
Open Scope R_scope.
Ltac Zify.zify_post_hook ::= Z.div_mod_to_equations.
Local Notation p10 := (powerRZ 10).
Local Notation atan := Ratan.atan.

Section FixedDigits.
Variable d : Z.
Hypothesis Hd : valid_digits d.
Hypothesis Hd' : (d <= 4967)%Z.
Variable env : env.
Local Notation u := (p10 (- d)).
Hypothesis Hpi : close_to d (c_pi env) PI.

Lemma limit_bounds : (6 <= arg_limit d <= 600)%Z /\ (arg_limit d + 9 <= d)%Z /\ (arg_limit d <= tolerance d)%Z.
Proof. unfold arg_limit, tolerance, max_digits10. destruct Hd. rewrite Z.quot_div_nonneg by lia. lia. Qed.

(** The result of the iteration for the magnitude a of the argument *)
Lemma atan_middle xx v : finite d xx -> full d xx -> p10 (- arg_limit d) <= value xx < p10 (arg_limit d + 1) ->
  (value xx < 100 -> finite d v /\ full d v /\ Rabs (value v - atan (value xx)) <= 4 / 1000000000000000 * atan (value xx)) ->
  (100 <= value xx -> v = atan_at_infinity d env xx) ->
  let r := atan_loop d env 40 xx v 12 in
  finite d r /\ full d r /\ Rabs (value r - atan (value xx)) <= 1301 / 1000 * u * atan (value xx).
Proof.
  intros F P B H1 H2. destruct limit_bounds as (L1 & L2 & _). pose proof (u_tiny d Hd) as U. set (a := value xx) in *. pose proof (p10_pos (- arg_limit d)) as PL.
  assert (A0 : 0 < a) by lra. destruct (atan_facts a A0) as (T0 & _ & _ & _ & _ & _ & T6).
  assert (Q : 1 <= p10 (arg_limit d + 1)) by (change 1 with (p10 0); apply p10_le; lia).
  assert (E2 : p10 (arg_limit d + 2) = p10 (arg_limit d + 1) * 10) by (replace (arg_limit d + 2)%Z with (arg_limit d + 1 + 1)%Z by ring; rewrite (p10_add (arg_limit d + 1) 1), p10_1; ring).
  assert (YB : 1 + a <= p10 (arg_limit d + 2)) by lra.
  assert (Yu : (1 + a) * u <= / 10000000).
  { apply Rle_trans with (p10 (arg_limit d + 2) * u); [apply Rmult_le_compat_r; lra|]. rewrite <- p10_add. apply Rle_trans with (p10 (- (7))); [apply p10_le; lia|]. p10num H7 7%nat. rewrite H7. lra. }
  assert (Ox : ok d 1000 xx).
  { apply (ok_of_bounds d); [exact F|exact P|]. fold a. rewrite Rabs_pos_eq by lra. pose proof (p10_le (- (1000)) (- arg_limit d) ltac:(lia)). pose proof (p10_le (arg_limit d + 1) 1000 ltac:(lia)). lra. }
  assert (Low : p10 (- (5000)) <= atan a).
  { apply (Rmult_le_reg_l (p10 (arg_limit d + 2))); [apply p10_pos|]. rewrite <- p10_add. apply Rle_trans with ((1 + a) * atan a); [|apply Rmult_le_compat_r; lra].
    apply Rle_trans with (2 := T6). apply Rle_trans with (2 := proj1 B). apply p10_le. lia. }
  assert (YT : 1 + a <= 1 + a <= p10 1000) by (split; [lra|]; apply Rle_trans with (1 := YB); apply p10_le; lia).
  assert (Fu : (tolerance d < 12 * 2 ^ Z.of_nat 40)%Z) by (destruct (tol_bounds d Hd Hd') as [Tb _]; change (2 ^ Z.of_nat 40)%Z with 1099511627776%Z; lia).
  destruct (Rlt_le_dec a 100) as [C|C].
  - destruct (H1 C) as (Fv & Pv & Bv).
    apply (atan_loop_ok d Hd Hd' env Hpi xx (1 + a) (4 / 1000) Ox A0 YT Low ltac:(lra) ltac:(nra) Yu 40 v 12 ltac:(lia) Fu Fv Pv).
    fold a. eapply Rle_trans; [exact Bv|]. apply Rmult_le_compat_r; [lra|]. p10num H12 12%nat. rewrite H12. lra.
  - rewrite (H2 C). destruct (atan_at_infinity_ok d Hd Hd' env Hpi xx) as (Fv & Pv & Bv); [apply (ok_le d 1000); [lia|exact Ox]|exact C|].
    apply (atan_loop_ok d Hd Hd' env Hpi xx (1 + a) 0 Ox A0 YT Low ltac:(lra) ltac:(lra) Yu 40 _ 12 ltac:(lia) Fu Fv Pv).
    fold a in Bv |- *. eapply Rle_trans; [exact Bv|]. apply Rmult_le_compat_r; lra.
Qed.

Lemma atan_accurate x : finite d x -> full d x -> value x = 0 \/ p10 (-400000) <= Rabs (value x) -> - 10000000 < value x ->
  (forall y, finite d y -> full d y -> value y = Rabs (value x) -> p10 (- d) <= Rabs (value x) < 100 ->
     let e := est_atan env y in finite d e /\ full d e /\ Rabs (value e - atan (Rabs (value x))) <= 4 / 1000000000000000 * atan (Rabs (value x))) ->
  let r := ModelElem.atan d env x in
  finite d r /\ full d r /\ Rabs (value r - atan (value x)) <= 14 / 10 * u * Rabs (atan (value x)).
Proof.
  intros F P L Hneg Hest. pose proof (u_tiny d Hd) as U. destruct limit_bounds as (L1 & L2 & L3). unfold ModelElem.atan. rewrite (finite_isfinite d x F). cbn [negb].
  destruct (iszero_isneg_spec d x Hd F) as [Zs Ns].
  destruct (Req_dec (value x) 0) as [Z|N].
  { assert (Z' : iszero x = true) by (apply Zs; exact Z). rewrite Z'. replace (order x) with 0%Z.
    2: { unfold order, isfinite. destruct F as [_ C]. rewrite C. cbn [negb orb]. unfold iszero in Z'. apply andb_true_iff in Z'. destruct Z' as [_ ->]. reflexivity. }
    replace (0 >? tolerance d)%Z with false by (symmetry; rewrite Z.gtb_ltb; apply Z.ltb_ge; destruct (tol_bounds d Hd Hd'); destruct Hd; lia).
    destruct (zero_ok d Hd) as (A & B & C). cbv zeta. rewrite C, Z, atan_0, Rminus_0_r, Rabs_R0. split; [exact A|]. split; [exact B|]. lra. }
  assert (L' : p10 (-400000) <= Rabs (value x)) by (destruct L; [contradiction|assumption]). clear L.
  assert (Z' : iszero x = false) by (destruct (iszero x); [exfalso; apply N, Zs; reflexivity|reflexivity]). rewrite Z'.
  destruct (order_spec d x Hd F N) as [Oa Ob]. set (a := Rabs (value x)) in *. assert (A0 : 0 < a) by (apply Rabs_pos_lt; exact N).
  assert (Sg : value x = if isneg x then - a else a).
  { unfold a. destruct (isneg x) eqn:G; [rewrite Rabs_left; [ring|apply Ns; reflexivity]|]. rewrite Rabs_pos_eq; [reflexivity|]. apply Rnot_lt_le. intro C. apply Ns in C. discriminate. }
  assert (At : atan (value x) = if isneg x then - atan a else atan a) by (rewrite Sg; destruct (isneg x); [apply atan_opp|reflexivity]).
  destruct (atan_facts a A0) as (T0 & _).
  assert (Ab : Rabs (atan (value x)) = atan a) by (rewrite At; destruct (isneg x); [rewrite Rabs_Ropp|]; apply Rabs_pos_eq; lra).
  assert (Fin : forall w, finite d w -> full d w -> Rabs (value w - atan a) <= 14 / 10 * u * atan a ->
    let r := if negb (isneg x) then w else negate w in finite d r /\ full d r /\ Rabs (value r - atan (value x)) <= 14 / 10 * u * Rabs (atan (value x))).
  { intros w Fw Pw Bw r. rewrite Ab, At. destruct (negate_if d Hd (isneg x) w Fw Pw) as (F1 & P1 & V1). unfold r. destruct (isneg x); cbn [negb]; (split; [assumption|]; split; [assumption|]).
    - rewrite V1. replace (- value w - - atan a) with (- (value w - atan a)) by ring. rewrite Rabs_Ropp. exact Bw.
    - exact Bw. }
  assert (Sm : isneg x = true -> a < 10000000) by (intro G; rewrite G in Sg; lra).
  assert (Ord : isneg x = true -> (order x <= 6)%Z).
  { intro G. specialize (Sm G). assert (p10 (order x) < p10 7). { apply Rle_lt_trans with (1 := Oa). rewrite (p10_nonneg 7) by lia. change (10 ^ 7)%Z with 10000000%Z. lra. } apply p10_lt_inv in H. lia. }
  destruct (Z.gtb_spec (order x) (tolerance d)) as [G|G].
  { (* beyond the tolerance *)
    destruct (half_pi_facts d Hd env Hpi) as (Op & Ep & Vp). apply Fin; [apply Op|apply Op|].
    assert (Big : p10 (d + 4) <= a). { apply Rle_trans with (2 := Oa). apply p10_le. destruct (tol_bounds d Hd Hd'). lia. }
    assert (I : / a <= u / 1000).
    { apply Rle_trans with (/ p10 (d + 4)); [apply Rinv_le_contravar; [apply p10_pos|exact Big]|]. rewrite <- p10_inv. pose proof (p_shift d 4) as E. change (Z.of_nat 4) with 4%Z in E. rewrite E. cbn [Rpow_def.pow]. lra. }
    pose proof (Rinv_0_lt_compat a A0) as Ia. destruct (atan_le (/ a) ltac:(lra)) as [J1 J2]. rewrite (atan_inv a A0) in J1, J2. pose proof pi_bounds.
    assert (u * 1 <= u * atan a) by (apply Rmult_le_compat_l; lra). apply Rabs_le_inv in Ep. apply Rabs_le. lra. }
  destruct (small_arg d x) eqn:Sa.
  { pose proof (small_arg_bound d Hd x F N Sa) as Bs. fold a in Bs.
    assert (Ox : ok d 400000 x). { apply (ok_of_bounds d); [exact F|exact P|]. fold a. split; [exact L'|]. pose proof (p10_le 0 400000 ltac:(lia)) as X. change (p10 0) with 1 in X. lra. }
    destruct (atan_at_zero_ok d Hd Hd' 400000 x ltac:(lia) Ox N) as (Or & Br); [fold a; lra|]. split; [apply Or|]. split; [apply Or|].
    eapply Rle_trans; [exact Br|]. apply Rmult_le_compat_r; [apply Rabs_pos|lra]. }
  unfold small_arg in Sa. apply Z.ltb_ge in Sa.
  destruct (large_arg d x) eqn:La.
  { unfold large_arg in La. rewrite Z.gtb_ltb in La. apply Z.ltb_lt in La. destruct (isneg x) eqn:G2; [specialize (Ord eq_refl); lia|].
    cbn [negb] in Fin. pose proof (p10_le 2 (order x) ltac:(lia)) as X2. rewrite (p10_nonneg 2) in X2 by lia. change (10 ^ 2)%Z with 100%Z in X2.
    apply Fin; cbn zeta iota.
    all: destruct (atan_at_infinity_ok d Hd Hd' env Hpi x) as (Fv & Pv & Bv); [apply (ok_of_bounds d); [exact F|exact P|]|rewrite Sg; lra|].
    all: try (fold a; pose proof (p10_le (- (6000)) (-0) ltac:(lia)) as X3; change (p10 (-0)) with 1 in X3; pose proof (p10_le (order x + 1) 6000 ltac:(destruct (tol_bounds d Hd Hd'); lia)); lra).
    - exact Fv.
    - exact Pv.
    - replace (value x) with a in Bv by lra. eapply Rle_trans; [exact Bv|]. apply Rmult_le_compat_r; lra. }
  unfold large_arg in La. rewrite Z.gtb_ltb in La. apply Z.ltb_ge in La.
  cbv zeta. set (xx := if negb (isneg x) then x else negate x).
  assert (Fx : finite d xx /\ full d xx /\ value xx = a).
  { destruct (negate_if d Hd (isneg x) x F P) as (F1 & P1 & V1). unfold xx. rewrite Sg in V1. destruct (isneg x); cbn [negb]; (split; [assumption|]; split; [assumption|lra]). }
  destruct Fx as (F1 & P1 & V1).
  assert (B2 : p10 (- arg_limit d) <= value xx < p10 (arg_limit d + 1)).
  { rewrite V1. split; [apply Rle_trans with (2 := Oa); apply p10_le; lia|]. apply Rlt_le_trans with (1 := Ob). apply p10_le. lia. }
  assert (P2 : p10 2 = 100) by (rewrite (p10_nonneg 2) by lia; change (10 ^ 2)%Z with 100%Z; lra).
  set (v := if (order x <? 2)%Z then est_atan env xx else atan_at_infinity d env xx).
  assert (M : let r := atan_loop d env 40 xx v 12 in finite d r /\ full d r /\ Rabs (value r - atan (value xx)) <= 1301 / 1000 * u * atan (value xx)).
  { apply atan_middle; [exact F1|exact P1|exact B2| |]; rewrite V1; intro C; unfold v.
    - assert (O2 : (order x <? 2)%Z = true). { apply Z.ltb_lt. assert (p10 (order x) < p10 2) by lra. apply p10_lt_inv in H. lia. } rewrite O2.
      apply (Hest xx F1 P1 V1). split; [|exact C]. rewrite <- V1. apply Rle_trans with (2 := proj1 B2). apply p10_le. lia.
    - assert (O2 : (order x <? 2)%Z = false). { apply Z.ltb_ge. assert (p10 2 < p10 (order x + 1)) by lra. apply p10_lt_inv in H. lia. } rewrite O2. reflexivity. }
  cbv zeta in M. rewrite V1 in M. destruct M as (M1 & M2 & M3).
  apply Fin; [exact M1|exact M2|]. eapply Rle_trans; [exact M3|]. apply Rmult_le_compat_r; lra.
Qed.

End FixedDigits.
