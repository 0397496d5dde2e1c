(** * Accuracy of asin and acos (proofs only) *)

From Coq Require Import ZArith List Bool Reals Lra Lia Psatz.
From Verif Require Import Model Spec SpecGen Limbs Value CmpProofs AddProofs Decide OrderProofs OrderDec AddExtra MulProofs MulValue MulExtra MulCor
  IntProofs IntPartProofs IntConv MixedProofs IntCor ModelDiv DoubleProofs NewtonProofs InvProofs SqrtProofs ModelPow PowGen PowProofs PowExtra LdexpProofs
  StrAny FloatEval ModelGen ModelElem ElemProofs SeriesFloat ExpReal ExpFloat ExpAcc ConstReal SinReal SinFloat SinStep SinAcc AtanAcc HyperFloat AtanSer AtanTop AsinAcc AsinSer.
Import ListNotations.
Open Scope R_scope.
Ltac Zify.zify_post_hook ::= Z.div_mod_to_equations.
Local Notation p10 := (powerRZ 10).
Local Notation sin := Rtrigo_def.sin.
Local Notation cos := Rtrigo_def.cos.
Local Notation asin := Ratan.asin.
Local Notation acos := Ratan.acos.
Local Notation sqrt := R_sqrt.sqrt.

Section FixedDigits.
Variable d : Z.
Hypothesis Hd : valid_digits d.
Hypothesis Hd' : (d <= 4967)%Z.
Variable env : env.
Hypothesis Hpi : close_to d (c_pi env) PI.
Local Notation u := (p10 (- d)).

Definition asin_range x := value x = 0 \/ p10 (-400000) <= value x <= 99 / 100 \/ - (99 / 100) <= value x <= - (/ 1000000).
Definition asin_estimate x := forall y, finite d y -> full d y -> value y = Rabs (value x) -> p10 (- d) <= value y ->
  finite d (est_asin env y) /\ full d (est_asin env y) /\ Rabs (value (est_asin env y) - asin (value y)) <= 4 / 1000000000000000 * asin (value y).

Lemma asin_accurate x : finite d x -> full d x -> asin_range x -> asin_estimate x ->
  let r := ModelElem.asin d env x in
  finite d r /\ full d r /\ Rabs (value r - asin (value x)) <= 62 / 100 * u * (Rabs (asin (value x)) / sqrt (1 - value x * value x)) /\ (value x = 0 -> value r = 0).
Proof.
  intros F P L Hest. pose proof (u_tiny d Hd) as U. destruct (limit_bounds d Hd Hd') as (L1 & L2 & L3). unfold ModelElem.asin. rewrite (finite_isfinite d x F). cbn [negb].
  destruct (iszero_isneg_spec d x Hd F) as [Zs Ns]. cbv zeta. set (xx := if negb (isneg x) then x else negate x). set (a := Rabs (value x)).
  assert (Sg : value x = if isneg x then - a else a).
  { unfold a. destruct (isneg x) eqn:G; [rewrite Rabs_left; [ring|apply Ns; reflexivity]|]. rewrite Rabs_pos_eq; [reflexivity|]. apply Rnot_lt_le. intro C. apply Ns in C. discriminate. }
  assert (Fx : finite d xx /\ full d xx /\ value xx = a).
  { destruct (negate_if d Hd (isneg x) x F P) as (F1 & P1 & V1). unfold xx. rewrite Sg in V1. destruct (isneg x); cbn [negb]; (split; [assumption|]; split; [assumption|lra]). }
  destruct Fx as (F1 & P1 & V1).
  assert (A1 : 0 <= a <= 99 / 100). { unfold a. split; [apply Rabs_pos|]. apply Rabs_le. pose proof (p10_pos (-400000)). unfold asin_range in L. lra. }
  destruct (one_facts d Hd) as [O1 E1].
  assert (G : op_gt xx (one d) = false).
  { destruct (cmp_all_ops d xx (one d) Hd F1 (proj1 O1)) as (_ & _ & _ & _ & _ & C). apply not_true_is_false. intro G. apply C in G. lra. }
  rewrite G.
  destruct (Req_dec (value x) 0) as [Z|N].
  { assert (Z' : iszero x = true) by (apply Zs; exact Z). rewrite Z'. destruct (zero_ok d Hd) as (A & B & C). rewrite C, Z, asin_0, Rminus_0_r, Rabs_R0. split; [exact A|]. split; [exact B|]. split; [unfold Rdiv; rewrite Rmult_0_l; lra|reflexivity]. }
  assert (Z' : iszero x = false) by (apply not_true_is_false; intro C; apply N, Zs, C). rewrite Z'.
  assert (A0 : 0 < a) by (apply Rabs_pos_lt; exact N).
  assert (I1 : isone xx = false).
  { apply not_true_is_false. intro C. apply (isone_spec d xx Hd F1) in C. rewrite V1 in C. pose proof (p10_le (- (8 * elem_number d)) (- (3)) ltac:(unfold elem_number, max_digits10; destruct Hd; destruct (_ =? _)%Z; lia)) as Q.
    p10num H3 3%nat. rewrite H3 in Q. cbn [Rpow_def.pow] in Q. lra. }
  rewrite I1. assert (Nxx : value xx <> 0) by lra.
  destruct (asin_facts a ltac:(lra)) as (T0 & T1 & T2 & T3 & T4).
  assert (At : asin (value x) = if isneg x then - asin a else asin a) by (rewrite Sg; destruct (isneg x); [apply asin_opp|reflexivity]).
  assert (Ab : Rabs (asin (value x)) = asin a) by (rewrite At; destruct (isneg x); [rewrite Rabs_Ropp|]; apply Rabs_pos_eq; lra).
  assert (Sq : sqrt (1 - value x * value x) = cos (asin a)) by (rewrite T2, Sg; f_equal; destruct (isneg x); ring).
  set (Y := / cos (asin a)). assert (Y0 : 1 <= Y <= 10).
  { unfold Y. split; [rewrite <- Rinv_1 at 1; apply Rinv_le_contravar; lra|]. replace 10 with (/ (1 / 10)) by field. apply Rinv_le_contravar; lra. }
  assert (YC : Y * cos (asin a) = 1) by (unfold Y; apply Rinv_l; lra).
  assert (Fin : forall w, finite d w -> full d w -> Rabs (value w - asin a) <= 62 / 100 * Y * u * asin a ->
    let r := if negb (isneg x) then w else negate w in finite d r /\ full d r /\ Rabs (value r - asin (value x)) <= 62 / 100 * u * (Rabs (asin (value x)) / sqrt (1 - value x * value x)) /\ (value x = 0 -> value r = 0)).
  { intros w Fw Pw Bw r. rewrite Ab, At, Sq. destruct (negate_if d Hd (isneg x) w Fw Pw) as (F2 & P2 & V2).
    replace (62 / 100 * u * (asin a / cos (asin a))) with (62 / 100 * Y * u * asin a) by (unfold Y; field; lra).
    unfold r. destruct (isneg x); cbn [negb]; (split; [assumption|]; split; [assumption|]; split; [|contradiction]).
    - rewrite V2. replace (- value w - - asin a) with (- (value w - asin a)) by ring. rewrite Rabs_Ropp. exact Bw.
    - exact Bw. }
  destruct (order_spec d xx Hd F1 Nxx) as [Oa Ob]. rewrite V1, (Rabs_pos_eq a) in Oa, Ob by lra.
  assert (YU : u * 1 <= u * Y) by (apply Rmult_le_compat_l; lra).
  destruct (small_arg d xx) eqn:Sa.
  { assert (Pos : isneg x = false).
    { apply not_true_is_false. intro C. pose proof C as C'. apply Ns in C'. rewrite C in Sg. pose proof (p10_pos (-400000)) as Q.
      assert (a >= / 1000000) by (unfold asin_range in L; lra). unfold small_arg in Sa. apply Z.ltb_lt in Sa.
      pose proof (p10_le (order xx + 1) (- (6)) ltac:(lia)) as Q2. p10num H6 6%nat. rewrite H6 in Q2. cbn [Rpow_def.pow] in Q2. lra. }
    rewrite Pos in *. cbn [negb] in *. pose proof (small_arg_bound d Hd xx F1 Nxx Sa) as Bs. rewrite V1, (Rabs_pos_eq a) in Bs by lra.
    assert (Low : p10 (-400000) <= a) by (pose proof (p10_pos (-400000)); unfold asin_range in L; lra).
    assert (Ox : ok d 400000 x). { apply (ok_of_bounds d); [exact F|exact P|]. fold a. split; [exact Low|]. pose proof (p10_le 0 400000 ltac:(lia)) as X. change (p10 0) with 1 in X. lra. }
    destruct (asin_at_zero_ok d Hd Hd' 400000 x ltac:(lia) Ox) as (Or & Br); [rewrite Sg; lra|]. apply Fin; [apply Or|apply Or|].
    rewrite Sg in Br. eapply Rle_trans; [exact Br|]. apply Rmult_le_compat_r; lra. }
  assert (Ox : ok d 6000 xx). { apply (ok_of_bounds d); [exact F1|exact P1|]. rewrite V1, Rabs_pos_eq by lra. unfold small_arg in Sa. apply Z.ltb_ge in Sa.
    split; [apply Rle_trans with (2 := Oa); apply p10_le; lia|]. pose proof (p10_le 0 6000 ltac:(lia)) as X. change (p10 0) with 1 in X. lra. }
  assert (No : near_one d xx = false).
  { apply not_true_is_false. unfold near_one. intro C. destruct (ok_sub d 6000 (one d) xx Hd ltac:(lia) ltac:(lia) (ok_le d 1 6000 (one d) ltac:(lia) O1) Ox) as [Os Es].
    rewrite (p_17 d), E1, V1, Rabs_R1, (Rabs_pos_eq a), Rmax_left in Es by lra. pose proof (u_small d Hd) as Us. apply Rabs_le_inv in Es.
    set (s := sub d (one d) xx) in *. assert (Vs : / 1000 < value s) by lra. pose proof (fabs_finite d s (proj1 Os)) as Ff. pose proof (fabs_value d s Hd (proj1 Os)) as Fv.
    rewrite (Rabs_pos_eq (value s)) in Fv by lra. pose proof (small_arg_bound d Hd (fabs s) Ff ltac:(lra) C) as B. rewrite Fv, Rabs_pos_eq in B by lra. lra. }
  rewrite No. unfold small_arg in Sa. apply Z.ltb_ge in Sa.
  assert (Low : p10 (- d) <= value xx) by (rewrite V1; apply Rle_trans with (2 := Oa); apply p10_le; lia).
  destruct (Hest xx F1 P1 V1 Low) as (Fe & Pe & Be). rewrite V1 in Be.
  assert (M : let r := asin_loop d env 40 xx (est_asin env xx) 12 in finite d r /\ full d r /\ Rabs (value r - asin (value xx)) <= 62 / 100 * Y * u * asin (value xx)).
  { apply (asin_loop_ok d Hd Hd' env Hpi xx Y); try assumption; rewrite ?V1; try lra.
    - split; [apply Rle_trans with (2 := Oa); apply p10_le; lia|lra].
    - lia.
    - destruct (tol_bounds d Hd Hd'). change (2 ^ Z.of_nat 40)%Z with 1099511627776%Z. lia.
    - eapply Rle_trans; [exact Be|]. apply Rmult_le_compat_r; [lra|]. p10num H12 12%nat. rewrite H12. cbn [Rpow_def.pow]. nra. }
  cbv zeta in M. rewrite V1 in M. destruct M as (M1 & M2 & M3). apply Fin; assumption.
Qed.

Lemma acos_accurate x : finite d x -> full d x -> asin_range x -> asin_estimate x ->
  let r := ModelElem.acos d env x in
  finite d r /\ full d r /\ Rabs (value r - acos (value x)) <= (16 / 100 + 63 / 100 * (Rabs (asin (value x)) / sqrt (1 - value x * value x))) * u.
Proof.
  intros F P L Hest. pose proof (u_tiny d Hd) as U. destruct (iszero_isneg_spec d x Hd F) as [Zs Ns]. destruct (half_pi_facts d Hd env Hpi) as (Op & Ep & Vp).
  destruct (one_facts d Hd) as [O1 E1]. destruct (zero_ok d Hd) as (Z1 & Z2 & Z3). pose proof (p10_pos (-400000)) as Q.
  assert (B : - (99 / 100) <= value x <= 99 / 100) by (unfold asin_range in L; lra).
  unfold ModelElem.acos. rewrite (finite_isfinite d x F). cbn [negb]. cbv zeta. set (b := op_lt x (zero d)). set (xx := if negb b then x else negate x).
  assert (Fx : finite d xx /\ - (99 / 100) <= value xx <= 99 / 100).
  { destruct (negate_if d Hd b x F P) as (F1 & P1 & V1). unfold xx. destruct b; cbn [negb]; (split; [assumption|lra]). }
  destruct Fx as [F1 B1].
  destruct (cmp_all_ops d xx (one d) Hd F1 (proj1 O1)) as (C1 & _ & _ & _ & _ & C6).
  assert (G1 : op_gt xx (one d) = false) by (apply not_true_is_false; intro G; apply C6 in G; lra). rewrite G1.
  assert (G2 : op_lt xx (one d) = true) by (apply C1; lra). rewrite G2.
  destruct (asin_accurate x F P L Hest) as (Fr & Pr & Vr & Wr). set (s := ModelElem.asin d env x) in *. rewrite acos_asin by lra.
  assert (S1 : 0 < sqrt (1 - value x * value x) <= 1). { split; [apply sqrt_lt_R0; nra|]. apply Rle_trans with (sqrt 1); [apply sqrt_le_1_alt; nra|rewrite sqrt_1; lra]. }
  set (q := Rabs (asin (value x)) / sqrt (1 - value x * value x)) in *.
  assert (Q0 : Rabs (asin (value x)) <= q).
  { unfold q, Rdiv. rewrite <- (Rmult_1_r (Rabs _)) at 1. apply Rmult_le_compat_l; [apply Rabs_pos|]. rewrite <- Rinv_1 at 1. apply Rinv_le_contravar; lra. }
  pose proof (Rabs_pos (asin (value x))) as Q1. assert (uq : 0 <= u * q) by (apply Rmult_le_pos; lra).
  destruct (iszero x) eqn:Z.
  { split; [apply Op|]. split; [apply Op|]. assert (V : value x = 0) by (apply Zs; reflexivity). rewrite V, asin_0, Rminus_0_r. eapply Rle_trans; [exact Ep|]. lra. }
  assert (N : value x <> 0) by (intro C; apply Zs in C; discriminate).
  assert (Bq : q <= 11).
  { assert (T : Rabs (asin (value x)) <= 15 / 10). { destruct (asin_bound (value x)) as [T1 T2]. pose proof pi_bounds.
      destruct (Rle_dec 0 (value x)) as [C|C].
      - destruct (asin_facts (value x) ltac:(lra)) as (T0 & _). rewrite Rabs_pos_eq; lra.
      - destruct (asin_facts (- value x) ltac:(lra)) as (T0 & _). rewrite asin_opp in T0. rewrite Rabs_left; lra. }
    assert (S2 : 14 / 100 <= sqrt (1 - value x * value x)). { apply Rle_trans with (sqrt (Rsqr (14 / 100))); [rewrite sqrt_Rsqr; lra|]. apply sqrt_le_1_alt. unfold Rsqr. nra. }
    unfold q. apply (Rmult_le_reg_r (sqrt (1 - value x * value x))); [lra|]. unfold Rdiv. rewrite Rmult_assoc, Rinv_l by lra. lra. }
  assert (Ov : ok d 400001 s).
  { apply (ok_of_bounds d); [exact Fr|exact Pr|]. assert (E : 62 / 100 * u * q <= Rabs (asin (value x)) / 2).
    { unfold q. replace (62 / 100 * u * (Rabs (asin (value x)) / sqrt (1 - value x * value x))) with (Rabs (asin (value x)) * (62 / 100 * u * / sqrt (1 - value x * value x))) by (field; lra).
      apply Rmult_le_compat_l; [exact Q1|]. assert (S2 : 14 / 100 <= sqrt (1 - value x * value x)). { apply Rle_trans with (sqrt (Rsqr (14 / 100))); [rewrite sqrt_Rsqr; lra|]. apply sqrt_le_1_alt. unfold Rsqr. nra. }
      assert (/ sqrt (1 - value x * value x) <= / (14 / 100)) by (apply Rinv_le_contravar; lra). assert (0 < / sqrt (1 - value x * value x)) by (apply Rinv_0_lt_compat; lra).
      apply Rle_trans with (62 / 100 * u * / (14 / 100)); [apply Rmult_le_compat_l; lra|lra]. }
    assert (W : Rabs (value x) <= Rabs (asin (value x))).
    { destruct (Rle_dec 0 (value x)) as [C|C].
      - destruct (asin_facts (value x) ltac:(lra)) as (T0 & _ & _ & _ & T4). rewrite !Rabs_pos_eq; lra.
      - destruct (asin_facts (- value x) ltac:(lra)) as (T0 & _ & _ & _ & T4). rewrite asin_opp in T0, T4. rewrite !Rabs_left; lra. }
    assert (Lx : p10 (-400000) <= Rabs (value x)).
    { destruct L as [L|[L|L]]; [contradiction|rewrite Rabs_pos_eq; lra|]. rewrite Rabs_left by lra. pose proof (p10_le (-400000) (- (6)) ltac:(lia)) as X. p10num H6 6%nat. rewrite H6 in X. cbn [Rpow_def.pow] in X. lra. }
    assert (T1 : Rabs (value s - asin (value x)) <= Rabs (asin (value x)) / 2) by lra.
    pose proof (Rabs_triang_inv (asin (value x)) (value s)) as X1. rewrite (Rabs_minus_sym (asin (value x))) in X1. pose proof (Rabs_triang_inv (value s) (asin (value x))) as X2.
    split.
    - apply Rle_trans with (p10 (-400000) / 2); [|lra]. replace (-400000)%Z with (-400001 + 1)%Z by lia. rewrite p10_add, p10_1. change (- (400001))%Z with (-400001)%Z. pose proof (p10_pos (-400001)). lra.
    - pose proof (p10_le 2 400001 ltac:(lia)) as X. rewrite (p10_nonneg 2) in X by lia. change (10 ^ 2)%Z with 100%Z in X. lra. }
  destruct (ok_sub d 400001 (div_int d (c_pi env) 2) s Hd ltac:(lia) ltac:(lia) (ok_le d 10 400001 _ ltac:(lia) Op) Ov) as [Or Er].
  split; [apply Or|]. split; [apply Or|]. rewrite (p_17 d) in Er. unfold ModelElem.pi_half in *.
  assert (Mx : Rmax (Rabs (value (div_int d (c_pi env) 2))) (Rabs (value s)) <= 20).
  { apply Rmax_lub; [rewrite Rabs_pos_eq; lra|]. pose proof (Rabs_triang_inv (value s) (asin (value x))) as X2. assert (u * q <= / 1000 * 11) by (apply Rmult_le_compat; lra). lra. }
  set (mx := Rmax _ _) in *. assert (2 * (u / 100000000000000000) * mx <= 2 * (u / 100000000000000000) * 20) by (apply Rmult_le_compat_l; lra).
  set (h := div_int d (c_pi env) 2) in *. set (t := sub d h s) in *.
  replace (value t - (PI / 2 - asin (value x))) with ((value t - (value h - value s)) + ((value h - PI / 2) + - (value s - asin (value x)))) by ring.
  eapply Rle_trans; [apply Rabs_triang|]. eapply Rle_trans; [apply Rplus_le_compat_l; apply Rabs_triang|]. rewrite Rabs_Ropp. lra.
Qed.
End FixedDigits.
