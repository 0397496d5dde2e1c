(** * The series log1p1m2 close to one (proofs only) *)

From Coq Require Import ZArith List Bool Reals Lra Lia Psatz.
From Verif Require Import Model Spec SpecGen Limbs Value CmpProofs AddProofs Decide OrderProofs OrderDec AddExtra MulProofs MulValue MulExtra MulCor
  IntProofs IntPartProofs IntConv MixedProofs IntCor ModelDiv DoubleProofs NewtonProofs InvProofs SqrtProofs ModelPow PowGen PowProofs PowExtra LdexpProofs
  StrAny FloatEval ModelGen ModelElem ElemProofs SeriesFloat ExpReal ExpFloat ExpAcc ConstReal SinReal SinFloat SinStep SinAcc SinTiny HyperFloat AtanSer AtanTop LogSer LogDiv ModelAtanh AtanhAcc.
Import ListNotations.
Open Scope R_scope.
Ltac Zify.zify_post_hook ::= Z.div_mod_to_equations.
Local Notation p10 := (powerRZ 10).

(** ** Real numbers *)

Lemma ln_step n : 3 <= n -> / n <= (ln n - ln (n - 2)) / 2.
Proof.
  intro H. assert (E : ln (n - 2) = ln n + ln (1 + - (2 / n))).
  { rewrite <- ln_mult; [f_equal; field; lra|lra|]. assert (2 / n < 1); [|lra]. apply (Rmult_lt_reg_r n); [lra|]. unfold Rdiv. rewrite Rmult_assoc, Rinv_l by lra. lra. }
  assert (P : 0 < 1 + - (2 / n)). { assert (2 / n < 1); [|lra]. apply (Rmult_lt_reg_r n); [lra|]. unfold Rdiv. rewrite Rmult_assoc, Rinv_l by lra. lra. }
  pose proof (exp_ineq1_le (ln (1 + - (2 / n)))) as X. rewrite exp_ln in X by exact P. rewrite E. replace (/ n) with (2 / n / 2) by (field; lra). lra.
Qed.

Lemma ln_10001 n : 1 <= n <= 10001 -> ln n <= 14.
Proof.
  intro H. apply Rle_trans with (ln (2 ^ 14)).
  - destruct H as [H1 H2]. left. apply ln_increasing; [lra|]. cbn [Rpow_def.pow]. lra.
  - rewrite ln_pow by lra. assert (ln 2 <= 1). { rewrite <- (ln_exp 1). left. apply ln_increasing; [lra|]. pose proof (exp_ineq1 1). lra. } cbn [INR]. lra.
Qed.

Lemma artanh_big x : 1 - p10 (-20) <= x < 1 -> 20 <= artanh x.
Proof.
  intro H. change (-20)%Z with (- (20))%Z in H. rewrite (p10_inv 20) in H. assert (E : p10 20 = 10 ^ 20) by reflexivity.
  assert (P : 0 < 10 ^ 20) by (apply pow_lt; lra). assert (P1 : 1 < 10 ^ 20) by (apply Rlt_pow_R1; [lra|lia]).
  rewrite E in H. assert (I : / (10 ^ 20) < 1) by (rewrite <- Rinv_1; apply Rinv_lt_contravar; lra). unfold artanh.
  assert (A : 0 <= ln (1 + x)). { rewrite <- ln_1. destruct (Req_dec 1 (1 + x)) as [Q|Q]; [rewrite <- Q; lra|]. left. apply ln_increasing; lra. }
  assert (B : ln (1 - x) <= - (20 * 2)).
  { apply Rle_trans with (ln (/ (10 ^ 20))).
    - destruct (Req_dec (1 - x) (/ (10 ^ 20))) as [->|Q]; [lra|]. left. apply ln_increasing; lra.
    - rewrite ln_Rinv, ln_pow by lra. assert (2 <= ln 10).
      { rewrite <- (ln_exp 2). left. apply ln_increasing; [apply exp_pos|]. replace 2 with (1 + 1) by ring. rewrite exp_plus. pose proof exp_le_3. pose proof (exp_pos 1). nra. }
      replace (INR 20) with 20 by (cbn [INR]; lra). lra. }
  lra.
Qed.

Section FixedDigits.
Variable d : Z.
Hypothesis Hd : valid_digits d.
Hypothesis Hd' : (d <= 4967)%Z.
Local Notation u := (p10 (- d)).

(** At the beginning of a pass with the odd number n: xn is close to one, and the sum is
    bounded by the logarithm of n *)
Lemma b_loop fuel x2 : ok d 1 x2 -> Rabs (value x2 - 1) <= / 100000000000 ->
  forall n xn sum, (3 <= n <= 10001)%Z -> ok d 1 xn -> Rabs (value xn - 1) <= IZR n * / 10000000000 ->
  finite d sum -> full d sum -> 9 / 10 <= value sum <= 102 / 100 * (1 + ln (IZR n - 2) / 2) ->
  let r := log1p1m2_loop d fuel n x2 xn sum in finite d r /\ 9 / 10 <= value r <= 9.
Proof.
  intros O2 B2. pose proof (u_small d Hd) as U. induction fuel as [|f IH]; intros n xn sum Hn On Bn Fs Ps Bs r.
  all: assert (In : 3 <= IZR n <= 10001) by (split; apply IZR_le; lia). all: pose proof (ln_10001 (IZR n - 2) ltac:(lra)) as L.
  all: assert (Bs' : 9 / 10 <= value sum <= 9) by lra.
  { split; [exact Fs|exact Bs']. }
  unfold r. cbn [log1p1m2_loop]. destruct (n <? max_iteration)%Z eqn:C; [|split; [exact Fs|exact Bs']]. apply Z.ltb_lt in C. unfold max_iteration in C.
  destruct (ok_rel_mul d Hd Hd' 1 1 xn x2 ltac:(lia) ltac:(lia) ltac:(lia) On O2) as [Om Rm]. set (xm := mul d xn x2) in *. clearbody xm.
  apply Rabs_le_inv in B2. apply Rabs_le_inv in Bn. unfold rel in Rm.
  assert (Q : Rabs (value xn * value x2 - value xn) <= 2 * / 100000000000).
  { replace (value xn * value x2 - value xn) with (value xn * (value x2 - 1)) by ring. rewrite Rabs_mult. apply Rmult_le_compat; try apply Rabs_pos; apply Rabs_le; lra. }
  apply Rabs_le_inv in Q. rewrite (Rabs_pos_eq (value xn * value x2)) in Rm by lra.
  assert (Q2 : u / 1000000 * (value xn * value x2) <= u / 1000000 * 2) by (apply Rmult_le_compat_l; lra). apply Rabs_le_inv in Rm.
  assert (Vm : Rabs (value xm - 1) <= (IZR n + 2) * / 10000000000) by (apply Rabs_le; lra). pose proof (Rabs_le_inv _ _ Vm) as Vm'.
  assert (Ok : forall y, finite d y -> full d y -> / 10 <= value y <= 10 -> ok d 1 y) by (intros y F P B; apply (ok_of_bounds d); [exact F|exact P|]; rewrite (p10_inv 1), p10_1, Rabs_pos_eq; lra).
  assert (Om' : ok d 1 xm) by (apply Ok; [apply Om|apply Om|lra]).
  destruct (ok_div_int d Hd 1 xm n ltac:(lia) Om' ltac:(lra) ltac:(lia)) as (Ot & Nt & Rt). set (t := div_int d xm n) in *. clearbody t. unfold rel in Rt.
  destruct (_ && _); [split; [exact Fs|exact Bs']|].
  pose proof (Rinv_0_lt_compat (IZR n) ltac:(lra)) as Iv. assert (Iv2 : / 10001 <= / IZR n) by (apply Rinv_le_contravar; lra). assert (Iv3 : / IZR n <= / 3) by (apply Rinv_le_contravar; lra).
  assert (T : 0 < value xm / IZR n <= 1001 / 1000 * / IZR n) by (unfold Rdiv; split; [apply Rmult_lt_0_compat; lra|apply Rmult_le_compat_r; lra]).
  rewrite (Rabs_pos_eq (value xm / IZR n)) in Rt by lra. assert (T2 : u / 10 * (value xm / IZR n) <= / 1000 * (value xm / IZR n)) by (apply Rmult_le_compat_r; lra). apply Rabs_le_inv in Rt.
  assert (T4 : / 2 * / IZR n <= value xm / IZR n) by (unfold Rdiv; apply Rmult_le_compat_r; lra).
  assert (T3 : / 4 * / IZR n <= value t <= 1011 / 1000 * / IZR n) by lra.
  assert (Os : ok d 10 sum) by (apply (ok_le d 1); [lia|]; apply Ok; [exact Fs|exact Ps|lra]).
  assert (Ot' : ok d 10 t). { eapply ok_le; [|exact Ot]. lia. }
  destruct (ok_add d 10 sum t Hd ltac:(lia) ltac:(lia) Os Ot') as [Oa Ea]. rewrite (p_17 d) in Ea.
  assert (M : Rmax (Rabs (value sum)) (Rabs (value t)) <= 10) by (rewrite !Rabs_pos_eq by lra; apply Rmax_lub; lra).
  assert (M2 : 2 * (u / 100000000000000000) * Rmax (Rabs (value sum)) (Rabs (value t)) <= 2 * (u / 100000000000000000) * 10) by (apply Rmult_le_compat_l; lra). apply Rabs_le_inv in Ea.
  pose proof (ln_step (IZR n) ltac:(lra)) as Ls.
  apply IH; [lia|exact Om'|rewrite plus_IZR; exact Vm|apply Oa|apply Oa|]. rewrite plus_IZR. replace (IZR n + 2 - 2) with (IZR n) by ring. lra.
Qed.

Lemma log1p1m2_bad x : finite d x -> full d x -> 1 - p10 (-20) <= value x < 1 ->
  finite d (log1p1m2 d x) /\ value (log1p1m2 d x) <= 9.
Proof.
  intros F P B. pose proof (u_small d Hd) as U. unfold log1p1m2. generalize 5000%nat. intro f. rewrite (finite_isfinite d x F). cbn [negb]. destruct (one_facts d Hd) as [O1 V1].
  assert (B20 : p10 (-20) <= / 1000000000000) by (apply Rle_trans with (p10 (- (12))); [apply p10_le; lia|]; p10num H12 12%nat; rewrite H12; cbn [Rpow_def.pow]; lra).
  destruct (of_sll_spec d (-1) Hd ltac:(unfold sll_min, sll_max; lia)) as (Fm & _ & Vm & _).
  destruct (cmp_all_ops d x (one_minus d) Hd F Fm) as (_ & C1 & _). destruct (cmp_all_ops d x (one d) Hd F (proj1 O1)) as (_ & _ & _ & _ & C2 & _).
  assert (L1 : op_le x (one_minus d) = false) by (apply not_true_is_false; intro G; apply C1 in G; unfold one_minus in G; rewrite Vm in G; lra). assert (L2 : op_ge x (one d) = false) by (apply not_true_is_false; intro G; apply C2 in G; lra).
  rewrite L1, L2. cbn [orb].
  assert (Ok : forall y, finite d y -> full d y -> / 10 <= value y <= 10 -> ok d 1 y) by (intros y Fy Py By; apply (ok_of_bounds d); [exact Fy|exact Py|]; rewrite (p10_inv 1), p10_1, Rabs_pos_eq; lra).
  assert (Ox : ok d 1 x) by (apply Ok; [exact F|exact P|lra]).
  destruct (ok_rel_mul d Hd Hd' 1 1 x x ltac:(lia) ltac:(lia) ltac:(lia) Ox Ox) as [Om Rm]. unfold rel in Rm.
  assert (Q : 1 - 2 * / 1000000000000 <= value x * value x <= 1).
  { replace (value x * value x) with (1 - 2 * (1 - value x) + (1 - value x) * (1 - value x)) by ring. assert (0 <= (1 - value x) * (1 - value x) <= 1 * (1 - value x)) by (split; [apply Rmult_le_pos; lra|apply Rmult_le_compat_r; lra]). lra. }
  rewrite (Rabs_pos_eq (value x * value x)) in Rm by lra. assert (Q2 : u / 1000000 * (value x * value x) <= u / 1000000 * 1) by (apply Rmult_le_compat_l; lra). apply Rabs_le_inv in Rm.
  destruct (b_loop f (mul d x x)) with (n := 3%Z) (xn := x) (sum := x) as [R1 R2].
  - apply Ok; [apply Om|apply Om|lra].
  - apply Rabs_le; lra.
  - lia.
  - exact Ox.
  - apply Rabs_le; lra.
  - exact F.
  - exact P.
  - replace (3 - 2) with 1 by ring. rewrite ln_1. lra.
  - split; [exact R1|apply R2].
Qed.

End FixedDigits.
