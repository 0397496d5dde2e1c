(** * The series of sine and cosine in e_float arithmetic (proofs only) *)

From Coq Require Import ZArith List Bool Reals Lra Lia Psatz.
From Verif Require Import Model Spec SpecGen Limbs Value CmpProofs AddProofs Decide OrderProofs OrderDec AddExtra MulProofs MulValue MulExtra MulCor
  IntProofs IntPartProofs IntConv MixedProofs IntCor ModelDiv DoubleProofs NewtonProofs InvProofs SqrtProofs ModelPow PowGen PowProofs PowExtra LdexpProofs
  FloatEval ModelGen ModelElem ElemProofs SeriesFloat ExpReal ExpFloat ExpAcc SinReal.
Import ListNotations.
Open Scope R_scope.
Ltac Zify.zify_post_hook ::= Z.div_mod_to_equations.
Local Notation p10 := (powerRZ 10).
Local Notation exp := Rtrigo_def.exp.
Local Notation sin := Rtrigo_def.sin.
Local Notation cos := Rtrigo_def.cos.

(** Rising factorials *)
Fixpoint rising (b : R) (n : nat) : R := match n with O => 1 | S k => rising b k * (b + INR k) end.
Definition poch (b : R) (n : Z) : R := rising b (Z.to_nat n).

Lemma poch_1 b : poch b 1 = b.
Proof. unfold poch. change (Z.to_nat 1) with 1%nat. cbn [rising INR]. ring. Qed.

Lemma poch_step b n : (1 <= n)%Z -> poch b n = poch b (n - 1) * (b + IZR (n - 1)).
Proof.
  intro H. unfold poch. replace (Z.to_nat n) with (S (Z.to_nat (n - 1))) by lia. cbn [rising]. rewrite INR_IZR_INZ, Z2Nat.id by lia. reflexivity.
Qed.

Lemma poch_pos b n : / 2 <= b -> 0 < poch b n.
Proof. intro H. unfold poch. induction (Z.to_nat n) as [|k IH]; cbn [rising]; [lra|]. pose proof (pos_INR k). apply Rmult_lt_0_compat; lra. Qed.

Lemma f_term_poch b z n : / 2 <= b -> f_term b z n = exp_term z n / poch b n.
Proof.
  intro Hb. unfold f_term, exp_term, poch. induction (Z.to_nat n) as [|k IH].
  - cbn. field.
  - cbn [ftn rising]. rewrite IH. rewrite fact_simpl, mult_INR, <- tech_pow_Rmult. pose proof (INR_fact_neq_0 k).
    assert (S0 : INR (S k) <> 0) by (apply not_0_INR; lia). pose proof (pos_INR k).
    assert (rising b k <> 0). { clear - Hb. apply Rgt_not_eq. induction k as [|k IH]; cbn [rising]; [lra|]. pose proof (pos_INR k). apply Rmult_lt_0_compat; lra. }
    field. repeat split; auto; lra.
Qed.

Lemma terms_tiny (T : Z -> R) n : Rabs (T 1%Z) <= / 1000000 -> (forall n, (1 <= n)%Z -> Rabs (T (n + 1)%Z) <= Rabs (T n) / 1000000) -> (1 <= n)%Z ->
  Rabs (T n) <= p10 (- 6 * n).
Proof.
  intros T1 TN H. replace n with (1 + Z.of_nat (Z.to_nat (n - 1)))%Z by lia. generalize (Z.to_nat (n - 1)) as k. clear n H.
  assert (E6 : p10 (-6) = / 1000000). { p10num H 6%nat. change (-6)%Z with (- (6))%Z. rewrite H. lra. }
  induction k as [|k IH].
  - replace (1 + Z.of_nat 0)%Z with 1%Z by lia. change (-6 * 1)%Z with (-6)%Z. rewrite E6. exact T1.
  - replace (1 + Z.of_nat (S k))%Z with (1 + Z.of_nat k + 1)%Z by lia. pose proof (TN (1 + Z.of_nat k)%Z ltac:(lia)) as A.
    pose proof (Rabs_pos (T (1 + Z.of_nat k)%Z)).
    replace (-6 * (1 + Z.of_nat k + 1))%Z with (-6 * (1 + Z.of_nat k) + -6)%Z by ring. rewrite p10_add, E6. lra.
Qed.

Section FixedDigits.
Variable d : Z.
Hypothesis Hd : valid_digits d.
Hypothesis Hd' : (d <= 4967)%Z.

Local Notation u := (p10 (- d)).

Lemma p_11 : p10 (- (d + 11)) = u / 100000000000.
Proof. pose proof (p_shift d 11) as H. cbn [Z.of_nat Pos.of_succ_nat Pos.succ Rpow_def.pow] in H. rewrite H. lra. Qed.

Lemma tol_11 (T : Z -> R) : Rabs (T 1%Z) <= / 1000000 -> (forall n, (1 <= n)%Z -> Rabs (T (n + 1)%Z) <= Rabs (T n) / 1000000) ->
  (d + 11 + 1 <= tolerance d)%Z \/ forall n, (21 <= n)%Z -> Rabs (T n) <= / 4 * p10 (- (d + 11)).
Proof.
  intros T1 TN. destruct (Z_le_gt_dec 109 d) as [D|D].
  - left. unfold tolerance, max_digits10. lia.
  - right. intros n Hn. pose proof (terms_tiny T n T1 TN ltac:(lia)) as X. pose proof (p10_le (-6 * n) (- (d + 11) + - (1)) ltac:(lia)) as Y.
    rewrite (p10_add (- (d + 11))), (p10_inv 1), p10_1 in Y. pose proof (p10_pos (- (d + 11))). lra.
Qed.

Lemma ok_div m m' x y : (0 <= m)%Z -> (0 <= m')%Z -> (m + m' <= 2147483000)%Z -> ok d m x -> ok d m' y -> value x <> 0 -> value y <> 0 ->
  Rabs (value x) <> Rabs (value y) \/ 0 < value x ->
  ok d (m + m' + 1) (div d x y) /\ 0 < value (div d x y) * (value x / value y) /\ rel (u / 10) (value (div d x y)) (value x / value y).
Proof.
  intros Hm Hm' Hs Ox Oy Nx Ny Hc. pose proof (ok_in_range d m' y Oy ltac:(lia) Ny) as Ry. pose proof (u_small d Hd) as Us.
  destruct Ox as (Fx & Px & [|[X1 X2]]); [contradiction|]. destruct Oy as (Fy & Py & [|[Y1 Y2]]); [contradiction|].
  pose proof (Rabs_pos_lt _ Ny) as Py0. pose proof (Rabs_pos_lt _ Nx) as Px0.
  assert (Eq : Rabs (value x / value y) = Rabs (value x) * / Rabs (value y)) by (unfold Rdiv; rewrite Rabs_mult, Rabs_inv; reflexivity).
  assert (B1 : p10 (- (m + m')) <= Rabs (value x / value y) <= p10 (m + m')).
  { rewrite Eq. replace (- (m + m'))%Z with (- m + - m')%Z by ring. rewrite !p10_add. pose proof (p10_pos (- m)). pose proof (p10_pos (- m')). pose proof (p10_pos m). split.
    - apply Rmult_le_compat; try lra. rewrite p10_inv. apply Rinv_le_contravar; lra.
    - apply Rmult_le_compat; try lra; [left; apply Rinv_0_lt_compat; lra|]. replace (p10 m') with (/ p10 (- m')) by (rewrite p10_inv; apply Rinv_inv).
      apply Rinv_le_contravar; lra. }
  assert (Rq : in_range (value x / value y)).
  { unfold in_range. pose proof (p10_le (-2147483590) (- (m + m')) ltac:(lia)). pose proof (p10_le (m + m') 2147483590 ltac:(lia)). lra. }
  destruct (div_accurate d x y Hd ltac:(lia) Fx Fy Px Py Ry Rq Hc) as (A & B & C & _ & E). specialize (E Hd'). rewrite (p_1 d) in E.
  split; [|split; [exact C|exact E]]. apply (ok_of_bounds d); [exact A|exact B|].
  pose proof (rel_bound _ _ _ E) as Bd. replace (- (m + m' + 1))%Z with (- (m + m') + - (1))%Z by ring. rewrite (p10_add (- (m + m'))), (p10_add (m + m') 1), (p10_inv 1), p10_1.
  pose proof (p10_pos (- (m + m'))). pose proof (p10_pos (m + m')). nra.
Qed.

Lemma rel_div e f a b c g : c <> 0 -> g <> 0 -> 0 <= e -> 0 <= f <= / 100 -> rel e a b -> rel f c g -> rel (e + 102 / 100 * f + e * (102 / 100 * f)) (a / c) (b / g).
Proof. intros N1 N2 He Hf R1 R2. unfold Rdiv. apply rel_mult; [exact He|exact R1|apply rel_inv; assumption]. Qed.

(** ** The series *)

Local Notation delta := (11 / 100 * u).

Record f_inv (m : Z) (b : R) (x : ef) (n : Z) (st : ef * (ef * ef)) : Prop := {
  fi_x : ok d (n * (m + 10)) (fst st);
  fi_x0 : value (fst st) <> 0;
  fi_xr : rel (IZR (n - 1) * (101 / 1000 * u)) (value (fst st)) (exp_term (value x) n);
  fi_p : ok d (n * 5) (fst (snd st));
  fi_pr : rel (IZR (n - 1) * (11 / 10000000 * u)) (value (fst (snd st))) (poch b n);
  fi_b : finite d (snd (snd st)) /\ full d (snd (snd st));
  fi_br : Rabs (value (snd (snd st)) - (b + IZR (n - 1))) <= IZR (n - 1) * (/ 10000000000000 * u) }.

Lemma f_inv_step m b x n st : (0 <= m <= 1050000)%Z -> ok d m x -> value x <> 0 -> / 2 <= b <= 3 / 2 -> (2 <= n <= 2001)%Z -> f_inv m b x (n - 1) st ->
  f_inv m b x n (let '(xp, pb) := st in (next_x (mul d) (div_int d) x n xp, next_p (mul d) (pre_inc d) pb)).
Proof.
  intros Hm Ox N Hb Hn [A1 A2 A3 B1 B2 C1 C2]. destruct st as [xp [pb bp]]. cbn [fst snd] in *. pose proof (u_small d Hd) as Us.
  unfold next_x, next_p. cbn [fst snd]. replace (n - 1 - 1)%Z with (n - 2)%Z in * by ring.
  assert (In : 2 <= IZR n <= 2001) by (split; apply IZR_le; lia).
  assert (In1 : IZR (n - 1) = IZR n - 1) by apply minus_IZR. assert (In2 : IZR (n - 2) = IZR n - 2) by apply minus_IZR.
  (* the counter *)
  set (bq := pre_inc d bp).
  assert (Ob : ok d 4 bp).
  { apply (ok_of_bounds d); [apply C1|apply C1|]. rewrite In2 in C2. apply Rabs_le_inv in C2. rewrite p10_inv, (powerRZ_pow 10 4) by lia. change (Z.to_nat 4) with 4%nat. cbn [Rpow_def.pow].
    assert (0 <= (IZR n - 2) * (/ 10000000000000 * u) <= / 10) by (split; [apply Rmult_le_pos; lra|nra]). rewrite Rabs_pos_eq; lra. }
  assert (O1 : ok d 4 (one d)). { destruct (PowExtra.one_ok d Hd) as (F & P & V). apply (ok_of_bounds d); [exact F|exact P|]. rewrite V, Rabs_R1, p10_inv, (powerRZ_pow 10 4) by lia. change (Z.to_nat 4) with 4%nat. cbn [Rpow_def.pow]. lra. }
  assert (Cq : finite d bq /\ full d bq /\ Rabs (value bq - (b + IZR (n - 1))) <= IZR (n - 1) * (/ 10000000000000 * u)).
  { destruct (ok_add d 4 bp (one d) Hd ltac:(lia) ltac:(lia) Ob O1) as [(F & P & _) E]. fold (pre_inc d bp) in F, P, E. fold bq in F, P, E. split; [exact F|]. split; [exact P|].
    destruct (PowExtra.one_ok d Hd) as (_ & _ & V1). rewrite V1, (p_17 d) in E.
    assert (Mx : Rmax (Rabs (value bp)) (Rabs 1) <= 3000).
    { apply Rmax_lub; [|rewrite Rabs_R1; lra]. rewrite In2 in C2. apply Rabs_le_inv in C2.
      assert (0 <= (IZR n - 2) * (/ 10000000000000 * u) <= / 10) by (split; [apply Rmult_le_pos; lra|nra]). rewrite Rabs_pos_eq; lra. }
    replace (value bq - (b + IZR (n - 1))) with ((value bq - (value bp + 1)) + (value bp - (b + IZR (n - 2)))) by (rewrite In1, In2; ring).
    eapply Rle_trans; [apply Rabs_triang|]. rewrite In1. rewrite In2 in C2. rewrite In2.
    assert (2 * (u / 100000000000000000) * Rmax (Rabs (value bp)) (Rabs 1) <= / 10000000000000 * u) by nra. lra. }
  destruct Cq as (Fq & Pq & Vq). clear C1 C2 Ob O1. clearbody bq. rewrite In1 in Vq.
  assert (Sm : 0 <= (IZR n - 1) * (/ 10000000000000 * u) <= / 10) by (split; [apply Rmult_le_pos; lra|nra]).
  assert (Oq : ok d 4 bq).
  { apply (ok_of_bounds d); [exact Fq|exact Pq|]. apply Rabs_le_inv in Vq. rewrite p10_inv, (powerRZ_pow 10 4) by lia. change (Z.to_nat 4) with 4%nat. cbn [Rpow_def.pow]. rewrite Rabs_pos_eq; lra. }
  (* the power *)
  destruct (ok_rel_mul d Hd Hd' ((n - 1) * (m + 10)) m xp x ltac:(nia) ltac:(lia) ltac:(nia) A1 Ox) as [Om Rm].
  assert (Nm : value (mul d xp x) <> 0).
  { intro Z. pose proof (rel_bound _ _ _ Rm) as Bd. rewrite Z, Rabs_R0 in Bd. assert (W : value xp * value x <> 0) by (apply Rmult_integral_contrapositive; auto).
    pose proof (Rabs_pos_lt _ W). nra. }
  destruct (ok_div_int d Hd ((n - 1) * (m + 10) + m + 1) (mul d xp x) n ltac:(nia) Om Nm ltac:(lia)) as (Od & Nd & Rd).
  constructor; cbn [fst snd].
  - apply (ok_le d ((n - 1) * (m + 10) + m + 1 + 9)); [nia|exact Od].
  - exact Nd.
  - rewrite exp_term_step by lia.
    assert (R1 : rel (u / 1000000) (value (mul d xp x) / IZR n) (value xp * value x / IZR n)) by (apply rel_scale; exact Rm).
    assert (R2 : rel (IZR (n - 2) * (101 / 1000 * u)) (value xp * value x / IZR n) (exp_term (value x) (n - 1) * value x / IZR n)) by (apply rel_scale, rel_scale; exact A3).
    assert (R3 : rel (u / 10 + u / 1000000 + u / 10 * (u / 1000000)) (value (div_int d (mul d xp x) n)) (value xp * value x / IZR n)) by (eapply rel_trans; [lra|exact Rd|exact R1]).
    assert (Q : 0 <= u / 10 * (u / 1000000) <= u / 1000000) by nra. set (q := u / 10 * (u / 1000000)) in *.
    eapply rel_le; [|eapply rel_trans; [|exact R3|exact R2]]; [|lra]. rewrite In1, In2.
    assert (W : 0 <= (IZR n - 2) * (101 / 1000 * u) <= / 1000) by (split; [apply Rmult_le_pos; lra|]; nra). set (w := (IZR n - 2) * (101 / 1000 * u)) in *.
    replace ((IZR n - 1) * (101 / 1000 * u)) with (w + 101 / 1000 * u) by (unfold w; ring).
    assert ((u / 10 + u / 1000000 + q) * w <= (u / 10 + u / 1000000 + q) * / 1000) by (apply Rmult_le_compat_l; lra). lra.
  - destruct (ok_rel_mul d Hd Hd' ((n - 1) * 5) 4 pb bq ltac:(lia) ltac:(lia) ltac:(lia) B1 Oq) as [Op _].
    apply (ok_le d ((n - 1) * 5 + 4 + 1)); [lia|exact Op].
  - destruct (ok_rel_mul d Hd Hd' ((n - 1) * 5) 4 pb bq ltac:(lia) ltac:(lia) ltac:(lia) B1 Oq) as [_ Rp].
    rewrite (poch_step b n) by lia.
    assert (Rq : rel (/ 10000000000 * u) (value bq) (b + IZR (n - 1))).
    { unfold rel. rewrite In1 in *. eapply Rle_trans; [exact Vq|]. rewrite (Rabs_pos_eq (b + (IZR n - 1))) by lra. nra. }
    assert (W0 : 0 <= IZR (n - 2) * (11 / 10000000 * u)) by (rewrite In2; apply Rmult_le_pos; lra).
    pose proof (rel_mult _ _ _ _ _ _ W0 B2 Rq) as R1.
    assert (U0 : 0 <= u / 1000000) by lra. pose proof (rel_trans _ _ _ _ _ U0 Rp R1) as R2. eapply rel_le; [|exact R2]. rewrite In1, In2.
    assert (W : 0 <= (IZR n - 2) * (11 / 10000000 * u) <= / 1000) by (split; [apply Rmult_le_pos; lra|]; nra). set (w := (IZR n - 2) * (11 / 10000000 * u)) in *.
    replace ((IZR n - 1) * (11 / 10000000 * u)) with (w + 11 / 10000000 * u) by (unfold w; ring).
    assert (X1 : w * (/ 10000000000 * u) <= / 1000 * (/ 10000000000 * u)) by (apply Rmult_le_compat_r; lra).
    assert (X2 : u / 1000000 * (w + / 10000000000 * u + w * (/ 10000000000 * u)) <= u / 1000000 * (/ 500)) by (apply Rmult_le_compat_l; lra). lra.
  - split; assumption.
  - rewrite In1. exact Vq.
Qed.

Lemma f_inv_term m b x n st : (0 <= m <= 1050000)%Z -> / 2 <= b <= 3 / 2 -> Rabs (value x) <= / 1000000 -> value x <> 0 -> (1 <= n <= 2001)%Z -> f_inv m b x n st ->
  ok d (2001 * (m + 16)) (let '(xp, pb) := st in div d xp (fst pb)) /\
  Rabs (value (let '(xp, pb) := st in div d xp (fst pb)) - f_term b (value x) n) <= IZR n * delta * Rabs (f_term b (value x) n).
Proof.
  intros Hm Hb Hx Nx Hn [A1 A2 A3 B1 B2 _ _]. destruct st as [xp [pb bp]]. cbn [fst snd] in *. pose proof (u_small d Hd) as Us.
  assert (In : 1 <= IZR n <= 2001) by (split; apply IZR_le; lia). assert (In1 : IZR (n - 1) = IZR n - 1) by apply minus_IZR.
  pose proof (poch_pos b n ltac:(lra)) as Pp.
  assert (W1 : 0 <= IZR (n - 1) * (101 / 1000 * u) <= / 1000) by (rewrite In1; split; [apply Rmult_le_pos; lra|]; nra).
  assert (W2 : 0 <= IZR (n - 1) * (11 / 10000000 * u) <= / 1000) by (rewrite In1; split; [apply Rmult_le_pos; lra|]; nra).
  pose proof (rel_bound _ _ _ B2) as Bb. rewrite (Rabs_pos_eq (poch b n)) in Bb by lra.
  assert (Np : value pb <> 0). { intro Z. rewrite Z, Rabs_R0 in Bb. nra. }
  assert (Q1 : / 4 <= poch b n).
  { clear - Hb Hn. destruct (Z.eq_dec n 1) as [->|Hn1]; [rewrite poch_1; lra|].
    replace n with (2 + Z.of_nat (Z.to_nat (n - 2)))%Z by lia. generalize (Z.to_nat (n - 2)) as k. clear n Hn Hn1. induction k as [|k IH].
    - rewrite (poch_step b (2 + Z.of_nat 0)) by lia. replace (2 + Z.of_nat 0 - 1)%Z with 1%Z by lia. rewrite poch_1. nra.
    - rewrite (poch_step b) by lia. replace (2 + Z.of_nat (S k) - 1)%Z with (2 + Z.of_nat k)%Z by lia. pose proof (IZR_le 2 (2 + Z.of_nat k) ltac:(lia)). nra. }
  assert (Q2 : Rabs (exp_term (value x) n) <= / 1000). { destruct (exp_small (value x) n ltac:(lra) ltac:(lia)) as [Y _]. lra. }
  assert (Hc : Rabs (value xp) <> Rabs (value pb)). { pose proof (rel_bound _ _ _ A3). intro Z. rewrite Z in H. nra. }
  destruct (ok_div (n * (m + 10)) (n * 5) xp pb ltac:(nia) ltac:(nia) ltac:(nia) A1 B1 A2 Np (or_introl Hc)) as (Oq & _ & Rq).
  split; [apply (ok_le d (n * (m + 10) + n * 5 + 1)); [nia|exact Oq]|].
  rewrite f_term_poch by lra.
  assert (W3 : 0 <= IZR (n - 1) * (11 / 10000000 * u) <= / 100) by lra. assert (Np' : poch b n <> 0) by lra.
  pose proof (rel_div _ _ _ _ _ _ Np Np' (proj1 W1) W3 A3 B2) as R1. assert (U0 : 0 <= u / 10) by lra.
  pose proof (rel_trans _ _ _ _ _ U0 Rq R1) as R2. apply (rel_le _ (IZR n * delta)) in R2; [exact R2|].
  rewrite In1 in *. set (w := (IZR n - 1) * (101 / 1000 * u)) in *. set (w2 := (IZR n - 1) * (11 / 10000000 * u)) in *.
  assert (Ew : w2 <= w / 10000) by (unfold w, w2; assert (0 <= (IZR n - 1) * u) by (apply Rmult_le_pos; lra); lra).
  replace (IZR n * (11 / 100 * u)) with (w * (110 / 101) + 11 / 100 * u) by (unfold w; field).
  assert (X1 : w * (102 / 100 * w2) <= w / 500) by nra.
  assert (X2 : u / 10 * (w + 102 / 100 * w2 + w * (102 / 100 * w2)) <= u / 10 * (/ 100)) by (apply Rmult_le_compat_l; lra). lra.
Qed.

Lemma h0f1_ok m b bf x L : (0 <= m <= 1050000)%Z -> ok d m x -> value x <> 0 -> Rabs (value x) <= 3 / 10000000 ->
  / 2 <= b <= 3 / 2 -> ok d 1 bf -> value bf = b -> infinite_sum (ftn b (value x)) L ->
  ok d 1 (h0f1 d bf x) /\ 99 / 100 <= value (h0f1 d bf x) <= 101 / 100 /\
  Rabs (value (h0f1 d bf x) - L) <= (22 / 100 * Rabs (value x / b) + / 100000000000) * u.
Proof.
  intros Hm Ox N Hx Hb Obf Vbf HL. pose proof (u_small d Hd) as Us.
  assert (Ht1 : Rabs (f_term b (value x) 1) <= / 1000000).
  { rewrite f_term_1. unfold Rdiv. rewrite Rabs_mult, (Rabs_pos_eq (/ b)) by (left; apply Rinv_0_lt_compat; lra).
    assert (/ b <= 2) by (rewrite <- (Rinv_inv 2); apply Rinv_le_contravar; lra). assert (0 < / b) by (apply Rinv_0_lt_compat; lra).
    pose proof (Rabs_pos (value x)). nra. }
  assert (Htn : forall n, (1 <= n)%Z -> Rabs (f_term b (value x) (n + 1)) <= Rabs (f_term b (value x) n) / 1000000).
  { intros n Hn. pose proof (f_term_ratio b (value x) n ltac:(lra) Hn). pose proof (Rabs_pos (f_term b (value x) n)). nra. }
  destruct (series_from_ok d Hd Hd' (fun n '(xp, pb) => (next_x (mul d) (div_int d) x n xp, next_p (mul d) (pre_inc d) pb)) (fun '(xp, pb) => div d xp (fst pb))
    (f_term b (value x)) (f_part b (value x)) (f_inv m b x) delta L (2001 * (m + 16)) 11) with (st0 := (x, (bf, bf))) as (r & E & O & V & B).
  - lia.
  - apply tol_11; assumption.
  - lia.
  - lra.
  - intros n st Hn I. apply (f_inv_term m b x n st); try assumption; lra.
  - intros n st Hn I. apply (f_inv_step m b x n st); assumption.
  - lra.
  - intros n Hn. split; [apply f_term_nonzero; [lra|exact N]|]. specialize (Htn n Hn). pose proof (Rabs_pos (f_term b (value x) n)). lra.
  - apply f_part_1.
  - apply f_part_step.
  - intros n Hn. apply f_remainder; [lra|exact HL|exact Hn|lra].
  - constructor; cbn [fst snd].
    + apply (ok_le d m); [lia|exact Ox].
    + exact N.
    + rewrite exp_term_1. change (1 - 1)%Z with 0%Z. eapply rel_le; [|apply rel_refl]. lra.
    + apply (ok_le d 1); [lia|exact Obf].
    + rewrite poch_1, Vbf. change (1 - 1)%Z with 0%Z. eapply rel_le; [|apply rel_refl]. lra.
    + split; apply Obf.
    + change (1 - 1)%Z with 0%Z. rewrite Vbf. replace (b - (b + 0)) with 0 by ring. rewrite Rabs_R0. lra.
  - unfold h0f1, hyper_0f1. rewrite E. cbn [or_nan]. split; [exact O|]. split; [exact V|]. rewrite f_term_1, p_11 in B. lra.
Qed.

End FixedDigits.
