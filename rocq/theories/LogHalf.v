(** * Accuracy of log1p up to |x| = 1/2 (proofs only) *)

From Coq Require Import ZArith List Bool Reals Lra Lia Psatz.
From Verif Require Import Model Spec SpecGen Limbs Value CmpProofs AddProofs Decide OrderProofs OrderDec AddExtra MulProofs MulValue MulExtra MulCor
  IntProofs IntPartProofs IntConv MixedProofs IntCor ModelDiv DoubleProofs NewtonProofs InvProofs SqrtProofs ModelPow PowGen PowProofs PowExtra LdexpProofs
  StrAny FloatEval ModelGen ModelElem ElemProofs SeriesFloat ExpReal ExpFloat ExpAcc ConstReal SinReal SinFloat SinStep SinAcc SinTiny HyperFloat AtanSer AtanTop LogSer LogAcc LogDiv.
Import ListNotations.
Open Scope R_scope.
Ltac Zify.zify_post_hook ::= Z.div_mod_to_equations.
Local Notation p10 := (powerRZ 10).

(** ** Real numbers *)

Lemma log_series_half x : x <> 0 -> Rabs x <= / 2 -> infinite_sum (fun i => g_term 1 1 2 (- x) (Z.of_nat i)) (ln (1 + x) / x).
Proof.
  intros N H eps He. pose proof (Rabs_pos_lt x N) as P. destruct (pow_lt_1_zero (Rabs x)) with (y := eps / 2) as [M HM].
  - rewrite Rabs_Rabsolu. lra.
  - lra.
  - exists M. intros n Hn. unfold R_dist. set (s := sum_f_R0 _ n). assert (E : s = lsum (S n) x / x) by (rewrite lsum_terms; fold s; field; exact N). rewrite E.
    replace (lsum (S n) x / x - ln (1 + x) / x) with (- ((ln (1 + x) - lsum (S n) x) / x)) by (field; exact N). rewrite Rabs_Ropp. unfold Rdiv. rewrite Rabs_mult, Rabs_inv.
    apply (Rmult_lt_reg_r (Rabs x)); [exact P|]. rewrite Rmult_assoc, Rinv_l, Rmult_1_r by lra. pose proof (ln_remainder (S n) x ltac:(lra)) as R. eapply Rle_lt_trans; [exact R|].
    specialize (HM (S n) ltac:(lia)). rewrite Rabs_pos_eq in HM by (apply pow_le, Rabs_pos). rewrite <- tech_pow_Rmult. rewrite <- Rmult_assoc, (Rmult_comm (2 * Rabs x)), <- Rmult_assoc. apply Rmult_lt_compat_r; [exact P|]. lra.
Qed.

Definition w (z : R) (n : Z) : R := Rabs z ^ Z.to_nat n.

Lemma w_step z n : (0 <= n)%Z -> w z (n + 1) = w z n * Rabs z.
Proof. intro H. unfold w. replace (Z.to_nat (n + 1)) with (S (Z.to_nat n)) by lia. cbn [Rpow_def.pow]. ring. Qed.

Lemma w_1 z : w z 1 = Rabs z.
Proof. unfold w. change (Z.to_nat 1) with 1%nat. cbn [Rpow_def.pow]. ring. Qed.

Lemma w_pos z n : z <> 0 -> 0 < w z n.
Proof. intro H. apply pow_lt, Rabs_pos_lt. exact H. Qed.

Lemma T_w z n : (0 <= n)%Z -> Rabs (g_term 1 1 2 z n) = w z n / (IZR n + 1).
Proof.
  intro H. rewrite <- (Z2Nat.id n) at 1 by lia. rewrite g_log_term. unfold Rdiv. rewrite Rabs_mult, <- RPow_abs, Rabs_inv. f_equal. f_equal.
  rewrite S_INR, INR_IZR_INZ, Z2Nat.id by lia. apply (IZR_le 0) in H. rewrite Rabs_pos_eq by lra. reflexivity.
Qed.

Lemma half_pow k : (/ 2) ^ (10 * k) <= p10 (- (3 * Z.of_nat k)).
Proof.
  induction k as [|k IH]; [change (1 <= 1); lra|]. replace (10 * S k)%nat with (10 + 10 * k)%nat by lia. rewrite pow_add.
  replace (- (3 * Z.of_nat (S k)))%Z with (- (3) + - (3 * Z.of_nat k))%Z by lia. rewrite p10_add. change (- (3))%Z with (-3)%Z. rewrite p10_m3.
  apply Rmult_le_compat; [apply pow_le; lra|apply pow_le; lra| |exact IH]. cbn [Rpow_def.pow]. lra.
Qed.

Lemma w_small z n : Rabs z <= / 2 -> (0 <= n)%Z -> w z n <= p10 (- (3 * (n / 10))).
Proof.
  intros H Hn. unfold w. apply Rle_trans with ((/ 2) ^ Z.to_nat n); [apply pow_incr; split; [apply Rabs_pos|exact H]|].
  pose proof (half_pow (Z.to_nat (n / 10))) as G. rewrite Z2Nat.id in G by (apply Z.div_pos; lia). eapply Rle_trans; [|exact G].
  replace (Z.to_nat n) with (10 * Z.to_nat (n / 10) + Z.to_nat (n mod 10))%nat.
  2: { apply Nat2Z.inj. rewrite Nat2Z.inj_add, Nat2Z.inj_mul, !Z2Nat.id by lia. lia. }
  rewrite pow_add. rewrite <- Rmult_1_r. apply Rmult_le_compat_l; [apply pow_le; lra|].
  assert (G1 : forall k, (/ 2) ^ k <= 1) by (induction k as [|k IH]; cbn [Rpow_def.pow]; lra). apply G1.
Qed.

Lemma P_near z n : z <> 0 -> Rabs z <= / 2 -> (1 <= n)%Z -> Rabs (g_part 1 1 2 z n - 1) <= Rabs z - w z n.
Proof.
  intros N H Hn. pattern n. apply Z.le_ind with (n := 1%Z); [intros a b ->; tauto| | |exact Hn].
  - rewrite g_part_1, w_1. replace (1 - 1) with 0 by ring. rewrite Rabs_R0. lra.
  - intros k Hk IH. unfold Z.succ. rewrite g_part_step, w_step by lia.
    replace (g_part 1 1 2 z k + g_term 1 1 2 z k - 1) with ((g_part 1 1 2 z k - 1) + g_term 1 1 2 z k) by ring. eapply Rle_trans; [apply Rabs_triang|].
    rewrite T_w by lia. pose proof (w_pos z k N) as P. assert (K : 1 <= IZR k) by (apply IZR_le; lia).
    assert (A : w z k / (IZR k + 1) <= w z k * / 2) by (unfold Rdiv; apply Rmult_le_compat_l; [lra|]; apply Rinv_le_contravar; lra).
    assert (B : w z k * Rabs z <= w z k * / 2) by (apply Rmult_le_compat_l; lra). lra.
Qed.

Section FixedDigits.
Variable d : Z.
Hypothesis Hd : valid_digits d.
Hypothesis Hd' : (d <= 2500)%Z.
Local Notation u := (p10 (- d)).

Lemma Hd4 : (d <= 4967)%Z. Proof. lia. Qed.

(** ** The state of the series *)

Definition r2_inv (b : R) (n : Z) (pb : ef * ef) : Prop :=
  ok d (n * 8) (fst pb) /\ 0 < value (fst pb) /\ finite d (snd pb) /\ full d (snd pb) /\
  Rabs (value (snd pb) - (b + IZR (n - 1))) <= IZR (n - 1) * (u / 1000000000000).

Lemma r2_inv_start b bf : 0 < b -> ok d 1 bf -> value bf = b -> r2_inv b 1 (bf, bf).
Proof.
  intros Hb O V. unfold r2_inv. cbn [fst snd]. change (1 - 1)%Z with 0%Z. rewrite V. split; [apply (ok_le d 1); [lia|exact O]|]. split; [exact Hb|]. split; [apply O|]. split; [apply O|].
  replace (b - (b + 0)) with 0 by ring. rewrite Rabs_R0. lra.
Qed.

Lemma r2_inv_step b n pb : 1 <= b <= 2 -> (2 <= n <= 10000)%Z -> r2_inv b (n - 1) pb ->
  r2_inv b n (next_p (mul d) (pre_inc d) pb) /\ rel (2 * (u / 1000000)) (value (fst (next_p (mul d) (pre_inc d) pb))) (value (fst pb) * (b + IZR (n - 1))).
Proof.
  intros Hb Hn (B1 & B2 & C1 & C2 & C3). destruct pb as [pb bp]. cbn [fst snd] in *. pose proof (u_small d Hd) as U. pose proof Hd4 as D4.
  assert (In : 2 <= IZR n <= 10000) by (split; apply IZR_le; lia). replace (n - 1 - 1)%Z with (n - 2)%Z in C3 by ring.
  assert (In1 : IZR (n - 1) = IZR n - 1) by apply minus_IZR. assert (In2 : IZR (n - 2) = IZR n - 2) by apply minus_IZR. rewrite In2 in C3.
  assert (Q2 : 0 <= (IZR n - 2) * (u / 1000000000000) <= 10000 * (u / 1000000000000)) by (split; [apply Rmult_le_pos; lra|apply Rmult_le_compat_r; lra]).
  apply Rabs_le_inv in C3.
  assert (P5 : p10 5 = 100000) by (rewrite (p10_nonneg 5) by lia; reflexivity).
  assert (Ob : ok d 5 bp) by (apply (ok_of_bounds d); [exact C1|exact C2|]; rewrite p10_inv, P5, Rabs_pos_eq; lra).
  destruct (PowExtra.one_ok d Hd) as (F1 & P1 & V1).
  assert (O1 : ok d 5 (one d)) by (apply (ok_of_bounds d); [exact F1|exact P1|]; rewrite V1, Rabs_R1, p10_inv, P5; lra).
  unfold next_p, pre_inc. cbn [fst snd].
  destruct (ok_add d 5 bp (one d) Hd ltac:(lia) ltac:(lia) Ob O1) as [Oq Eq]. rewrite V1, (p_17 d) in Eq.
  assert (M : Rmax (Rabs (value bp)) (Rabs 1) <= 20001) by (rewrite (Rabs_pos_eq 1), (Rabs_pos_eq (value bp)) by lra; apply Rmax_lub; lra).
  assert (Eq' : Rabs (value (add d bp (one d)) - (value bp + 1)) <= 2 * (u / 100000000000000000) * 20001) by (eapply Rle_trans; [exact Eq|]; apply Rmult_le_compat_l; lra).
  set (bq := add d bp (one d)) in *. clearbody bq. apply Rabs_le_inv in Eq'.
  assert (Vq : Rabs (value bq - (b + (IZR n - 1))) <= (IZR n - 1) * (u / 1000000000000)) by (apply Rabs_le; lra).
  pose proof (Rabs_le_inv _ _ Vq) as Vq'.
  assert (Oq' : ok d 5 bq) by (apply (ok_of_bounds d); [apply Oq|apply Oq|]; rewrite p10_inv, P5, Rabs_pos_eq; lra).
  destruct (ok_rel_mul d Hd D4 ((n - 1) * 8) 5 pb bq ltac:(lia) ltac:(lia) ltac:(lia) B1 Oq') as [Om Rm].
  assert (Rq : rel (u / 1000000000000) (value bq) (b + IZR (n - 1))).
  { unfold rel. rewrite In1, (Rabs_pos_eq (b + (IZR n - 1))) by lra. rewrite Rmult_comm. eapply Rle_trans; [exact Vq|]. apply Rmult_le_compat_r; lra. }
  assert (Rt : rel (2 * (u / 1000000)) (value (mul d pb bq)) (value pb * (b + IZR (n - 1)))).
  { eapply rel_le; [|eapply rel_trans; [|exact Rm|eapply rel_mult; [|apply (rel_refl (value pb))|exact Rq]]]; [|lra|lra].
    assert (u / 1000000 * (0 + u / 1000000000000 + 0 * (u / 1000000000000)) <= / 1000000000 * (0 + u / 1000000000000 + 0 * (u / 1000000000000))) by (apply Rmult_le_compat_r; lra). lra. }
  split; [|exact Rt]. split; [|split; [|split; [|split]]]; cbn [fst snd].
  - apply (ok_le d ((n - 1) * 8 + 5 + 1)); [lia|exact Om].
  - unfold rel in Rt. rewrite In1 in Rt. assert (P : 0 < value pb * (b + (IZR n - 1))) by (apply Rmult_lt_0_compat; lra). rewrite (Rabs_pos_eq (value pb * (b + (IZR n - 1)))) in Rt by lra. apply Rabs_le_inv in Rt.
    assert (2 * (u / 1000000) * (value pb * (b + (IZR n - 1))) <= / 2 * (value pb * (b + (IZR n - 1)))) by (apply Rmult_le_compat_r; lra). lra.
  - apply Oq.
  - apply Oq.
  - rewrite In1. exact Vq.
Qed.

Lemma y2_inv_step m x n xp : (0 <= m <= 100000)%Z -> ok d m x -> value x <> 0 -> (2 <= n <= 10000)%Z -> y_inv d m (n - 1) xp ->
  rel (101 / 1000 * u) (value (next_x (mul d) (div_int d) x n xp)) (value xp * value x / IZR n).
Proof.
  intros Hm Ox N Hn [A1 A2]. pose proof (u_small d Hd) as Us. pose proof Hd4 as D4. unfold next_x.
  destruct (ok_rel_mul d Hd D4 ((n - 1) * (m + 10)) m xp x ltac:(nia) ltac:(lia) ltac:(nia) A1 Ox) as [Om Rm].
  assert (W : value xp * value x <> 0) by (apply Rmult_integral_contrapositive; auto). pose proof (Rabs_pos_lt _ W) as W0.
  assert (Nm : value (mul d xp x) <> 0).
  { intro Z. pose proof (rel_bound _ _ _ Rm) as Bd. rewrite Z, Rabs_R0 in Bd. assert (u / 1000000 * Rabs (value xp * value x) <= / 2 * Rabs (value xp * value x)) by (apply Rmult_le_compat_r; lra). lra. }
  destruct (ok_div_int d Hd ((n - 1) * (m + 10) + m + 1) (mul d xp x) n ltac:(nia) Om Nm ltac:(lia)) as (Od & Nd & Rd).
  assert (R1 : rel (u / 1000000) (value (mul d xp x) / IZR n) (value xp * value x / IZR n)) by (apply rel_scale; exact Rm).
  eapply rel_le; [|eapply rel_trans; [|exact Rd|exact R1]]; [|lra].
  assert (u / 10 * (u / 1000000) <= / 10 * (u / 1000000)) by (apply Rmult_le_compat_r; lra). lra.
Qed.

Notation term := (LogDiv.term d).
Notation next := (LogDiv.next d).

Definition s2_inv (m : Z) (x : ef) (n : Z) (st : ef * (ef * ef) * (ef * ef) * (ef * ef)) : Prop :=
  (let '(xp, pa, pb, pc) := st in y_inv d m n xp /\ r2_inv 1 n pa /\ r2_inv 1 n pb /\ r2_inv 2 n pc) /\
  rel (IZR (n - 1) * (103 / 1000 * u)) (X st) (g_term 1 1 2 (value x) n).

Lemma small_n n : (1 <= n <= 10000)%Z -> 1 <= IZR n <= 10000 /\ IZR (n - 1) = IZR n - 1 /\ 0 <= (IZR n - 1) * (103 / 1000 * u) <= / 100000000.
Proof.
  intro Hn. pose proof (u_small d Hd) as Us. assert (In : 1 <= IZR n <= 10000) by (split; apply IZR_le; lia). split; [exact In|]. split; [apply minus_IZR|].
  assert (0 <= (IZR n - 1) * u <= 10000 * u) by (split; [apply Rmult_le_pos; lra|apply Rmult_le_compat_r; lra]). lra.
Qed.

Lemma term2_ok m x n st : (0 <= m <= 100000)%Z -> (1 <= n <= 10000)%Z -> s2_inv m x n st ->
  ok d (10000 * (m + 40)) (term st) /\ rel (IZR n * (104 / 1000 * u)) (value (term st)) (g_term 1 1 2 (value x) n).
Proof.
  intros Hm Hn [I Rx]. destruct (small_n n Hn) as (In & In1 & Sm). destruct st as [[[xp pa] pb] pc]. destruct I as ([Y1 Y2] & (A & A' & _) & (B & B' & _) & (C & C' & _)). unfold LogDiv.term, X in *. pose proof (u_small d Hd) as U. pose proof Hd4 as D4.
  destruct (ok_rel_mul d Hd D4 (n * 8) (n * 8) (fst pa) (fst pb) ltac:(lia) ltac:(lia) ltac:(lia) A B) as [O R].
  assert (Pab : 0 < value (fst pa) * value (fst pb)) by (apply Rmult_lt_0_compat; lra).
  assert (P : 0 < value (mul d (fst pa) (fst pb))).
  { unfold rel in R. rewrite (Rabs_pos_eq (value (fst pa) * value (fst pb))) in R by lra. apply Rabs_le_inv in R.
    assert (u / 1000000 * (value (fst pa) * value (fst pb)) <= / 2 * (value (fst pa) * value (fst pb))) by (apply Rmult_le_compat_r; lra). lra. }
  destruct (ok_div d Hd D4 (n * 8 + n * 8 + 1) (n * 8) (mul d (fst pa) (fst pb)) (fst pc) ltac:(lia) ltac:(lia) ltac:(lia) O C ltac:(lra) ltac:(lra) ltac:(right; lra)) as (O2 & _ & R2).
  destruct (ok_rel_mul d Hd D4 (n * 8 + n * 8 + 1 + n * 8 + 1) (n * (m + 10)) _ xp ltac:(lia) ltac:(nia) ltac:(nia) O2 Y1) as [O3 R3].
  split; [apply (ok_le d (n * 8 + n * 8 + 1 + n * 8 + 1 + n * (m + 10) + 1)); [nia|exact O3]|].
  assert (S1 : rel (u / 1000000) (value (mul d (fst pa) (fst pb)) / value (fst pc)) (value (fst pa) * value (fst pb) / value (fst pc))) by (apply rel_scale; exact R).
  assert (U10 : 0 <= u / 10) by lra. pose proof (rel_trans _ _ _ _ _ U10 R2 S1) as S2.
  assert (S3 : rel (101 / 1000 * u) (value (div d (mul d (fst pa) (fst pb)) (fst pc))) (value (fst pa) * value (fst pb) / value (fst pc))).
  { eapply rel_le; [|exact S2]. assert (u / 10 * (u / 1000000) <= / 10 * (u / 1000000)) by (apply Rmult_le_compat_r; lra). lra. }
  assert (P8 : 0 <= 101 / 1000 * u) by lra. pose proof (rel_mult _ _ _ _ _ _ P8 S3 (rel_refl (value xp))) as S4.
  assert (U6 : 0 <= u / 1000000) by lra. pose proof (rel_trans _ _ _ _ _ U6 R3 S4) as S5.
  assert (S6 : rel (102 / 1000 * u) (value (mul d (div d (mul d (fst pa) (fst pb)) (fst pc)) xp)) (value (fst pa) * value (fst pb) / value (fst pc) * value xp)).
  { eapply rel_le; [|exact S5]. assert (u / 1000000 * (101 / 1000 * u + 0 + 101 / 1000 * u * 0) <= / 1000000 * (101 / 1000 * u + 0 + 101 / 1000 * u * 0)) by (apply Rmult_le_compat_r; lra). lra. }
  assert (P9 : 0 <= 102 / 1000 * u) by lra. pose proof (rel_trans _ _ _ _ _ P9 S6 Rx) as S7. eapply rel_le; [|exact S7]. rewrite In1. set (q := (IZR n - 1) * (103 / 1000 * u)) in *.
  assert (102 / 1000 * u * q <= 102 / 1000 * u * / 100000000) by (apply Rmult_le_compat_l; lra).
  assert (0 <= (IZR n - 1) * (u / 1000)) by (apply Rmult_le_pos; lra). unfold q in *. lra.
Qed.

Lemma s2_step m x n st : (0 <= m <= 100000)%Z -> ok d m x -> value x <> 0 -> (2 <= n <= 10000)%Z -> s2_inv m x (n - 1) st -> s2_inv m x n (next x n st).
Proof.
  intros Hm Ox N Hn [I Rx]. pose proof (u_small d Hd) as U. pose proof Hd4 as D4.
  destruct st as [[[xp pa] pb] pc]. destruct I as (Y & A & B & C).
  destruct (y_inv_step d Hd D4 m x n xp Hm Ox N Hn Y) as [Y' _]. pose proof (y2_inv_step m x n xp Hm Ox N Hn Y) as YR. destruct (r2_inv_step 1 n pa ltac:(lra) Hn A) as [A' AR].
  destruct (r2_inv_step 1 n pb ltac:(lra) Hn B) as [B' BR]. destruct (r2_inv_step 2 n pc ltac:(lra) Hn C) as [C' CR].
  unfold LogDiv.next. split; [split; [exact Y'|split; [exact A'|split; [exact B'|exact C']]]|]. unfold X in *.
  set (xq := next_x _ _ _ _ _) in *. set (qa := next_p _ _ pa) in *. set (qb := next_p _ _ pb) in *. set (qc := next_p _ _ pc) in *. clearbody xq qa qb qc.
  destruct (small_n n ltac:(lia)) as (In & In1 & Sm). assert (In2 : 2 <= IZR n) by (apply IZR_le; lia). rewrite In1 in AR, BR, CR.
  replace (1 + (IZR n - 1)) with (IZR n) in AR, BR by ring. replace (2 + (IZR n - 1)) with (IZR n + 1) in CR by ring.
  destruct C as (_ & C0 & _). destruct C' as (_ & C1 & _). set (e := 2 * (u / 1000000)) in *. assert (He : 0 <= e <= / 1000000000) by (unfold e; lra).
  pose proof (rel_mult _ _ _ _ _ _ (proj1 He) AR BR) as S1.
  assert (NC : value (fst pc) * (IZR n + 1) <> 0) by (assert (0 < value (fst pc) * (IZR n + 1)) by (apply Rmult_lt_0_compat; lra); lra).
  assert (NC' : value (fst qc) <> 0) by lra. assert (P2 : 0 <= e <= / 100) by lra.
  assert (Ee : 0 <= e * e <= / 1000000000 * e) by (split; [apply Rmult_le_pos; lra|apply Rmult_le_compat_r; lra]). assert (P1 : 0 <= e + e + e * e) by lra.
  pose proof (rel_div _ _ _ _ _ _ NC' NC P1 P2 S1 CR) as S2.
  set (k := e + e + e * e + 102 / 100 * e + (e + e + e * e) * (102 / 100 * e)) in *.
  assert (K : 0 <= k <= 4 * e).
  { assert (0 <= (e + e + e * e) * (102 / 100 * e) <= / 1000000 * (102 / 100 * e)) by (split; [apply Rmult_le_pos; lra|apply Rmult_le_compat_r; lra]). unfold k. lra. }
  pose proof (rel_mult _ _ _ _ _ _ (proj1 K) S2 YR) as S3.
  assert (S4 : rel (102 / 1000 * u) (value (fst qa) * value (fst qb) / value (fst qc) * value xq) (value (fst pa) * value (fst pb) / value (fst pc) * value xp * (value x * (IZR n / (IZR n + 1))))).
  { eapply rel_le; [|replace (value (fst pa) * value (fst pb) / value (fst pc) * value xp * (value x * (IZR n / (IZR n + 1)))) with
      (value (fst pa) * IZR n * (value (fst pb) * IZR n) / (value (fst pc) * (IZR n + 1)) * (value xp * value x / IZR n)); [exact S3|]].
    - assert (k * (101 / 1000 * u) <= / 1000000 * (101 / 1000 * u)) by (apply Rmult_le_compat_r; lra). unfold e in *. lra.
    - field. repeat split; lra. }
  clear S1 S2 S3 AR BR CR YR. set (V := value (fst qa) * value (fst qb) / value (fst qc) * value xq) in *. set (W := value (fst pa) * value (fst pb) / value (fst pc) * value xp) in *.
  replace (n - 1 - 1)%Z with (n - 2)%Z in Rx by ring.
  assert (ET : g_term 1 1 2 (value x) n = g_term 1 1 2 (value x) (n - 1) * (value x * (IZR n / (IZR n + 1)))).
  { replace n with (n - 1 + 1)%Z at 1 by ring. rewrite g_term_step by (try lra; lia). replace (n - 1 + 1)%Z with n by ring. rewrite In1. field. lra. }
  assert (Q2 : 0 <= IZR (n - 2) * (103 / 1000 * u) <= / 100000000).
  { rewrite minus_IZR. assert ((IZR n - 2) * (103 / 1000 * u) <= (IZR n - 1) * (103 / 1000 * u)) by (apply Rmult_le_compat_r; lra). split; [apply Rmult_le_pos; lra|lra]. }
  assert (Rx2 : rel (IZR (n - 2) * (103 / 1000 * u)) (W * (value x * (IZR n / (IZR n + 1)))) (g_term 1 1 2 (value x) n)).
  { rewrite ET. eapply rel_le; [|eapply rel_mult; [|exact Rx|apply rel_refl]]; [|lra]. lra. }
  assert (P9 : 0 <= 102 / 1000 * u) by lra. pose proof (rel_trans _ _ _ _ _ P9 S4 Rx2) as S7. eapply rel_le; [|exact S7]. rewrite In1. rewrite minus_IZR in *.
  set (q := (IZR n - 2) * (103 / 1000 * u)) in *. assert (102 / 1000 * u * q <= 102 / 1000 * u * / 100000000) by (apply Rmult_le_compat_l; lra). unfold q in *. lra.
Qed.

(** ** The sum *)

Section Argument.
Variables (m : Z) (x : ef) (L : R).
Hypothesis Hm : (0 <= m <= 100000)%Z.
Hypothesis Ox : ok d m x.
Hypothesis Nx : value x <> 0.
Hypothesis Hx : Rabs (value x) <= / 2.
Hypothesis HL : infinite_sum (fun i => g_term 1 1 2 (value x) (Z.of_nat i)) L.

Notation T := (g_term 1 1 2 (value x)).
Notation P := (g_part 1 1 2 (value x)).
Notation ww := (w (value x)).

Definition sum2_inv (n : Z) (sum : ef) : Prop :=
  finite d sum /\ full d sum /\ Rabs (value sum - P n) <= u * (24 / 100 * (Rabs (value x) - ww n) + IZR n * / 1000000000000000).

Lemma sum2_near n sum : (1 <= n <= 10000)%Z -> sum2_inv n sum -> 49 / 100 <= value sum <= 151 / 100 /\ ok d 1 sum.
Proof.
  intros Hn (F & Fu & E). pose proof (u_small d Hd) as U. destruct (small_n n Hn) as (In & _ & _). pose proof (P_near (value x) n Nx Hx ltac:(lia)) as Pn. pose proof (w_pos (value x) n Nx) as Wp.
  assert (B : u * (24 / 100 * (Rabs (value x) - ww n) + IZR n * / 1000000000000000) <= u * 1) by (apply Rmult_le_compat_l; lra).
  apply Rabs_le_inv in Pn. apply Rabs_le_inv in E. assert (V : 49 / 100 <= value sum <= 151 / 100) by lra. split; [exact V|].
  apply (ok_of_bounds d); [exact F|exact Fu|]. rewrite (p10_inv 1), p10_1, Rabs_pos_eq; lra.
Qed.

Lemma T_facts n : (1 <= n)%Z -> 0 < Rabs (T n) /\ IZR n * Rabs (T n) <= ww n /\ Rabs (T n) <= ww n / 2 /\ ww n <= / 2 * 1.
Proof.
  intro Hn. rewrite T_w by lia. pose proof (w_pos (value x) n Nx) as Wp. assert (K : 1 <= IZR n) by (apply IZR_le; lia). split; [apply Rdiv_lt_0_compat; lra|]. split; [|split].
  - replace (IZR n * (ww n / (IZR n + 1))) with (ww n * (IZR n / (IZR n + 1))) by (field; lra). rewrite <- Rmult_1_r. apply Rmult_le_compat_l; [lra|].
    apply (Rmult_le_reg_r (IZR n + 1)); [lra|]. unfold Rdiv. rewrite Rmult_assoc, Rinv_l by lra. lra.
  - unfold Rdiv. apply Rmult_le_compat_l; [lra|]. apply Rinv_le_contravar; lra.
  - replace n with (n - 1 + 1)%Z by ring. rewrite w_step by lia. rewrite Rmult_comm. apply Rmult_le_compat; [apply Rabs_pos| |exact Hx|]; [apply Rlt_le, w_pos; exact Nx|].
    unfold w. assert (G1 : forall k, Rabs (value x) ^ k <= 1). { induction k as [|k IH]; cbn [Rpow_def.pow]; [lra|]. pose proof (Rabs_pos (value x)). assert (0 <= Rabs (value x) ^ k) by (apply pow_le; lra). nra. } apply G1.
Qed.

Lemma term_near n st : (1 <= n <= 10000)%Z -> s2_inv m x n st -> Rabs (value (term st) - T n) <= 104 / 1000 * u * ww n /\ Rabs (T n) / 2 <= Rabs (value (term st)) <= 2 * Rabs (T n).
Proof.
  intros Hn I. destruct (term2_ok m x n st Hm Hn I) as [_ R]. unfold rel in R. destruct (T_facts n ltac:(lia)) as (T1 & T2 & _). pose proof (u_small d Hd) as U. destruct (small_n n Hn) as (In & _ & _).
  split.
  - eapply Rle_trans; [exact R|]. replace (IZR n * (104 / 1000 * u) * Rabs (T n)) with (104 / 1000 * u * (IZR n * Rabs (T n))) by ring. apply Rmult_le_compat_l; lra.
  - assert (B : IZR n * (104 / 1000 * u) <= / 2). { assert (IZR n * u <= 10000 * u) by (apply Rmult_le_compat_r; lra). lra. }
    assert (B' : IZR n * (104 / 1000 * u) * Rabs (T n) <= / 2 * Rabs (T n)) by (apply Rmult_le_compat_r; lra).
    pose proof (Rabs_triang_inv (T n) (value (term st))) as X1. rewrite Rabs_minus_sym in X1. pose proof (Rabs_triang_inv (value (term st)) (T n)) as X2. lra.
Qed.

Lemma sum2_step n st sum : (1 <= n <= 9999)%Z -> s2_inv m x n st -> sum2_inv n sum -> sum2_inv (n + 1) (add d sum (term st)).
Proof.
  intros Hn I SI. destruct (sum2_near n sum ltac:(lia) SI) as [V Os]. destruct (term2_ok m x n st Hm ltac:(lia) I) as [Ot _]. destruct (term_near n st ltac:(lia) I) as [E B]. destruct (T_facts n ltac:(lia)) as (T1 & T2 & T3 & T4).
  pose proof (u_small d Hd) as U. pose proof (w_pos (value x) n Nx) as Wp.
  destruct (ok_add d (10000 * (m + 40)) sum (term st) Hd ltac:(lia) ltac:(lia) ltac:(apply (ok_le d 1); [lia|exact Os]) Ot) as [Oa Ea]. rewrite (p_17 d) in Ea.
  assert (M : Rmax (Rabs (value sum)) (Rabs (value (term st))) <= 2) by (rewrite (Rabs_pos_eq (value sum)) by lra; apply Rmax_lub; lra).
  assert (M2 : 2 * (u / 100000000000000000) * Rmax (Rabs (value sum)) (Rabs (value (term st))) <= 2 * (u / 100000000000000000) * 2) by (apply Rmult_le_compat_l; lra).
  split; [apply Oa|]. split; [apply Oa|]. rewrite g_part_step, w_step, plus_IZR by lia. destruct SI as (_ & _ & Es).
  replace (value (add d sum (term st)) - (P n + T n)) with ((value (add d sum (term st)) - (value sum + value (term st))) + ((value sum - P n) + (value (term st) - T n))) by ring.
  eapply Rle_trans; [apply Rabs_triang|]. pose proof (Rabs_triang (value sum - P n) (value (term st) - T n)) as Tr.
  assert (Q : ww n * Rabs (value x) <= ww n * / 2) by (apply Rmult_le_compat_l; lra).
  assert (Q2 : u * (ww n * Rabs (value x)) <= u * (ww n * / 2)) by (apply Rmult_le_compat_l; lra).
  assert (Q3 : 0 <= u * ww n) by (apply Rmult_le_pos; lra).
  rewrite Rmult_plus_distr_l in *. rewrite Rmult_minus_distr_l in *. lra.
Qed.

Lemma sum_order n sum : (1 <= n <= 10000)%Z -> sum2_inv n sum -> (-1 <= order sum <= 0)%Z.
Proof.
  intros Hn SI. destruct (sum2_near n sum Hn SI) as [V Os]. pose proof (order_spec d sum Hd (proj1 Os) ltac:(lra)) as [O3 O4]. rewrite (Rabs_pos_eq (value sum)) in O3, O4 by lra.
  split; apply Z.nlt_ge; intro C.
  - pose proof (p10_le (order sum + 1) (- (1)) ltac:(lia)) as Y. rewrite (p10_inv 1), p10_1 in Y. lra.
  - pose proof (p10_le 1 (order sum) ltac:(lia)) as Y. rewrite p10_1 in Y. lra.
Qed.

Lemma series2 fuel : forall n st sum, (2 <= n <= 9999)%Z -> (n + Z.of_nat fuel = 10000)%Z -> s2_inv m x (n - 1) st -> sum2_inv n sum ->
  exists r, series (add d) (small_ef d) (next x) term fuel n st sum = Some r /\ ok d 1 r /\ 49 / 100 <= value r <= 151 / 100 /\
  Rabs (value r - L) <= u * (24 / 100 * Rabs (value x) + / 2000).
Proof.
  induction fuel as [|f IH]; intros n st sum H1 H2 I SI; [lia|]. cbn [series].
  pose proof (s2_step m x n st Hm Ox Nx ltac:(lia) I) as I'. set (st' := next x n st) in *. clearbody st'.
  destruct (term2_ok m x n st' Hm ltac:(lia) I') as [Ot _]. destruct (term_near n st' ltac:(lia) I') as [_ Bt]. destruct (T_facts n ltac:(lia)) as (T1 & T2 & T3 & T4).
  pose proof (sum_order n sum ltac:(lia) SI) as Oo. pose proof (u_small d Hd) as U. destruct (tol_bounds d Hd Hd4) as [Tl _].
  assert (Tl2 : (tolerance d <= 2990)%Z) by (unfold tolerance, max_digits10; destruct Hd; lia).
  assert (Nt : value (term st') <> 0) by (intro Z; rewrite Z, Rabs_R0 in Bt; lra).
  pose proof (order_spec d (term st') Hd (proj1 Ot) Nt) as [O1 O2].
  destruct ((20 <? n)%Z && small_ef d (term st') sum) eqn:S.
  - apply andb_prop in S as [_ S]. unfold small_ef in S. apply Z.ltb_lt in S. exists sum. split; [reflexivity|]. destruct (sum2_near n sum ltac:(lia) SI) as [V Os]. split; [exact Os|]. split; [exact V|].
    pose proof (g_remainder 1 1 2 (value x) L n ltac:(lra) ltac:(lra) HL ltac:(lia) Hx) as Rm.
    pose proof (p10_le (order (term st') + 1) (- d + - (4)) ltac:(lia)) as Y. rewrite (p10_add (- d) (- (4))) in Y. p10num H4 4%nat. rewrite H4 in Y. cbn [Rpow_def.pow] in Y.
    destruct SI as (_ & _ & Es). pose proof (w_pos (value x) n Nx) as Wp. destruct (small_n n ltac:(lia)) as (In & _ & _).
    assert (Q3 : 0 <= u * ww n) by (apply Rmult_le_pos; lra). assert (Q4 : u * (IZR n * / 1000000000000000) <= u * / 100000000) by (apply Rmult_le_compat_l; lra).
    replace (value sum - L) with ((value sum - P n) + - (L - P n)) by ring. eapply Rle_trans; [apply Rabs_triang|]. rewrite Rabs_Ropp.
    rewrite Rmult_plus_distr_l in *. rewrite Rmult_minus_distr_l in Es. lra.
  - destruct (Z.eq_dec n 9999) as [->|Hn].
    + exfalso. change (20 <? 9999)%Z with true in S. cbn [andb] in S. unfold small_ef in S. apply Z.ltb_ge in S.
      pose proof (w_small (value x) 9999 Hx ltac:(lia)) as Ws. change (- (3 * (9999 / 10)))%Z with (-2997)%Z in Ws.
      pose proof (p10_le (-2992) (order (term st')) ltac:(lia)) as Y. replace (-2992)%Z with (-2997 + 5)%Z in Y by reflexivity. rewrite p10_add in Y.
      assert (P5 : p10 5 = 100000) by (rewrite (p10_nonneg 5) by lia; reflexivity). rewrite P5 in Y. pose proof (p10_pos (-2997)). lra.
    + apply IH; [lia|lia|replace (n + 1 - 1)%Z with n by ring; exact I'|apply sum2_step; [lia|exact I'|exact SI]].
Qed.

End Argument.

Lemma log1p_half m x : (0 <= m <= 100000)%Z -> ok d m x -> value x <> 0 -> Rabs (value x) <= / 2 ->
  let r := log1p d x in
  ok d (m + 2) r /\ Rabs (value r - ln (1 + value x)) <= (Rabs (value x) / 2 + / 500) * u * Rabs (ln (1 + value x)).
Proof.
  intros Hm Ox N Hx r. pose proof (u_small d Hd) as U. destruct (one_facts d Hd) as [O1 V1]. destruct (two_facts d Hd) as [O2 V2]. destruct (ok_negate d m x Hd Ox) as [On Vn].
  assert (Nn' : value (negate x) <> 0) by lra. assert (Hn : Rabs (value (negate x)) <= / 2) by (rewrite Vn, Rabs_Ropp; exact Hx).
  set (L := ln (1 + value x) / value x).
  assert (HL : infinite_sum (fun i => g_term 1 1 2 (value (negate x)) (Z.of_nat i)) L) by (rewrite Vn; apply log_series_half; assumption).
  assert (H : exists h, h2f1 d (one d) (one d) (two d) (negate x) = h /\ ok d 1 h /\ 49 / 100 <= value h <= 151 / 100 /\ Rabs (value h - L) <= u * (24 / 100 * Rabs (value x) + / 2000)).
  { set (st := (negate x, (one d, one d), (one d, one d), (two d, two d))).
    assert (I : s2_inv m (negate x) 1 st).
    { split; [split; [split; [apply (ok_le d m); [lia|exact On]|exact Nn']|]; split; [apply r2_inv_start; [lra|assumption|assumption]|]; split; apply r2_inv_start; try assumption; lra|].
      unfold X, st. cbn [fst snd]. rewrite V1, V2, g_term_1. change (1 - 1)%Z with 0%Z. eapply rel_le; [|apply rel_refl]. lra. }
    destruct (PowExtra.one_ok d Hd) as (F1 & P1 & _).
    assert (S1 : sum2_inv (negate x) 1 (one d)).
    { split; [exact F1|]. split; [exact P1|]. rewrite V1, g_part_1, w_1. replace (1 - 1) with 0 by ring. rewrite Rabs_R0. apply Rmult_le_pos; lra. }
    pose proof (sum2_step m (negate x) Hm Nn' Hn 1 st (one d) ltac:(lia) I S1) as S2. change (1 + 1)%Z with 2%Z in S2.
    assert (G : exists f, f = Z.to_nat (max_iteration - 2) /\ (2 + Z.of_nat f = 10000)%Z).
    { eexists. split; [reflexivity|]. rewrite Z2Nat.id; unfold max_iteration; lia. }
    destruct G as (f & Ef & G).
    destruct (series2 m (negate x) L Hm On Nn' Hn HL f 2 st _ ltac:(lia) G I S2) as (h & E & A & B & C). exists h. rewrite Vn, Rabs_Ropp in C. split; [|auto].
    unfold h2f1, hyper_2f1, series_from. rewrite <- Ef. fold (LogDiv.term d st).
    change (or_nan d (series (add d) (small_ef d) (LogDiv.next d (negate x)) (LogDiv.term d) f 2 st (add d (one d) (LogDiv.term d st))) = h). rewrite E. reflexivity. }
  destruct H as (h & Eh & Oh & Vh & Bh). pose proof Hd4 as D4. destruct (ok_rel_mul d Hd D4 m 1 x h ltac:(lia) ltac:(lia) ltac:(lia) Ox Oh) as [Or Rr].
  assert (Er : r = mul d x h) by (unfold r, log1p, log_at_one; rewrite Eh; reflexivity). rewrite <- Er in Or, Rr. clearbody r. clear Er Eh.
  split; [apply (ok_le d (m + 1 + 1)); [lia|exact Or]|].
  assert (EL : ln (1 + value x) = value x * L) by (unfold L; field; exact N). rewrite EL. pose proof (Rabs_pos_lt _ N) as P. clearbody L. set (a := Rabs (value x)) in *.
  assert (Bh' : u * (24 / 100 * a + / 2000) <= u * 1) by (apply Rmult_le_compat_l; lra). pose proof (Rabs_le_inv _ _ Bh) as Bi. assert (QL : 48 / 100 <= L <= 152 / 100) by lra.
  replace (value r - value x * L) with ((value r - value x * value h) + value x * (value h - L)) by ring. eapply Rle_trans; [apply Rabs_triang|].
  rewrite !Rabs_mult. fold a. rewrite (Rabs_pos_eq L) by lra. unfold rel in Rr. rewrite Rabs_mult, (Rabs_pos_eq (value h)) in Rr by lra. fold a in Rr.
  assert (X1 : u / 1000000 * (a * value h) <= u / 1000000 * (a * 2)) by (apply Rmult_le_compat_l; [lra|]; apply Rmult_le_compat_l; lra).
  assert (X2 : a * Rabs (value h - L) <= a * (u * (24 / 100 * a + / 2000))) by (apply Rmult_le_compat_l; lra).
  assert (X4 : 0 <= u * a) by (apply Rmult_le_pos; lra). assert (X5 : 0 <= u * a * a) by (apply Rmult_le_pos; lra).
  assert (X6 : (a / 2 + / 500) * u * a * (48 / 100) <= (a / 2 + / 500) * u * (a * L)).
  { rewrite <- Rmult_assoc. apply Rmult_le_compat_l; [|lra]. apply Rmult_le_pos; [apply Rmult_le_pos; lra|lra]. }
  lra.
Qed.

End FixedDigits.
