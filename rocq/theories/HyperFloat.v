(** * The Gauss hypergeometric series in e_float arithmetic (proofs only) *)

From Coq Require Import ZArith List Bool Reals Lra Lia Psatz.
From Verif Require Import Model Spec SpecGen Limbs Value CmpProofs AddProofs Decide OrderProofs OrderDec AddExtra MulProofs MulValue MulExtra MulCor
  IntProofs IntPartProofs IntConv MixedProofs IntCor ModelDiv DoubleProofs NewtonProofs InvProofs SqrtProofs ModelPow PowGen PowProofs PowExtra LdexpProofs
  FloatEval ModelGen ModelElem ElemProofs SeriesFloat ExpReal ExpFloat ExpAcc SinReal SinFloat.
Import ListNotations.
Open Scope R_scope.
Ltac Zify.zify_post_hook ::= Z.div_mod_to_equations.
Local Notation p10 := (powerRZ 10).
Local Notation exp := Rtrigo_def.exp.

(** The terms *)
Definition g_term (a b c z : R) (n : Z) : R := poch a n * poch b n / poch c n * exp_term z n.
Fixpoint g_sum (a b c z : R) (k : nat) : R := match k with O => 0 | S k' => g_sum a b c z k' + g_term a b c z (Z.of_nat k') end.
Definition g_part (a b c z : R) (n : Z) : R := g_sum a b c z (Z.to_nat n).

Lemma poch_0 b : poch b 0 = 1. Proof. reflexivity. Qed.
Lemma exp_term_0 z : exp_term z 0 = 1. Proof. unfold exp_term. cbn. field. Qed.

Lemma g_term_0 a b c z : g_term a b c z 0 = 1.
Proof. unfold g_term. rewrite !poch_0, exp_term_0. field. Qed.

Lemma g_term_1 a b c z : g_term a b c z 1 = a * b / c * z.
Proof. unfold g_term. rewrite !poch_1, exp_term_1. reflexivity. Qed.

Lemma g_part_1 a b c z : g_part a b c z 1 = 1.
Proof. unfold g_part. change (Z.to_nat 1) with 1%nat. cbn [g_sum]. change (Z.of_nat 0) with 0%Z. rewrite g_term_0. ring. Qed.

Lemma g_part_step a b c z n : (1 <= n)%Z -> g_part a b c z (n + 1) = g_part a b c z n + g_term a b c z n.
Proof. intro H. unfold g_part. replace (Z.to_nat (n + 1)) with (S (Z.to_nat n)) by lia. cbn [g_sum]. rewrite Z2Nat.id by lia. reflexivity. Qed.

Lemma g_term_step a b c z n : / 2 <= c -> (0 <= n)%Z ->
  g_term a b c z (n + 1) = g_term a b c z n * ((a + IZR n) * (b + IZR n) / ((c + IZR n) * IZR (n + 1)) * z).
Proof.
  intros Hc H. unfold g_term. pose proof (IZR_le 0 n H) as Hn. pose proof (poch_pos c n Hc) as Pc.
  rewrite !(poch_step _ (n + 1)), (exp_term_step z (n + 1)) by lia. replace (n + 1 - 1)%Z with n by ring. rewrite plus_IZR. field. lra.
Qed.

Lemma g_ratio a b c z n : / 2 <= a <= 1 -> / 2 <= b <= c -> (0 <= n)%Z -> Rabs (g_term a b c z (n + 1)) <= Rabs (g_term a b c z n) * Rabs z.
Proof.
  intros Ha Hb H. pose proof (IZR_le 0 n H) as Hn. rewrite g_term_step by (try lra; lia). rewrite !Rabs_mult. apply Rmult_le_compat_l; [apply Rabs_pos|].
  rewrite <- (Rmult_1_l (Rabs z)) at 2. apply Rmult_le_compat_r; [apply Rabs_pos|].
  rewrite plus_IZR. assert (0 < (c + IZR n) * (IZR n + 1)) by (apply Rmult_lt_0_compat; lra).
  rewrite Rabs_pos_eq by (apply Rmult_le_pos; [apply Rmult_le_pos; lra|left; apply Rinv_0_lt_compat; lra]).
  apply (Rmult_le_reg_r ((c + IZR n) * (IZR n + 1))); [lra|]. unfold Rdiv. rewrite Rmult_assoc, Rinv_l by lra. rewrite Rmult_1_r, Rmult_1_l, (Rmult_comm (a + IZR n)).
  apply Rmult_le_compat; lra.
Qed.

Lemma g_nonzero a b c z n : / 2 <= a -> / 2 <= b -> / 2 <= c -> z <> 0 -> g_term a b c z n <> 0.
Proof.
  intros Ha Hb Hc N. unfold g_term. pose proof (poch_pos a n Ha). pose proof (poch_pos b n Hb). pose proof (poch_pos c n Hc). pose proof (exp_term_nonzero z n N).
  assert (0 < poch a n * poch b n) by (apply Rmult_lt_0_compat; assumption). assert (0 < / poch c n) by (apply Rinv_0_lt_compat; assumption).
  assert (0 < poch a n * poch b n / poch c n) by (apply Rmult_lt_0_compat; assumption). apply Rmult_integral_contrapositive_currified; [lra|assumption].
Qed.

Lemma g_sum_eq a b c z k : g_sum a b c z (S k) = sum_f_R0 (fun i => g_term a b c z (Z.of_nat i)) k.
Proof. induction k as [|k IH]; [cbn [g_sum sum_f_R0]; ring|]. cbn [sum_f_R0]. rewrite <- IH. reflexivity. Qed.

Lemma g_remainder a b c z L n : / 2 <= a <= 1 -> / 2 <= b <= c -> infinite_sum (fun i => g_term a b c z (Z.of_nat i)) L -> (1 <= n)%Z -> Rabs z <= / 2 ->
  Rabs (L - g_part a b c z n) <= 2 * Rabs (g_term a b c z n).
Proof.
  intros Ha Hb HL Hn Hz.
  pose proof (remainder (fun i => g_term a b c z (Z.of_nat i)) L (Z.to_nat n)) as R. cbn beta in R. rewrite Z2Nat.id in R by lia.
  unfold g_part. replace (Z.to_nat n) with (S (Z.to_nat n - 1)) at 1 by lia. rewrite g_sum_eq. apply R; [exact HL|lia|].
  intros k Hk. replace (Z.of_nat (S k)) with (Z.of_nat k + 1)%Z by lia. pose proof (g_ratio a b c z (Z.of_nat k) Ha Hb ltac:(lia)). pose proof (Rabs_pos (g_term a b c z (Z.of_nat k))). nra.
Qed.

Section FixedDigits.
Variable d : Z.
Hypothesis Hd : valid_digits d.
Hypothesis Hd' : (d <= 4967)%Z.

Local Notation u := (p10 (- d)).
Local Notation delta := (11 / 100 * u).

(** The power of the argument divided by the factorial *)
Record x_inv (m : Z) (x : ef) (n : Z) (xp : ef) : Prop := {
  xi_x : ok d (n * (m + 10)) xp;
  xi_x0 : value xp <> 0;
  xi_xr : rel (IZR (n - 1) * (101 / 1000 * u)) (value xp) (exp_term (value x) n) }.

(** A rising factorial and its factor *)
Record p_inv (b : R) (n : Z) (pb : ef * ef) : Prop := {
  pi_p : ok d (n * 5) (fst pb);
  pi_pr : rel (IZR (n - 1) * (11 / 10000000 * u)) (value (fst pb)) (poch b n);
  pi_b : finite d (snd pb) /\ full d (snd pb);
  pi_br : Rabs (value (snd pb) - (b + IZR (n - 1))) <= IZR (n - 1) * (/ 10000000000000 * u) }.

Lemma x_inv_start m x : (0 <= m)%Z -> ok d m x -> value x <> 0 -> x_inv m x 1 x.
Proof.
  intros Hm Ox N. pose proof (u_small d Hd) as Us. constructor; [apply (ok_le d m); [lia|exact Ox]|exact N|].
  rewrite exp_term_1. change (1 - 1)%Z with 0%Z. eapply rel_le; [|apply rel_refl]. lra.
Qed.

Lemma p_inv_start b bf : ok d 1 bf -> value bf = b -> p_inv b 1 (bf, bf).
Proof.
  intros Ob Vb. pose proof (u_small d Hd) as Us. constructor; cbn [fst snd].
  - apply (ok_le d 1); [lia|exact Ob].
  - rewrite poch_1, Vb. change (1 - 1)%Z with 0%Z. eapply rel_le; [|apply rel_refl]. lra.
  - split; apply Ob.
  - change (1 - 1)%Z with 0%Z. rewrite Vb. replace (b - (b + 0)) with 0 by ring. rewrite Rabs_R0. lra.
Qed.

Lemma x_inv_step m x n xp : (0 <= m <= 1050000)%Z -> ok d m x -> value x <> 0 -> (2 <= n <= 2001)%Z -> x_inv m x (n - 1) xp -> x_inv m x n (next_x (mul d) (div_int d) x n xp).
Proof.
  intros Hm Ox N Hn [A1 A2 A3]. pose proof (u_small d Hd) as Us. unfold next_x. replace (n - 1 - 1)%Z with (n - 2)%Z in * by ring.
  assert (In : 2 <= IZR n <= 2001) by (split; apply IZR_le; lia).
  assert (In1 : IZR (n - 1) = IZR n - 1) by apply minus_IZR. assert (In2 : IZR (n - 2) = IZR n - 2) by apply minus_IZR.
  destruct (ok_rel_mul d Hd Hd' ((n - 1) * (m + 10)) m xp x ltac:(nia) ltac:(lia) ltac:(nia) A1 Ox) as [Om Rm].
  assert (Nm : value (mul d xp x) <> 0).
  { intro Z. pose proof (rel_bound _ _ _ Rm) as Bd. rewrite Z, Rabs_R0 in Bd. assert (W : value xp * value x <> 0) by (apply Rmult_integral_contrapositive; auto).
    pose proof (Rabs_pos_lt _ W). nra. }
  destruct (ok_div_int d Hd ((n - 1) * (m + 10) + m + 1) (mul d xp x) n ltac:(nia) Om Nm ltac:(lia)) as (Od & Nd & Rd).
  constructor.
  - apply (ok_le d ((n - 1) * (m + 10) + m + 1 + 9)); [nia|exact Od].
  - exact Nd.
  - rewrite exp_term_step by lia.
    assert (R1 : rel (u / 1000000) (value (mul d xp x) / IZR n) (value xp * value x / IZR n)) by (apply rel_scale; exact Rm).
    assert (R2 : rel (IZR (n - 2) * (101 / 1000 * u)) (value xp * value x / IZR n) (exp_term (value x) (n - 1) * value x / IZR n)) by (apply rel_scale, rel_scale; exact A3).
    assert (R3 : rel (u / 10 + u / 1000000 + u / 10 * (u / 1000000)) (value (div_int d (mul d xp x) n)) (value xp * value x / IZR n)) by (eapply rel_trans; [lra|exact Rd|exact R1]).
    assert (Q : 0 <= u / 10 * (u / 1000000) <= u / 1000000) by nra. set (q := u / 10 * (u / 1000000)) in *.
    eapply rel_le; [|eapply rel_trans; [|exact R3|exact R2]]; [|lra]. rewrite In1, In2.
    assert (W : 0 <= (IZR n - 2) * (101 / 1000 * u) <= / 1000) by (split; [apply Rmult_le_pos; lra|]; nra). set (w := (IZR n - 2) * (101 / 1000 * u)) in *.
    replace ((IZR n - 1) * (101 / 1000 * u)) with (w + 101 / 1000 * u) by (unfold w; ring).
    assert ((u / 10 + u / 1000000 + q) * w <= (u / 10 + u / 1000000 + q) * / 1000) by (apply Rmult_le_compat_l; lra). lra.
Qed.

Lemma p_inv_step b n pb : / 2 <= b <= 2 -> (2 <= n <= 2001)%Z -> p_inv b (n - 1) pb -> p_inv b n (next_p (mul d) (pre_inc d) pb).
Proof.
  intros Hb Hn [B1 B2 C1 C2]. destruct pb as [pb bp]. cbn [fst snd] in *. pose proof (u_small d Hd) as Us.
  unfold next_p. cbn [fst snd]. replace (n - 1 - 1)%Z with (n - 2)%Z in * by ring.
  assert (In : 2 <= IZR n <= 2001) by (split; apply IZR_le; lia).
  assert (In1 : IZR (n - 1) = IZR n - 1) by apply minus_IZR. assert (In2 : IZR (n - 2) = IZR n - 2) by apply minus_IZR.
  set (bq := pre_inc d bp).
  assert (Ob : ok d 4 bp).
  { apply (ok_of_bounds d); [apply C1|apply C1|]. rewrite In2 in C2. apply Rabs_le_inv in C2. rewrite p10_inv, (powerRZ_pow 10 4) by lia. change (Z.to_nat 4) with 4%nat. cbn [Rpow_def.pow].
    assert (0 <= (IZR n - 2) * (/ 10000000000000 * u) <= / 10) by (split; [apply Rmult_le_pos; lra|nra]). rewrite Rabs_pos_eq; lra. }
  assert (O1 : ok d 4 (one d)). { destruct (PowExtra.one_ok d Hd) as (F & P & V). apply (ok_of_bounds d); [exact F|exact P|]. rewrite V, Rabs_R1, p10_inv, (powerRZ_pow 10 4) by lia. change (Z.to_nat 4) with 4%nat. cbn [Rpow_def.pow]. lra. }
  assert (Cq : finite d bq /\ full d bq /\ Rabs (value bq - (b + IZR (n - 1))) <= IZR (n - 1) * (/ 10000000000000 * u)).
  { destruct (ok_add d 4 bp (one d) Hd ltac:(lia) ltac:(lia) Ob O1) as [(F & P & _) E]. fold (pre_inc d bp) in F, P, E. fold bq in F, P, E. split; [exact F|]. split; [exact P|].
    destruct (PowExtra.one_ok d Hd) as (_ & _ & V1). rewrite V1, (p_17 d) in E.
    assert (Mx : Rmax (Rabs (value bp)) (Rabs 1) <= 3000).
    { apply Rmax_lub; [|rewrite Rabs_R1; lra]. rewrite In2 in C2. apply Rabs_le_inv in C2.
      assert (0 <= (IZR n - 2) * (/ 10000000000000 * u) <= / 10) by (split; [apply Rmult_le_pos; lra|nra]). rewrite Rabs_pos_eq; lra. }
    replace (value bq - (b + IZR (n - 1))) with ((value bq - (value bp + 1)) + (value bp - (b + IZR (n - 2)))) by (rewrite In1, In2; ring).
    eapply Rle_trans; [apply Rabs_triang|]. rewrite In1. rewrite In2 in C2. rewrite In2.
    assert (2 * (u / 100000000000000000) * Rmax (Rabs (value bp)) (Rabs 1) <= / 10000000000000 * u) by nra. lra. }
  destruct Cq as (Fq & Pq & Vq). clear C1 C2 Ob O1. clearbody bq. rewrite In1 in Vq.
  assert (Sm : 0 <= (IZR n - 1) * (/ 10000000000000 * u) <= / 10) by (split; [apply Rmult_le_pos; lra|nra]).
  assert (Oq : ok d 4 bq).
  { apply (ok_of_bounds d); [exact Fq|exact Pq|]. apply Rabs_le_inv in Vq. rewrite p10_inv, (powerRZ_pow 10 4) by lia. change (Z.to_nat 4) with 4%nat. cbn [Rpow_def.pow]. rewrite Rabs_pos_eq; lra. }
  constructor; cbn [fst snd].
  - destruct (ok_rel_mul d Hd Hd' ((n - 1) * 5) 4 pb bq ltac:(lia) ltac:(lia) ltac:(lia) B1 Oq) as [Op _].
    apply (ok_le d ((n - 1) * 5 + 4 + 1)); [lia|exact Op].
  - destruct (ok_rel_mul d Hd Hd' ((n - 1) * 5) 4 pb bq ltac:(lia) ltac:(lia) ltac:(lia) B1 Oq) as [_ Rp].
    rewrite (poch_step b n) by lia.
    assert (Rq : rel (/ 10000000000 * u) (value bq) (b + IZR (n - 1))).
    { unfold rel. rewrite In1 in *. eapply Rle_trans; [exact Vq|]. rewrite (Rabs_pos_eq (b + (IZR n - 1))) by lra. nra. }
    assert (W0 : 0 <= IZR (n - 2) * (11 / 10000000 * u)) by (rewrite In2; apply Rmult_le_pos; lra).
    pose proof (rel_mult _ _ _ _ _ _ W0 B2 Rq) as R1.
    assert (U0 : 0 <= u / 1000000) by lra. pose proof (rel_trans _ _ _ _ _ U0 Rp R1) as R2. eapply rel_le; [|exact R2]. rewrite In1, In2.
    assert (W : 0 <= (IZR n - 2) * (11 / 10000000 * u) <= / 1000) by (split; [apply Rmult_le_pos; lra|]; nra). set (w := (IZR n - 2) * (11 / 10000000 * u)) in *.
    replace ((IZR n - 1) * (11 / 10000000 * u)) with (w + 11 / 10000000 * u) by (unfold w; ring).
    assert (X1 : w * (/ 10000000000 * u) <= / 1000 * (/ 10000000000 * u)) by (apply Rmult_le_compat_r; lra).
    assert (X2 : u / 1000000 * (w + / 10000000000 * u + w * (/ 10000000000 * u)) <= u / 1000000 * (/ 500)) by (apply Rmult_le_compat_l; lra). lra.
  - split; assumption.
  - rewrite In1. exact Vq.
Qed.

Definition g_inv (m : Z) (a b c : R) (x : ef) (n : Z) (st : ef * (ef * ef) * (ef * ef) * (ef * ef)) : Prop :=
  let '(xp, pa, pb, pc) := st in x_inv m x n xp /\ p_inv a n pa /\ p_inv b n pb /\ p_inv c n pc.

Lemma small_w n : (1 <= n <= 2001)%Z -> 0 <= IZR (n - 1) * (101 / 1000 * u) <= / 100000 /\ 0 <= IZR (n - 1) * (11 / 10000000 * u) <= / 100000000.
Proof.
  intro Hn. pose proof (u_small d Hd) as Us. assert (In : 1 <= IZR n <= 2001) by (split; apply IZR_le; lia). rewrite minus_IZR.
  assert (0 <= (IZR n - 1) * u <= 2000 * u) by (split; [apply Rmult_le_pos; lra|apply Rmult_le_compat_r; lra]). lra.
Qed.

Lemma p_inv_pos b n pb : / 2 <= b -> (1 <= n <= 2001)%Z -> p_inv b n pb -> 0 < value (fst pb).
Proof.
  intros Hb Hn [_ R _ _]. destruct (small_w n Hn) as [_ W]. pose proof (poch_pos b n Hb) as P. unfold rel in R. rewrite (Rabs_pos_eq (poch b n)) in R by lra.
  apply Rabs_le_inv in R. set (w := IZR (n - 1) * (11 / 10000000 * u)) in *. assert (w * poch b n <= / 100000000 * poch b n) by (apply Rmult_le_compat_r; lra). lra.
Qed.

Lemma g_inv_term m a b c x n st : (0 <= m <= 1000000)%Z -> / 2 <= a <= 2 -> / 2 <= b <= 2 -> / 2 <= c <= 2 -> (1 <= n <= 2001)%Z -> g_inv m a b c x n st ->
  ok d (2001 * (m + 30)) (let '(xp, pa, pb, pc) := st in mul d (div d (mul d (fst pa) (fst pb)) (fst pc)) xp) /\
  Rabs (value (let '(xp, pa, pb, pc) := st in mul d (div d (mul d (fst pa) (fst pb)) (fst pc)) xp) - g_term a b c (value x) n) <= IZR n * delta * Rabs (g_term a b c (value x) n).
Proof.
  intros Hm Ha Hb Hc Hn I. destruct st as [[[xp pa] pb] pc]. destruct I as (Ix & Ia & Ib & Ic). pose proof (u_small d Hd) as Us.
  pose proof (p_inv_pos a n pa ltac:(lra) Hn Ia) as Pa. pose proof (p_inv_pos b n pb ltac:(lra) Hn Ib) as Pb. pose proof (p_inv_pos c n pc ltac:(lra) Hn Ic) as Pc.
  destruct (small_w n Hn) as [W1 W2]. destruct Ix as [A1 A2 A3], Ia as [a1 a2 _ _], Ib as [b1 b2 _ _], Ic as [c1 c2 _ _].
  assert (In : 1 <= IZR n <= 2001) by (split; apply IZR_le; lia). assert (In1 : IZR (n - 1) = IZR n - 1) by apply minus_IZR.
  pose proof (poch_pos c n ltac:(lra)) as Pp.
  destruct (ok_rel_mul d Hd Hd' (n * 5) (n * 5) (fst pa) (fst pb) ltac:(lia) ltac:(lia) ltac:(lia) a1 b1) as [O1 R1].
  set (ab := mul d (fst pa) (fst pb)) in *.
  assert (Pab : 0 < value ab). { unfold rel in R1. assert (0 < value (fst pa) * value (fst pb)) by (apply Rmult_lt_0_compat; assumption). rewrite (Rabs_pos_eq (value (fst pa) * value (fst pb))) in R1 by lra. apply Rabs_le_inv in R1.
    assert (u / 1000000 * (value (fst pa) * value (fst pb)) <= / 2 * (value (fst pa) * value (fst pb))) by (apply Rmult_le_compat_r; lra). lra. }
  destruct (ok_div d Hd Hd' (n * 5 + n * 5 + 1) (n * 5) ab (fst pc) ltac:(lia) ltac:(lia) ltac:(lia) O1 c1 ltac:(lra) ltac:(lra) ltac:(right; lra)) as (O2 & _ & R2).
  set (q := div d ab (fst pc)) in *.
  destruct (ok_rel_mul d Hd Hd' (n * 5 + n * 5 + 1 + n * 5 + 1) (n * (m + 10)) q xp ltac:(lia) ltac:(nia) ltac:(nia) O2 A1) as [O3 R3].
  split; [apply (ok_le d (n * 5 + n * 5 + 1 + n * 5 + 1 + n * (m + 10) + 1)); [nia|exact O3]|].
  set (w := IZR (n - 1) * (101 / 1000 * u)) in *. set (w2 := IZR (n - 1) * (11 / 10000000 * u)) in *.
  assert (Ew : w2 <= w / 10000) by (unfold w, w2; rewrite In1; assert (0 <= (IZR n - 1) * u) by (apply Rmult_le_pos; lra); lra).
  (* numerator *)
  pose proof (rel_mult _ _ _ _ _ _ (proj1 W2) a2 b2) as N1. assert (U0 : 0 <= u / 1000000) by lra. pose proof (rel_trans _ _ _ _ _ U0 R1 N1) as N2.
  assert (N3 : rel (3 * w2 + 2 * (u / 1000000)) (value ab) (poch a n * poch b n)). { eapply rel_le; [|exact N2]. assert (w2 * w2 <= / 100000000 * w2) by (apply Rmult_le_compat_r; lra). nra. }
  assert (W3 : 0 <= w2 <= / 100) by lra. assert (Nc : value (fst pc) <> 0) by lra. assert (Nc' : poch c n <> 0) by lra.
  assert (W4 : 0 <= 3 * w2 + 2 * (u / 1000000)) by lra.
  pose proof (rel_div _ _ _ _ _ _ Nc Nc' W4 W3 N3 c2) as Q1. assert (U1 : 0 <= u / 10) by lra. pose proof (rel_trans _ _ _ _ _ U1 R2 Q1) as Q2.
  assert (Q3 : rel (5 * w2 + 1001 / 10000 * u) (value q) (poch a n * poch b n / poch c n)).
  { eapply rel_le; [|exact Q2]. set (k := 3 * w2 + 2 * (u / 1000000)) in *. assert (k <= / 1000000) by (unfold k; lra).
    assert (k * (102 / 100 * w2) <= / 1000000 * (102 / 100 * w2)) by (apply Rmult_le_compat_r; lra).
    assert (u / 10 * (k + 102 / 100 * w2 + k * (102 / 100 * w2)) <= u / 10 * (/ 100000)) by (apply Rmult_le_compat_l; lra). unfold k in *. lra. }
  assert (W5 : 0 <= 5 * w2 + 1001 / 10000 * u) by lra.
  pose proof (rel_mult _ _ _ _ _ _ W5 Q3 A3) as T1. pose proof (rel_trans _ _ _ _ _ U0 R3 T1) as T2. fold (g_term a b c (value x) n) in T2.
  apply (rel_le _ (IZR n * delta)) in T2; [exact T2|].
  replace (IZR n * (11 / 100 * u)) with (w * (110 / 101) + 11 / 100 * u) by (unfold w; rewrite In1; field).
  set (k := 5 * w2 + 1001 / 10000 * u) in *. assert (k <= / 1000000) by (unfold k; lra). assert (k * w <= / 1000000 * w) by (apply Rmult_le_compat_r; lra).
  assert (u / 1000000 * (k + w + k * w) <= u / 1000000 * (/ 1000)) by (apply Rmult_le_compat_l; lra). unfold k in *. lra.
Qed.

Lemma h2f1_ok m a b c af bf cf x L : (0 <= m <= 1000000)%Z -> ok d m x -> value x <> 0 -> Rabs (value x) <= / 1000 ->
  / 2 <= a <= 1 -> / 2 <= b <= c -> c <= 2 -> ok d 1 af -> value af = a -> ok d 1 bf -> value bf = b -> ok d 1 cf -> value cf = c ->
  infinite_sum (fun i => g_term a b c (value x) (Z.of_nat i)) L ->
  ok d 1 (h2f1 d af bf cf x) /\ 99 / 100 <= value (h2f1 d af bf cf x) <= 101 / 100 /\
  Rabs (value (h2f1 d af bf cf x) - L) <= (22 / 100 * Rabs (value x) + / 100000) * u.
Proof.
  intros Hm Ox N Hx Ha Hb Hc Oa Va Ob Vb Oc Vc HL. pose proof (u_small d Hd) as Us.
  pose proof (g_term_0 a b c (value x)) as T0.
  assert (T1x : Rabs (g_term a b c (value x) 1) <= Rabs (value x)). { pose proof (g_ratio a b c (value x) 0 Ha Hb ltac:(lia)) as R. rewrite T0, Rabs_R1 in R. change (0 + 1)%Z with 1%Z in R. lra. }
  assert (Htn : forall n, (1 <= n)%Z -> Rabs (g_term a b c (value x) (n + 1)) <= Rabs (g_term a b c (value x) n) / 1000).
  { intros n Hn. pose proof (g_ratio a b c (value x) n Ha Hb ltac:(lia)). pose proof (Rabs_pos (g_term a b c (value x) n)). nra. }
  destruct (series_from_ok d Hd Hd' (fun n '(xp, pa, pb, pc) => (next_x (mul d) (div_int d) x n xp, next_p (mul d) (pre_inc d) pa, next_p (mul d) (pre_inc d) pb, next_p (mul d) (pre_inc d) pc))
    (fun '(xp, pa, pb, pc) => mul d (div d (mul d (fst pa) (fst pb)) (fst pc)) xp)
    (g_term a b c (value x)) (g_part a b c (value x)) (g_inv m a b c x) delta L (2001 * (m + 30)) 5) with (st0 := (x, (af, af), (bf, bf), (cf, cf))) as (r & E & O & V & B).
  - lia.
  - destruct (tol_bounds d Hd Hd') as [_ Tl]. destruct (Z_le_gt_dec 50 d) as [D|D]; [left; specialize (Tl D); lia|right]. intros n Hn.
    destruct (terms_small (g_term a b c (value x)) n ltac:(lra) Htn ltac:(lia)) as [_ S3]. assert (C : (-3 * n <= - (d + 5) + - (1))%Z) by lia.
    pose proof (p10_le _ _ C) as X. rewrite p10_add, (p10_inv 1), p10_1 in X. pose proof (p10_pos (- (d + 5))). lra.
  - lia.
  - lra.
  - intros n st Hn I. apply (g_inv_term m a b c x n st); try assumption; lra.
  - intros n st Hn I. destruct st as [[[xp pa] pb] pc]. destruct I as (I1 & I2 & I3 & I4). cbn [g_inv].
    split; [apply x_inv_step; auto; lia|]. split; [apply p_inv_step; auto; lra|]. split; apply p_inv_step; auto; lra.
  - lra.
  - intros n Hn. split; [apply g_nonzero; try lra; exact N|]. apply Htn. exact Hn.
  - apply g_part_1.
  - apply g_part_step.
  - intros n Hn. apply g_remainder; [exact Ha|exact Hb|exact HL|exact Hn|lra].
  - split; [apply x_inv_start; auto; lia|]. split; [apply p_inv_start; assumption|]. split; apply p_inv_start; assumption.
  - unfold h2f1, hyper_2f1. rewrite E. cbn [or_nan]. split; [exact O|]. split; [exact V|]. rewrite p_5 in B.
    assert (delta * Rabs (g_term a b c (value x) 1) <= delta * Rabs (value x)) by (apply Rmult_le_compat_l; lra). lra.
Qed.

End FixedDigits.
