(** * Powers of two, ldexp, frexp, sgn (proofs only). *)

From Coq Require Import ZArith List Bool Reals Lra Lia Psatz.
From Verif Require Import Model Spec Limbs Value CmpProofs AddProofs Decide OrderProofs MulProofs MulValue MulExtra MulCor
  IntProofs ModelDiv NewtonProofs InvProofs ModelPow PowGen PowProofs PowExtra.
Import ListNotations.
Open Scope R_scope.
Ltac Zify.zify_post_hook ::= Z.div_mod_to_equations.
Local Notation p10 := (powerRZ 10).
Local Notation p2 := (powerRZ 2).
Local Notation exp := Model.exp.

(** ** A number with a single limb *)

Lemma of_limbs1 d a e : valid_digits d -> (0 < a < 100000000)%Z -> (e mod 8 = 0)%Z ->
  finite d (of_limbs d [a] e false) /\ full d (of_limbs d [a] e false) /\ value (of_limbs d [a] e false) = IZR a * p10 e.
Proof.
  intros Hd Ha He. unfold of_limbs.
  assert (HN : (2 <= Nn d)%nat). { unfold Nn, Model.N. pose proof (elem_lower d Hd). destruct Hd. lia. }
  assert (NE : Z.of_nat (Nn d) = elem_number d). { unfold Nn, Model.N. rewrite Z2Nat.id; auto. pose proof (elem_lower d Hd). destruct Hd. lia. }
  rewrite firstn_all2 by (cbn; lia). cbn [length app]. 
  split; [|split; [reflexivity|]].
  - split; [|reflexivity]. constructor; cbn [data exp neg cls prec].
    + cbn [length]. rewrite repeat_length. lia.
    + constructor; [unfold is_limb; lia|]. apply Forall_forall. intros x Hx. apply repeat_spec in Hx. subst x. unfold is_limb. lia.
    + exact He.
    + unfold Model.N. pose proof (elem_lower d Hd). destruct Hd. lia.
    + intros _ H. cbn in H. lia.
    + intros H. contradiction H. reflexivity.
  - unfold value. cbn [data exp neg sign limbs_value].
    assert (Z0 : forall m e0, limbs_value (repeat 0%Z m) e0 = 0).
    { induction m as [|m IH]; intros e0; cbn [repeat limbs_value]; [reflexivity|]. rewrite IH. ring. }
    rewrite Z0. unfold sign. ring.
Qed.

(** ** Powers of two *)

Lemma p2_pos e : 0 < p2 e.
Proof. apply powerRZ_lt. lra. Qed.

Lemma p2_add a b : p2 (a + b) = p2 a * p2 b.
Proof. apply powerRZ_add. lra. Qed.

Lemma p2_inv e : p2 (- e) = / p2 e.
Proof.
  apply Rmult_eq_reg_r with (p2 e); [|pose proof (p2_pos e); lra].
  rewrite Rinv_l by (pose proof (p2_pos e); lra). rewrite <- p2_add. replace (- e + e)%Z with 0%Z by lia. reflexivity.
Qed.

Lemma p2_le a b : (a <= b)%Z -> p2 a <= p2 b.
Proof.
  intro H. replace b with (a + (b - a))%Z by lia. rewrite p2_add. pose proof (p2_pos a).
  assert (1 <= p2 (b - a)). { rewrite powerRZ_pow by lia. apply pow_R1_Rle. lra. } nra.
Qed.

Lemma p2_third k : (0 <= k)%Z -> p2 (3 * k) <= p10 k.
Proof.
  intro H. rewrite !powerRZ_pow by lia. replace (Z.to_nat (3 * k)) with (3 * Z.to_nat k)%nat by lia.
  rewrite pow_mult. apply pow_incr. lra.
Qed.

Lemma half_power k : (0 <= k)%Z -> powerRZ (1 / 2) k = p2 (- k).
Proof.
  intro H. rewrite p2_inv. rewrite !powerRZ_pow by lia. unfold Rdiv. rewrite Rmult_1_l. apply pow_inv.
Qed.

Lemma p2_range e : (-2147483648 <= e <= 2147483648)%Z -> p10 (-715827883) <= p2 e <= p10 715827883.
Proof.
  intros H. split.
  - apply Rle_trans with (p2 (- (3 * 715827883))); [|apply p2_le; lia]. change (-715827883)%Z with (- (715827883))%Z. rewrite p2_inv, p10_inv.
    apply Rinv_le_contravar; [apply p2_pos|]. apply p2_third. lia.
  - apply Rle_trans with (p2 (3 * 715827883)); [apply p2_le; lia|]. apply p2_third. lia.
Qed.

Lemma p2_in_range e : (-2147483648 <= e <= 2147483648)%Z -> in_range (p2 e).
Proof.
  intros H. destruct (p2_range e H) as [A B]. unfold in_range. rewrite Rabs_pos_eq by (left; apply p2_pos). split.
  - apply Rle_trans with (2 := A). apply p10_le. lia.
  - apply Rle_trans with (1 := B). apply p10_le. lia.
Qed.

Lemma p2_range_wide e : (-5000000000 <= e <= 5000000000)%Z -> p10 (-1666666667) <= p2 e <= p10 1666666667.
Proof.
  intros H. split.
  - apply Rle_trans with (p2 (- (3 * 1666666667))); [|apply p2_le; lia]. change (-1666666667)%Z with (- (1666666667))%Z. rewrite p2_inv, p10_inv.
    apply Rinv_le_contravar; [apply p2_pos|]. apply p2_third. lia.
  - apply Rle_trans with (p2 (3 * 1666666667)); [apply p2_le; lia|]. apply p2_third. lia.
Qed.

Lemma p2_in_range_wide e : (-5000000000 <= e <= 5000000000)%Z -> in_range (p2 e).
Proof.
  intros H. destruct (p2_range_wide e H) as [A B]. unfold in_range. rewrite Rabs_pos_eq by (left; apply p2_pos). split.
  - apply Rle_trans with (2 := A). apply p10_le. lia.
  - apply Rle_trans with (1 := B). apply p10_le. lia.
Qed.

Lemma pow2_accurate_wide d e : valid_digits d -> (-5000000000 <= e <= 5000000000)%Z ->
  exists q, pow2 d e = Defined q /\ finite d q /\ full d q /\ value q <= p2 e /\
  p2 e - value q <= IZR (Z.abs e) * product_error d * p2 e /\ p2 e <= 2 * value q /\
  (((0 <= e)%Z /\ (2 ^ e < 10 ^ (d + 3))%Z) \/ ((e < 0)%Z /\ (5 ^ (- e) < 10 ^ (d + 3))%Z) -> value q = p2 e).
Proof.
  intros Hd He. pose proof (p2_pos e) as P0. pose proof (p2_in_range_wide e He) as RG.
  destruct (mul_eps_small d Hd) as [[E0 E1] _].
  assert (NN : IZR (Z.abs e) * product_error d <= 1 / 2).
  { pose proof (mul_eps_n d (Z.abs e) Hd ltac:(lia)). pose proof p10_m16.
    apply Rle_trans with (IZR (Z.max 1 (Z.abs e)) * product_error d); [|lra]. apply Rmult_le_compat_r; [lra|]. apply IZR_le. lia. }
  assert (N0 : 0 <= IZR (Z.abs e) * product_error d) by (apply Rmult_le_pos; [apply IZR_le; lia|lra]).
  assert (FIN : forall q, value q = p2 e -> value q <= p2 e /\ p2 e - value q <= IZR (Z.abs e) * product_error d * p2 e /\ p2 e <= 2 * value q /\
     (((0 <= e)%Z /\ (2 ^ e < 10 ^ (d + 3))%Z) \/ ((e < 0)%Z /\ (5 ^ (- e) < 10 ^ (d + 3))%Z) -> value q = p2 e)).
  { intros q E. rewrite E. split; [lra|]. split; [|split; [lra|auto]].
    replace (p2 e - p2 e) with 0 by ring. apply Rmult_le_pos; lra. }
  destruct (of_limbs1 d 50000000 (-8) Hd ltac:(lia) ltac:(reflexivity)) as (H1 & H2 & H3).
  assert (H3' : value (of_limbs d [50000000%Z] (-8) false) = 1 / 2).
  { rewrite H3. change (-8)%Z with (- (8))%Z. rewrite p10_inv, (p10_nonneg 8) by lia. change (10 ^ 8)%Z with 100000000%Z. lra. }
  assert (G : forall b k K i, finite d b -> full d b -> value b <> 0 -> (0 <= k < 9223372036854775808)%Z -> powerRZ (value b) k = p2 e ->
     k = Z.abs e -> value b = IZR K * p10 i ->
     exists q, pow_int d b k = Defined q /\ finite d q /\ full d q /\ value q <= p2 e /\
       p2 e - value q <= IZR (Z.abs e) * product_error d * p2 e /\ p2 e <= 2 * value q /\ ((Z.abs K ^ k < 10 ^ (d + 3))%Z -> value q = p2 e)).
  { intros b k K i Fb Pb Vb Hk Ek Ka EK.
    assert (Rk : in_range (powerRZ (value b) k)) by (rewrite Ek; exact RG).
    eexists. split; [unfold pow_int, pow_gen; destruct (Z.ltb_spec k 0); [lia|]; reflexivity|].
    set (q := pow_nonneg _ _ _ _ _).
    assert (Eq : pow_int d b k = Defined q) by (unfold pow_int, pow_gen; destruct (Z.ltb_spec k 0); [lia|]; reflexivity).
    destruct (pow_accurate d b k Hd Fb Pb Vb Hk Rk q (or_introl Eq)) as (Q1 & Q2 & Q3 & Q4 & Q5).
    rewrite Ek in *. rewrite (Rabs_pos_eq (p2 e)) in * by lra.
    assert (0 < value q). { apply Rmult_lt_reg_r with (p2 e); lra. }
    rewrite (Rabs_pos_eq (value q)) in * by lra. rewrite <- Ka.
    split; [exact Q1|]. split; [exact Q2|]. split; [exact Q4|]. split; [exact Q5|].
    split. { rewrite Ka in Q5. assert (IZR (Z.abs e) * product_error d * p2 e <= 1 / 2 * p2 e) by (apply Rmult_le_compat_r; lra). lra. }
    intros HK. rewrite <- Ek. apply (pow_exact d b k K i); auto. rewrite Ek. exact RG. }
  unfold pow2. destruct (Z.ltb_spec e (-1)) as [L|L].
  - destruct (Z.eqb_spec e sll_min) as [X|_]; [unfold sll_min in X; lia|].
    destruct (G (of_limbs d [50000000%Z] (-8) false) (- e)%Z 5%Z (-1)%Z) as (q & Q0 & Q1 & Q2 & Q3 & Q4 & Q5 & Q6); auto; try (clear - L He; lia).
    + rewrite H3'. lra.
    + rewrite H3', half_power by lia. f_equal. lia.
    + rewrite H3'. change (-1)%Z with (- (1))%Z. rewrite p10_inv, p10_1. lra.
    + exists q. split; [exact Q0|]. split; [exact Q1|]. split; [exact Q2|]. split; [exact Q3|]. split; [exact Q4|]. split; [exact Q5|].
      intros [[H _]|[_ H]]; [lia|]. apply Q6. exact H.
  - destruct (Z.eqb_spec e (-1)) as [->|N1].
    + eexists. split; [reflexivity|]. split; [exact H1|]. split; [exact H2|]. apply FIN. rewrite H3'. change (-1)%Z with (- (1))%Z. rewrite p2_inv, powerRZ_1. lra.
    + destruct (Z.eqb_spec e 0) as [->|N2].
      { destruct (of_limbs1 d 1 0 Hd ltac:(lia) ltac:(reflexivity)) as (O1 & O2 & O3).
        eexists. split; [reflexivity|]. split; [exact O1|]. split; [exact O2|]. apply FIN. rewrite O3, !powerRZ_O. lra. }
      destruct (Z.eqb_spec e 1) as [->|N3].
      { destruct (of_limbs1 d 2 0 Hd ltac:(lia) ltac:(reflexivity)) as (O1 & O2 & O3).
        eexists. split; [reflexivity|]. split; [exact O1|]. split; [exact O2|]. apply FIN. rewrite O3, powerRZ_O, powerRZ_1. lra. }
      destruct (of_ull_spec d 2 Hd ltac:(lia)) as (T1 & T2 & T3 & _).
      destruct (G (of_ull d 2) e 2%Z 0%Z) as (q & Q0 & Q1 & Q2 & Q3 & Q4 & Q5 & Q6); auto; try lia.
      * rewrite T3. lra.
      * rewrite T3. reflexivity.
      * rewrite T3, p10_0. ring.
      * exists q. split; [exact Q0|]. split; [exact Q1|]. split; [exact Q2|]. split; [exact Q3|]. split; [exact Q4|]. split; [exact Q5|].
        intros [[_ H]|[H _]]; [|lia]. apply Q6. exact H.
Qed.

Lemma pow2_accurate d e : valid_digits d -> (-2147483648 <= e <= 2147483648)%Z ->
  exists q, pow2 d e = Defined q /\ finite d q /\ full d q /\ value q <= p2 e /\
  p2 e - value q <= IZR (Z.abs e) * product_error d * p2 e /\ p2 e <= 2 * value q /\
  (((0 <= e)%Z /\ (2 ^ e < 10 ^ (d + 3))%Z) \/ ((e < 0)%Z /\ (5 ^ (- e) < 10 ^ (d + 3))%Z) -> value q = p2 e).
Proof. intros Hd He. apply pow2_accurate_wide; [exact Hd|lia]. Qed.

(** ** ldexp *)

Lemma exps_of_product d x y : valid_digits d -> finite d x -> finite d y -> value x <> 0 -> value y <> 0 ->
  p10 (-2147483592) < Rabs (value x * value y) < p10 2147483608 -> (-2147483616 < exp x + exp y < 2147483616)%Z.
Proof.
  intros Hd Fx Fy Nx Ny [L U]. rewrite Rabs_mult in *.
  pose proof (finite_abs_bounds d x Hd Fx (value_nonzero_lead d x Hd Fx Nx)) as [X1 X2].
  pose proof (finite_abs_bounds d y Hd Fy (value_nonzero_lead d y Hd Fy Ny)) as [Y1 Y2].
  pose proof (p10_pos (exp x)) as PX. pose proof (p10_pos (exp y)) as PY.
  assert (A : p10 (exp x + exp y) < p10 2147483608).
  { rewrite p10_add. apply Rle_lt_trans with (2 := U). apply Rmult_le_compat; lra. }
  assert (B : p10 (-2147483592) < p10 (exp x + exp y + 16)).
  { replace (exp x + exp y + 16)%Z with ((exp x + 8) + (exp y + 8))%Z by lia. rewrite p10_add.
    apply Rlt_trans with (1 := L). apply Rmult_le_0_lt_compat; auto; apply Rabs_pos. }
  apply p10_lt_inv in A. apply p10_lt_inv in B. clear - A B. lia.
Qed.

Lemma ldexp_accurate d v e : valid_digits d -> finite d v -> full d v -> (-2147483648 <= e <= 2147483647)%Z ->
  exists r, ldexp d v e = Defined r /\
  (value v = 0 -> finite d r /\ value r = 0) /\
  (in_range (value v * p2 e) ->
     finite d r /\ full d r /\ 0 < value r * value v /\ Rabs (value r) <= Rabs (value v * p2 e) /\
     Rabs (value v * p2 e) - Rabs (value r) <= IZR (Z.abs e + 1) * product_error d * Rabs (value v * p2 e)).
Proof.
  intros Hd Fv Pv He. destruct (pow2_accurate d e Hd ltac:(lia)) as (q & Q0 & Q1 & Q2 & Q3 & Q4 & Q5 & _).
  exists (mul d v q). unfold ldexp. rewrite Q0. split; [reflexivity|]. split.
  { intros V. rewrite mul_zero_l by auto. destruct (zero_ok d Hd) as (Z1 & _ & Z2). auto. }
  intros RG. pose proof (p2_pos e) as P0. pose proof (in_range_nonzero _ RG) as NZ.
  assert (V : value v <> 0). { intro V. apply NZ. rewrite V. ring. }
  assert (Pq : 0 < value q) by lra.
  destruct (mul_eps_small d Hd) as [[E0 E1] _].
  assert (AV : 0 < Rabs (value v)) by (apply Rabs_pos_lt; exact V).
  assert (He' : (-2147483616 < exp v + exp q < 2147483616)%Z).
  { apply (exps_of_product d); auto; [lra|]. destruct RG as [R1 R2]. rewrite Rabs_mult, (Rabs_pos_eq (p2 e)) in R1, R2 by lra.
    rewrite Rabs_mult, (Rabs_pos_eq (value q)) by lra. split.
    - apply Rlt_le_trans with (/ 2 * p10 (-2147483590)).
      + pose proof (DoubleProofs.p10_pred (-2147483591)). change (-2147483591 - 1)%Z with (-2147483592)%Z in H.
        pose proof (DoubleProofs.p10_pred (-2147483590)). change (-2147483590 - 1)%Z with (-2147483591)%Z in H0.
        pose proof (p10_pos (-2147483592)). lra.
      + apply Rle_trans with (/ 2 * (Rabs (value v) * p2 e)); [lra|].
        replace (/ 2 * (Rabs (value v) * p2 e)) with (Rabs (value v) * (p2 e / 2)) by field. apply Rmult_le_compat_l; lra.
    - apply Rle_lt_trans with (p10 2147483590); [|apply p10_lt; lia]. apply Rle_trans with (2 := R2). apply Rmult_le_compat_l; lra. }
  destruct (mul_eps_acc d v q Hd Fv Q1 Pv Q2 V ltac:(lra) He') as (M1 & M2 & M3 & M4 & M5).
  split; [exact M1|]. split; [exact M2|].
  rewrite Rabs_mult, (Rabs_pos_eq (p2 e)) by lra. rewrite Rabs_mult, (Rabs_pos_eq (value q)) in M4, M5 by lra.
  split. { apply Rmult_lt_reg_r with (value q); [lra|]. rewrite Rmult_0_l. lra. }
  assert (U : Rabs (value v) * value q <= Rabs (value v) * p2 e) by (apply Rmult_le_compat_l; lra).
  split; [lra|].
  assert (W : Rabs (value v) * (p2 e - value q) <= Rabs (value v) * (IZR (Z.abs e) * product_error d * p2 e)) by (apply Rmult_le_compat_l; lra).
  assert (Y : product_error d * (Rabs (value v) * value q) <= product_error d * (Rabs (value v) * p2 e)) by (apply Rmult_le_compat_l; lra).
  rewrite plus_IZR. set (X := Rabs (value v)) in *. set (T := product_error d) in *. set (Q := value q) in *. set (P := p2 e) in *.
  replace ((IZR (Z.abs e) + 1) * T * (X * P)) with (X * (IZR (Z.abs e) * T * P) + T * (X * P)) by ring. lra.
Qed.

Lemma ldexp_exact d v e K i : valid_digits d -> finite d v -> full d v -> (-2147483648 <= e <= 2147483647)%Z ->
  in_range (value v * p2 e) -> value v = IZR K * p10 i ->
  ((0 <= e)%Z /\ (Z.abs K * 2 ^ e < 10 ^ (d + 3))%Z) \/ ((e < 0)%Z /\ (Z.abs K * 5 ^ (- e) < 10 ^ (d + 3))%Z) ->
  exists r, ldexp d v e = Defined r /\ value r = value v * p2 e.
Proof.
  intros Hd Fv Pv He RG EK HK. destruct (pow2_accurate d e Hd ltac:(lia)) as (q & Q0 & Q1 & Q2 & Q3 & Q4 & Q5 & Q6).
  exists (mul d v q). unfold ldexp. rewrite Q0. split; [reflexivity|].
  assert (V : value v <> 0). { intro V. apply (in_range_nonzero _ RG). rewrite V. ring. }
  assert (NK : (1 <= Z.abs K)%Z). { destruct (Z.eq_dec K 0) as [->|N]; [|lia]. exfalso. apply V. rewrite EK. ring. }
  assert (X : value q = p2 e).
  { apply Q6. destruct HK as [[H1 H2]|[H1 H2]]; [left|right]; (split; [exact H1|]).
    - assert (0 < 2 ^ e)%Z by (apply Z.pow_pos_nonneg; lia). nia.
    - assert (0 < 5 ^ (- e))%Z by (apply Z.pow_pos_nonneg; lia). nia. }
  rewrite <- X. pose proof (p2_pos e) as P0.
  assert (He' : (-2147483616 < exp v + exp q < 2147483616)%Z).
  { apply (exps_of_product d); auto; [lra|]. rewrite X. destruct RG as [R1 R2]. split.
    - apply Rlt_le_trans with (2 := R1). apply p10_lt. lia.
    - apply Rle_lt_trans with (1 := R2). apply p10_lt. lia. }
  destruct HK as [[H1 H2]|[H1 H2]].
  - apply (mul_exact_digits d v q K i (2 ^ e) 0); auto.
    + rewrite X, p10_0, Rmult_1_r. rewrite powerRZ_pow by lia. rewrite <- (Z2Nat.id e) at 2 by lia. apply pow_IZR.
    + rewrite Z.abs_mul, (Z.abs_eq (2 ^ e)) by (apply Z.pow_nonneg; lia). exact H2.
  - apply (mul_exact_digits d v q K i (5 ^ (- e)) e); auto.
    + rewrite X. set (k := (- e)%Z). replace e with (- k)%Z by lia. rewrite p2_inv, p10_inv.
      replace (IZR (5 ^ k)) with (powerRZ 5 k).
      2:{ rewrite powerRZ_pow by lia. rewrite <- (Z2Nat.id k) at 2 by lia. apply pow_IZR. }
      replace 10 with (2 * 5) by lra. rewrite powerRZ_mult.
      pose proof (powerRZ_NOR 2 k ltac:(lra)). pose proof (powerRZ_NOR 5 k ltac:(lra)). field. auto.
    + rewrite Z.abs_mul, (Z.abs_eq (5 ^ (- e))) by (apply Z.pow_nonneg; lia). exact H2.
Qed.

Lemma ldexp_special d v e : valid_digits d -> wf d v -> (-2147483648 <= e <= 2147483647)%Z ->
  exists r, ldexp d v e = Defined r /\ (is_nan v -> is_nan r) /\ (forall s, is_inf v s -> is_inf r s).
Proof.
  intros Hd Wv He. destruct (pow2_accurate d e Hd ltac:(lia)) as (q & Q0 & Q1 & Q2 & Q3 & Q4 & Q5 & _).
  exists (mul d v q). unfold ldexp. rewrite Q0. split; [reflexivity|]. pose proof (p2_pos e).
  destruct (mul_special d v q Hd Wv (proj1 Q1)) as (M1 & _ & _ & M4 & _). split; [auto|].
  intros s I. specialize (M4 s I Q1 ltac:(lra)).
  assert (N : neg q = false).
  { pose proof (finite_value_sign d q Hd Q1 (value_nonzero_lead d q Hd Q1 ltac:(lra))) as S. destruct (neg q); auto. lra. }
  rewrite N, xorb_false_r in M4. exact M4.
Qed.

(** ** frexp *)

(* mantissa * 2^exponent is close to the argument, as long as the exponent fits *)
Lemma frexp_product d v : valid_digits d -> finite d v -> full d v -> value v <> 0 ->
  (-2147483647 <= parts_exponent v <= 2147483648)%Z -> in_range (value v * p2 (- parts_exponent v)) ->
  exists m e, frexp d v = Defined (m, e) /\ finite d m /\ 0 < value m * value v /\
  Rabs (value m * p2 e) <= Rabs (value v) /\
  Rabs (value v) - Rabs (value m * p2 e) <= IZR (Z.abs e + 1) * product_error d * Rabs (value v).
Proof.
  intros Hd Fv Pv V He RG. set (i := parts_exponent v) in *.
  destruct (ldexp_accurate d v (- i) Hd Fv Pv ltac:(lia)) as (r & E & _ & A). destruct (A RG) as (A1 & A2 & A3 & A4 & A5). clear A.
  exists r, i. split.
  { unfold frexp. fold i. unfold ldexp in E. destruct (pow2 d (- i)) as [q|]; [|discriminate E]. cbn in *. injection E as <-. reflexivity. }
  split; [exact A1|]. split; [exact A3|].
  rewrite Rabs_mult in *. pose proof (p2_pos i) as P0. pose proof (p2_pos (- i)) as P1.
  rewrite (Rabs_pos_eq (p2 i)) by lra. rewrite (Rabs_pos_eq (p2 (- i))) in * by lra.
  assert (I : p2 (- i) * p2 i = 1). { rewrite <- p2_add. replace (- i + i)%Z with 0%Z by lia. reflexivity. }
  rewrite Z.abs_opp in A5. set (T := IZR (Z.abs i + 1) * product_error d) in *.
  replace (Rabs (value v)) with (Rabs (value v) * p2 (- i) * p2 i) by (rewrite Rmult_assoc, I; ring).
  split; [apply Rmult_le_compat_r; lra|].
  replace (Rabs (value v) * p2 (- i) * p2 i - Rabs (value r) * p2 i) with ((Rabs (value v) * p2 (- i) - Rabs (value r)) * p2 i) by ring.
  rewrite <- Rmult_assoc. apply Rmult_le_compat_r; lra.
Qed.

Lemma frexp_eight : exists m, frexp 30 (of_sll 30 8) = Defined (m, 0%Z) /\ value m = 8.
Proof.
  exists (mul 30 (of_sll 30 8) (of_limbs 30 [1%Z] 0 false)). split; [vm_compute; reflexivity|].
  destruct (of_sll_spec 30 8 valid_30 ltac:(lia)) as (_ & _ & E & _). rewrite <- E.
  replace (mul 30 (of_sll 30 8) (of_limbs 30 [1%Z] 0 false)) with (of_sll 30 8) by (vm_compute; reflexivity). reflexivity.
Qed.

(* 1000 is "0.125 * 2^3": the exponent is the decimal one *)
Lemma frexp_thousand : exists m, frexp 30 (of_sll 30 1000) = Defined (m, 3%Z) /\ value m = 125.
Proof.
  exists (mul 30 (of_sll 30 1000) (match pow2 30 (-3) with Defined q => q | _ => zero 30 end)). split; [vm_compute; reflexivity|].
  destruct (of_sll_spec 30 125 valid_30 ltac:(lia)) as (_ & _ & E & _). rewrite <- E.
  set (m := mul 30 _ _).
  assert (F1 : finite 30 m) by (apply wfb_finite; vm_compute; reflexivity).
  assert (F2 : finite 30 (of_sll 30 125)) by (apply wfb_finite; vm_compute; reflexivity).
  destruct (cmp_all_ops 30 m (of_sll 30 125) valid_30 F1 F2) as (_ & _ & EQ & _). apply EQ. vm_compute. reflexivity.
Qed.

Lemma sgn_spec d x : valid_digits d -> finite d x ->
  (value x < 0 -> sgn x = (-1)%Z) /\ (value x = 0 -> sgn x = 0%Z) /\ (0 < value x -> sgn x = 1%Z).
Proof.
  intros Hd F. unfold sgn. destruct (iszero_isneg_spec d x Hd F) as [A B].
  destruct (iszero x) eqn:Z0.
  - assert (V : value x = 0) by (apply A; reflexivity). rewrite V. split; [lra|]. split; [auto|lra].
  - assert (V : value x <> 0) by (intro V; apply A in V; discriminate).
    destruct (isneg x) eqn:N.
    + assert (value x < 0) by (apply B; reflexivity). split; [auto|]. split; [lra|lra].
    + assert (~ value x < 0) by (intro H; apply B in H; discriminate). split; [lra|]. split; [lra|auto].
Qed.
