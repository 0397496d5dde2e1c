(** * Remainders of integers by fmod (proofs only). *)

From Coq Require Import ZArith List Bool Reals Lra Lia Psatz.
From Verif Require Import Model Spec Limbs Value CmpProofs AddProofs Decide OrderProofs MulProofs MulValue MulExtra MulCor
  IntProofs IntPartProofs IntConv IntCor ModelDiv DoubleProofs NewtonProofs InvProofs ModelPow PowGen PowProofs PowExtra LdexpProofs.
Import ListNotations.
Open Scope R_scope.
Local Notation p10 := (powerRZ 10).
Local Notation exp := Model.exp.

Lemma in_range_65000 r : p10 (-65000) <= Rabs r <= p10 65000 -> in_range r.
Proof.
  intros [A B]. unfold in_range.
  pose proof (p10_le (-2147483590) (-65000) ltac:(lia)). pose proof (p10_le 65000 2147483590 ltac:(lia)). lra.
Qed.

Lemma IZR_p10 k : (0 <= k)%Z -> IZR (10 ^ k) = p10 k.
Proof. intro H. rewrite (p10_nonneg k H). reflexivity. Qed.

Lemma full_integer_part d x : full d x -> full d (integer_part d x).
Proof.
  unfold full, integer_part. intro F. destruct (negb (isfinite x)); auto.
  destruct (exp x <? 0)%Z; [reflexivity|]. destruct (exp x >=? d - 1)%Z; auto.
Qed.

(* truncation of a nearby quotient *)
Lemma near_quotient a b q dl : (0 < b)%Z -> (0 < a)%Z -> ~ (b | a)%Z ->
  Rabs (q - IZR a / IZR b) < / IZR b -> is_floor q dl -> dl = IZR (a / b).
Proof.
  intros Hb Ha Hnd Hq (k & -> & Hk1 & Hk2). f_equal.
  assert (HB : 0 < IZR b) by (apply IZR_lt; lia).
  pose proof (Z.div_mod a b ltac:(lia)) as E. pose proof (Z.mod_pos_bound a b Hb) as Hm.
  assert (Hm0 : (a mod b <> 0)%Z) by (intro H; apply Hnd; apply Z.mod_divide; lia).
  apply Rabs_def2 in Hq. destruct Hq as [H1 H2].
  assert (Q : IZR a / IZR b * IZR b = IZR a) by (field; lra).
  assert (I : / IZR b * IZR b = 1) by (field; lra).
  assert (T1 : q * IZR b < IZR a + 1) by nra.
  assert (T2 : IZR a - 1 < q * IZR b) by nra.
  assert (U1 : (k * b < a + 1)%Z). { apply lt_IZR. rewrite mult_IZR, plus_IZR. nra. }
  assert (U2 : (a - 1 < (k + 1) * b)%Z). { apply lt_IZR. rewrite mult_IZR, plus_IZR, minus_IZR. nra. }
  symmetry. set (c := (a / b)%Z) in *. set (m := (a mod b)%Z) in *. clearbody c m.
  assert ((k - c) * b <= m)%Z by lia. assert (m <= (k + 1 - c) * b)%Z by lia. nia.
Qed.

Lemma fmod_core d u v q a b : valid_digits d -> (d <= 65000)%Z -> finite d u -> finite d v -> full d v -> finite d q -> full d q ->
  value u = IZR a -> value v = IZR b -> value q = IZR (Z.quot a b) -> (0 < b)%Z ->
  (Z.abs a < 10 ^ (d - 2))%Z -> (b < 10 ^ (d - 2))%Z ->
  finite d (sub d u (mul d q v)) /\ value (sub d u (mul d q v)) = IZR (Z.rem a b).
Proof.
  intros Hd Hd6 Fu Fv Lv Fq Lq Va Vb Vq Hb Ha Hb2.
  pose proof (elem_lower d Hd) as He. assert (Hd30 : (30 <= d)%Z) by (unfold valid_digits in Hd; lia).
  pose proof (Z.quot_rem' a b) as E.
  assert (Hq : (Z.abs (Z.quot a b * b) <= Z.abs a)%Z).
  { destruct (Z.le_ge_cases 0 a) as [G|L].
    - pose proof (Z.rem_bound_pos a b G ltac:(lia)). assert (0 <= Z.quot a b)%Z by nia. nia.
    - pose proof (Z.rem_bound_pos_neg a b Hb L). assert (Z.quot a b <= 0)%Z by nia. nia. }
  assert (Hpw : (10 ^ (d - 2) < 10 ^ (d + 3))%Z) by (apply Z.pow_lt_mono_r; lia).
  assert (Hpw2 : (2 * 10 ^ (d - 2) <= 10 ^ (8 * (elem_number d - 1)))%Z).
  { apply Z.le_trans with (10 ^ (1 + (d - 2)))%Z; [|apply Z.pow_le_mono_r; lia].
    rewrite Z.pow_add_r by lia. assert (0 < 10 ^ (d - 2))%Z by (apply Z.pow_pos_nonneg; lia). lia. }
  assert (P : finite d (mul d q v) /\ value (mul d q v) = IZR (Z.quot a b * b)).
  { destruct (Z.eq_dec (Z.quot a b) 0) as [Z0|NZ].
    - rewrite (mul_zero_l d q v) by (auto; left; rewrite Vq, Z0; reflexivity).
      destruct (zero_ok d Hd) as (F & _ & V). split; auto. rewrite V, Z0. reflexivity.
    - assert (NQ : value q <> 0) by (rewrite Vq; apply not_0_IZR; auto).
      assert (NV : value v <> 0) by (rewrite Vb; apply not_0_IZR; lia).
      assert (X : (-2147483616 < exp q + exp v < 2147483616)%Z).
      { apply (exps_of_product d q v); auto. rewrite Vq, Vb, <- mult_IZR, <- abs_IZR.
        set (z := Z.abs (Z.quot a b * b)) in *.
        assert (1 <= z)%Z by (unfold z; nia).
        split.
        - apply Rlt_le_trans with 1; [rewrite <- p10_0; apply p10_lt; lia|apply IZR_le; auto].
        - apply Rlt_le_trans with (p10 (d - 2)); [|apply p10_le; lia].
          rewrite <- IZR_p10 by lia. apply IZR_lt. lia. }
      destruct (mul_eps_acc d q v) as (F & _); auto. split; auto.
      rewrite (mul_exact_digits d q v (Z.quot a b) 0 b 0); auto.
      + rewrite Vq, Vb, mult_IZR. reflexivity.
      + rewrite p10_0, Vq. ring.
      + rewrite p10_0, Vb. ring.
      + lia. }
  destruct P as [Fp Vp].
  destruct (add_int_exact d u (mul d q v) a (Z.quot a b * b)) as (_ & _ & F & V); auto; [lia|].
  split; auto. rewrite V. f_equal. lia.
Qed.

Lemma fmod_integers d u v a b : valid_digits d -> (d <= 65000)%Z -> finite d u -> finite d v -> full d u -> full d v ->
  value u = IZR a -> value v = IZR b -> (0 < b)%Z -> ~ (b | a)%Z ->
  (Z.abs a < 10 ^ (d - 2))%Z -> (b < 10 ^ (d - 2))%Z ->
  finite d (fmod d u v) /\ value (fmod d u v) = IZR (Z.rem a b).
Proof.
  intros Hd Hd6 Fu Fv Lu Lv Va Vb Hb Hnd Ha Hb2.
  assert (Hd30 : (30 <= d)%Z) by (unfold valid_digits in Hd; lia).
  assert (Na : (a <> 0)%Z) by (intro; subst a; apply Hnd; exists 0%Z; lia).
  assert (HB : 0 < IZR b) by (apply IZR_lt; lia).
  assert (HB1 : 1 <= IZR b) by (apply IZR_le; lia).
  assert (HA1 : 1 <= Rabs (IZR a)) by (rewrite <- abs_IZR; apply IZR_le; lia).
  assert (HA2 : Rabs (IZR a) < p10 (d - 2)) by (rewrite <- IZR_p10, <- abs_IZR by lia; apply IZR_lt; lia).
  assert (HB2 : IZR b < p10 (d - 2)) by (rewrite <- IZR_p10 by lia; apply IZR_lt; lia).
  assert (Hq : Rabs (IZR a / IZR b) = Rabs (IZR a) / IZR b).
  { unfold Rdiv. rewrite Rabs_mult, Rabs_inv, (Rabs_right (IZR b)) by lra. reflexivity. }
  assert (Rq : p10 (- (d - 2)) <= Rabs (IZR a) / IZR b <= p10 (d - 2)).
  { split.
    - rewrite p10_inv. apply Rle_trans with (/ IZR b); [apply Rinv_le_contravar; lra|].
      unfold Rdiv. rewrite <- (Rmult_1_l (/ IZR b)) at 1. apply Rmult_le_compat_r; auto.
      left; apply Rinv_0_lt_compat; auto.
    - apply Rmult_le_reg_r with (IZR b); auto. unfold Rdiv. rewrite Rmult_assoc, Rinv_l by lra. nra. }
  destruct (div_accurate d u v Hd Hd6 Fu Fv Lu Lv) as (Fq & Lq & Sq & Aq & _).
  { rewrite Vb. apply in_range_65000. rewrite Rabs_right by lra. pose proof (p10_le (-65000) 0 ltac:(lia)) as X.
    rewrite p10_0 in X. pose proof (p10_le (d - 2) 65000 ltac:(lia)). lra. }
  { rewrite Va, Vb. apply in_range_65000. rewrite Hq.
    pose proof (p10_le (-65000) (- (d - 2)) ltac:(lia)). pose proof (p10_le (d - 2) 65000 ltac:(lia)). lra. }
  { left. rewrite Va, Vb, <- !abs_IZR. intro E. apply eq_IZR in E. apply Hnd.
    destruct (Z.le_ge_cases 0 a); [exists 1%Z|exists (-1)%Z]; lia. }
  rewrite Va, Vb in Sq, Aq. set (q := div d u v) in *.
  assert (Aq' : Rabs (value q - IZR a / IZR b) < / IZR b).
  { eapply Rlt_le_trans; [exact Aq|]. rewrite Hq. unfold Rdiv. rewrite <- Rmult_assoc.
    rewrite <- (Rmult_1_l (/ IZR b)) at 2. apply Rmult_le_compat_r; [left; apply Rinv_0_lt_compat; auto|].
    apply Rle_trans with (p10 (- d) * p10 d).
    - apply Rmult_le_compat_l; [left; apply p10_pos|]. pose proof (p10_le (d - 2) d ltac:(lia)). lra.
    - rewrite <- p10_add, Z.add_opp_diag_l, p10_0. lra. }
  assert (Hqb : Rabs (value q) < p10 (d - 1) - 1).
  { assert (Rabs (value q) <= Rabs (IZR a / IZR b) + Rabs (value q - IZR a / IZR b)).
    { replace (value q) with (IZR a / IZR b + (value q - IZR a / IZR b)) at 1 by ring. apply Rabs_triang. }
    rewrite Hq in *. assert (/ IZR b <= 1) by (rewrite <- Rinv_1; apply Rinv_le_contravar; lra).
    replace (d - 1)%Z with (1 + (d - 2))%Z by lia. rewrite p10_add, p10_1.
    pose proof (p10_le 1 (d - 2) ltac:(lia)) as X. rewrite p10_1 in X. lra. }
  assert (Nq : value q <> 0) by (intro X; rewrite X in Sq; lra).
  unfold fmod. fold q.
  assert (Hm : (isneg u = true -> (a < 0)%Z) /\ (isneg u = false -> (0 < a)%Z)).
  { destruct (isneg_spec d u Hd Fu) as [I1 I2]. split; intro H.
    - apply lt_IZR. rewrite <- Va. auto.
    - destruct (Z.lt_ge_cases 0 a); auto. exfalso.
      assert (value u < 0) by (rewrite Va; apply IZR_lt; lia). apply I2 in H1. congruence. }
  destruct Hm as [M1 M2].
  assert (IB : 0 < / IZR b) by (apply Rinv_0_lt_compat; auto).
  destruct (isneg u).
  - specialize (M1 eq_refl). clear M2.
    assert (IZR a <= -1) by (apply (IZR_le a (-1)); lia).
    assert (Nq' : value q < 0).
    { assert (IZR a / IZR b < 0) by (unfold Rdiv; nra). nra. }
    assert (En : isneg q = true) by (apply (isneg_spec d q Hd Fq); auto).
    destruct (ceil_spec d q Hd Fq Hqb) as (Fc & Cc).
    assert (Lc : full d (ceil d q)).
    { unfold ceil. destruct (negb (isfinite q) || isint d q)%bool; auto. rewrite En. apply full_integer_part; auto. }
    apply (fmod_core d u v (ceil d q) a b); auto.
    destruct Cc as (k & E & Hk). rewrite E.
    assert (Fl : is_floor (- value q) (IZR (- k))).
    { exists (- k)%Z. split; auto. rewrite opp_IZR. lra. }
    apply (near_quotient (- a) b) in Fl; auto; [|lia|rewrite Z.divide_opp_r; auto|].
    + rewrite <- Z.quot_div_nonneg, Z.quot_opp_l in Fl by lia. apply eq_IZR in Fl. f_equal. lia.
    + rewrite opp_IZR. replace (- value q - - IZR a / IZR b) with (- (value q - IZR a / IZR b)) by (field; lra).
      rewrite Rabs_Ropp. auto.
  - specialize (M2 eq_refl). clear M1.
    assert (1 <= IZR a) by (apply (IZR_le 1 a); lia).
    assert (Nq' : 0 < value q).
    { assert (0 < IZR a / IZR b) by (unfold Rdiv; nra). nra. }
    assert (En : isneg q = false).
    { destruct (isneg q) eqn:X; auto. apply (isneg_spec d q Hd Fq) in X. lra. }
    destruct (floor_spec d q Hd Fq Hqb) as (Fc & Cc).
    assert (Lc : full d (floor d q)).
    { unfold floor. destruct (negb (isfinite q) || isint d q)%bool; auto. rewrite En. apply full_integer_part; auto. }
    apply (fmod_core d u v (floor d q) a b); auto.
    rewrite (near_quotient a b _ _ Hb M2 Hnd Aq' Cc), Z.quot_div_nonneg by lia. reflexivity.
Qed.

Lemma fmod_examples :
  value (fmod 30 (of_sll 30 6) (of_sll 30 3)) = 3 /\
  value (fmod 30 (of_sll 30 (-3)) (of_sll 30 3)) = -6 /\
  value (fmod 30 (of_sll 30 7) (of_sll 30 (-3))) = -2.
Proof.
  assert (H : forall x n, (wfb 30 x && isfinite x)%bool = true -> op_eq x (of_sll 30 n) = true ->
     (-9223372036854775808 <= n < 9223372036854775808)%Z -> value x = IZR n).
  { intros x n Hx Hn Hb. apply wfb_finite in Hx.
    destruct (of_sll_spec 30 n valid_30 Hb) as (F & _ & V & _). rewrite <- V.
    destruct (cmp_all_ops 30 x (of_sll 30 n) valid_30 Hx F) as (_ & _ & EQ & _). apply EQ; auto. }
  split; [|split]; apply H; try lia; vm_compute; reflexivity.
Qed.

Lemma fmod_refuted :
  value (of_sll 30 6) = 6 /\ value (of_sll 30 3) = 3 /\ value (of_sll 30 7) = 7 /\ value (of_sll 30 (-3)) = -3 /\
  value (fmod 30 (of_sll 30 6) (of_sll 30 3)) = 3 /\
  value (fmod 30 (of_sll 30 (-3)) (of_sll 30 3)) = -6 /\
  value (fmod 30 (of_sll 30 7) (of_sll 30 (-3))) = -2.
Proof.
  assert (H : forall n, (-100 <= n <= 100)%Z -> value (of_sll 30 n) = IZR n).
  { intros n Hn. apply of_sll_spec; [apply valid_30|lia]. }
  rewrite (H 6%Z), (H 3%Z), (H 7%Z), (H (-3)%Z) by lia. split; [reflexivity|]. split; [reflexivity|].
  split; [reflexivity|]. split; [reflexivity|]. exact fmod_examples.
Qed.

Lemma pow_defined d b :
  (forall n, (-9223372036854775808 < n < 9223372036854775808)%Z ->
     (exists r, pow_int d b n = Defined r) /\ (exists r, pown d b n = Defined r)) /\
  (valid_digits d -> forall r, pow_int d b 0 = Defined r \/ pown d b 0 = Defined r -> finite d r /\ value r = 1).
Proof.
  split.
  - intros n Hn. unfold pow_int, pown, pow_gen, pown_gen.
    destruct (Z.ltb_spec n 0); [|split; eexists; reflexivity].
    change sll_min with (-9223372036854775808)%Z. destruct (Z.eqb_spec n (-9223372036854775808)); [lia|].
    split; eexists; reflexivity.
  - intros Hd r E. destruct (pow_zero_exponent d b) as [A B].
    destruct (one_ok d Hd) as (O1 & _ & O3). destruct (one_s_ok d Hd) as (S1 & _ & S3).
    destruct E as [E|E]; rewrite ?A, ?B in E; injection E as <-; auto.
Qed.
