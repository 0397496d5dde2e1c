(** * pochhammer(e_float, n): accuracy for positive arguments, exact on integers
      (proofs only) *)

From Coq Require Import ZArith List Bool Reals Lra Lia Psatz.
From Verif Require Import Model Spec SpecGen Limbs Value CmpProofs AddProofs Decide OrderProofs MulProofs MulValue MulExtra MulCor
  IntProofs IntPartProofs IntConv MixedProofs IntCor ModelDiv DoubleProofs NewtonProofs InvProofs SqrtProofs ModelPow PowGen PowProofs PowExtra FloatEval ModelGen.
Import ListNotations.
Open Scope R_scope.
Local Notation p10 := (powerRZ 10).
Local Notation exp := Model.exp.
Local Notation eps := product_error.

Local Lemma Rabs_le_inv x y : Rabs x <= y -> - y <= x <= y.
Proof. intro H. split; [apply Rle_trans with (- Rabs x); [lra|pose proof (Rle_abs (- x)) as A; rewrite Rabs_Ropp in A; lra]|pose proof (Rle_abs x); lra]. Qed.

(** v is within a factor (1 +- e)^n of t *)
Definition near (e : R) (n : nat) (t v : R) : Prop := (1 - e) ^ n * t <= v <= (1 + e) ^ n * t.

Lemma ok_one d : valid_digits d -> ok d 0 (one d) /\ value (one d) = 1.
Proof.
  intro Hd. destruct (one_ok d Hd) as (F & L & V). split; [|exact V]. split; [exact F|]. split; [exact L|].
  rewrite V. right. rewrite Rabs_R1. change (- 0)%Z with 0%Z. rewrite !powerRZ_O. lra.
Qed.

Lemma near_inc d e i m t x : valid_digits d -> (d <= 65000)%Z -> (0 <= m <= 2147483000)%Z -> e = eps d -> 0 < t ->
  ok d m x -> near e i t (value x) ->
  ok d (m + 70000) (add d x (one d)) /\ near e (S i) (t + 1) (value (add d x (one d))).
Proof.
  intros Hd Hd' Hm -> Ht Ox N. destruct (ok_one d Hd) as [O1 V1].
  destruct (ok_add d m x (one d) Hd Hd' Hm Ox (ok_le d 0 m _ ltac:(lia) O1)) as [O E]. split; [exact O|].
  rewrite V1, Rabs_R1 in E. pose proof (tiny_below d Hd Hd') as T. pose proof (eps_pos d Hd) as Ep. pose proof p10_m36 as E36.
  destruct N as [N1 N2]. set (e := eps d) in *.
  assert (A1 : 0 <= (1 - e) ^ i <= 1). { split; [apply pow_le; lra|]. apply Rle_trans with (1 ^ i); [apply pow_incr; lra|rewrite pow1; lra]. }
  assert (A2 : 1 <= (1 + e) ^ i) by (apply pow_R1_Rle; lra).
  assert (V0 : 0 <= value x) by nra.
  assert (M : Rmax (Rabs (value x)) 1 <= value x + 1) by (rewrite Rabs_pos_eq by lra; apply Rmax_lub; lra).
  assert (E' : Rabs (value (add d x (one d)) - (value x + 1)) <= e * (value x + 1)).
  { apply Rle_trans with (1 := E). apply Rmult_le_compat; try lra. apply Rle_trans with 1; [lra|apply Rmax_r]. }
  apply Rabs_le_inv in E'. clear E M T. set (s := value (add d x (one d))) in *. set (v := value x) in *. clearbody s v.
  unfold near. cbn [pow]. set (l := (1 - e) ^ i) in *. set (u := (1 + e) ^ i) in *. clearbody l u. split.
  - apply Rle_trans with ((1 - e) * (v + 1)); [|lra]. rewrite Rmult_assoc. apply Rmult_le_compat_l; lra.
  - apply Rle_trans with ((1 + e) * (v + 1)); [lra|]. rewrite Rmult_assoc. apply Rmult_le_compat_l; lra.
Qed.

Lemma near_mul d e i j m m' t s x y : valid_digits d -> (0 <= m)%Z -> (0 <= m')%Z -> (m + m' <= 2147483000)%Z -> e = eps d -> 0 < t -> 0 < s ->
  ok d m x -> ok d m' y -> near e i t (value x) -> near e j s (value y) ->
  ok d (m + m' + 1) (mul d x y) /\ near e (S (i + j)) (t * s) (value (mul d x y)).
Proof.
  intros Hd H1 H2 H3 -> Ht Hs Ox Oy [N1 N2] [N3 N4]. destruct (ok_mul d m m' x y Hd H1 H2 H3 Ox Oy) as [O E]. split; [exact O|].
  pose proof (eps_pos d Hd) as Ep. pose proof p10_m36 as E36. set (e := eps d) in *.
  assert (A : forall k, 0 <= (1 - e) ^ k) by (intro; apply pow_le; lra). assert (B : forall k, 0 <= (1 + e) ^ k) by (intro; apply pow_le; lra).
  assert (V1 : 0 <= value x) by (apply Rle_trans with (2 := N1); apply Rmult_le_pos; [apply A|lra]).
  assert (V2 : 0 <= value y) by (apply Rle_trans with (2 := N3); apply Rmult_le_pos; [apply A|lra]).
  rewrite (Rabs_pos_eq (value x * value y)) in E by (apply Rmult_le_pos; assumption). apply Rabs_le_inv in E.
  unfold near. cbn [pow]. rewrite !pow_add. split.
  - apply Rle_trans with ((1 - e) * (value x * value y)); [|lra].
    replace ((1 - e) * ((1 - e) ^ i * (1 - e) ^ j) * (t * s)) with ((1 - e) * (((1 - e) ^ i * t) * ((1 - e) ^ j * s))) by ring.
    apply Rmult_le_compat_l; [lra|]. apply Rmult_le_compat; auto; apply Rmult_le_pos; auto; lra.
  - apply Rle_trans with ((1 + e) * (value x * value y)); [lra|].
    replace ((1 + e) * ((1 + e) ^ i * (1 + e) ^ j) * (t * s)) with ((1 + e) * (((1 + e) ^ i * t) * ((1 + e) ^ j * s))) by ring.
    apply Rmult_le_compat_l; [lra|]. apply Rmult_le_compat; auto.
Qed.

(** val has i factors, term is the last one *)
Fixpoint cost (k i : nat) : nat := match k with O => O | S j => S (S i) + cost j (S i) end.

Lemma poch_loop_near d m x : valid_digits d -> (d <= 65000)%Z -> (0 <= m <= 20000000)%Z -> ok d m x -> 0 < value x ->
  forall k i n val term, (i + k <= 49)%nat ->
  ok d (m + 70000 * Z.of_nat i) term -> near (eps d) i (value x + INR i) (value term) ->
  ok d ((m + 3500001) * (Z.of_nat i + 1)) val -> near (eps d) n (rising_factorial (value x) (S i)) (value val) ->
  let r := poch_loop (mul d) (fun t => add d t (one d)) k val term in
  ok d ((m + 3500001) * (Z.of_nat (i + k) + 1)) r /\ near (eps d) (n + cost k i) (rising_factorial (value x) (S (i + k))) (value r).
Proof.
  intros Hd Hd' Hm Ox Hx. assert (Pos : forall j, 0 < rising_factorial (value x) j).
  { induction j as [|j IH]; cbn [rising_factorial]; [lra|]. apply Rmult_lt_0_compat; [exact IH|]. pose proof (pos_INR j). lra. }
  induction k as [|k IH]; intros i n val term Hk Ot Nt Ov Nv r; cbn [poch_loop] in r.
  - unfold r. cbn [cost]. rewrite !Nat.add_0_r. auto.
  - destruct (near_inc d (eps d) i (m + 70000 * Z.of_nat i) (value x + INR i) term Hd Hd' ltac:(lia) eq_refl) as [Ot' Nt']; auto.
    { pose proof (pos_INR i). lra. }
    set (t' := add d term (one d)) in *.
    destruct (near_mul d (eps d) n (S i) ((m + 3500001) * (Z.of_nat i + 1)) (m + 3500000) (rising_factorial (value x) (S i)) (value x + INR i + 1) val t' Hd) as [Om Nm]; auto; try nia.
    { pose proof (pos_INR i). lra. }
    { apply (ok_le d (m + 70000 * Z.of_nat i + 70000)); [lia|exact Ot']. }
    replace (i + S k)%nat with (S i + k)%nat by lia. replace (n + cost (S k) i)%nat with (S (n + S i) + cost k (S i))%nat by (cbn [cost]; lia).
    apply IH; [lia| | | |].
    + apply (ok_le d (m + 70000 * Z.of_nat i + 70000)); [lia|exact Ot'].
    + rewrite S_INR, <- Rplus_assoc. exact Nt'.
    + apply (ok_le d ((m + 3500001) * (Z.of_nat i + 1) + (m + 3500000) + 1)); [nia|exact Om].
    + change (rising_factorial (value x) (S (S i))) with (rising_factorial (value x) (S i) * (value x + INR (S i))). rewrite S_INR, <- Rplus_assoc. exact Nm.
Qed.

Lemma near_rel e n t v : 0 <= e -> INR n * e <= / 2 -> 0 <= t -> near e n t v -> Rabs (v - t) <= 2 * INR n * e * t.
Proof.
  intros He Hn Ht [H1 H2]. destruct n as [|n'].
  { cbn in *. replace (v - t) with 0 by lra. rewrite Rabs_R0. lra. }
  set (n := S n') in *. assert (e <= / 2). { assert (1 <= INR n) by (unfold n; rewrite S_INR; pose proof (pos_INR n'); lra). nra. }
  assert (B : forall k, 1 - INR k * e <= (1 - e) ^ k).
  { induction k as [|k IH]; [cbn; lra|]. rewrite S_INR. cbn [pow]. pose proof (pos_INR k). nra. }
  pose proof (B n) as Bn.
  assert (U : (1 + e) ^ n <= 1 + 2 * INR n * e).
  { assert (P : (1 + e) ^ n * (1 - e) ^ n <= 1). { rewrite <- Rpow_mult_distr. apply Rle_trans with (1 ^ n); [apply pow_incr; nra|rewrite pow1; lra]. }
    assert (0 < (1 + e) ^ n) by (apply pow_lt; lra). set (q := INR n * e) in *. assert (Q0 : 0 <= q) by (unfold q; apply Rmult_le_pos; [apply pos_INR|lra]).
    assert (X : (1 + e) ^ n * (1 - q) <= 1) by nra. replace (2 * INR n * e) with (2 * q) by (unfold q; ring).
    apply Rmult_le_reg_r with (1 - q); [lra|]. nra. }
  apply Rabs_le. split.
  - assert ((1 - INR n * e) * t <= v) by (apply Rle_trans with (2 := H1); apply Rmult_le_compat_r; assumption).
    assert (0 <= INR n * e * t) by (apply Rmult_le_pos; [apply Rmult_le_pos; [apply pos_INR|lra]|lra]). lra.
  - assert (v <= (1 + 2 * INR n * e) * t) by (apply Rle_trans with (1 := H2); apply Rmult_le_compat_r; assumption). lra.
Qed.

Lemma pochhammer_accuracy d x n : valid_digits d -> (d <= 65000)%Z -> (n < 50)%nat ->
  finite d x -> full d x -> 0 < value x -> moderate 20000000 (value x) ->
  Rabs (value (pochhammer_ef d x n) - rising_factorial (value x) n) <= 500 * p10 (- d) * rising_factorial (value x) n.
Proof.
  intros Hd Hd' Hn F L Hx Mx. pose proof (conj F (conj L Mx)) as Ox. change (finite d x /\ full d x /\ moderate 20000000 (value x)) with (ok d 20000000 x) in Ox.
  pose proof (eps_small d Hd Hd') as Es. pose proof (eps_pos d Hd) as Ep. pose proof p10_m36 as E36.
  unfold pochhammer_ef, pochhammer. destruct n as [|[|m]].
  - cbn [rising_factorial]. rewrite (proj2 (ok_one d Hd)). rewrite Rminus_eq_0, Rabs_R0. lra.
  - cbn [rising_factorial INR]. rewrite Rplus_0_r, Rmult_1_l, Rminus_eq_0, Rabs_R0. apply Rmult_le_pos; lra.
  - destruct (poch_loop_near d 20000000 x Hd Hd' ltac:(lia) Ox Hx (S m) 0 0 x x ltac:(lia)) as [_ N].
    + apply (ok_le d 20000000); [lia|exact Ox].
    + unfold near. cbn [pow INR]. lra.
    + apply (ok_le d 20000000); [lia|exact Ox].
    + unfold near. cbn [pow INR rising_factorial]. lra.
    + replace (S (S m)) with (S (0 + S m)) by reflexivity.
      assert (C : forall k i, (cost k i <= k * (i + k + 2))%nat). { induction k as [|k IH]; intro i; cbn [cost]; [lia|]. specialize (IH (S i)). nia. }
      assert (C2 : (cost (S m) 0 <= 1224)%nat).
      { assert (Q : forallb (fun k => (cost k 0 <=? 1224)%nat) (seq 0 49) = true) by (vm_compute; reflexivity).
        rewrite forallb_forall in Q. apply Nat.leb_le. apply Q. apply in_seq. lia. }
      assert (T : 0 <= rising_factorial (value x) (S (0 + S m))).
      { generalize (S (0 + S m)). clear -Hx. induction n as [|j IH]; cbn [rising_factorial]; [lra|]. apply Rmult_le_pos; [exact IH|]. pose proof (pos_INR j). lra. }
      assert (I : INR (0 + cost (S m) 0) <= 1224). { cbn [Nat.add]. apply le_INR in C2. replace 1224 with (INR 1224); [exact C2|]. rewrite INR_IZR_INZ. reflexivity. }
      assert (I0 := pos_INR (0 + cost (S m) 0)).
      eapply Rle_trans; [apply (near_rel (eps d) (0 + cost (S m) 0)); [lra| |exact T|exact N]|].
      * nra.
      * apply Rmult_le_compat_r; [exact T|]. set (c := INR (0 + cost (S m) 0)) in *. clearbody c. nra.
Qed.

(** On integers *)
Fixpoint zrising (k : Z) (n : nat) : Z := match n with O => 1%Z | S m => (zrising k m * (k + Z.of_nat m))%Z end.

Lemma zrising_value k n : rising_factorial (IZR k) n = IZR (zrising k n).
Proof. induction n as [|n IH]; [reflexivity|]. cbn [rising_factorial zrising]. rewrite mult_IZR, plus_IZR, <- INR_IZR_INZ, IH. reflexivity. Qed.

Lemma int_ok d x k : valid_digits d -> (d <= 65000)%Z -> finite d x -> full d x -> value x = IZR k -> (Z.abs k < 10 ^ (d + 3))%Z -> ok d 65003 x.
Proof.
  intros Hd Hd' F L V K. split; [exact F|]. split; [exact L|]. rewrite V. destruct (Z.eq_dec k 0) as [->|N]; [left; reflexivity|right].
  rewrite <- abs_IZR. assert (1 <= Z.abs k)%Z by lia. split.
  - apply Rle_trans with 1; [|apply IZR_le; lia]. rewrite <- (powerRZ_O 10). apply p10_le. lia.
  - apply Rle_trans with (p10 (d + 3)); [|apply p10_le; unfold valid_digits in Hd; lia].
    rewrite p10_nonneg by (unfold valid_digits in Hd; lia). apply IZR_le. lia.
Qed.

Lemma ok_exp_small d m x : valid_digits d -> (0 <= m)%Z -> ok d m x -> (- m - 8 <= exp x <= m)%Z \/ value x = 0.
Proof. intros Hd Hm O. destruct (Req_dec (value x) 0) as [|N]; [right; assumption|left]. pose proof (ok_exp d m x Hd O N). lia. Qed.

Lemma mul_int d x y a b : valid_digits d -> (d <= 65000)%Z -> finite d x -> full d x -> value x = IZR a -> finite d y -> full d y -> value y = IZR b ->
  (Z.abs a < 10 ^ (d + 3))%Z -> (Z.abs b < 10 ^ (d + 3))%Z -> (Z.abs (a * b) < 10 ^ (d + 3))%Z ->
  finite d (mul d x y) /\ full d (mul d x y) /\ value (mul d x y) = IZR (a * b).
Proof.
  intros Hd Hd' Fx Lx Vx Fy Ly Vy A B AB.
  pose proof (int_ok d x a Hd Hd' Fx Lx Vx A) as Ox. pose proof (int_ok d y b Hd Hd' Fy Ly Vy B) as Oy.
  destruct (ok_mul d 65003 65003 x y Hd ltac:(lia) ltac:(lia) ltac:(lia) Ox Oy) as [(F & L & _) E].
  split; [exact F|]. split; [exact L|]. rewrite mult_IZR, <- Vx, <- Vy.
  destruct (Req_dec (value x * value y) 0) as [Z|N].
  { rewrite Z in E |- *. rewrite Rabs_R0, Rmult_0_r, Rminus_0_r in E. destruct (Req_dec (value (mul d x y)) 0) as [|M]; [assumption|]. pose proof (Rabs_pos_lt _ M). lra. }
  assert (Nx : value x <> 0) by (intro Q; rewrite Q in N; lra). assert (Ny : value y <> 0) by (intro Q; rewrite Q in N; lra).
  pose proof (ok_exp d 65003 x Hd Ox Nx). pose proof (ok_exp d 65003 y Hd Oy Ny).
  apply (mul_exact_digits d x y a 0 b 0); auto; [lia| |]; rewrite powerRZ_O, Rmult_1_r; assumption.
Qed.

Lemma inc_int d x a : valid_digits d -> (d <= 65000)%Z -> finite d x -> full d x -> value x = IZR a -> (Z.abs a + 1 < 10 ^ (d + 3))%Z ->
  finite d (add d x (one d)) /\ full d (add d x (one d)) /\ value (add d x (one d)) = IZR (a + 1).
Proof.
  intros Hd Hd' F L V A. destruct (ok_one d Hd) as [O1 V1].
  pose proof (int_ok d x a Hd Hd' F L V ltac:(lia)) as Ox.
  destruct (ok_add d 65003 x (one d) Hd Hd' ltac:(lia) Ox (ok_le d 0 65003 _ ltac:(lia) O1)) as [(F' & L' & _) _].
  split; [exact F'|]. split; [exact L'|].
  assert (B : (10 ^ (d + 3) <= 10 ^ (8 * (elem_number d - 1)))%Z).
  { apply Z.pow_le_mono_r; [lia|]. assert (d + 16 <= 8 * (elem_number d - 1))%Z by (unfold elem_number, max_digits10; destruct (Z.eqb_spec ((d + 1) mod 8) 0); Z.div_mod_to_equations; lia). lia. }
  destruct (add_int_exact d x (one d) a 1 Hd F (one_finite d Hd) V V1) as (_ & V' & _); [lia|exact V'].
Qed.

Lemma poch_loop_int d k : valid_digits d -> (d <= 65000)%Z ->
  forall n i val term, ((Z.abs k + Z.of_nat (S (i + n))) ^ Z.of_nat (S (i + n)) < 10 ^ (d + 3))%Z ->
  finite d term -> full d term -> value term = IZR (k + Z.of_nat i) ->
  finite d val -> full d val -> value val = IZR (zrising k (S i)) ->
  let r := poch_loop (mul d) (fun t => add d t (one d)) n val term in
  finite d r /\ full d r /\ value r = IZR (zrising k (S (i + n))).
Proof.
  intros Hd Hd'. assert (Bnd : forall j c, (Z.of_nat j <= c)%Z -> (Z.abs (zrising k j) <= (Z.abs k + c) ^ Z.of_nat j)%Z).
  { induction j as [|j IH]; intros c Hc; [cbn; lia|]. cbn [zrising]. rewrite Nat2Z.inj_succ, Z.pow_succ_r, Z.abs_mul by lia. rewrite Z.mul_comm.
    apply Z.mul_le_mono_nonneg; try lia. }
  induction n as [|n IH]; intros i val term Hb Ft Lt Vt Fv Lv Vv r; cbn [poch_loop] in r.
  - unfold r. rewrite Nat.add_0_r. auto.
  - assert (Hpow : forall j, (1 <= j <= S (i + S n))%nat -> ((Z.abs k + Z.of_nat (S (i + S n))) ^ Z.of_nat j < 10 ^ (d + 3))%Z).
    { intros j Hj. apply Z.le_lt_trans with (2 := Hb). apply Z.pow_le_mono_r; lia. }
    assert (H1 : (Z.abs k + Z.of_nat (S (i + S n)) < 10 ^ (d + 3))%Z) by (pose proof (Hpow 1%nat ltac:(lia)) as Q; rewrite Z.pow_1_r in Q; exact Q).
    destruct (inc_int d term (k + Z.of_nat i) Hd Hd' Ft Lt Vt ltac:(lia)) as (Fi & Li & Vi).
    set (t' := add d term (one d)) in *.
    assert (H2 : forall j, (1 <= j <= S (i + S n))%nat -> (Z.abs (zrising k j) < 10 ^ (d + 3))%Z).
    { intros j Hj. apply Z.le_lt_trans with (2 := Hpow j Hj). apply Bnd. lia. }
    destruct (mul_int d val t' (zrising k (S i)) (k + Z.of_nat i + 1) Hd Hd' Fv Lv Vv Fi Li Vi) as (Fm & Lm & Vm).
    { apply H2. lia. } { lia. }
    { replace (zrising k (S i) * (k + Z.of_nat i + 1))%Z with (zrising k (S (S i))) by (cbn [zrising]; lia). apply H2. lia. }
    replace (i + S n)%nat with (S i + n)%nat in * by lia. apply (IH (S i)); auto.
    + rewrite Vi. f_equal. lia.
    + rewrite Vm. f_equal. change (zrising k (S (S i))) with (zrising k (S i) * (k + Z.of_nat (S i)))%Z. f_equal. lia.
Qed.

Lemma pochhammer_integers d x k n : valid_digits d -> (d <= 65000)%Z -> (n < 50)%nat ->
  finite d x -> full d x -> value x = IZR k -> ((Z.abs k + Z.of_nat n) ^ Z.of_nat n < 10 ^ (d + 3))%Z ->
  value (pochhammer_ef d x n) = rising_factorial (IZR k) n.
Proof.
  intros Hd Hd' Hn F L V B. unfold pochhammer_ef, pochhammer. rewrite zrising_value. destruct n as [|[|m]].
  - apply (ok_one d Hd).
  - rewrite V. f_equal. cbn [zrising]. lia.
  - destruct (poch_loop_int d k Hd Hd' (S m) 0 x x) as (_ & _ & R); auto.
    + rewrite V. f_equal. lia.
    + rewrite V. f_equal. cbn [zrising]. lia.
Qed.
