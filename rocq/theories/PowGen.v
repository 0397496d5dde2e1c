(** * The two exponentiation algorithms over any type of numbers. *)

From Coq Require Import ZArith List Bool Lia.
From Verif Require Import Model ModelPow.
Open Scope Z_scope.

Section Induction.
Context {T : Type}.
Variables (one one_s : T) (mul : T -> T -> T) (sq : T -> T) (div : T -> T -> T).
Hypothesis sq_mul : forall x, sq x = mul x x.
Variables (P Q : Z -> T -> Prop) (b : T) (n : Z).
Hypothesis Q0 : Q 0 one.
Hypothesis Q0s : Q 0 one_s.
Hypothesis P1 : P 1 b.
Hypothesis PQ : forall k x, 1 <= k <= n -> P k x -> Q k x.
Hypothesis Psq : forall k x, 1 <= k -> 2 * k <= n -> P k x -> P (2 * k) (mul x x).
Hypothesis Qmul : forall j k x y, 0 <= j -> 1 <= k -> j + k <= n -> Q j x -> P k y -> Q (j + k) (mul x y).

Lemma half_eq p : p mod 2 = p - 2 * (p / 2).
Proof. pose proof (Z.div_mod p 2 ltac:(lia)). lia. Qed.

Lemma pow_loop_ind fuel : forall p k m r y,
  0 <= p < 2 ^ Z.of_nat fuel -> 0 <= k -> 1 <= m -> k + p * m = n -> Q k r -> (p <> 0 -> P m y) ->
  Q n (pow_loop mul sq fuel p r y).
Proof.
  induction fuel as [|f IH]; intros p k m r y Hp Hk Hm En Hr Hy.
  - simpl in *. replace p with 0 in En by lia. replace n with k by lia. exact Hr.
  - cbn [pow_loop]. destruct (Z.eqb_spec p 0) as [->|Np].
    + replace n with k by lia. exact Hr.
    + specialize (Hy Np).
      rewrite Nat2Z.inj_succ, Z.pow_succ_r in Hp by lia.
      pose proof (half_eq p) as E2. pose proof (Z.mod_pos_bound p 2 ltac:(lia)) as M2.
      assert (Hh : 0 <= p / 2 < 2 ^ Z.of_nat f) by lia.
      assert (Pn : p / 2 <> 0 -> P (2 * m) (sq y)).
      { intros N2. rewrite sq_mul. apply Psq; auto. nia. }
      destruct (Z.eqb_spec (p mod 2) 0) as [E0|N0]; cbn [negb].
      * apply (IH _ k (2 * m)); auto; nia.
      * apply (IH _ (k + m) (2 * m)); auto; try nia. apply Qmul; auto. nia.
Qed.

Lemma pow_nonneg_ind : 0 <= n < 18446744073709551616 -> Q n (pow_nonneg one mul sq b n).
Proof.
  intros Hn. unfold pow_nonneg.
  destruct (Z.eqb_spec n 0) as [E|N0]; [rewrite E in *; exact Q0|].
  destruct (Z.eqb_spec n 1) as [E|N1]; [rewrite E in *; apply PQ; [lia|exact P1]|].
  assert (Q2 : Q 2 (mul b b)). { apply (Qmul 1 1); auto; try lia. apply PQ; auto; lia. }
  destruct (Z.eqb_spec n 2) as [E|N2]; [rewrite E in *; exact Q2|].
  destruct (Z.eqb_spec n 3) as [E|N3]; [rewrite E in *; apply (Qmul 2 1); auto; lia|].
  destruct (Z.eqb_spec n 4) as [E|N4].
  { rewrite E in *. rewrite sq_mul. apply (Qmul 2 2); auto; try lia. apply (Psq 1); auto; lia. }
  apply (pow_loop_ind 64 n 0 1); auto; try lia. 
Qed.

Lemma pown_loop_ind fuel : forall p k m r y,
  1 <= p < 2 ^ (Z.of_nat fuel) -> 0 <= k -> 1 <= m -> k + (p / 2) * (2 * m) = n -> Q k r -> P m y ->
  Q n (pown_loop mul sq fuel p r y).
Proof.
  induction fuel as [|f IH]; intros p k m r y Hp Hk Hm En Hr Hy.
  - simpl in Hp. lia.
  - cbn [pown_loop]. rewrite Z.quot_div_nonneg by lia.
    destruct (Z.eqb_spec (p / 2) 0) as [E0|Np].
    + rewrite E0 in En. replace n with k by lia. exact Hr.
    + rewrite Nat2Z.inj_succ, Z.pow_succ_r in Hp by lia.
      pose proof (half_eq p) as E2. pose proof (Z.mod_pos_bound p 2 ltac:(lia)) as M2.
      set (h := p / 2) in *. 
      assert (Hh : 1 <= h < 2 ^ Z.of_nat f) by lia.
      rewrite Z.rem_mod_nonneg by lia.
      pose proof (half_eq h) as E3. pose proof (Z.mod_pos_bound h 2 ltac:(lia)) as M3.
      assert (Pn : P (2 * m) (sq y)). { rewrite sq_mul. apply Psq; auto. nia. }
      destruct (Z.eqb_spec (h mod 2) 0) as [E|E]; cbn [negb].
      * apply (IH _ k (2 * m)); auto; nia.
      * apply (IH _ (k + 2 * m) (2 * m)); auto; try nia. apply Qmul; auto; nia.
Qed.

Lemma pown_nonneg_ind : 0 <= n < 18446744073709551616 -> Q n (pown_nonneg one one_s mul sq b n).
Proof.
  intros Hn. unfold pown_nonneg.
  destruct (Z.eqb_spec n 0) as [E|N0]; [rewrite E in *; exact Q0s|].
  destruct (Z.eqb_spec n 1) as [E|N1]; [rewrite E in *; apply PQ; [lia|exact P1]|].
  assert (Q1 : Q 1 b) by (apply PQ; auto; lia).
  assert (Q2 : Q 2 (mul b b)). { apply (Qmul 1 1); auto; lia. }
  destruct (Z.eqb_spec n 2) as [E|N2]; [rewrite E in *; exact Q2|].
  destruct (Z.eqb_spec n 3) as [E|N3]; [rewrite E in *; apply (Qmul 2 1); auto; lia|].
  destruct (Z.eqb_spec n 4) as [E|N4].
  { rewrite E in *. cbv zeta. apply (Qmul 2 2); auto; try lia. apply (Psq 1); auto; lia. }
  rewrite Z.rem_mod_nonneg by lia.
  pose proof (half_eq n) as E2. pose proof (Z.mod_pos_bound n 2 ltac:(lia)) as M2.
  destruct (Z.eqb_spec (n mod 2) 0) as [E|E]; cbn [negb].
  - apply (pown_loop_ind 64 n 0 1); auto; lia.
  - apply (pown_loop_ind 64 n 1 1); auto; lia.
Qed.

End Induction.

(** Products in any monoid. *)
Lemma pow_gen_monoid (T : Type) (one : T) (mul : T -> T -> T) (sq : T -> T) (div : T -> T -> T) (b : T) :
  (forall x, mul one x = x) -> (forall x, mul x one = x) ->
  (forall x y z, mul (mul x y) z = mul x (mul y z)) -> (forall x, sq x = mul x x) ->
  let power n := Nat.iter n (mul b) one in
  (forall p, 0 <= p < 9223372036854775808 ->
     pow_gen one one mul sq div b p = Defined (power (Z.to_nat p)) /\
     pown_gen one one mul sq div b p = Defined (power (Z.to_nat p))) /\
  (forall p, -9223372036854775808 < p < 0 ->
     pow_gen one one mul sq div b p = Defined (div one (power (Z.to_nat (- p)))) /\
     pown_gen one one mul sq div b p = Defined (div one (power (Z.to_nat (- p))))).
Proof.
  intros unit_l unit_r assoc square power.
  assert (A : forall i j, mul (power i) (power j) = power (i + j)%nat).
  { induction i as [|i IH]; intros j; [apply unit_l|].
    change (mul (mul b (power i)) (power j) = mul b (power (i + j)%nat)). rewrite assoc, IH. reflexivity. }
  assert (R : forall n, 0 <= n < 18446744073709551616 ->
    pow_nonneg one mul sq b n = power (Z.to_nat n) /\ pown_nonneg one one mul sq b n = power (Z.to_nat n)).
  { intros n Hn. pose (P := fun (k : Z) (x : T) => x = power (Z.to_nat k)).
    assert (P1 : P 1 b) by (symmetry; apply unit_r).
    assert (Psq : forall k x, 1 <= k -> 2 * k <= n -> P k x -> P (2 * k) (mul x x)).
    { unfold P. intros k x Hk _ ->. rewrite A. f_equal. lia. }
    assert (Qm : forall j k x y, 0 <= j -> 1 <= k -> j + k <= n -> P j x -> P k y -> P (j + k) (mul x y)).
    { unfold P. intros j k x y Hj Hk _ -> ->. rewrite A. f_equal. lia. }
    split.
    - apply (pow_nonneg_ind one mul sq square P P b n); auto. reflexivity.
    - apply (pown_nonneg_ind one one mul sq square P P b n); auto; reflexivity. }
  unfold pow_gen, pown_gen. change sll_min with (-9223372036854775808).
  split; intros p Hp.
  - destruct (Z.ltb_spec p 0); [lia|]. destruct (R p ltac:(lia)) as [-> ->]. auto.
  - destruct (Z.ltb_spec p 0); [|lia]. destruct (Z.eqb_spec p (-9223372036854775808)); [lia|].
    destruct (R (- p) ltac:(lia)) as [-> ->]. auto.
Qed.

Lemma pow_gen_min (T : Type) (one one_s : T) mul sq div (b : T) :
  pow_gen one one_s mul sq div b (-9223372036854775808) = Undefined /\
  pown_gen one one_s mul sq div b (-9223372036854775808) = Undefined.
Proof. split; reflexivity. Qed.
