(** * Evaluating expressions with e_float operations far from the ends of the
      exponent range (proofs only) *)

From Coq Require Import ZArith List Bool Reals Lra Lia Psatz.
From Verif Require Import Model Spec SpecGen Limbs Value CmpProofs AddProofs Decide OrderProofs AddExtra MulProofs MulValue MulExtra MulCor
  IntProofs IntPartProofs IntConv MixedProofs IntCor ModelDiv DoubleProofs NewtonProofs InvProofs SqrtProofs ModelPow PowGen PowProofs PowExtra.
Import ListNotations.
Open Scope R_scope.
Ltac Zify.zify_post_hook ::= Z.div_mod_to_equations.
Local Notation p10 := (powerRZ 10).
Local Notation exp := Model.exp.
Local Notation eps := product_error.

Definition ok d m x := finite d x /\ full d x /\ moderate m (value x).

Lemma moderate_le m m' r : (m <= m')%Z -> moderate m r -> moderate m' r.
Proof.
  intros H [Z|[A B]]; [left; auto|right]. pose proof (p10_le (- m') (- m) ltac:(lia)). pose proof (p10_le m m' H). lra.
Qed.

Lemma ok_le d m m' x : (m <= m')%Z -> ok d m x -> ok d m' x.
Proof. intros H (F & P & M). split; [exact F|]. split; [exact P|]. eapply moderate_le; eauto. Qed.

Lemma ok_exp d m x : valid_digits d -> ok d m x -> value x <> 0 -> (- m - 8 < exp x <= m)%Z.
Proof.
  intros Hd (F & P & [Z|[A B]]) N; [contradiction|].
  assert (p10 m < p10 (m + 1)) by (apply p10_lt; lia).
  destruct (exp_between d x (- m) (m + 1) Hd F); [lra|]. lia.
Qed.

Lemma moderate_bound m r : moderate m r -> Rabs r <= p10 m.
Proof. intros [->|[_ B]]; [rewrite Rabs_R0; apply Rlt_le, p10_pos|exact B]. Qed.

Lemma eps_pos d : valid_digits d -> 0 < eps d <= p10 (-36).
Proof. intro Hd. apply (mul_eps_small d Hd). Qed.

Lemma p10_m36 : p10 (-36) <= / 1000000.
Proof. apply Rle_trans with (p10 (-6)); [apply p10_le; lia|]. change (-6)%Z with (- (6))%Z. rewrite p10_inv, (powerRZ_pow 10 6) by lia. change (Z.to_nat 6) with 6%nat. cbn [pow]. lra. Qed.

Lemma ok_mul d m m' u v : valid_digits d -> (0 <= m)%Z -> (0 <= m')%Z -> (m + m' <= 2147483000)%Z -> ok d m u -> ok d m' v ->
  ok d (m + m' + 1) (mul d u v) /\ Rabs (value (mul d u v) - value u * value v) <= eps d * Rabs (value u * value v).
Proof.
  intros Hd H1 H2 H3 Ou Ov. pose proof (eps_pos d Hd) as E. pose proof p10_m36 as E6.
  destruct (Req_dec (value u) 0) as [Zu|Nu]; [|destruct (Req_dec (value v) 0) as [Zv|Nv]].
  1,2: destruct Ou as (Fu & Pu & Mu), Ov as (Fv & Pv & Mv); rewrite (mul_zero_l d u v Hd Fu Fv) by auto; destruct (zero_ok d Hd) as (A & B & C);
       split; [split; [exact A|split; [exact B|left; exact C]]|rewrite C];
       replace (0 - value u * value v) with 0 by (first [rewrite Zu|rewrite Zv]; ring); rewrite Rabs_R0; apply Rmult_le_pos; [lra|apply Rabs_pos].
  pose proof (ok_exp d m u Hd Ou Nu). pose proof (ok_exp d m' v Hd Ov Nv).
  destruct Ou as (Fu & Pu & Mu), Ov as (Fv & Pv & Mv).
  destruct (mul_eps_acc d u v Hd Fu Fv Pu Pv Nu Nv ltac:(lia)) as (F & P & S & A & B).
  split.
  - split; [exact F|]. split; [exact P|]. right. destruct Mu as [|[U1 U2]]; [contradiction|]. destruct Mv as [|[V1 V2]]; [contradiction|].
    rewrite Rabs_mult in *. assert (p10 (- m) * p10 (- m') <= Rabs (value u) * Rabs (value v) <= p10 m * p10 m').
    { pose proof (p10_pos (- m)). pose proof (p10_pos (- m')). split; apply Rmult_le_compat; try lra; apply Rabs_pos. }
    rewrite <- !p10_add in H4. assert (p10 (m + m') <= p10 (m + m' + 1)) by (apply p10_le; lia).
    replace (- m + - m')%Z with (- (m + m' + 1) + 1)%Z in H4 by ring. rewrite p10_add, p10_1 in H4.
    pose proof (p10_pos (- (m + m' + 1))). split; [|lra]. nra.
  - assert (G : Rabs (value (mul d u v) - value u * value v) = Rabs (value u * value v) - Rabs (value (mul d u v))).
    { revert S A. set (x := value (mul d u v)). set (y := value u * value v). clearbody x y. intros.
      destruct (Rle_dec 0 y); [rewrite (Rabs_pos_eq y), (Rabs_pos_eq x) in * by nra; rewrite Rabs_left1; lra|].
      rewrite (Rabs_left1 y), (Rabs_left1 x) in * by nra. rewrite Rabs_pos_eq; lra. }
    rewrite G. exact B.
Qed.

Lemma ok_add d m u v : valid_digits d -> (d <= 65000)%Z -> (0 <= m <= 2147483000)%Z -> ok d m u -> ok d m v ->
  ok d (m + 70000) (add d u v) /\ Rabs (value (add d u v) - (value u + value v)) <= 2 * p10 (- (d + 17)) * Rmax (Rabs (value u)) (Rabs (value v)).
Proof.
  intros Hd Hd' Hm Ou Ov. destruct Ou as (Fu & Pu & Mu), Ov as (Fv & Pv & Mv).
  pose proof (moderate_bound _ _ Mu) as Bu. pose proof (moderate_bound _ _ Mv) as Bv.
  assert (Q : p10 (m + 1) <= p10 max_exp10) by (apply p10_le; unfold max_exp10; lia).
  rewrite p10_add, p10_1 in Q. pose proof (p10_pos m) as Pm.
  destruct (add_ok d u v Hd Fu Fv) as [F E]; [lra|]. split; [|exact E].
  split; [exact F|]. split. { unfold full in *. destruct (prec_add d u v) as [->|[->| ->]]; auto. }
  assert (T : p10 (- (d + 17)) <= / 1000000).
  { apply Rle_trans with (p10 (-36)); [apply p10_le; destruct Hd; lia|apply p10_m36]. }
  pose proof (p10_pos (- (d + 17))) as T0.
  assert (Mx : Rmax (Rabs (value u)) (Rabs (value v)) <= p10 m) by (apply Rmax_lub; lra).
  assert (Mx0 : 0 <= Rmax (Rabs (value u)) (Rabs (value v))) by (apply Rle_trans with (Rabs (value u)); [apply Rabs_pos|apply Rmax_l]).
  assert (Up : Rabs (value (add d u v)) <= p10 (m + 70000)).
  { pose proof (Rabs_triang (value (add d u v) - (value u + value v)) (value u + value v)) as T1.
    replace (value (add d u v) - (value u + value v) + (value u + value v)) with (value (add d u v)) in T1 by ring.
    pose proof (Rabs_triang (value u) (value v)). apply Rle_trans with (p10 (m + 1)); [|apply p10_le; lia]. rewrite p10_add, p10_1. nra. }
  destruct (Req_dec (value (add d u v)) 0) as [Z|N]; [left; exact Z|right]. split; [|exact Up].
  assert (Lm : p10 (- (m + 70000)) <= p10 (- m) / 2).
  { apply Rle_trans with (p10 (- m - 1)); [apply p10_le; lia|]. replace (- m - 1)%Z with (- m + - (1))%Z by ring. rewrite p10_add, (p10_inv 1), p10_1. pose proof (p10_pos (- m)). lra. }
  destruct (Rlt_dec (value u * value v) 0) as [Op|Sm].
  - pose proof (add_opp_exp d u v Hd Fu Fv Op F N) as G.
    assert (Nu : value u <> 0) by nra. pose proof (ok_exp d m u Hd (conj Fu (conj Pu Mu)) Nu).
    destruct (finite_abs_bounds d (add d u v) Hd F (value_nonzero_lead d _ Hd F N)) as [L _].
    apply Rle_trans with (p10 (exp (add d u v))); [|exact L]. apply p10_le.
    pose proof (elem_number_bounds d Hd). unfold elem_number, max_digits10 in *. destruct Hd. destruct ((_ mod 8 =? 0)%Z) in *; lia.
  - apply Rnot_lt_le in Sm. assert (A : Rabs (value u + value v) = Rabs (value u) + Rabs (value v)).
    { revert Sm. generalize (value u), (value v). intros x y S. destruct (Rle_dec 0 x), (Rle_dec 0 y).
      - rewrite !Rabs_pos_eq; lra.
      - assert (x = 0) by nra. subst. rewrite Rabs_R0, !Rplus_0_l. reflexivity.
      - assert (y = 0) by nra. subst. rewrite Rabs_R0, !Rplus_0_r. reflexivity.
      - rewrite !Rabs_left1; lra. }
    assert (LB : Rmax (Rabs (value u)) (Rabs (value v)) / 2 <= Rabs (value (add d u v))).
    { pose proof (Rabs_triang_inv (value u + value v) (value (add d u v))) as T1. rewrite (Rabs_minus_sym (value u + value v)) in T1. rewrite A in T1.
      assert (Rmax (Rabs (value u)) (Rabs (value v)) <= Rabs (value u) + Rabs (value v)) by (apply Rmax_lub; pose proof (Rabs_pos (value u)); pose proof (Rabs_pos (value v)); lra). nra. }
    assert (p10 (- m) <= Rmax (Rabs (value u)) (Rabs (value v))); [|lra].
    destruct Mu as [Zu|[Mu _]]; [|apply Rle_trans with (Rabs (value u)); [exact Mu|apply Rmax_l]].
    destruct Mv as [Zv|[Mv _]]; [|apply Rle_trans with (Rabs (value v)); [exact Mv|apply Rmax_r]].
    exfalso. rewrite Zu, Zv, Rabs_R0, Rmax_left in E by lra. rewrite Rmult_0_r, Rplus_0_r, Rminus_0_r in E.
    apply N. destruct (Req_dec (value (add d u v)) 0) as [|N']; auto. pose proof (Rabs_pos_lt _ N'). lra.
Qed.

Lemma ok_negate d m v : valid_digits d -> ok d m v -> ok d m (negate v) /\ value (negate v) = - value v.
Proof.
  intros Hd (F & P & M). pose proof (negate_value d v Hd F) as E. split; [|exact E].
  split; [apply negate_finite; exact F|]. split; [unfold full in *; rewrite negate_prec; exact P|]. rewrite E. unfold moderate in *. rewrite Rabs_Ropp. destruct M; [left; lra|right; auto].
Qed.

Lemma ok_sub d m u v : valid_digits d -> (d <= 65000)%Z -> (0 <= m <= 2147483000)%Z -> ok d m u -> ok d m v ->
  ok d (m + 70000) (sub d u v) /\ Rabs (value (sub d u v) - (value u - value v)) <= 2 * p10 (- (d + 17)) * Rmax (Rabs (value u)) (Rabs (value v)).
Proof.
  intros Hd Hd' Hm Ou Ov. destruct (ok_negate d m v Hd Ov) as [On Vn].
  rewrite (sub_as_add d u v Hd (proj1 Ou) (proj1 Ov)). destruct (ok_add d m u (negate v) Hd Hd' Hm Ou On) as [A B].
  split; [exact A|]. rewrite Vn, Rabs_Ropp in B. exact B.
Qed.

Lemma ok_inv d m x : valid_digits d -> (d <= 65000)%Z -> (0 <= m <= 2147483000)%Z -> ok d m x -> value x <> 0 ->
  ok d (m + 1) (inv d x) /\ Rabs (value x * value (inv d x) - 1) < p10 (- d).
Proof.
  intros Hd Hd' Hm (F & P & M) N. destruct M as [|[A B]]; [contradiction|].
  assert (IR : in_range (value x)). { unfold in_range. pose proof (p10_le (-2147483590) (- m) ltac:(lia)). pose proof (p10_le m 2147483590 ltac:(lia)). lra. }
  destruct (inv_accurate d x Hd Hd' F IR) as (F' & S & E & _ & P'). split; [|exact E].
  split; [exact F'|]. split; [auto|]. right.
  assert (T : p10 (- d) <= / 2). { apply Rle_trans with (p10 (- (1))); [apply p10_le; destruct Hd; lia|]. rewrite (p10_inv 1), p10_1. lra. }
  assert (Ab : / 2 <= Rabs (value x) * Rabs (value (inv d x)) <= 2).
  { rewrite <- Rabs_mult. revert E. generalize (value x * value (inv d x)). intros y E. apply Rabs_def2 in E. rewrite Rabs_pos_eq; lra. }
  rewrite p10_inv in A. rewrite p10_inv. rewrite p10_add, p10_1. pose proof (p10_pos m) as Pm.
  set (X := Rabs (value x)) in *. set (Y := Rabs (value (inv d x))) in *. assert (0 < X) by (apply Rabs_pos_lt; exact N).
  assert (1 <= X * p10 m). { apply Rmult_le_reg_l with (/ p10 m); [apply Rinv_0_lt_compat; exact Pm|]. replace (/ p10 m * (X * p10 m)) with X by (field; lra). lra. }
  split.
  - apply Rmult_le_reg_l with (p10 m * 10); [lra|]. rewrite Rinv_r by lra. assert (0 <= Y) by apply Rabs_pos. nra.
  - assert (0 <= Y) by apply Rabs_pos. apply Rmult_le_reg_l with X; [assumption|]. nra.
Qed.

Lemma eps_small d : valid_digits d -> (d <= 65000)%Z -> p10 (- (d + 6)) <= eps d <= 2 / 10 * p10 (- d).
Proof.
  intros Hd Hd'. unfold product_error. pose proof (p10_pos (- d)) as P. destruct (Z.leb_spec d 4967).
  - split; [lra|]. replace (- (d + 6))%Z with (- d + - (6))%Z by ring. rewrite p10_add. assert (p10 (- (6)) <= 2 / 10); [|nra].
    apply Rle_trans with (p10 (- (1))); [apply p10_le; lia|]. rewrite (p10_inv 1), p10_1. lra.
  - replace (- (d + 9))%Z with (- d + - (9))%Z by ring. replace (- (d + 6))%Z with (- d + - (6))%Z by ring. rewrite !p10_add.
    assert (IZR (2500 * (d + 32)) * p10 (- (9)) <= 2 / 10).
    { assert (IZR (2500 * (d + 32)) <= 200000000) by (apply IZR_le; lia). rewrite p10_inv, (powerRZ_pow 10 9) by lia. change (Z.to_nat 9) with 9%nat. pose proof (IZR_le 0 (2500 * (d + 32)) ltac:(lia)). cbn [pow]. lra. }
    assert (p10 (- (6)) <= IZR (2500 * (d + 32)) * p10 (- (9))).
    { assert (1000 <= IZR (2500 * (d + 32))) by (apply IZR_le; lia). rewrite !p10_inv, (powerRZ_pow 10 9), (powerRZ_pow 10 6) by lia. change (Z.to_nat 9) with 9%nat. change (Z.to_nat 6) with 6%nat. cbn [pow]. lra. }
    split; nra.
Qed.

(** The error bound of a sum is far below the one of a product. *)
Lemma tiny_below d : valid_digits d -> (d <= 65000)%Z -> 0 < 2 * p10 (- (d + 17)) <= / 1000 * eps d.
Proof.
  intros Hd Hd'. pose proof (p10_pos (- (d + 17))). destruct (eps_small d Hd Hd') as [E _]. split; [lra|].
  replace (- (d + 17))%Z with (- (d + 6) + - (11))%Z in * by ring. rewrite p10_add in *.
  assert (p10 (- (11)) <= / 100000). { apply Rle_trans with (p10 (- (5))); [apply p10_le; lia|]. rewrite p10_inv, (powerRZ_pow 10 5) by lia. change (Z.to_nat 5) with 5%nat. cbn [pow]. lra. }
  pose proof (p10_pos (- (d + 6))). nra.
Qed.
