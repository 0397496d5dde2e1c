(** * Accuracy of the table of Bernoulli numbers (proofs only) *)

From Coq Require Import ZArith List Bool Arith Reals Lra Lia Psatz.
From Verif Require Import Model Spec SpecGen Limbs Value CmpProofs AddProofs Decide OrderProofs OrderDec AddExtra MulProofs MulValue MulExtra MulCor
  IntProofs IntPartProofs IntConv MixedProofs IntCor ModelDiv DoubleProofs NewtonProofs InvProofs SqrtProofs ModelPow PowGen PowProofs PowExtra LdexpProofs
  FloatEval ModelGen SeriesFloat ExpReal ExpFloat ExpAcc SinReal SinFloat ModelStr ModelTables ModelFact TabBern ModelBern SpecBern BernReal.
Import ListNotations.
Open Scope R_scope.
Local Notation p10 := (powerRZ 10).
Local Notation "x ^ n" := (Rpow_def.pow x n) : R_scope.

Section Digits.
Variable d : Z.
Hypothesis Hd : valid_digits d.
Hypothesis Hd' : (d <= 4967)%Z.
Local Notation u := (p10 (- d)).
Local Notation e := (p10 (- (d + 17))).

Definition near (s : nat) (x y : R) : Prop := (1 - 3 * e) ^ s * y <= x <= (1 + 3 * e) ^ s * y.

Lemma e_small : 0 < e <= / 1000000.
Proof. rewrite (p_17 d). pose proof (u_small d Hd). lra. Qed.

Lemma lo_pos s : 0 < (1 - 3 * e) ^ s <= 1.
Proof. pose proof e_small. induction s as [|s IH]; cbn [Rpow_def.pow]; nra. Qed.
Lemma hi_pos s : 1 <= (1 + 3 * e) ^ s.
Proof. pose proof e_small. induction s as [|s IH]; cbn [Rpow_def.pow]; nra. Qed.

Lemma near_refl y : near 0 y y.
Proof. unfold near. cbn. lra. Qed.

Lemma near_pos s x y : 0 < y -> near s x y -> 0 < x.
Proof. intros Hy [A _]. pose proof (lo_pos s). nra. Qed.

Lemma near_S s x y : 0 <= y -> near s x y -> near (S s) x y.
Proof.
  intros Hy [A B]. pose proof e_small. pose proof (lo_pos s). pose proof (hi_pos s). unfold near. cbn [Rpow_def.pow].
  assert (0 <= (1 - 3 * e) ^ s * y) by (apply Rmult_le_pos; lra). assert (0 <= (1 + 3 * e) ^ s * y) by (apply Rmult_le_pos; lra). rewrite !Rmult_assoc. nra.
Qed.

Lemma near_le s s' x y : (s <= s')%nat -> 0 <= y -> near s x y -> near s' x y.
Proof. intros H Hy N. induction H as [|s' H IH]; [exact N|]. apply near_S; [exact Hy|exact IH]. Qed.

Lemma near_step s x y z : 0 <= y -> near s x y -> Rabs (z - x) <= 3 * e * x -> near (S s) z y.
Proof.
  intros Hy [A B] H. pose proof e_small. pose proof (lo_pos s). pose proof (hi_pos s). unfold near. cbn [Rpow_def.pow]. apply Rabs_le_inv in H.
  assert (0 <= (1 - 3 * e) ^ s * y) by (apply Rmult_le_pos; lra). assert (0 <= (1 + 3 * e) ^ s * y) by (apply Rmult_le_pos; lra). rewrite !Rmult_assoc. nra.
Qed.

Lemma near_scale c s x y : 0 <= c -> near s x y -> near s (c * x) (c * y).
Proof. intros Hc [A B]. unfold near. split; [replace ((1 - 3 * e) ^ s * (c * y)) with (c * ((1 - 3 * e) ^ s * y)) by ring|replace ((1 + 3 * e) ^ s * (c * y)) with (c * ((1 + 3 * e) ^ s * y)) by ring]; apply Rmult_le_compat_l; lra. Qed.

Lemma near_plus s x y x' y' : near s x y -> near s x' y' -> near s (x + x') (y + y').
Proof. intros [A B] [A' B']. unfold near. rewrite !Rmult_plus_distr_l. lra. Qed.

Lemma near_rel s x y : (Z.of_nat s <= 10000000)%Z -> 0 <= y -> near s x y -> rel (u / 1000000000) x y.
Proof.
  intros Hs Hy [A B]. pose proof (u_small d Hd) as U. assert (He : e = u / 100000000000000000) by apply (p_17 d).
  assert (S1 : INR s <= 10000000) by (rewrite INR_IZR_INZ; apply IZR_le; exact Hs). pose proof (pos_INR s) as S0.
  assert (L : 1 - INR s * (3 * e) <= (1 - 3 * e) ^ s).
  { clear A B S1 Hs. induction s as [|s IH]; [cbn; lra|]. pose proof (lo_pos s). rewrite S_INR in *. pose proof (pos_INR s). cbn [Rpow_def.pow]. specialize (IH ltac:(lra)). nra. }
  assert (G : forall k, INR k * (3 * e) <= / 2 -> (1 + 3 * e) ^ k <= 1 + 2 * (INR k * (3 * e))).
  { induction k as [|k IH]; intro K; [cbn; lra|]. rewrite S_INR in *. pose proof (pos_INR k). assert (0 < e) by (apply p10_pos). cbn [Rpow_def.pow]. specialize (IH ltac:(nra)). nra. }
  assert (Q : INR s * (3 * e) <= u / 3000000000) by (rewrite He; apply Rle_trans with (10000000 * (3 * (u / 100000000000000000))); [apply Rmult_le_compat_r; lra|lra]).
  specialize (G s ltac:(lra)). unfold rel. rewrite (Rabs_pos_eq y) by exact Hy. apply Rabs_le. split; nra.
Qed.

Definition good (s : nat) (x : ef) (y : R) : Prop := finite d x /\ full d x /\ near s (value x) y.

Local Notation Big := (p10 6000000).

Lemma good_ok s x y : (Z.of_nat s <= 10000000)%Z -> 1 <= y <= Big -> good s x y -> ok d 6000001 x /\ 0 < value x.
Proof.
  intros Hs Hy (F & P & N). pose proof (near_rel s (value x) y Hs ltac:(lra) N) as R. unfold rel in R. rewrite (Rabs_pos_eq y) in R by lra. pose proof (u_small d Hd) as U.
  apply Rabs_le_inv in R. assert (u / 1000000000 * y <= / 2 * y) by (apply Rmult_le_compat_r; lra). assert (B : / 2 * y <= value x <= 2 * y) by lra. split; [|lra]. apply (ok_of_bounds d); [exact F|exact P|]. rewrite Rabs_pos_eq by lra.
  assert (E : p10 6000001 = 10 * Big) by (change 6000001%Z with (1 + 6000000)%Z; rewrite p10_add, p10_1; reflexivity). rewrite E. split; [|lra].
  apply Rle_trans with (p10 (- (1))); [apply p10_le; lia|]. rewrite p10_inv, p10_1. lra.
Qed.

(** multiplication by a small integer *)
Lemma mul_int_defined x n : finite d (mul_ull d x n) -> Rabs (value (mul_ull d x n)) <= p10 2000000000 -> (0 <= n < 100000000)%Z -> mul_int d x n = mul_ull d x n.
Proof.
  intros Fr B Hn. unfold mul_int, mul_sll. replace (n =? sll_min)%Z with false by (symmetry; apply Z.eqb_neq; unfold sll_min; lia).
  replace (n <? 0)%Z with false by (symmetry; apply Z.ltb_ge; lia). cbn [negb]. rewrite u64_small by lia. set (r := mul_ull d x n) in *.
  assert (G : op_gt (fabs r) (value_max d) = false).
  { apply not_true_is_false. intro G. apply (cmp_all_ops d _ _ Hd (fabs_finite d r Fr) (value_max_finite d Hd)) in G.
    rewrite (fabs_value d r Hd Fr), (value_max_value d Hd) in G. pose proof (max_value_ge d Hd) as Mg.
    pose proof (p10_le 2000000000 max_exp10 ltac:(unfold max_exp10; lia)) as X. lra. }
  rewrite G. reflexivity.
Qed.

Lemma mul_int_zero x : finite d x -> mul_int d x 0 = zero d.
Proof.
  intro F. assert (E : mul_ull d x 0 = zero d) by (rewrite (mul_ull_cases d x 0 Hd F ltac:(lia)); rewrite Z.eqb_refl, orb_true_r; reflexivity).
  destruct (zero_ok d Hd) as (Fz & _ & Vz). rewrite mul_int_defined; [exact E| | |lia]; rewrite E; [exact Fz|]. rewrite Vz, Rabs_R0. apply Rlt_le, p10_pos.
Qed.

Lemma mul_int_pos x n : finite d x -> full d x -> 0 < value x <= p10 1900000000 -> (1 <= n < 100000000)%Z ->
  finite d (mul_int d x n) /\ full d (mul_int d x n) /\ Rabs (value (mul_int d x n) - IZR n * value x) <= e * (IZR n * value x).
Proof.
  intros F P B Hn. assert (N : value x <> 0) by lra.
  destruct (mul_ull_small_spec d x n Hd F P N ltac:(lia)) as (Fr & Pr & Cr).
  assert (In : 1 <= IZR n <= 100000000) by (split; apply IZR_le; lia). pose proof (elem_number_digits d Hd) as EN.
  set (r := mul_ull d x n) in *. rewrite (Rmult_comm (value x)) in Cr. set (w := IZR n * value x) in *. assert (Wp : 0 < w) by (unfold w; nra).
  destruct Cr as ((C1 & C2) & C3 & _). rewrite (Rabs_pos_eq w) in * by lra.
  assert (Rp : 0 <= value r) by (apply Rnot_lt_le; intro; nra). rewrite (Rabs_pos_eq (value r)) in * by exact Rp.
  assert (Z : limb (data r) 0 <> 0%Z).
  { pose proof (value_nonzero_lead d x Hd F N) as Zx. unfold r. rewrite mul_ull_cases by (auto; lia). rewrite (finite_nonzero_flag d x Hd F N). cbn [orb].
    destruct (Z.eqb_spec n 0); [lia|]. destruct (Z.geb_spec n mask) as [Hm|Hm]; [change mask with 100000000%Z in Hm; lia|].
    destruct (Z.eqb_spec n 1); [exact Zx|]. apply (mul_small_spec d x n Hd F Zx ltac:(lia)). }
  pose proof (finite_abs_bounds d r Hd Fr Z) as [B1 _]. rewrite (Rabs_pos_eq (value r)) in B1 by exact Rp.
  assert (Ul : ulp d (Model.exp r) <= e * w).
  { apply Rle_trans with (e * p10 (Model.exp r)); [|apply Rmult_le_compat_l; [apply Rlt_le, p10_pos|lra]]. unfold ulp. rewrite <- p10_add. apply p10_le. lia. }
  assert (W : w <= p10 2000000000).
  { unfold w. apply Rle_trans with (p10 8 * p10 1900000000); [|rewrite <- p10_add; apply p10_le; lia]. apply Rmult_le_compat; try lra. rewrite p10_nonneg by lia. change (10 ^ 8)%Z with 100000000%Z. lra. }
  assert (Er : mul_int d x n = r) by (apply mul_int_defined; fold r; [exact Fr|rewrite Rabs_pos_eq; lra|lia]).
  rewrite Er. split; [exact Fr|]. split; [exact Pr|]. rewrite Rabs_left1; lra.
Qed.

Lemma good_mul s x y n : (Z.of_nat s <= 10000000)%Z -> 1 <= y <= Big -> good s x y -> (1 <= n < 100000000)%Z ->
  good (S s) (mul_int d x n) (IZR n * y) /\ ok d 6000010 (mul_int d x n).
Proof.
  intros Hs Hy G Hn. destruct (good_ok s x y Hs Hy G) as [O V]. destruct G as (F & P & N). destruct O as (_ & _ & [Z|[M1 M2]]); [lra|]. rewrite Rabs_pos_eq in M1, M2 by lra.
  destruct (mul_int_pos x n F P) as (Fr & Pr & Er); [split; [exact V|apply Rle_trans with (1 := M2); apply p10_le; lia]|exact Hn|].
  assert (In : 1 <= IZR n <= 100000000) by (split; apply IZR_le; lia). pose proof e_small as E0. split.
  - split; [exact Fr|]. split; [exact Pr|]. apply near_step with (IZR n * value x); [nra|apply near_scale; [lra|exact N]|]. eapply Rle_trans; [exact Er|]. assert (0 < IZR n * value x) by nra. nra.
  - apply (ok_of_bounds d); [exact Fr|exact Pr|]. apply Rabs_le_inv in Er. set (w := IZR n * value x) in *. assert (value x <= w) by (unfold w; nra). assert (W : w <= p10 8 * p10 6000001).
    { unfold w. apply Rmult_le_compat; try lra. rewrite p10_nonneg by lia. change (10 ^ 8)%Z with 100000000%Z. lra. }
    rewrite <- p10_add in W. assert (e * w <= / 1000000 * w) by (apply Rmult_le_compat_r; lra). rewrite Rabs_pos_eq by lra.
    replace 6000010%Z with (1 + (8 + 6000001))%Z by lia. rewrite p10_inv, !(p10_add 1), p10_1. set (W' := p10 (8 + 6000001)) in *. split; [|lra].
    apply Rle_trans with (/ 10 * value x); [|lra]. apply Rle_trans with (/ 10 * p10 (- (6000001))); [|lra]. rewrite p10_inv, <- Rinv_mult. apply Rinv_le_contravar.
    + pose proof (p10_pos 6000001). lra.
    + apply Rmult_le_compat_l; [lra|]. unfold W'. apply p10_le. lia.
Qed.

Lemma good_add s x y x' y' : (Z.of_nat s <= 10000000)%Z -> 0 <= y -> 0 <= y' -> good s x y -> good s x' y' -> ok d 6000010 x -> ok d 6000010 x' ->
  good (S s) (add d x x') (y + y').
Proof.
  intros Hs Hy Hy' (F & P & N) (F' & P' & N') O O'. destruct (ok_add d 6000010 x x' Hd ltac:(lia) ltac:(lia) O O') as [(Fr & Pr & _) E].
  split; [exact Fr|]. split; [exact Pr|]. apply near_step with (value x + value x'); [lra|apply near_plus; assumption|]. eapply Rle_trans; [exact E|]. pose proof e_small as E0.
  assert (Px : 0 <= value x) by (destruct N as [N _]; pose proof (lo_pos s); nra). assert (Px' : 0 <= value x') by (destruct N' as [N' _]; pose proof (lo_pos s); nra).
  rewrite !Rabs_pos_eq by assumption. apply Rle_trans with (2 * e * (value x + value x')); [|nra]. apply Rmult_le_compat_l; [lra|]. apply Rmax_lub; lra.
Qed.

Lemma step_good s a x ya yx c : (Z.of_nat s + 2 <= 10000000)%Z -> (0 <= c <= 10000000)%Z -> finite d a -> 1 <= yx <= Big -> (c = 0%Z \/ 1 <= ya <= Big /\ good s a ya) -> good s x yx ->
  good (S (S s)) (add d (mul_int d a c) (mul_int d x (c + 2))) (IZR c * ya + IZR (c + 2) * yx).
Proof.
  intros Hs Hc Fa Hx Ha Gx. destruct (good_mul s x yx (c + 2) ltac:(lia) Hx Gx ltac:(lia)) as [G2 O2]. assert (0 <= IZR (c + 2)) by (apply IZR_le; lia). assert (0 <= IZR c) by (apply IZR_le; lia).
  assert (G1 : good (S s) (mul_int d a c) (IZR c * ya) /\ ok d 6000010 (mul_int d a c) /\ 0 <= IZR c * ya).
  { destruct Ha as [->|[Hya Ga]].
    - rewrite (mul_int_zero a Fa), Rmult_0_l. destruct (zero_ok d Hd) as (Fz & Pz & Vz). split; [|split; [|lra]].
      + split; [exact Fz|]. split; [exact Pz|]. rewrite Vz. unfold near. lra.
      + split; [exact Fz|]. split; [exact Pz|]. left. exact Vz.
    - destruct (Z.eq_dec c 0) as [->|Nc].
      + rewrite (mul_int_zero a Fa), Rmult_0_l. destruct (zero_ok d Hd) as (Fz & Pz & Vz). split; [|split; [|lra]].
        * split; [exact Fz|]. split; [exact Pz|]. rewrite Vz. unfold near. lra.
        * split; [exact Fz|]. split; [exact Pz|]. left. exact Vz.
      + destruct (good_mul s a ya c ltac:(lia) Hya Ga ltac:(lia)) as [A B]. split; [exact A|]. split; [exact B|]. nra. }
  destruct G1 as (G1 & O1 & P1). apply good_add; try assumption; [lia|nra].
Qed.

(** arrays *)
Lemma upd_length v : forall i x, length (upd v i x) = length v.
Proof. induction v as [|y v IH]; intros [|i] x; cbn [upd length]; auto. Qed.
Lemma get_upd v : forall i j x, (i < length v)%nat -> get d (upd v i x) j = if (j =? i)%nat then x else get d v j.
Proof.
  unfold get. induction v as [|y v IH]; intros [|i] [|j] x H; cbn [upd length nth Nat.eqb] in *; try lia; try reflexivity. apply IH. lia.
Qed.

Variable m : nat.
Hypothesis Hm : (1 <= Z.of_nat m <= 500000)%Z.

Lemma tang_big k j : (1 <= k <= j)%nat -> (j <= m)%nat -> 1 <= tang k j <= Big.
Proof.
  intros Hk Hj. destruct (tang_bounds m k ltac:(lia) j ltac:(lia)) as [A B]. split; [exact A|]. eapply Rle_trans; [exact B|].
  assert (M1 : 0 <= INR (2 * m) <= p10 6). { split; [apply pos_INR|]. rewrite INR_IZR_INZ, p10_nonneg by lia. apply IZR_le. change (10 ^ 6)%Z with 1000000%Z. lia. }
  eapply Rle_trans; [apply pow_incr; exact M1|].
  assert (G : forall n, p10 6 ^ n = p10 (6 * Z.of_nat n)).
  { induction n as [|n IH]; [reflexivity|]. cbn [Rpow_def.pow]. rewrite IH, <- p10_add. f_equal. lia. }
  rewrite G. apply p10_le. lia.
Qed.

Definition inv (f : nat -> nat) (t : list ef) : Prop :=
  length t = (m + 1)%nat /\ forall j, (1 <= j <= m)%nat -> good (2 * (j + f j)) (get d t j) (tang (f j) j).

Lemma inv_ext f g t : (forall j, (1 <= j <= m)%nat -> f j = g j) -> inv f t -> inv g t.
Proof. intros H [L G]. split; [exact L|]. intros j Hj. rewrite <- H by exact Hj. apply G. exact Hj. Qed.

Definition start : list ef := upd (upd (repeat (ef_default d) (m + 1)) 0 (zero d)) 1 (one d).

Lemma first_ok : inv (fun _ => 1%nat) (tangent_first d m start).
Proof.
  unfold tangent_first.
  assert (G : forall n, (n <= m - 1)%nat -> let t := fold_left (fun t k => upd t k (mul_int d (get d t (k - 1)) (Z.of_nat (k - 1)))) (seq 2 n) start in
    length t = (m + 1)%nat /\ forall j, (1 <= j <= n + 1)%nat -> good (2 * (j + 1)) (get d t j) (tang 1 j)).
  { induction n as [|n IH]; intros Hn t.
    - assert (L0 : length (repeat (ef_default d) (m + 1)) = (m + 1)%nat) by apply repeat_length.
      subst t. cbn [seq fold_left]. unfold start. split; [rewrite !upd_length; exact L0|]. intros j Hj. replace j with 1%nat by lia.
      rewrite get_upd by (rewrite upd_length, L0; lia). cbn [Nat.eqb]. destruct (one_ok d Hd) as (F & P & V). split; [exact F|]. split; [exact P|].
      rewrite V, tang_first by lia. change (INR (fact (1 - 1))) with 1. apply near_le with 0%nat; [lia|lra|apply near_refl].
    - subst t. rewrite seq_S, fold_left_app. destruct (IH ltac:(lia)) as [L I]. cbv zeta in L, I. set (t := fold_left _ (seq 2 n) start) in *. cbn [fold_left].
      split; [rewrite upd_length; exact L|]. intros j Hj. rewrite get_upd by (rewrite L; lia). destruct (Nat.eqb_spec j (2 + n)) as [->|N]; [|apply I; lia].
      replace (2 + n - 1)%nat with (n + 1)%nat by lia. specialize (I (n + 1)%nat ltac:(lia)).
      destruct (good_mul (2 * (n + 1 + 1)) _ _ (Z.of_nat (n + 1)) ltac:(lia) (tang_big 1 (n + 1) ltac:(lia) ltac:(lia)) I ltac:(lia)) as [(F & P & N) _]. split; [exact F|]. split; [exact P|].
      assert (E : tang 1 (2 + n) = IZR (Z.of_nat (n + 1)) * tang 1 (n + 1)).
      { rewrite !tang_first by lia. replace (2 + n - 1)%nat with (S n) by lia. replace (n + 1 - 1)%nat with n by lia. rewrite fact_simpl, mult_INR, <- INR_IZR_INZ. f_equal. f_equal. lia. }
      rewrite E. apply near_le with (3 := N); [lia|]. pose proof (tang_big 1 (n + 1) ltac:(lia) ltac:(lia)). apply Rmult_le_pos; [apply IZR_le; lia|lra]. }
  destruct (G (m - 1)%nat (Nat.le_refl _)) as [L I]. cbv zeta in L, I. split; [exact L|]. intros j Hj. apply I. lia.
Qed.

Definition lev (k J j : nat) : nat := if (j <? J)%nat then Nat.min j k else (k - 1)%nat.

Lemma pass_ok k t : (2 <= k <= m)%nat -> inv (fun j => Nat.min j (k - 1)) t -> inv (fun j => Nat.min j k) (tangent_pass d m k t).
Proof.
  intros Hk I. unfold tangent_pass.
  assert (G : forall n, (n <= m + 1 - k)%nat -> inv (lev k (k + n)) (fold_left (fun t j =>
    upd t j (add d (mul_int d (get d t (j - 1)) (Z.of_nat (j - k))) (mul_int d (get d t j) (Z.of_nat (j - k + 2))))) (seq k n) t)).
  { induction n as [|n IH]; intro Hn.
    - cbn [seq fold_left]. revert I. apply inv_ext. intros j Hj. unfold lev. destruct (Nat.ltb_spec j (k + 0)); lia.
    - rewrite seq_S, fold_left_app. destruct (IH ltac:(lia)) as [L G]. set (v := fold_left _ (seq k n) t) in *. cbn [fold_left].
      split; [rewrite upd_length; exact L|]. intros j Hj. rewrite get_upd by (rewrite L; lia). destruct (Nat.eqb_spec j (k + n)) as [->|N].
      + assert (E : lev k (k + S n) (k + n) = k) by (unfold lev; destruct (Nat.ltb_spec (k + n) (k + S n)); lia). rewrite E.
        pose proof (G (k + n)%nat Hj) as Gx. assert (Ex : lev k (k + n) (k + n) = (k - 1)%nat) by (unfold lev; destruct (Nat.ltb_spec (k + n) (k + n)); lia). rewrite Ex in Gx.
        pose proof (G (k + n - 1)%nat ltac:(lia)) as Ga. assert (Ea : lev k (k + n) (k + n - 1) = Nat.min (k + n - 1) k) by (unfold lev; destruct (Nat.ltb_spec (k + n - 1) (k + n)); lia). rewrite Ea in Ga.
        replace (k + n - k)%nat with n by lia.
        rewrite tang_step by lia. replace (k + n - k)%nat with n by lia. rewrite !INR_IZR_INZ.
        replace (2 * (k + n + k))%nat with (S (S (2 * (k + n + (k - 1))))) by lia. rewrite (Nat2Z.inj_add n 2). change (Z.of_nat 2) with 2%Z.
        apply step_good; [lia|lia|apply Ga|apply tang_big; lia| |exact Gx].
        destruct n as [|n]; [left; reflexivity|right]. replace (Nat.min (k + S n - 1) k) with k in Ga by lia. split; [apply tang_big; lia|].
        replace (k + S n + (k - 1))%nat with (k + S n - 1 + k)%nat by lia. exact Ga.
      + replace (lev k (k + S n) j) with (lev k (k + n) j) by (unfold lev; destruct (Nat.ltb_spec j (k + n)), (Nat.ltb_spec j (k + S n)); lia). apply G. exact Hj. }
  specialize (G (m + 1 - k)%nat (Nat.le_refl _)). revert G. apply inv_ext. intros j Hj. unfold lev. destruct (Nat.ltb_spec j (k + (m + 1 - k))); lia.
Qed.

Lemma tangent_ok i : (1 <= i <= m)%nat -> good (4 * i) (get d (tangent_numbers d m) i) (tang i i).
Proof.
  intro Hi. unfold tangent_numbers. fold start.
  assert (G : forall n, (n <= m - 1)%nat -> inv (fun j => Nat.min j (n + 1)) (fold_left (fun t k => tangent_pass d m k t) (seq 2 n) (tangent_first d m start))).
  { induction n as [|n IH]; intro Hn.
    - cbn [seq fold_left]. generalize first_ok. apply inv_ext. intros j Hj. lia.
    - rewrite seq_S, fold_left_app. cbn [fold_left]. replace (S n + 1)%nat with (2 + n)%nat by lia. apply pass_ok; [lia|]. replace (2 + n - 1)%nat with (n + 1)%nat by lia. apply IH. lia. }
  destruct (G (m - 1)%nat (Nat.le_refl _)) as [_ I]. specialize (I i Hi). replace (Nat.min i (m - 1 + 1)) with i in I by lia. replace (4 * i)%nat with (2 * (i + i))%nat by lia. exact I.
Qed.

(** the quotients *)
Lemma quot_ok M a c : (0 <= M <= 1000000000)%Z -> ok d M a -> ok d M c -> 0 < value a -> 0 < value c ->
  finite d (div d a c) /\ full d (div d a c) /\ rel (u / 10) (value (div d a c)) (value a / value c).
Proof.
  intros HM Oa Oc Va Vc. pose proof (ok_in_range d M c Oc ltac:(lia) ltac:(lra)) as IR.
  assert (IQ : in_range (value a / value c)).
  { destruct Oc as (_ & _ & [Z|[M1 M2]]); [lra|]. destruct Oa as (_ & _ & [Z|[N1 N2]]); [lra|]. unfold in_range, Rdiv. rewrite Rabs_mult, Rabs_inv. set (A := Rabs (value a)) in *. set (C := Rabs (value c)) in *.
    assert (Cp : 0 < C) by (apply Rabs_pos_lt; lra). pose proof (p10_pos (- M)).
    assert (I1 : / p10 M <= / C) by (apply Rinv_le_contravar; assumption). assert (I2 : / C <= / p10 (- M)) by (apply Rinv_le_contravar; assumption).
    rewrite p10_inv, Rinv_inv in I2. rewrite <- p10_inv in I1. split.
    - apply Rle_trans with (p10 (- M) * p10 (- M)); [rewrite <- p10_add; apply p10_le; lia|]. apply Rmult_le_compat; lra.
    - apply Rle_trans with (p10 M * p10 M); [|rewrite <- p10_add; apply p10_le; lia]. pose proof (p10_pos M). apply Rmult_le_compat; lra. }
  destruct (div_accurate d a c Hd ltac:(lia) (proj1 Oa) (proj1 Oc) (proj1 (proj2 Oa)) (proj1 (proj2 Oc)) IR IQ (or_intror Va)) as (Fr & Pr & _ & _ & Er). specialize (Er Hd'). rewrite (p_1 d) in Er.
  split; [exact Fr|]. split; [exact Pr|]. exact Er.
Qed.

Lemma pow4_big i : (1 <= i <= m)%nat -> 4 <= 4 ^ i <= p10 500000.
Proof.
  intro Hi. split.
  - replace 4 with (4 ^ 1) at 1 by ring. apply Rle_pow; [lra|lia].
  - apply Rle_trans with (10 ^ i); [apply pow_incr; lra|]. rewrite pow_powerRZ. apply p10_le. lia.
Qed.

Lemma den_ok i p : (1 <= i <= m)%nat -> good i p (4 ^ i) ->
  let q := sub d (mul d p p) p in ok d 7000000 q /\ 0 < value q /\ rel (u / 100000) (value q) (4 ^ i * 4 ^ i - 4 ^ i).
Proof.
  intros Hi G. pose proof (pow4_big i Hi) as B4. pose proof (u_small d Hd) as U. pose proof e_small as E0. assert (He : e = u / 100000000000000000) by apply (p_17 d).
  assert (BB : 1 <= 4 ^ i <= Big) by (split; [lra|]; apply Rle_trans with (1 := proj2 B4); apply p10_le; lia).
  assert (Op : ok d 500001 p /\ 0 < value p).
  { destruct G as (F & P & N). pose proof (near_rel i (value p) (4 ^ i) ltac:(lia) ltac:(lra) N) as R. unfold rel in R. rewrite (Rabs_pos_eq (4 ^ i)) in R by lra. apply Rabs_le_inv in R.
    assert (u / 1000000000 * 4 ^ i <= / 2 * 4 ^ i) by (apply Rmult_le_compat_r; lra). split; [|lra]. apply (ok_of_bounds d); [exact F|exact P|]. rewrite Rabs_pos_eq by lra. split.
    - apply Rle_trans with (p10 0); [apply p10_le; lia|]. change (p10 0) with 1. lra.
    - change 500001%Z with (1 + 500000)%Z. rewrite p10_add, p10_1. lra. }
  destruct Op as [Op Vp]. destruct G as (F & P & N). pose proof (near_rel i (value p) (4 ^ i) ltac:(lia) ltac:(lra) N) as R.
  destruct (ok_rel_mul d Hd Hd' 500001 500001 p p ltac:(lia) ltac:(lia) ltac:(lia) Op Op) as [Om Rm].
  destruct (ok_sub d 1000003 (mul d p p) p Hd ltac:(lia) ltac:(lia) Om (ok_le d 500001 1000003 p ltac:(lia) Op)) as [Oq Eq].
  cbv zeta. set (q := sub d (mul d p p) p) in *. set (w := 4 ^ i) in *. unfold rel in R, Rm. set (x := value p) in *. set (y := value (mul d p p)) in *.
  rewrite (Rabs_pos_eq w) in R by lra. assert (Xx : 0 < x * x) by nra. rewrite (Rabs_pos_eq (x * x)) in Rm by lra. apply Rabs_le_inv in R. apply Rabs_le_inv in Rm.
  assert (Y1 : u / 1000000 * (x * x) <= / 1000 * (x * x)) by (apply Rmult_le_compat_r; lra).
  assert (Yp : 0 < y) by lra. rewrite (Rabs_pos_eq y), (Rabs_pos_eq x) in Eq by lra.
  set (f := u / 1000000000) in *. assert (Hf : 0 < f <= / 1000000) by (unfold f; lra). assert (fw : 0 < f * w <= / 1000000 * w) by (split; [apply Rmult_lt_0_compat; lra|apply Rmult_le_compat_r; lra]).
  assert (X2 : Rabs (x * x - w * w) <= 3 * f * (w * w)).
  { replace (x * x - w * w) with ((x - w) * (x + w)) by ring. rewrite Rabs_mult, (Rabs_pos_eq (x + w)) by lra. replace (3 * f * (w * w)) with ((f * w) * (3 * w)) by ring. apply Rmult_le_compat; [apply Rabs_pos|lra|apply Rabs_le; lra|lra]. }
  apply Rabs_le_inv in X2. assert (Ww : 4 * w <= w * w) by (apply Rmult_le_compat_r; lra). assert (fww : 3 * f * (w * w) <= / 100000 * (w * w)) by (apply Rmult_le_compat_r; lra).
  assert (Y2 : u / 1000000 * (x * x) <= u / 1000000 * (101 / 100 * (w * w))) by (apply Rmult_le_compat_l; lra).
  assert (Mx : Rmax y x <= 2 * (w * w)) by (apply Rmax_lub; lra).
  assert (Me : 2 * e * Rmax y x <= 2 * e * (2 * (w * w))) by (apply Rmult_le_compat_l; lra). apply Rabs_le_inv in Eq.
  assert (UW : 0 < u * (w * w)) by (apply Rmult_lt_0_compat; lra).
  assert (T1 : 3 * f * (w * w) = 3 / 1000000000 * (u * (w * w))) by (unfold f; field). assert (T2 : u / 1000000 * (101 / 100 * (w * w)) = 101 / 100000000 * (u * (w * w))) by field.
  assert (T3 : 2 * e * (2 * (w * w)) = 4 / 100000000000000000 * (u * (w * w))) by (rewrite He; field). assert (T4 : f * w <= / 4000000000 * (u * (w * w))).
  { apply Rle_trans with (f * (w * w / 4)); [apply Rmult_le_compat_l; lra|]. unfold f. right. field. }
  assert (K : Rabs (value q - (w * w - w)) <= / 500000 * (u * (w * w))) by (apply Rabs_le; lra).
  assert (Z1 : 3 / 4 * (w * w) <= w * w - w) by lra. assert (UW2 : u * (w * w) <= / 1000000 * (w * w)) by (apply Rmult_le_compat_r; lra).
  split; [apply (ok_le d (1000003 + 70000)); [lia|exact Oq]|]. split; [apply Rabs_le_inv in K; lra|].
  unfold rel. rewrite (Rabs_pos_eq (w * w - w)) by lra. eapply Rle_trans; [exact K|]. apply Rle_trans with (u / 100000 * (3 / 4 * (w * w))); [lra|]. apply Rmult_le_compat_l; lra.
Qed.

Lemma entry_ok i t p b : is_bernoulli b -> (1 <= i <= m)%nat -> good (4 * i) t (tang i i) -> good i p (4 ^ i) ->
  let q := div d (mul_int d t (2 * Z.of_nat i)) (sub d (mul d p p) p) in
  let r := if negb ((2 * Z.of_nat i) mod 4 =? 0)%Z then q else negate q in
  finite d r /\ full d r /\ Rabs (value r - b (2 * i)%nat) <= u / 5 * Rabs (b (2 * i)%nat).
Proof.
  intros Hb Hi Gt Gp q r. pose proof (u_small d Hd) as U. pose proof (tang_big i i ltac:(lia) ltac:(lia)) as TB.
  destruct (good_mul (4 * i) t _ (2 * Z.of_nat i) ltac:(lia) TB Gt ltac:(lia)) as [Gn On]. destruct Gn as (Fn & Pn & Nn).
  assert (In : 2 <= IZR (2 * Z.of_nat i)) by (apply IZR_le; lia). assert (Yp : 0 < IZR (2 * Z.of_nat i) * tang i i) by nra.
  pose proof (near_pos _ _ _ Yp Nn) as Vn. pose proof (near_rel (S (4 * i)) _ _ ltac:(lia) (Rlt_le _ _ Yp) Nn) as Rn.
  destruct (den_ok i p Hi Gp) as (Oq & Vq & Rq). cbv zeta in Oq, Vq, Rq.
  destruct (quot_ok 7000000 _ _ ltac:(lia) (ok_le d 6000010 7000000 _ ltac:(lia) On) Oq Vn Vq) as (Fr & Pr & Rr). fold q in Fr, Pr, Rr.
  pose proof (pow4_big i Hi) as B4. set (w := 4 ^ i) in *. assert (Dp : 0 < w * w - w) by nra.
  pose proof (rel_div (u / 1000000000) (u / 100000) _ _ (value (sub d (mul d p p) p)) (w * w - w) ltac:(lra) ltac:(lra) ltac:(lra) ltac:(lra) Rn Rq) as Rd.
  pose proof (rel_trans (u / 10) _ _ _ _ ltac:(lra) Rr Rd) as Rf.
  assert (Rg : rel (u / 5) (value q) (IZR (2 * Z.of_nat i) * tang i i / (w * w - w))).
  { eapply rel_le; [|exact Rf]. set (h := u / 1000000000 + 102 / 100 * (u / 100000) + u / 1000000000 * (102 / 100 * (u / 100000))) in *.
    assert (u / 1000000000 * (102 / 100 * (u / 100000)) <= u / 1000000000 * / 100) by (apply Rmult_le_compat_l; lra). assert (Hh : h <= u / 90000) by (unfold h; lra).
    assert (u / 10 * h <= u / 10 * / 100) by (apply Rmult_le_compat_l; lra). lra. }
  pose proof (bernoulli_tang b i Hb ltac:(lia)) as BT. fold w in BT. rewrite INR_IZR_INZ, Nat2Z.inj_mul in BT. change (Z.of_nat 2) with 2%Z in BT.
  set (y := IZR (2 * Z.of_nat i) * tang i i / (w * w - w)) in *. assert (Y0 : 0 < y) by (unfold y; apply Rdiv_lt_0_compat; assumption).
  unfold rel in Rg. rewrite (Rabs_pos_eq y) in Rg by lra. rewrite BT.
  assert (Sg : negb ((2 * Z.of_nat i) mod 4 =? 0)%Z = true /\ (-1) ^ (i - 1) = 1 \/ negb ((2 * Z.of_nat i) mod 4 =? 0)%Z = false /\ (-1) ^ (i - 1) = -1).
  { destruct (Nat.Even_or_Odd (i - 1)) as [[j Ej]|[j Ej]]; [left|right]; rewrite Ej.
    - split; [|apply pow_1_even]. replace i with (2 * j + 1)%nat by lia. apply negb_true_iff, Z.eqb_neq. replace (2 * Z.of_nat (2 * j + 1))%Z with (2 + Z.of_nat j * 4)%Z by lia. rewrite Z_mod_plus_full. discriminate.
    - split; [|rewrite Nat.add_1_r; apply pow_1_odd]. replace i with (2 * j + 2)%nat by lia. apply negb_false_iff, Z.eqb_eq. replace (2 * Z.of_nat (2 * j + 2))%Z with ((Z.of_nat j + 1) * 4)%Z by lia. apply Z_mod_mult. }
  destruct Sg as [[E1 ->]|[E1 ->]]; unfold r; rewrite E1.
  - split; [exact Fr|]. split; [exact Pr|]. rewrite Rmult_1_l, (Rabs_pos_eq y) by lra. exact Rg.
  - split; [apply negate_finite; exact Fr|]. split; [unfold full in *; rewrite negate_prec; exact Pr|]. rewrite (negate_value d q Hd Fr).
    replace (-1 * y) with (- y) by ring. rewrite Rabs_Ropp, (Rabs_pos_eq y) by lra. replace (- value q - - y) with (- (value q - y)) by ring. rewrite Rabs_Ropp. exact Rg.
Qed.

Lemma default_zero : ef_default d = zero d.
Proof. unfold ef_default, zero, of_ull. cbn [ull_limbs]. rewrite Z.eqb_refl. cbn [rev length]. rewrite Nat.min_0_l, Nat.sub_0_r. reflexivity. Qed.

Lemma get_repeat n j : get d (repeat (ef_default d) n) j = zero d.
Proof.
  rewrite default_zero. unfold get. revert j. induction n as [|n IH]; intros [|j]; cbn [repeat nth]; auto.
Qed.

Lemma loop_ok b : is_bernoulli b -> forall n, (n <= m)%nat ->
  let '(bn, p) := fold_left (table_step d (tangent_numbers d m)) (seq 1 n) (repeat (ef_default d) (2 * m + 1), of_sll d 4) in
  length bn = (2 * m + 1)%nat /\ good (n + 1) p (4 ^ (n + 1)) /\
  forall j, (j <= 2 * m)%nat ->
    if (Nat.even j && (1 <? j)%nat && (j <=? 2 * n)%nat)%bool
    then finite d (get d bn j) /\ full d (get d bn j) /\ Rabs (value (get d bn j) - b j) <= u / 5 * Rabs (b j)
    else get d bn j = zero d.
Proof.
  intros Hb. induction n as [|n IH]; intro Hn.
  - cbn [seq fold_left]. split; [apply repeat_length|]. split.
    + destruct (of_sll_spec d 4 Hd ltac:(lia)) as (F & P & V & _). split; [exact F|]. split; [exact P|]. rewrite V. assert (E4 : 4 ^ (0 + 1) = 4) by (cbn; ring). rewrite E4. apply near_le with 0%nat; [lia|lra|apply near_refl].
    + intros j Hj. destruct (Nat.ltb_spec 1 j).
      * replace (j <=? 2 * 0)%nat with false by (symmetry; apply Nat.leb_gt; lia). rewrite andb_false_r. rewrite get_repeat. reflexivity.
      * rewrite get_repeat. destruct (Nat.even j); reflexivity.
  - specialize (IH ltac:(lia)). rewrite seq_S, fold_left_app. destruct (fold_left _ (seq 1 n) _) as [bn p]. destruct IH as (L & Gp & I). cbn [fold_left]. unfold table_step. change (1 + n)%nat with (S n).
    rewrite upd_length. split; [exact L|]. replace (n + 1)%nat with (S n) in Gp by lia. replace (S n + 1)%nat with (S (S n)) by lia. split.
    + pose proof (pow4_big (S n) ltac:(lia)) as B4. destruct (good_mul (S n) p (4 ^ S n) 4 ltac:(lia) ltac:(split; [lra|]; apply Rle_trans with (1 := proj2 B4); apply p10_le; lia) Gp ltac:(lia)) as [G4 _]. exact G4.
    + intros j Hj. rewrite get_upd by (rewrite L; lia). specialize (I j Hj). destruct (Nat.eqb_spec j (2 * S n)) as [->|N].
      * replace (Nat.even (2 * S n) && (1 <? 2 * S n)%nat && (2 * S n <=? 2 * S n)%nat)%bool with true.
        -- apply entry_ok; [exact Hb|lia|apply tangent_ok; lia|exact Gp].
        -- symmetry. rewrite Nat.leb_refl, andb_true_r. apply andb_true_iff. split; [apply Nat.even_spec; exists (S n); reflexivity|apply Nat.ltb_lt; lia].
      * replace (Nat.even j && (1 <? j)%nat && (j <=? 2 * S n)%nat)%bool with (Nat.even j && (1 <? j)%nat && (j <=? 2 * n)%nat)%bool; [exact I|].
        destruct (Nat.even j) eqn:Ev; [|reflexivity]. apply Nat.even_spec in Ev. destruct Ev as [k ->]. destruct (Nat.leb_spec (2 * k) (2 * n)), (Nat.leb_spec (2 * k) (2 * S n)); try reflexivity; lia.
Qed.

End Digits.

Lemma table_ok d b n : valid_digits d -> (d <= 4967)%Z -> is_bernoulli b -> (1 <= n <= 1000000)%Z ->
  exists bn, bernoulli_table d n = Ok bn /\ Z.of_nat (length bn) = (n + n mod 2 + 1)%Z /\
  forall j, (Z.of_nat j <= n + n mod 2)%Z -> finite d (nth j bn (zero d)) /\ full d (nth j bn (zero d)) /\
  Rabs (value (nth j bn (zero d)) - b j) <= powerRZ 10 (- d) / 5 * Rabs (b j).
Proof.
  intros Hd Hd' Hb Hn. pose proof (p10_pos (- d)) as U.
  assert (M2 : (0 <= n mod 2 < 2)%Z) by (apply Z.mod_pos_bound; lia).
  assert (E : exists m, (1 <= Z.of_nat m <= 500000)%Z /\ (n + n mod 2 = 2 * Z.of_nat m)%Z).
  { exists (Z.to_nat ((n + n mod 2) / 2)). pose proof (Z.div_mod n 2 ltac:(lia)) as DM.
    assert (Q : ((n + n mod 2) / 2 = n / 2 + n mod 2)%Z) by (replace (n + n mod 2)%Z with ((n / 2 + n mod 2) * 2)%Z by lia; apply Z_div_mult; lia). rewrite Q. lia. }
  destruct E as (m & Hm & En).
  assert (NN : (if negb (n mod 2 =? 0)%Z then ((n + 1) mod 2 ^ 32)%Z else n) = (2 * Z.of_nat m)%Z).
  { destruct (Z.eqb_spec (n mod 2) 0) as [Z|Z]; cbn [negb]; [lia|]. rewrite Z.mod_small by lia. lia. }
  unfold bernoulli_table. rewrite NN. replace (2 * Z.of_nat m / 2)%Z with (Z.of_nat m) by (rewrite (Z.mul_comm 2), Z_div_mult by lia; reflexivity). cbv zeta.
  replace ((Z.of_nat m =? 0)%Z || (Z.of_nat m >=? 2 ^ 30)%Z)%bool with false by (symmetry; apply orb_false_iff; split; [apply Z.eqb_neq; lia|rewrite Z.geb_leb; apply Z.leb_gt; lia]).
  rewrite Nat2Z.id. replace (Z.to_nat (2 * Z.of_nat m + 1)) with (2 * m + 1)%nat by lia.
  pose proof (loop_ok d Hd Hd' m Hm b Hb m (Nat.le_refl m)) as L. destruct (fold_left _ (seq 1 m) _) as [bn p]. destruct L as (L & _ & I).
  eexists. split; [reflexivity|]. split; [rewrite !upd_length, L; lia|]. intros j Hj.
  change (nth j (upd (upd bn 0 (one d)) 1 (negate (half d))) (zero d)) with (get d (upd (upd bn 0 (one d)) 1 (negate (half d))) j).
  rewrite get_upd by (rewrite upd_length, L; lia). destruct (Nat.eqb_spec j 1) as [->|N1].
  - destruct (of_limbs1 d 50000000 (-8) Hd ltac:(lia) ltac:(reflexivity)) as (H1 & H2 & H3). fold (half d) in H1, H2, H3.
    split; [apply negate_finite; exact H1|]. split; [unfold full in *; rewrite negate_prec; exact H2|]. rewrite (negate_value d _ Hd H1), H3, (bernoulli_one b Hb). change (-8)%Z with (- (8))%Z. rewrite p10_inv, p10_nonneg by lia. change (10 ^ 8)%Z with 100000000%Z.
    replace (- (50000000 * / 100000000) - - / 2) with 0 by field. rewrite Rabs_R0. pose proof (Rabs_pos (- / 2)). nra.
  - rewrite get_upd by (rewrite L; lia). destruct (Nat.eqb_spec j 0) as [->|N0].
    + destruct (one_ok d Hd) as (F & P & V). split; [exact F|]. split; [exact P|]. rewrite V, (proj1 Hb). unfold Rminus. rewrite Rplus_opp_r, Rabs_R0, Rabs_R1. lra.
    + specialize (I j ltac:(lia)). replace (j <=? 2 * m)%nat with true in I by (symmetry; apply Nat.leb_le; lia). replace (1 <? j)%nat with true in I by (symmetry; apply Nat.ltb_lt; lia). rewrite !andb_true_r in I.
      destruct (Nat.even j) eqn:Ev; [exact I|]. rewrite I. destruct (zero_ok d Hd) as (F & P & V). split; [exact F|]. split; [exact P|]. rewrite V, (bernoulli_odd b j Hb ltac:(lia) Ev). rewrite Rminus_0_r, Rabs_R0. lra.
Qed.
