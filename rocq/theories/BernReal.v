(** * Bernoulli numbers and the tangent numbers: formal power series *)

From Coq Require Import Reals Lra Lia Arith FunctionalExtensionality.
From Verif Require Import SpecBern.
Open Scope R_scope.

(** A formal power series is given by its derivatives at 0. *)
Definition ser := nat -> R.
Definition D (a : ser) : ser := fun n => a (S n).
Definition sadd (a b : ser) : ser := fun n => a n + b n.
Definition sopp (a : ser) : ser := fun n => - a n.
Definition ssub (a b : ser) : ser := fun n => a n - b n.
Definition sc (c : R) (a : ser) : ser := fun n => c * a n.
Definition cst (c : R) : ser := fun n => match n with O => c | _ => 0 end.

Fixpoint conv (a b : ser) (n : nat) : R :=
  match n with O => a 0%nat * b 0%nat | S m => conv (D a) b m + conv a (D b) m end.
Definition smul (a b : ser) : ser := fun n => conv a b n.

Lemma ser_ext (a b : ser) : (forall n, a n = b n) -> a = b.
Proof. intro H. apply functional_extensionality. exact H. Qed.

Lemma conv_comm n : forall a b, conv a b n = conv b a n.
Proof. induction n as [|n IH]; intros a b; cbn [conv]; [ring|]. rewrite (IH (D a)), (IH a). ring. Qed.

Lemma conv_add_l n : forall a b c, conv (sadd a b) c n = conv a c n + conv b c n.
Proof.
  induction n as [|n IH]; intros a b c; cbn [conv]; [unfold sadd; ring|]. change (D (sadd a b)) with (sadd (D a) (D b)). rewrite !IH. ring.
Qed.

Lemma conv_sc_l n : forall k a b, conv (sc k a) b n = k * conv a b n.
Proof.
  induction n as [|n IH]; intros k a b; cbn [conv]; [unfold sc; ring|]. change (D (sc k a)) with (sc k (D a)). rewrite !IH. ring.
Qed.

Lemma conv_zero n : forall a b, (forall k, (k <= n)%nat -> a k = 0) -> conv a b n = 0.
Proof.
  induction n as [|n IH]; intros a b H; cbn [conv]; [rewrite (H 0%nat) by lia; ring|]. rewrite (IH (D a)), (IH a); [ring| |]; intros k Hk; [apply H; lia|]. unfold D. apply H. lia.
Qed.

Lemma conv_ext n : forall a b a' b', (forall k, (k <= n)%nat -> a k = a' k /\ b k = b' k) -> conv a b n = conv a' b' n.
Proof.
  induction n as [|n IH]; intros a b a' b' H; cbn [conv]. { destruct (H 0%nat ltac:(lia)) as [-> ->]. reflexivity. }
  rewrite (IH (D a) b (D a') b'), (IH a (D b) a' (D b')); [reflexivity| |]; intros k Hk; (split; [apply H; lia|]); apply H; lia.
Qed.

Lemma D_mul a b : D (smul a b) = sadd (smul (D a) b) (smul a (D b)).
Proof. reflexivity. Qed.

Lemma conv_assoc n : forall a b c, conv (smul a b) c n = conv a (smul b c) n.
Proof.
  induction n as [|n IH]; intros a b c; cbn [conv]; [unfold smul; cbn [conv]; ring|].
  rewrite !D_mul, conv_add_l. rewrite (conv_comm n a (sadd _ _)), conv_add_l, !(conv_comm n _ a), !IH. ring.
Qed.

Lemma conv_one n : forall a, conv (cst 1) a n = a n.
Proof.
  induction n as [|n IH]; intro a; cbn [conv]; [cbn [cst]; ring|]. rewrite IH, conv_zero; [unfold D; ring|]. intros k _. reflexivity.
Qed.

Lemma ser_ring : ring_theory (cst 0) (cst 1) sadd smul ssub sopp eq.
Proof.
  constructor; intros; apply ser_ext; intro n; unfold sadd, ssub, sopp, smul; try ring.
  - destruct n; cbn; ring.
  - apply conv_one.
  - apply conv_comm.
  - symmetry. apply (conv_assoc n x y z).
  - apply (conv_add_l n x y z).
  - destruct n; cbn; ring.
Qed.
Add Ring ser_ring : ser_ring.

Lemma sc_cst c a : sc c a = smul (cst c) a.
Proof.
  apply ser_ext. intro n. unfold smul. transitivity (conv (sc c (cst 1)) a n).
  - rewrite conv_sc_l, conv_one. reflexivity.
  - apply conv_ext. intros k _. split; [|reflexivity]. destruct k; unfold sc; cbn; ring.
Qed.

(** e^(cx) and x *)
Definition E (c : R) : ser := fun n => c ^ n.
Definition X : ser := fun n => match n with 1%nat => 1 | _ => 0 end.

Lemma D_E c : D (E c) = sc c (E c).
Proof. reflexivity. Qed.

Lemma E_mul a b : smul (E a) (E b) = E (a + b).
Proof.
  apply ser_ext. intro n. unfold smul. induction n as [|n IH]; cbn [conv]; [unfold E; cbn; ring|].
  rewrite !D_E, conv_sc_l, (conv_comm n _ (sc b _)), conv_sc_l, (conv_comm n (E b)), IH. unfold E. cbn [pow]. ring.
Qed.

Lemma X_mul a n : smul X a n = INR n * a (pred n).
Proof.
  unfold smul. revert a. induction n as [|n IH]; intro a; [cbn; ring|]. cbn [conv]. rewrite IH.
  replace (conv (D X) a n) with (a n).
  - cbn [pred]. destruct n as [|n]; [cbn; ring|]. cbn [pred]. unfold D. rewrite (S_INR (S n)). ring.
  - rewrite <- (conv_one n a) at 1. apply conv_ext. intros k _. split; [|reflexivity]. destruct k; reflexivity.
Qed.

(** x replaced by cx *)
Definition dil (c : R) (a : ser) : ser := fun n => c ^ n * a n.

Lemma dil_mul c a b : dil c (smul a b) = smul (dil c a) (dil c b).
Proof.
  apply ser_ext. intro n. unfold dil at 1, smul. revert a b. induction n as [|n IH]; intros a b; [cbn; unfold dil; cbn; ring|]. cbn [conv].
  assert (G : forall f, D (dil c f) = sc c (dil c (D f))) by (intro f; apply ser_ext; intro k; unfold D, dil, sc; cbn [pow]; ring).
  rewrite !G, conv_sc_l, (conv_comm n _ (sc c _)), conv_sc_l, (conv_comm n (dil c (D b))), <- !IH. cbn [pow]. ring.
Qed.

(** The product as a sum *)
Fixpoint bin (n k : nat) : R :=
  match k, n with O, _ => 1 | S _, O => 0 | S k', S n' => bin n' k' + bin n' k end.

Lemma bin_0 n : bin n 0 = 1.
Proof. destruct n; reflexivity. Qed.
Lemma bin_large n : forall k, (n < k)%nat -> bin n k = 0.
Proof. induction n as [|n IH]; intros [|k] H; try lia; cbn [bin]; [reflexivity|]. rewrite !IH by lia. ring. Qed.
Lemma C_diag n : Binomial.C n n = 1 /\ Binomial.C n 0 = 1.
Proof.
  unfold Binomial.C. rewrite Nat.sub_diag, Nat.sub_0_r. cbn [fact INR]. pose proof (INR_fact_neq_0 n). split; field; assumption.
Qed.
Lemma bin_C n : forall k, (k <= n)%nat -> bin n k = Binomial.C n k.
Proof.
  induction n as [|n IH]; intros [|k] H; try lia; cbn [bin]; [symmetry; apply C_diag|symmetry; apply C_diag|].
  destruct (Nat.eq_dec k n) as [->|N]. { rewrite IH, (bin_large n (S n)) by lia. rewrite !(proj1 (C_diag _)). ring. }
  rewrite !IH by lia. apply Binomial.pascal. lia.
Qed.

Lemma conv_sum n : forall a b, conv a b n = sum_f_R0 (fun k => bin n k * (a k * b (n - k)%nat)) n.
Proof.
  induction n as [|n IH]; intros a b; [cbn; ring|]. cbn [conv]. rewrite !IH.
  assert (H : sum_f_R0 (fun k => bin n k * (a k * D b (n - k)%nat)) n = sum_f_R0 (fun k => bin n k * (a k * b (S n - k)%nat)) (S n)).
  { cbn [sum_f_R0]. rewrite (bin_large n (S n)), Rmult_0_l, Rplus_0_r by lia. apply sum_eq. intros k Hk. unfold D. rewrite <- (Nat.sub_succ_l k n) by lia. reflexivity. }
  rewrite H, !(decomp_sum _ (S n)) by lia. cbn [pred]. rewrite !bin_0. rewrite (Rplus_comm (sum_f_R0 _ n) (_ + _)), Rplus_assoc. f_equal. rewrite Rplus_comm, <- plus_sum.
  apply sum_eq. intros k Hk. cbn [bin]. rewrite Nat.sub_succ. unfold D. ring.
Qed.

Lemma cancel_X h g : h 0%nat = 0 -> h 1%nat <> 0 -> smul g h = cst 0 -> g = cst 0.
Proof.
  intros H0 H1 H. assert (Z : forall n, cst 0 n = 0) by (intros [|n]; reflexivity). apply ser_ext. intro n. rewrite Z. induction n as [n IH] using lt_wf_ind.
  assert (P : conv g h (S n) = 0) by (change (conv g h (S n)) with (smul g h (S n)); rewrite H; reflexivity).
  rewrite conv_sum in P. cbn [sum_f_R0] in P. rewrite Nat.sub_diag, H0, !Rmult_0_r, Rplus_0_r in P.
  destruct n as [|n].
  - cbn [sum_f_R0] in P. rewrite bin_0 in P. change (1 - 0)%nat with 1%nat in P. apply (Rmult_eq_reg_r (h 1%nat)); [lra|exact H1].
  - cbn [sum_f_R0] in P. rewrite sum_eq_R0 in P.
    + replace (S (S n) - S n)%nat with 1%nat in P by lia. rewrite bin_C in P by lia. rewrite Rplus_0_l in P.
      apply Rmult_integral in P. destruct P as [P|P].
      * exfalso. unfold Binomial.C in P. apply Rmult_integral in P. destruct P as [P|P]; [exact (INR_fact_neq_0 _ P)|]. revert P. apply Rinv_neq_0_compat. apply Rmult_integral_contrapositive. split; apply INR_fact_neq_0.
      * apply Rmult_integral in P. destruct P as [P|P]; [exact P|destruct (H1 P)].
    + intros k Hk. rewrite (IH k) by lia. ring.
Qed.

(** The tangent: t' = 1 - t^2 (hyperbolic), t(0) = 0 *)
Fixpoint prefix (n : nat) : ser :=
  match n with
  | O => cst 0
  | S m => fun k => if (k <=? m)%nat then prefix m k else cst 1 m - conv (prefix m) (prefix m) m
  end.
Definition th : ser := fun n => prefix n n.

Lemma prefix_th n : forall k, (k <= n)%nat -> prefix n k = th k.
Proof.
  induction n as [|n IH]; intros k H. { replace k with 0%nat by lia. reflexivity. }
  destruct (Nat.eq_dec k (S n)) as [->|N]; [reflexivity|]. cbn [prefix]. replace (k <=? n)%nat with true by (symmetry; apply Nat.leb_le; lia). apply IH. lia.
Qed.

Lemma D_th : D th = ssub (cst 1) (smul th th).
Proof.
  apply ser_ext. intro n. unfold D, th at 1. cbn [prefix]. replace (S n <=? n)%nat with false by (symmetry; apply Nat.leb_gt; lia). unfold ssub. f_equal. unfold smul.
  apply conv_ext. intros k Hk. rewrite prefix_th by exact Hk. split; reflexivity.
Qed.

Lemma th_tanh : smul th (sadd (E 2) (cst 1)) = ssub (E 2) (cst 1).
Proof.
  set (w := ssub (smul th (sadd (E 2) (cst 1))) (ssub (E 2) (cst 1))).
  assert (W : D w = smul (ssub (cst 1) th) w).
  { assert (D2 : D (E 2) = smul (cst 2) (E 2)) by (rewrite D_E, sc_cst; reflexivity).
    assert (C2 : cst 2 = sadd (cst 1) (cst 1)) by (apply ser_ext; intros [|n]; unfold sadd; cbn; ring).
    assert (Dw : D w = ssub (sadd (smul (D th) (sadd (E 2) (cst 1))) (smul th (D (E 2)))) (D (E 2))).
    { unfold w. change (D (ssub (smul th (sadd (E 2) (cst 1))) (ssub (E 2) (cst 1)))) with (ssub (D (smul th (sadd (E 2) (cst 1)))) (ssub (D (E 2)) (cst 0))) || idtac.
      rewrite <- (D_mul th (E 2)) || idtac. apply ser_ext. intro n. unfold D at 1, ssub at 1. cbn [smul]. unfold smul at 1. cbn [conv].
      assert (Z : D (cst 1) = cst 0) by (apply ser_ext; intros [|k]; reflexivity).
      assert (A : D (sadd (E 2) (cst 1)) = D (E 2)) by (apply ser_ext; intro k; unfold D, sadd; cbn [cst]; ring). rewrite A. unfold ssub, sadd, smul, D. cbn [cst]. ring. }
    rewrite Dw, D_th, D2, C2. unfold w. ring. }
  assert (Z : forall n k, (k <= n)%nat -> w k = 0).
  { induction n as [|n IH]; intros k H. - replace k with 0%nat by lia. unfold w, ssub, smul, sadd, E. cbn. unfold th. cbn. ring.
    - destruct (Nat.eq_dec k (S n)) as [->|N]; [|apply IH; lia]. change (w (S n)) with (D w n). rewrite W. unfold smul. rewrite conv_comm. apply conv_zero. exact IH. }
  apply ser_ext. intro n. specialize (Z n n (Nat.le_refl n)). unfold w, ssub in Z. unfold ssub. lra.
Qed.

(** The Bernoulli numbers *)
Lemma bernoulli_series b : is_bernoulli b -> smul b (ssub (E 1) (cst 1)) = X.
Proof.
  intros [B0 B]. apply ser_ext. intro n. unfold smul. rewrite conv_sum. destruct n as [|n]; [cbn; rewrite B0; unfold ssub, E; cbn; ring|].
  cbn [sum_f_R0]. rewrite Nat.sub_diag. replace (ssub (E 1) (cst 1) 0%nat) with 0 by (unfold ssub, E; cbn; ring). rewrite !Rmult_0_r, Rplus_0_r.
  transitivity (sum_f_R0 (fun k => Binomial.C (S n) k * b k) n).
  - apply sum_eq. intros k Hk. rewrite bin_C by lia. destruct (S n - k)%nat as [|m] eqn:M; [lia|]. unfold ssub, E. rewrite pow1. cbn [cst]. ring.
  - destruct n as [|n]; [cbn [sum_f_R0]; rewrite B0, (proj2 (C_diag 1)); cbn; ring|]. rewrite B by lia. reflexivity.
Qed.

Theorem bernoulli_tanh b n : is_bernoulli b -> INR n * th (pred n) = X n + (4 ^ n - 2 ^ n) * b n.
Proof.
  intro Hb. pose proof (bernoulli_series b Hb) as S1.
  assert (S2 : smul (dil 2 b) (ssub (E 2) (cst 1)) = smul (cst 2) X).
  { transitivity (dil 2 X).
    - rewrite <- S1, dil_mul. f_equal. apply ser_ext. intros [|k]; unfold dil, ssub, E; [cbn; ring|]. rewrite pow1. cbn [cst]. ring.
    - rewrite <- sc_cst. apply ser_ext. intros [|[|k]]; unfold dil, sc, X; cbn; ring. }
  assert (S4 : smul (dil 4 b) (ssub (E 4) (cst 1)) = smul (cst 4) X).
  { transitivity (dil 4 X).
    - rewrite <- S1, dil_mul. f_equal. apply ser_ext. intros [|k]; unfold dil, ssub, E; [cbn; ring|]. rewrite pow1. cbn [cst]. ring.
    - rewrite <- sc_cst. apply ser_ext. intros [|[|k]]; unfold dil, sc, X; cbn; ring. }
  assert (E4 : E 4 = smul (E 2) (E 2)) by (rewrite E_mul; f_equal; ring).
  assert (C2 : cst 2 = sadd (cst 1) (cst 1)) by (apply ser_ext; intros [|k]; unfold sadd; cbn; ring).
  assert (C4 : cst 4 = sadd (cst 2) (cst 2)) by (apply ser_ext; intros [|k]; unfold sadd; cbn; ring).
  assert (G : ssub (sadd (ssub (smul X th) X) (dil 2 b)) (dil 4 b) = cst 0).
  { apply (cancel_X (ssub (E 4) (cst 1))); [unfold ssub, E; cbn; ring|unfold ssub, E; cbn; lra|].
    transitivity (ssub (sadd (ssub (smul X (smul (smul th (sadd (E 2) (cst 1))) (ssub (E 2) (cst 1)))) (smul X (ssub (E 4) (cst 1)))) (smul (smul (dil 2 b) (ssub (E 2) (cst 1))) (sadd (E 2) (cst 1)))) (smul (dil 4 b) (ssub (E 4) (cst 1)))); [rewrite E4; ring|].
    rewrite th_tanh, S2, S4, E4, C4, C2. ring. }
  assert (N : forall k, ssub (sadd (ssub (smul X th) X) (dil 2 b)) (dil 4 b) k = 0) by (intro k; rewrite G; destruct k; reflexivity).
  specialize (N n). unfold ssub, sadd, dil in N. rewrite X_mul in N. lra.
Qed.

(** Existence and uniqueness *)
Fixpoint bprefix (n : nat) : ser :=
  match n with
  | O => cst 1
  | S m => fun k => if (k <=? m)%nat then bprefix m k else - sum_f_R0 (fun j => Binomial.C (S (S m)) j * bprefix m j) m / Binomial.C (S (S m)) (S m)
  end.

Lemma C_pos n k : 0 < Binomial.C n k.
Proof. unfold Binomial.C. apply Rdiv_lt_0_compat; [apply INR_fact_lt_0|apply Rmult_lt_0_compat; apply INR_fact_lt_0]. Qed.

Lemma bernoulli_exists : exists b, is_bernoulli b.
Proof.
  exists (fun n => bprefix n n). split; [reflexivity|]. intros [|n] H; [lia|].
  assert (P : forall n k, (k <= n)%nat -> bprefix n k = bprefix k k).
  { clear. induction n as [|n IH]; intros k H; [replace k with 0%nat by lia; reflexivity|]. destruct (Nat.eq_dec k (S n)) as [->|N]; [reflexivity|].
    cbn [bprefix]. replace (k <=? n)%nat with true by (symmetry; apply Nat.leb_le; lia). apply IH. lia. }
  cbn [sum_f_R0]. assert (L : bprefix (S n) (S n) = - sum_f_R0 (fun j => Binomial.C (S (S n)) j * bprefix n j) n / Binomial.C (S (S n)) (S n)).
  { cbn [bprefix]. replace (S n <=? n)%nat with false by (symmetry; apply Nat.leb_gt; lia). reflexivity. }
  rewrite L, (sum_eq (fun k => Binomial.C (S (S n)) k * bprefix k k) (fun j => Binomial.C (S (S n)) j * bprefix n j)) by (intros k Hk; rewrite (P n k Hk); reflexivity).
  pose proof (C_pos (S (S n)) (S n)). field. lra.
Qed.

Lemma bernoulli_one b : is_bernoulli b -> b 1%nat = - / 2.
Proof.
  intros [B0 B]. specialize (B 1%nat (Nat.le_refl 1)). cbn [sum_f_R0] in B. rewrite B0, (proj2 (C_diag 2)) in B.
  replace (Binomial.C 2 1) with 2 in B by (unfold Binomial.C; cbn; field). lra.
Qed.

(** Powers of th *)
Fixpoint pw (j : nat) : ser := match j with O => cst 1 | S i => smul th (pw i) end.

Lemma D_pw j : D (pw (S j)) = smul (sc (INR (S j)) (pw j)) (D th).
Proof.
  induction j as [|j IH].
  - cbn [pw INR]. rewrite D_mul, sc_cst. assert (Z : D (cst 1) = cst 0) by (apply ser_ext; intros [|k]; reflexivity). rewrite Z. ring.
  - change (pw (S (S j))) with (smul th (pw (S j))). rewrite D_mul, IH, !sc_cst. change (pw (S j)) with (smul th (pw j)).
    assert (C : cst (INR (S (S j))) = sadd (cst 1) (cst (INR (S j)))) by (apply ser_ext; intros [|k]; unfold sadd; cbn [cst]; [rewrite (S_INR (S j))|]; ring). rewrite C. ring.
Qed.

Lemma pw_step j n : pw j (S n) = INR j * pw (pred j) n - INR j * pw (S j) n.
Proof.
  destruct j as [|j]; [cbn; ring|]. change (pw (S j) (S n)) with (D (pw (S j)) n). rewrite D_pw, D_th, sc_cst. cbn [pred].
  transitivity (smul (cst (INR (S j))) (ssub (pw j) (pw (S (S j)))) n).
  - cbn [pw]. match goal with |- ?a n = ?b n => assert (E : a = b) by ring; rewrite E; reflexivity end.
  - rewrite <- sc_cst. unfold sc, ssub. ring.
Qed.

Lemma pw_0 j : pw j 0%nat = match j with O => 1 | _ => 0 end.
Proof. destruct j as [|j]; [reflexivity|]. cbn [pw]. unfold smul. cbn [conv]. unfold th. cbn. ring. Qed.

(** Coefficients of the n-th derivative of th as a polynomial in th *)
Fixpoint q (n : nat) (j : nat) : R :=
  match n with
  | O => match j with 1%nat => 1 | _ => 0 end
  | S m => INR (S j) * q m (S j) - (match j with O => 0 | S i => INR i * q m i end)
  end.

Lemma q_large n : forall j, (n + 1 < j)%nat -> q n j = 0.
Proof.
  induction n as [|n IH]; intros j H; cbn [q]; [destruct j as [|[|j]]; try lia; reflexivity|]. destruct j as [|j]; [lia|]. rewrite !IH by lia. ring.
Qed.

Lemma sum_shift f n : sum_f_R0 f (S n) = f 0%nat + sum_f_R0 (fun k => f (S k)) n.
Proof. rewrite decomp_sum by lia. reflexivity. Qed.

Lemma q_step n m N : (n + 2 <= N)%nat -> sum_f_R0 (fun j => q (S n) j * pw j m) N = sum_f_R0 (fun j => q n j * pw j (S m)) N.
Proof.
  intro H.
  assert (A : sum_f_R0 (fun j => INR (S j) * q n (S j) * pw j m) N = sum_f_R0 (fun j => q n j * (INR j * pw (pred j) m)) N).
  { destruct N as [|N]; [lia|]. rewrite (sum_shift (fun j => q n j * (INR j * pw (pred j) m))). cbn [sum_f_R0]. rewrite (q_large n (S (S N))) by lia. change (INR 0) with 0. rewrite Rmult_0_r, !Rmult_0_l, Rmult_0_r, Rplus_0_r, Rplus_0_l. cbn [pred].
    apply sum_eq. intros k _. ring. }
  assert (B : sum_f_R0 (fun j => match j with O => 0 | S i => INR i * q n i end * pw j m) N = sum_f_R0 (fun j => q n j * (INR j * pw (S j) m)) N).
  { destruct N as [|N]; [lia|]. rewrite sum_shift. cbn [sum_f_R0]. rewrite (q_large n (S N)) by lia. rewrite !Rmult_0_l, Rplus_0_r, Rplus_0_l. apply sum_eq. intros k _. ring. }
  transitivity (sum_f_R0 (fun j => INR (S j) * q n (S j) * pw j m) N - sum_f_R0 (fun j => match j with O => 0 | S i => INR i * q n i end * pw j m) N).
  - rewrite <- minus_sum. apply sum_eq. intros j _. cbn [q]. ring.
  - rewrite A, B, <- minus_sum. apply sum_eq. intros j _. rewrite pw_step. ring.
Qed.

Lemma th_q n : th n = q n 0%nat.
Proof.
  assert (G : forall i, (i <= n)%nat -> forall N, (n + 2 <= N)%nat -> sum_f_R0 (fun j => q i j * pw j (n - i)%nat) N = th n).
  { induction i as [|i IH]; intros Hi N HN.
    - rewrite Nat.sub_0_r. destruct N as [|[|N]]; try lia. rewrite !sum_shift. rewrite sum_eq_R0 by (intros k _; cbn [q]; ring). cbn [q pw]. replace (smul th (cst 1)) with th by ring. ring.
    - rewrite q_step by lia. replace (S (n - S i)) with (n - i)%nat by lia. apply IH; lia. }
  specialize (G n (Nat.le_refl n) (S (S n)) ltac:(lia)). rewrite Nat.sub_diag in G. rewrite <- G, sum_shift.
  rewrite sum_eq_R0 by (intros k _; rewrite pw_0; ring). rewrite pw_0. ring.
Qed.

(** Parity *)
Lemma q_parity n : forall j, Nat.even (n + j) = true -> q n j = 0.
Proof.
  induction n as [|n IH]; intros j H; cbn [q]; [destruct j as [|[|j]]; [reflexivity|discriminate H|reflexivity]|].
  assert (H' : Nat.even (n + S j) = true) by (rewrite Nat.add_succ_r; exact H).
  rewrite (IH (S j) H'). destruct j as [|i]; [ring|]. rewrite (IH i); [ring|]. rewrite !Nat.add_succ_r in H'. exact H'.
Qed.

Lemma pow_strict n : (0 < n)%nat -> 2 ^ n < 4 ^ n.
Proof.
  intro H. replace 4 with (2 * 2) by ring. rewrite Rpow_mult_distr. assert (1 < 2 ^ n) by (apply Rlt_pow_R1; [lra|exact H]). nra.
Qed.

Lemma bernoulli_odd b n : is_bernoulli b -> (1 < n)%nat -> Nat.even n = false -> b n = 0.
Proof.
  intros Hb H O. pose proof (bernoulli_tanh b n Hb) as T. rewrite th_q, q_parity in T.
  - assert (X n = 0) by (destruct n as [|[|n]]; try lia; reflexivity). assert (2 ^ n < 4 ^ n) by (apply pow_strict; lia). nra.
  - rewrite Nat.add_0_r. destruct n as [|n]; [lia|]. cbn [pred]. rewrite Nat.even_succ, <- Nat.negb_even in O. destruct (Nat.even n); [reflexivity|discriminate O].
Qed.

(** The array of tangent numbers after the k-th pass of the algorithm of Brent *)
Definition tang (k j : nat) : R := (-1) ^ (j - 1) * q (j + k - 2) (j - k + 1).

Lemma q_top n : q n (S n) = (-1) ^ n * INR (fact n).
Proof.
  induction n as [|n IH]; [cbn; ring|]. cbn [q]. rewrite q_large by lia. rewrite IH, fact_simpl, mult_INR. cbn [pow]. ring.
Qed.

Lemma sign_square n : (-1) ^ n * (-1) ^ n = 1.
Proof. rewrite <- Rpow_mult_distr. replace (-1 * -1) with 1 by ring. apply pow1. Qed.

Lemma tang_first j : (1 <= j)%nat -> tang 1 j = INR (fact (j - 1)).
Proof.
  intro H. unfold tang. destruct j as [|j]; [lia|]. replace (S j + 1 - 2)%nat with j by lia. replace (S j - 1 + 1)%nat with (S j) by lia. replace (S j - 1)%nat with j by lia.
  rewrite q_top, <- Rmult_assoc, sign_square. ring.
Qed.

Lemma tang_step k j : (2 <= k <= j)%nat -> tang k j = INR (j - k) * tang k (j - 1) + INR (j - k + 2) * tang (k - 1) j.
Proof.
  intro H. unfold tang. replace (j + k - 2)%nat with (S (j + k - 3)) by lia. rewrite Nat.add_1_r. cbn [q].
  replace (j + (k - 1) - 2)%nat with (j + k - 3)%nat by lia. replace (j - (k - 1) + 1)%nat with (S (S (j - k))) by lia. replace (j - k + 2)%nat with (S (S (j - k))) by lia.
  destruct (Nat.eq_dec j k) as [->|N].
  - rewrite Nat.sub_diag. change (INR 0) with 0. ring.
  - replace (j - 1 + k - 2)%nat with (j + k - 3)%nat by lia. replace (j - 1 - k + 1)%nat with (j - k)%nat by lia. replace (j - 1)%nat with (S (j - 1 - 1)) by lia. cbn [pow]. replace (S (j - 1 - 1) - 1)%nat with (j - 1 - 1)%nat by lia. ring.
Qed.

Lemma tang_bounds m k : (1 <= k)%nat -> forall j, (k <= j <= m)%nat -> 1 <= tang k j <= INR (2 * m) ^ (j + k).
Proof.
  intros Hk. destruct m as [|m]; [intros; lia|]. set (M := INR (2 * S m)).
  assert (M1 : 1 <= M) by (unfold M; change 1 with (INR 1); apply le_INR; lia).
  induction k as [|k IHk]; [lia|]. clear Hk. destruct k as [|k].
  - intros j H. rewrite tang_first by lia. split; [change 1 with (INR 1); apply le_INR; pose proof (lt_O_fact (j - 1)); lia|].
    apply Rle_trans with (M ^ (j - 1)); [|apply Rle_pow; [exact M1|lia]].
    assert (G : forall i, (i <= S m)%nat -> INR (fact i) <= M ^ i).
    { induction i as [|i IH]; intro L; [cbn; lra|]. rewrite fact_simpl, mult_INR. cbn [pow]. apply Rmult_le_compat; try apply pos_INR; [apply le_INR; lia|apply IH; lia]. }
    apply G. lia.
  - induction j as [|j IHj]; intro H; [lia|]. rewrite tang_step by lia. replace (S (S k) - 1)%nat with (S k) by lia. replace (S j - 1)%nat with j by lia.
    destruct (IHk ltac:(lia) (S j) ltac:(lia)) as [A1 A2]. pose proof (pos_INR (S j - S (S k))) as P. assert (P2 : 2 <= INR (S j - S (S k) + 2)) by (change 2 with (INR 2); apply le_INR; lia).
    assert (Q : INR (S j - S (S k)) + INR (S j - S (S k) + 2) <= M) by (rewrite <- plus_INR; apply le_INR; lia).
    assert (MP : 1 <= M ^ (S j + S k)) by (apply pow_R1_Rle; exact M1). replace (S j + S (S k))%nat with (S (S j + S k)) by lia. cbn [pow].
    destruct (Nat.eq_dec (S j) (S (S k))) as [E|N].
    + rewrite E, Nat.sub_diag in *. change (INR 0) with 0 in *. rewrite Rmult_0_l, Rplus_0_l. cbn [plus] in *. split; [nra|]. apply Rmult_le_compat; lra.
    + destruct (IHj ltac:(lia)) as [B1 B2]. replace (j + S (S k))%nat with (S j + S k)%nat in B2 by lia. split; [nra|].
      set (a := INR (S j - S (S k))) in *. set (c := INR (S j - S (S k) + 2)) in *. set (W := M ^ (S j + S k)) in *.
      apply Rle_trans with ((a + c) * W); [nra|]. apply Rmult_le_compat_r; lra.
Qed.

Theorem bernoulli_tang b i : is_bernoulli b -> (1 <= i)%nat -> b (2 * i)%nat = (-1) ^ (i - 1) * (INR (2 * i) * tang i i / (4 ^ i * 4 ^ i - 4 ^ i)).
Proof.
  intros Hb Hi. pose proof (bernoulli_tanh b (2 * i) Hb) as T. replace (X (2 * i)%nat) with 0 in T by (destruct i as [|i]; [lia|]; replace (2 * S i)%nat with (S (S (2 * i))) by lia; reflexivity).
  rewrite th_q in T. replace (pred (2 * i)) with (S (i + i - 2)) in T by lia. cbn [q] in T. unfold tang. rewrite Nat.sub_diag. change (0 + 1)%nat with 1%nat.
  change (INR 1) with 1 in T. set (Q := q (i + i - 2) 1) in *. rewrite Rminus_0_r, Rmult_1_l in T.
  assert (E2 : 2 ^ (2 * i) = 4 ^ i) by (rewrite pow_mult; f_equal; ring). assert (E4 : 4 ^ (2 * i) = 4 ^ i * 4 ^ i) by (replace (2 * i)%nat with (i + i)%nat by lia; apply pow_add). rewrite E2, E4 in T.
  assert (P : 1 < 4 ^ i) by (apply Rlt_pow_R1; [lra|lia]). assert (S1 := sign_square (i - 1)). assert (N : 4 ^ i * 4 ^ i - 4 ^ i <> 0) by nra.
  set (B := b (2 * i)%nat) in *. set (s := (-1) ^ (i - 1)) in *. apply (Rmult_eq_reg_l (4 ^ i * 4 ^ i - 4 ^ i)); [|exact N].
  replace (4 ^ i * 4 ^ i - 4 ^ i) with (4 ^ i * (4 ^ i - 1)) in * by ring.
  transitivity (INR (2 * i) * Q); [lra|]. transitivity (s * s * (INR (2 * i) * Q)); [rewrite S1; ring|]. field. lra.
Qed.
