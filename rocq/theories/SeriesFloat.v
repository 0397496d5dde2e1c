(** * Rounding and truncation error of the hypergeometric series (proofs only) *)

From Coq Require Import ZArith List Bool Reals Lra Lia Psatz.
From Verif Require Import Model Spec SpecGen Limbs Value CmpProofs AddProofs Decide OrderProofs OrderDec AddExtra MulProofs MulValue MulExtra MulCor
  IntProofs IntPartProofs IntConv MixedProofs IntCor ModelDiv DoubleProofs NewtonProofs InvProofs SqrtProofs ModelPow PowGen PowProofs PowExtra
  FloatEval ModelGen ModelElem ElemProofs.
Import ListNotations.
Open Scope R_scope.
Ltac Zify.zify_post_hook ::= Z.div_mod_to_equations.
Local Notation p10 := (powerRZ 10).
Local Notation exp := Model.exp.
Local Notation eps := product_error.

Lemma Rabs_le_inv x y : Rabs x <= y -> - y <= x <= y.
Proof. unfold Rabs. destruct (Rcase_abs x); lra. Qed.

Lemma p10_nat n : p10 (- Z.of_nat n) = / (10 ^ n).
Proof. rewrite p10_inv, (powerRZ_pow 10 (Z.of_nat n)) by lia. rewrite Nat2Z.id. reflexivity. Qed.

Ltac p10num H k := assert (H : p10 (- Z.of_nat k) = / (10 ^ k)) by apply p10_nat; cbn [Z.of_nat Pos.of_succ_nat Pos.succ pow] in H.

Lemma p10_m3 : p10 (-3) = / 1000.
Proof. p10num H 3%nat. change (-3)%Z with (- (3))%Z. rewrite H. lra. Qed.

Lemma ok_near_one d x : finite d x -> full d x -> 9 / 10 <= value x <= 11 / 10 -> ok d 1 x.
Proof.
  intros F P V. split; [exact F|]. split; [exact P|]. right. rewrite Rabs_pos_eq by lra. rewrite p10_inv, p10_1. lra.
Qed.

Lemma tol_bounds d : valid_digits d -> (d <= 4967)%Z -> (d + 4 <= tolerance d <= 5600)%Z /\ ((50 <= d)%Z -> (d + 6 <= tolerance d)%Z).
Proof. intros Hd Hd'. unfold tolerance, max_digits10. destruct Hd. split; [lia|]. lia. Qed.

Lemma terms_small (T : Z -> R) n : Rabs (T 1%Z) <= / 1000 -> (forall n, (1 <= n)%Z -> Rabs (T (n + 1)%Z) <= Rabs (T n) / 1000) -> (1 <= n)%Z -> Rabs (T n) <= Rabs (T 1%Z) /\ Rabs (T n) <= p10 (- 3 * n).
Proof.
  intros T1 TN H. replace n with (1 + Z.of_nat (Z.to_nat (n - 1)))%Z by lia. generalize (Z.to_nat (n - 1)) as k. clear n H.
  induction k as [|k [IH1 IH2]].
  - replace (1 + Z.of_nat 0)%Z with 1%Z by lia. split; [lra|]. change (-3 * 1)%Z with (-3)%Z. rewrite p10_m3. exact T1.
  - replace (1 + Z.of_nat (S k))%Z with (1 + Z.of_nat k + 1)%Z by lia. pose proof (TN (1 + Z.of_nat k)%Z ltac:(lia)) as A.
    pose proof (Rabs_pos (T (1 + Z.of_nat k)%Z)). split; [lra|].
    replace (-3 * (1 + Z.of_nat k + 1))%Z with (-3 * (1 + Z.of_nat k) + -3)%Z by ring. rewrite p10_add, p10_m3. lra.
Qed.

Section Series.
Variable d : Z.
Hypothesis Hd : valid_digits d.
Hypothesis Hd' : (d <= 4967)%Z.
Context {St : Type}.
Variables (next : Z -> St -> St) (term : St -> ef) (T P : Z -> R) (Inv : Z -> St -> Prop) (delta L : R) (M q : Z).
Hypothesis Hq : (q <= 12)%Z.
Hypothesis Htol : (d + q + 1 <= tolerance d)%Z \/ forall n, (21 <= n)%Z -> Rabs (T n) <= / 4 * p10 (- (d + q)).
Hypothesis HM : (1 <= M <= 2147483000)%Z.
Hypothesis Hdelta : 0 <= delta <= / 1000000.
Hypothesis HT : forall n st, (1 <= n <= 2001)%Z -> Inv n st ->
  ok d M (term st) /\ Rabs (value (term st) - T n) <= IZR n * delta * Rabs (T n).
Hypothesis HN : forall n st, (2 <= n <= 2001)%Z -> Inv (n - 1) st -> Inv n (next n st).
Hypothesis T1 : Rabs (T 1) <= / 1000.
Hypothesis TN : forall n, (1 <= n)%Z -> T n <> 0 /\ Rabs (T (n + 1)) <= Rabs (T n) / 1000.
Hypothesis P1 : P 1 = 1.
Hypothesis PN : forall n, (1 <= n)%Z -> P (n + 1)%Z = P n + T n.
Hypothesis PL : forall n, (1 <= n)%Z -> Rabs (L - P n) <= 2 * Rabs (T n).

Local Notation B := (3 * p10 (- (d + 17))).

Lemma T_small n : (1 <= n)%Z -> Rabs (T n) <= Rabs (T 1) /\ Rabs (T n) <= p10 (- 3 * n).
Proof. apply (terms_small T); [exact T1|]. intros k Hk. apply (TN k Hk). Qed.

Lemma P_near n : (1 <= n)%Z -> Rabs (P n - 1) <= / 250.
Proof.
  intro H. pose proof (PL n H). pose proof (PL 1 ltac:(lia)) as H1. rewrite P1 in H1. destruct (T_small n H) as [A _].
  replace (P n - 1) with (- (L - P n) + (L - 1)) by ring. eapply Rle_trans; [apply Rabs_triang|]. rewrite Rabs_Ropp. lra.
Qed.

Lemma B_small : 0 < B <= / 1000000000.
Proof.
  pose proof (p10_pos (- (d + 17))). split; [lra|]. assert (p10 (- (d + 17)) <= p10 (- (10))) by (apply p10_le; destruct Hd; lia).
  p10num H10 10%nat. rewrite H10 in *. lra.
Qed.

Definition sum_inv n sum := finite d sum /\ full d sum /\
  Rabs (value sum - P n) <= 2 * delta * Rabs (T 1) - 2 * IZR n * delta * Rabs (T n) + IZR n * B.

Lemma sum_inv_near n sum : (1 <= n <= 2001)%Z -> sum_inv n sum -> 99 / 100 <= value sum <= 101 / 100.
Proof.
  intros H (_ & _ & E). pose proof (P_near n ltac:(lia)) as N. pose proof B_small as Bs.
  assert (IZR n <= 2001) by (apply IZR_le; lia). pose proof (IZR_le 1 n ltac:(lia)).
  assert (0 <= IZR n * delta * Rabs (T n)) by (apply Rmult_le_pos; [nra|apply Rabs_pos]).
  assert (delta * Rabs (T 1) <= / 1000) by (pose proof (Rabs_pos (T 1)); nra).
  assert (IZR n * B <= / 1000) by nra.
  apply Rabs_le_inv in E. apply Rabs_le_inv in N. lra.
Qed.

Lemma sum_inv_ok n sum : (1 <= n <= 2001)%Z -> sum_inv n sum -> ok d 1 sum.
Proof. intros H I. pose proof (sum_inv_near n sum H I). destruct I as (F & Fu & _). apply ok_near_one; [exact F|exact Fu|lra]. Qed.

Lemma sum_step n st sum : (1 <= n <= 2000)%Z -> Inv n st -> sum_inv n sum -> sum_inv (n + 1) (add d sum (term st)).
Proof.
  intros H I SI. destruct (HT n st ltac:(lia) I) as [Ot Et]. pose proof (sum_inv_ok n sum ltac:(lia) SI) as Os.
  pose proof (sum_inv_near n sum ltac:(lia) SI) as Ns. destruct SI as (F & Fu & E).
  destruct (ok_add d M sum (term st) Hd ltac:(lia) ltac:(lia) (ok_le d 1 M sum ltac:(lia) Os) Ot) as [(A1 & A2 & _) A].
  split; [exact A1|]. split; [exact A2|]. rewrite (PN n) by lia.
  destruct (TN n ltac:(lia)) as [N0 N1]. destruct (T_small n ltac:(lia)) as [S1 _]. pose proof (Rabs_pos (T n)) as T0.
  pose proof (Rabs_pos (T (n + 1))) as T0'.
  pose proof (p10_pos (- (d + 17))) as Q0. pose proof (IZR_le 1 n ltac:(lia)) as N1'. assert (N2 : IZR n <= 2001) by (apply IZR_le; lia).
  assert (Bt : Rabs (value (term st)) <= / 2).
  { pose proof (Rabs_triang (value (term st) - T n) (T n)) as Tr. replace (value (term st) - T n + T n) with (value (term st)) in Tr by ring.
    assert (IZR n * delta <= 1) by nra. nra. }
  assert (Mx : Rmax (Rabs (value sum)) (Rabs (value (term st))) <= 3 / 2) by (apply Rmax_lub; [rewrite Rabs_pos_eq; lra|lra]).
  assert (A' : Rabs (value (add d sum (term st)) - (value sum + value (term st))) <= B) by nra. clear A.
  replace (value (add d sum (term st)) - (P n + T n)) with
    ((value (add d sum (term st)) - (value sum + value (term st))) + ((value sum - P n) + (value (term st) - T n))) by ring.
  eapply Rle_trans; [apply Rabs_triang|]. eapply Rle_trans; [apply Rplus_le_compat_l, Rabs_triang|].
  rewrite plus_IZR. set (a := IZR n * delta * Rabs (T n)) in *.
  assert (Ha : (IZR n + 1) * delta * Rabs (T (n + 1)) <= a / 500).
  { unfold a. apply Rle_trans with ((2 * IZR n) * delta * (Rabs (T n) / 1000)); [|right; field].
    apply Rmult_le_compat; [nra|lra| |exact N1]. apply Rmult_le_compat_r; lra. }
  assert (0 <= a) by (unfold a; apply Rmult_le_pos; [nra|lra]).
  replace (2 * (IZR n + 1) * delta * Rabs (T (n + 1))) with (2 * ((IZR n + 1) * delta * Rabs (T (n + 1)))) by ring.
  replace (2 * IZR n * delta * Rabs (T n)) with (2 * a) in E by (unfold a; ring). lra.
Qed.

Lemma series_stop n st sum : (2 <= n <= 2001)%Z -> Inv n st -> sum_inv n sum ->
  ((n = 2001)%Z -> small_ef d (term st) sum = true) /\
  ((20 < n)%Z -> small_ef d (term st) sum = true -> Rabs (T n) <= / 2 * / 2 * p10 (- (d + q))).
Proof.
  intros H I SI. destruct (HT n st ltac:(lia) I) as [(Ft & _ & _) Et].
  pose proof (sum_inv_near n sum ltac:(lia) SI) as Ns. destruct SI as (Fs & _ & _).
  destruct (TN n ltac:(lia)) as [N0 _]. destruct (T_small n ltac:(lia)) as [_ S3]. pose proof (Rabs_pos_lt (T n) N0) as T0.
  assert (N2 : 1 <= IZR n <= 2001) by (split; apply IZR_le; lia).
  assert (Q : IZR n * delta <= / 4) by nra.
  assert (Bt : Rabs (T n) / 2 <= Rabs (value (term st)) <= 2 * Rabs (T n)).
  { pose proof (Rabs_triang_inv (T n) (value (term st))) as X. rewrite Rabs_minus_sym in X.
    pose proof (Rabs_triang_inv (value (term st)) (T n)) as Y. nra. }
  assert (Nt : value (term st) <> 0). { intro Z. rewrite Z, Rabs_R0 in Bt. lra. }
  pose proof (order_spec d (term st) Hd Ft Nt) as [O1 O2].
  pose proof (order_spec d sum Hd Fs ltac:(lra)) as [O3 O4]. rewrite (Rabs_pos_eq (value sum)) in O3, O4 by lra.
  assert (Os : (-1 <= order sum <= 0)%Z).
  { split; apply Z.nlt_ge; intro C.
    - pose proof (p10_le (order sum + 1) (- (1)) ltac:(lia)) as X. rewrite (p10_inv 1), p10_1 in X. lra.
    - pose proof (p10_le 1 (order sum) ltac:(lia)) as X. rewrite p10_1 in X. lra. }
  destruct (tol_bounds d Hd Hd') as [Tl Tl']. split.
  - intros ->. unfold small_ef. apply Z.ltb_lt.
    assert (order (term st) < -3 * 2001 + 1)%Z; [|lia].
    apply Z.nle_gt. intro C. pose proof (p10_le _ _ C) as X. rewrite p10_add, p10_1 in X. pose proof (p10_pos (-3 * 2001)). lra.
  - intros Hn Sm. unfold small_ef in Sm. apply Z.ltb_lt in Sm. destruct Htol as [D|D]; [|replace (/ 2 * / 2) with (/ 4) by field; apply D; lia].
    assert (order (term st) + 1 <= - (d + q + 1))%Z by lia. pose proof (p10_le _ _ H0) as X.
    replace (- (d + q + 1))%Z with (- (d + q) + - (1))%Z in X by ring. rewrite (p10_add (- (d + q))), (p10_inv 1), p10_1 in X. pose proof (p10_pos (- (d + q))). lra.
Qed.

Lemma series_loop fuel : forall n st sum, (2 <= n)%Z -> (n + Z.of_nat fuel >= 2002)%Z -> (n <= 2001)%Z -> Inv (n - 1) st -> sum_inv n sum ->
  exists r, series (add d) (small_ef d) next term fuel n st sum = Some r /\ ok d 1 r /\
  99 / 100 <= value r <= 101 / 100 /\
  Rabs (value r - L) <= 2 * delta * Rabs (T 1) + p10 (- (d + q)).
Proof.
  induction fuel as [|f IH]; intros n st sum H1 H2 H3 I SI; [lia|].
  assert (I' : Inv n (next n st)) by (apply HN; [lia|exact I]). cbn [series].
  destruct (series_stop n (next n st) sum ltac:(lia) I' SI) as [St1 St2].
  destruct ((20 <? n)%Z && small_ef d (term (next n st)) sum) eqn:C.
  - apply andb_true_iff in C. destruct C as [C1 C2]. apply Z.ltb_lt in C1. specialize (St2 C1 C2).
    exists sum. split; [reflexivity|]. split; [apply (sum_inv_ok n); [lia|exact SI]|].
    split; [apply (sum_inv_near n); [lia|exact SI]|].
    destruct SI as (_ & _ & E). pose proof (PL n ltac:(lia)) as L1. replace (value sum - L) with ((value sum - P n) + - (L - P n)) by ring.
    eapply Rle_trans; [apply Rabs_triang|]. rewrite Rabs_Ropp.
    assert (N2 : 1 <= IZR n <= 2001) by (split; apply IZR_le; lia).
    assert (0 <= IZR n * delta * Rabs (T n)) by (apply Rmult_le_pos; [nra|apply Rabs_pos]).
    pose proof (p10_pos (- (d + q))) as Q0. assert (p10 (- (d + 17)) <= p10 (- (d + q)) * p10 (- (5))) by (rewrite <- p10_add; apply p10_le; lia).
    p10num H12 5%nat. rewrite H12 in H0. nra.
  - assert (n <> 2001)%Z. { intros ->. rewrite St1 in C by reflexivity. cbn in C. discriminate C. }
    apply IH; [lia|lia|lia|replace (n + 1 - 1)%Z with n by ring; exact I'|apply sum_step; [lia|exact I'|exact SI]].
Qed.

Lemma series_from_ok st0 : Inv 1 st0 ->
  exists r, series_from (one d) (add d) (small_ef d) next term st0 = Some r /\ ok d 1 r /\
  99 / 100 <= value r <= 101 / 100 /\
  Rabs (value r - L) <= 2 * delta * Rabs (T 1) + p10 (- (d + q)).
Proof.
  intro I. unfold series_from. change (Z.to_nat (max_iteration - 2)) with (Z.to_nat 9998).
  assert (G : exists f, f = Z.to_nat 9998 /\ (Z.of_nat f = 9998)%Z) by (eexists; split; [reflexivity|lia]).
  destruct G as (f & <- & F). apply series_loop; [lia|lia|lia|exact I|].
  change 2%Z with (1 + 1)%Z. apply sum_step; [lia|exact I|].
  destruct (PowExtra.one_ok d Hd) as (A & C & D). split; [exact A|]. split; [exact C|]. rewrite D, P1.
  replace (1 - 1) with 0 by ring. rewrite Rabs_R0. pose proof B_small. lra.
Qed.

End Series.
