(** * Factorials, double factorials and binomial coefficients (proofs only) *)

From Coq Require Import ZArith List Bool Arith Reals Lra Lia Psatz.
From Verif Require Import Model Spec SpecFact Limbs Value CmpProofs AddProofs Decide OrderProofs AddExtra MulCor ModelStr
  IntProofs ModelDiv InvProofs PowExtra FloatEval ModelElem ElemProofs ExpReal SeriesFloat ExpFloat ExpAcc ModelTables TabProofs TabFact TabFact2 TabBin TabCheck ModelFact.
Import ListNotations.
Open Scope R_scope.
Local Notation p10 := (powerRZ 10).
Local Notation length := List.length.

Lemma nth_firstn_skipn {A} (l : list A) (m n : nat) x : nth_error l n = Some x -> (m <= n)%nat -> nth_error (skipn m l) (n - m) = Some x.
Proof.
  revert l n. induction m as [|m IH]; intros l n H L; [cbn; rewrite Nat.sub_0_r; exact H|].
  destruct l as [|a l]; [destruct n; discriminate H|]. destruct n as [|n]; [lia|]. cbn [skipn nth_error Nat.sub] in *. apply IH; [exact H|lia].
Qed.

Lemma nth_error_firstn {A} (l : list A) n k x : nth_error l k = Some x -> (k < n)%nat -> nth_error (firstn n l) k = Some x.
Proof.
  revert l k. induction n as [|n IH]; intros l k H L; [lia|]. destruct l as [|a l]; [destruct k; discriminate H|]. destruct k as [|k]; cbn [firstn nth_error] in *; [exact H|]. apply IH; [exact H|lia].
Qed.

Section Table.
Variable f : nat -> R.
Variable K T : Z.
Variable lag m : nat.
Variable t : list entry.
Hypothesis HT : (0 <= T)%Z.
Hypothesis TK : IZR T * p10 418 <= p10 K.
Hypothesis HK : (0 <= K)%Z.
Hypothesis f_pos : forall n, 0 < f n.
Hypothesis f_start : forall n, (n <= lag)%nat -> f n = 1.
Hypothesis f_step : forall n, f (S (lag + n)) = INR (S (lag + n)) * f n.
Hypothesis Hc : table_check K T lag 1001 m t = true.

Lemma table_parts : forallb entry_one (firstn (S lag) t) = true /\ length t = 1001%nat /\
  chain K T lag (Z.of_nat (S lag)) (repeat ([1%Z], 0%Z) (S lag)) (skipn (S lag) t) = true /\
  exact_chain lag (Z.of_nat (S lag)) (repeat ([1%Z], 0%Z) (S lag)) (firstn (m - S lag) (skipn (S lag) t)) = true.
Proof.
  pose proof Hc as H. unfold table_check in H. cbv zeta in H. apply andb_true_iff in H. destruct H as [H H4]. apply andb_true_iff in H. destruct H as [H H3].
  apply andb_true_iff in H. destruct H as [H1 H2]. apply Nat.eqb_eq in H2. auto.
Qed.

Lemma first_entries n en : nth_error t n = Some en -> (n <= lag)%nat -> entry_okb en = true /\ entry_value en = 1.
Proof.
  intros H L. destruct table_parts as (A & _). rewrite forallb_forall in A. assert (E : entry_one en = true).
  { apply A. apply (nth_error_In _ n). apply nth_error_firstn; [exact H|lia]. }
  destruct en as [k|s k gs|s k gs e]; try discriminate E. cbn [entry_one] in E. apply Z.eqb_eq in E. subst k. split; [reflexivity|]. unfold entry_value. cbn [mant scale vlist]. rewrite Z.mul_0_r, Z.add_0_r. change (p10 0) with 1. lra.
Qed.

Lemma nth_repeat_one i : (i <= lag)%nat -> pair_value (nth i (repeat ([1%Z], 0%Z) (S lag)) ([], 0%Z)) = 1.
Proof.
  intro H. assert (E : nth i (repeat ([1%Z], 0%Z) (S lag)) ([], 0%Z) = ([1%Z], 0%Z)).
  { apply (repeat_spec (S lag)). apply nth_In. rewrite repeat_length. lia. }
  rewrite E. unfold pair_value. cbn [fst snd vlist]. rewrite Z.mul_0_r, Z.add_0_r. change (p10 0) with 1. lra.
Qed.

Lemma table_entry n en : nth_error t n = Some en ->
  entry_okb en = true /\ Rabs (entry_value en - f n) <= p10 (-414) * f n /\ ((n < m)%nat -> entry_value en = f n).
Proof.
  intro H. pose proof (f_pos n) as Fp. pose proof (p10_pos (-414)) as P4. destruct table_parts as (A & L & C & E).
  assert (Hn : (n < 1001)%nat) by (rewrite <- L; apply nth_error_Some; rewrite H; discriminate).
  destruct (le_lt_dec n lag) as [B|B].
  - destruct (first_entries n en H B) as [O V]. split; [exact O|]. rewrite V, (f_start n B). split; [|reflexivity]. unfold Rminus. rewrite Rplus_opp_r, Rabs_R0. lra.
  - pose proof (nth_firstn_skipn t (S lag) n en H B) as H'.
    assert (LL : length (skipn (S lag) t) = (1001 - S lag)%nat) by (rewrite skipn_length, L; reflexivity).
    destruct (chain_ok f K T lag HT TK HK f_pos f_step (skipn (S lag) t) (S lag) (repeat ([1%Z], 0%Z) (S lag)) ltac:(lia) C) with (k := (n - S lag)%nat) (en := en) as [O N].
    + intros i Hi Hi'. rewrite nth_repeat_one by exact Hi. unfold near. rewrite f_start by lia. unfold Rminus. rewrite Rplus_opp_r, Rabs_R0.
      pose proof (pos_INR (S lag - 1 - i)). pose proof (p10_pos (-418)). assert (0 <= 2 * INR (S lag - 1 - i) * p10 (-418)) by (apply Rmult_le_pos; lra). lra.
    + lia.
    + exact H'.
    + split; [exact O|]. replace (S lag + (n - S lag))%nat with n in N by lia. split.
      * eapply Rle_trans; [exact N|]. apply Rmult_le_compat_r; [lra|]. assert (In : INR n <= 1000). { apply Rle_trans with (INR 1000); [apply le_INR; lia|]. rewrite INR_IZR_INZ. apply IZR_le. vm_compute. discriminate. }
        assert (E4 : p10 (-414) = 10000 * p10 (-418)). { replace (-414)%Z with (4 + -418)%Z by lia. rewrite p10_add, (p10_nonneg 4) by lia. reflexivity. } rewrite E4.
        pose proof (p10_pos (-418)). apply Rmult_le_compat_r; lra.
      * intro M. destruct (exact_chain_ok f lag f_pos f_step (firstn (m - S lag) (skipn (S lag) t)) (S lag) (repeat ([1%Z], 0%Z) (S lag)) E) with (k := (n - S lag)%nat) (en := en) as [_ V].
        -- intros i Hi Hi'. rewrite nth_repeat_one by exact Hi. rewrite f_start by lia. reflexivity.
        -- lia.
        -- apply nth_error_firstn; [exact H'|lia].
        -- replace (S lag + (n - S lag))%nat with n in V by lia. exact V.
Qed.

Lemma table_read d n : valid_digits d -> (0 <= n <= 1000)%Z ->
  exists r, table_get d t n = Ok r /\ finite d r /\ full d r /\
  rel (2 * p10 (- (d + 17)) + p10 (-414)) (value r) (f (Z.to_nat n)) /\
  (forall j, (Z.to_nat n < m)%nat -> f (Z.to_nat n) = IZR j -> (j < 10 ^ (d + 18))%Z -> value r = f (Z.to_nat n)).
Proof.
  intros Hd Hn. destruct table_parts as (_ & L & _). unfold table_get.
  destruct (nth_error t (Z.to_nat n)) as [en|] eqn:E; [|apply nth_error_None in E; lia].
  destruct (table_entry _ en E) as (O & N & X). destruct (read_entry d en Hd O) as (r & R1 & R2 & R3 & R4 & R5). exists r. split; [exact R1|]. split; [exact R2|]. split; [exact R3|].
  pose proof (f_pos (Z.to_nat n)) as Fp. set (F := f (Z.to_nat n)) in *. pose proof (p10_pos (- (d + 17))) as P7.
  assert (P4 : 0 < p10 (-414) <= / 10). { split; [apply p10_pos|]. apply Rle_trans with (p10 (- (1))); [apply p10_le; lia|]. rewrite (p10_inv 1), p10_1. lra. }
  split.
  - unfold rel. rewrite (Rabs_pos_eq F) by lra. replace (value r - F) with ((value r - entry_value en) + (entry_value en - F)) by ring. eapply Rle_trans; [apply Rabs_triang|].
    apply Rabs_le_inv in N. assert (entry_value en <= 2 * F) by nra. assert (p10 (- (d + 17)) * entry_value en <= p10 (- (d + 17)) * (2 * F)) by (apply Rmult_le_compat_l; lra).
    assert (Rabs (entry_value en - F) <= p10 (-414) * F) by (apply Rabs_le; lra). lra.
  - intros j M Ej B. specialize (X M). rewrite (R5 j 0%Z); [exact X| |].
    + rewrite X, Ej. change (p10 0) with 1. ring.
    + assert (0 < j)%Z by (apply lt_IZR; rewrite <- Ej; exact Fp). lia.
Qed.

End Table.

(** ** The three tables *)

Lemma p10_scale a b c : (10 ^ (b - a) * 10 ^ a = 10 ^ b)%Z -> (0 <= a)%Z -> (a <= b)%Z -> (c <= 10 ^ (b - a))%Z -> IZR c * p10 a <= p10 b.
Proof. intros E Ha Hb Hc. rewrite (p10_nonneg a), (p10_nonneg b) by lia. rewrite <- mult_IZR. apply IZR_le. rewrite <- E. apply Z.mul_le_mono_nonneg_r; [apply Z.pow_nonneg; lia|exact Hc]. Qed.

Lemma fact_read d n : valid_digits d -> (0 <= n <= 1000)%Z ->
  exists r, table_get d A000142 n = Ok r /\ finite d r /\ full d r /\
  rel (2 * p10 (- (d + 17)) + p10 (-414)) (value r) (INR (fact (Z.to_nat n))) /\
  ((n <= 243)%Z -> INR (fact (Z.to_nat n)) < p10 (d + 18) -> value r = INR (fact (Z.to_nat n))).
Proof.
  intros Hd Hn.
  assert (TK : 10 * p10 418 <= p10 419) by (replace (p10 419) with (10 * p10 418) by (change 419%Z with (1 + 418)%Z; rewrite p10_add, p10_1; reflexivity); lra).
  assert (S0 : forall k, (k <= 0)%nat -> INR (fact k) = 1) by (intros k Hk; assert (k = 0%nat) by lia; subst k; reflexivity).
  assert (S1 : forall k, INR (fact (S (0 + k))) = INR (S (0 + k)) * INR (fact k)) by (intro k; rewrite Nat.add_0_l, fact_simpl, mult_INR; reflexivity).
  destruct (table_read (fun n => INR (fact n)) 419 10 0 244 A000142 ltac:(lia) TK ltac:(lia) INR_fact_lt_0 S0 S1 fact_checked d n Hd Hn) as (r & R1 & R2 & R3 & R4 & R5).
  exists r. split; [exact R1|]. split; [exact R2|]. split; [exact R3|]. split; [exact R4|]. intros H B. apply (R5 (Z.of_nat (fact (Z.to_nat n)))); [lia|apply INR_IZR_INZ|].
    apply lt_IZR. rewrite <- INR_IZR_INZ, <- (p10_nonneg (d + 18)) by (destruct Hd; lia). exact B.
Qed.

Lemma double_fact_pos n : (0 < double_fact n)%nat /\ (0 < double_fact (S n))%nat.
Proof.
  induction n as [|n [A B]]; [cbn; lia|]. split; [exact B|]. change (double_fact (S (S n))) with (S (S n) * double_fact n)%nat. nia.
Qed.

Lemma fact2_read d n : valid_digits d -> (0 <= n <= 1000)%Z ->
  exists r, table_get d A006882 n = Ok r /\ finite d r /\ full d r /\
  rel (2 * p10 (- (d + 17)) + p10 (-414)) (value r) (INR (double_fact (Z.to_nat n))) /\
  ((n <= 396)%Z -> INR (double_fact (Z.to_nat n)) < p10 (d + 18) -> value r = INR (double_fact (Z.to_nat n))).
Proof.
  intros Hd Hn.
  assert (TK : 1000000 * p10 418 <= p10 424) by (replace (p10 424) with (1000000 * p10 418) by (change 424%Z with (6 + 418)%Z; rewrite p10_add, (p10_nonneg 6) by lia; reflexivity); lra).
  assert (S0 : forall k, (k <= 1)%nat -> INR (double_fact k) = 1) by (intros [|[|k]] Hk; [reflexivity|reflexivity|lia]).
  assert (S1 : forall k, INR (double_fact (S (1 + k))) = INR (S (1 + k)) * INR (double_fact k)).
  { intro k. change (1 + k)%nat with (S k). change (double_fact (S (S k))) with (S (S k) * double_fact k)%nat. rewrite mult_INR. reflexivity. }
  assert (S2 : forall k, 0 < INR (double_fact k)) by (intro k; apply lt_0_INR; apply double_fact_pos).
  destruct (table_read (fun n => INR (double_fact n)) 424 1000000 1 397 A006882 ltac:(lia) TK ltac:(lia) S2 S0 S1 fact2_checked d n Hd Hn) as (r & R1 & R2 & R3 & R4 & R5).
  exists r. split; [exact R1|]. split; [exact R2|]. split; [exact R3|]. split; [exact R4|]. intros H B. apply (R5 (Z.of_nat (double_fact (Z.to_nat n)))); [lia|apply INR_IZR_INZ|].
    apply lt_IZR. rewrite <- INR_IZR_INZ, <- (p10_nonneg (d + 18)) by (destruct Hd; lia). exact B.
Qed.

Lemma binomial_read d n k : valid_digits d -> (0 <= k <= n)%Z -> (n <= 160)%Z ->
  exists r, table_get d (nth (Z.to_nat n) A007318 []) k = Ok r /\ finite d r /\ full d r /\ value r = Binomial.C (Z.to_nat n) (Z.to_nat k).
Proof.
  intros Hd Hk Hn. pose proof binomials_checked as H. unfold table_get. revert H. generalize A007318. intros t H. unfold binomial_check in H.
  destruct t as [|[|en [|? ?]] rows]; try discriminate H. apply andb_true_iff in H. destruct H as [H HL]. apply andb_true_iff in H. destruct H as [H HR]. apply andb_true_iff in H. destruct H as [HS H1].
  apply Nat.eqb_eq in HL.
  assert (G : exists row, nth (Z.to_nat n) ([en] :: rows) [] = row /\ is_row (Z.to_nat n) (map mant row) /\ forallb small_entry row = true).
  { assert (R0 : is_row 0 [mant en]).
    { split; [reflexivity|]. intros i Hi. assert (i = 0%nat) by lia. subst i. destruct en as [z| |]; try discriminate H1. apply Z.eqb_eq in H1. subst z. cbn [nth mant vlist]. rewrite Z.mul_0_r, Z.add_0_r, (proj1 (C_edge 0)). lra. }
    destruct (Z.to_nat n) as [|j] eqn:Ej.
    - exists [en]. split; [reflexivity|]. split; [exact R0|]. cbn [forallb]. rewrite HS. reflexivity.
    - cbn [nth]. destruct (nth_error rows j) as [row|] eqn:E; [|apply nth_error_None in E; lia]. exists row. split; [apply nth_error_nth; exact E|].
      pose proof (pascal_rows_ok rows 0 [mant en] R0 HR j row E) as [A B]. split; [exact A|exact B]. }
  destruct G as (row & -> & [L V] & S). rewrite map_length in L.
  destruct (nth_error row (Z.to_nat k)) as [e|] eqn:E; [|apply nth_error_None in E; lia].
  rewrite forallb_forall in S. destruct (small_entry_exact d e Hd (S e (nth_error_In _ _ E))) as (r & R1 & R2 & R3 & R4). exists r. split; [exact R1|]. split; [exact R2|]. split; [exact R3|].
  rewrite R4, <- V by lia. do 2 f_equal. symmetry. apply nth_error_nth. apply map_nth_error. exact E.
Qed.

(** ** Binomial coefficients from factorials *)

Lemma fact_bound n : (n <= 1000)%nat -> 1 <= INR (fact n) <= p10 3000.
Proof.
  intro H. split; [change 1 with (INR 1); apply le_INR; pose proof (lt_O_fact n); lia|].
  assert (G : forall k, (k <= 1000)%nat -> INR (fact k) <= 1000 ^ k).
  { induction k as [|k IH]; intro Hk; [cbn; lra|]. rewrite fact_simpl, mult_INR. cbn [Rpow_def.pow]. apply Rmult_le_compat; try apply pos_INR; [|apply IH; lia].
    apply Rle_trans with (INR 1000); [apply le_INR; exact Hk|]. rewrite INR_IZR_INZ. apply IZR_le. vm_compute. discriminate. }
  eapply Rle_trans; [apply G; exact H|]. assert (E : forall k, 1000 ^ k = p10 (3 * Z.of_nat k)).
  { induction k as [|k IH]; [reflexivity|]. cbn [Rpow_def.pow]. rewrite IH. replace (3 * Z.of_nat (S k))%Z with (3 + 3 * Z.of_nat k)%Z by lia. rewrite p10_add, (p10_nonneg 3) by lia. reflexivity. }
  rewrite E. apply p10_le. lia.
Qed.

Section Quotient.
Variable d : Z.
Hypothesis Hd : valid_digits d.
Hypothesis Hd' : (d <= 4967)%Z.
Local Notation u := (p10 (- d)).
Local Notation w := (p10 (-414)).

Lemma w_small : 0 < w <= / 1000000.
Proof. split; [apply p10_pos|]. apply Rle_trans with (p10 (- (6))); [apply p10_le; lia|]. rewrite p10_inv, (p10_nonneg 6) by lia. change (10 ^ 6)%Z with 1000000%Z. lra. Qed.

Lemma table_rel_le : 2 * p10 (- (d + 17)) + w <= u / 1000000 + w.
Proof. rewrite (p_17 d). pose proof (u_small d Hd). lra. Qed.

Lemma ok_of_rel a v : finite d a -> full d a -> rel (u / 1000000 + w) (value a) v -> 1 <= v <= p10 3000 -> ok d 3001 a /\ 0 < value a.
Proof.
  intros F P R B. pose proof (u_small d Hd) as U. pose proof w_small as W. unfold rel in R. rewrite (Rabs_pos_eq v) in R by lra.
  assert (E : p10 3001 = 10 * p10 3000) by (change 3001%Z with (1 + 3000)%Z; rewrite p10_add, p10_1; reflexivity).
  apply Rabs_le_inv in R. assert (L : / 2 * v <= value a <= 2 * v) by nra. split; [|lra].
  apply (ok_of_bounds d); [exact F|exact P|]. rewrite Rabs_pos_eq by lra. split; [|rewrite E; lra].
  rewrite p10_inv. apply Rle_trans with (/ 2); [|lra]. apply Rinv_le_contravar; [lra|]. rewrite E. lra.
Qed.

Lemma quotient_ok a b c x y z : finite d a -> full d a -> finite d b -> full d b -> finite d c -> full d c ->
  1 <= x <= p10 3000 -> 1 <= y <= p10 3000 -> 1 <= z <= p10 3000 ->
  rel (u / 1000000 + w) (value a) x -> rel (u / 1000000 + w) (value b) y -> rel (u / 1000000 + w) (value c) z ->
  let r := div d a (mul d b c) in finite d r /\ full d r /\ rel (u / 5 + 10 * w) (value r) (x / (y * z)).
Proof.
  intros Fa Pa Fb Pb Fc Pc Bx By Bz Ra Rb Rc. pose proof (u_small d Hd) as U. pose proof w_small as W.
  destruct (ok_of_rel a x Fa Pa Ra Bx) as [Oa Va]. destruct (ok_of_rel b y Fb Pb Rb By) as [Ob Vb]. destruct (ok_of_rel c z Fc Pc Rc Bz) as [Oc Vc].
  destruct (ok_rel_mul d Hd Hd' 3001 3001 b c ltac:(lia) ltac:(lia) ltac:(lia) Ob Oc) as [Om Rm].
  set (e := u / 1000000 + w) in *. assert (He : 0 <= e <= / 100000) by (unfold e; lra).
  pose proof (rel_mult e e _ _ _ _ (proj1 He) Rb Rc) as Rbc. pose proof (rel_trans (u / 1000000) _ _ _ _ ltac:(lra) Rm Rbc) as Rq.
  assert (Yz : 0 < y * z) by nra.
  assert (E1 : u / 1000000 + (e + e + e * e) + u / 1000000 * (e + e + e * e) <= 4 * u / 1000000 + 3 * w).
  { assert (e * e <= / 100000 * e) by (apply Rmult_le_compat_r; lra). assert (0 <= e * e) by (apply Rmult_le_pos; lra). assert (u / 1000000 * (e + e + e * e) <= / 100000 * (e + e + e * e)) by (apply Rmult_le_compat_r; lra). unfold e in *. lra. }
  pose proof (rel_le _ _ _ _ E1 Rq) as Rq'. clear Rq E1 Rbc.
  pose proof (rel_inv (4 * u / 1000000 + 3 * w) _ (y * z) ltac:(lra) ltac:(lra) Rq') as Ri. 
  assert (Vm : 0 < value (mul d b c)). { unfold rel in Rm. rewrite (Rabs_pos_eq (value b * value c)) in Rm by nra. apply Rabs_le_inv in Rm. assert (0 < value b * value c) by nra. nra. }
  assert (IR : in_range (value (mul d b c))).
  { destruct Om as (_ & _ & [Z|[M1 M2]]); [lra|]. unfold in_range. split; eapply Rle_trans; try eassumption; apply p10_le; lia. }
  assert (IQ : in_range (value a / value (mul d b c))).
  { destruct Om as (_ & _ & [Z|[M1 M2]]); [lra|]. destruct Oa as (_ & _ & [Z|[N1 N2]]); [lra|]. unfold in_range. unfold Rdiv. rewrite Rabs_mult, Rabs_inv. set (A := Rabs (value a)) in *. set (M := Rabs (value (mul d b c))) in *.
    assert (Mp : 0 < M) by (apply Rabs_pos_lt; lra). pose proof (p10_pos (- (3001))).
    assert (I1 : / p10 (3001 + 3001 + 1) <= / M) by (apply Rinv_le_contravar; assumption). assert (I2 : / M <= / p10 (- (3001 + 3001 + 1))) by (apply Rinv_le_contravar; [apply p10_pos|assumption]).
    rewrite p10_inv, Rinv_inv in I2. rewrite <- p10_inv in I1. change (3001 + 3001 + 1)%Z with 6003%Z in *. pose proof (p10_pos 6003). pose proof (p10_pos (- (6003))). split.
    - apply Rle_trans with (p10 (- (3001)) * p10 (- (6003))); [rewrite <- p10_add; apply p10_le; lia|]. apply Rmult_le_compat; lra.
    - apply Rle_trans with (p10 3001 * p10 6003); [|rewrite <- p10_add; apply p10_le; lia]. apply Rmult_le_compat; lra. }
  destruct (div_accurate d a (mul d b c) Hd ltac:(lia) Fa (proj1 Om) Pa (proj1 (proj2 Om)) IR IQ (or_intror Va)) as (Fr & Pr & _ & _ & Er). specialize (Er Hd'). rewrite (p_1 d) in Er.
  cbv zeta. split; [exact Fr|]. split; [exact Pr|].
  assert (Rd : rel (u / 10) (value (div d a (mul d b c))) (value a * / value (mul d b c))) by exact Er.
  pose proof (rel_mult e _ _ _ _ _ (proj1 He) Ra Ri) as Rx. pose proof (rel_trans (u / 10) _ _ _ _ ltac:(lra) Rd Rx) as Rf.
  eapply rel_le; [|exact Rf]. set (g := 102 / 100 * (4 * u / 1000000 + 3 * w)) in *. assert (Hg : 0 <= g <= / 10000) by (unfold g; lra).
  assert (e * g <= e * / 10000) by (apply Rmult_le_compat_l; lra). assert (e + g + e * g <= / 1000) by lra. assert (u / 10 * (e + g + e * g) <= u / 10 * / 1000) by (apply Rmult_le_compat_l; lra).
  unfold e, g in *. lra.
Qed.

Lemma quotient_one f y : finite d f -> full d f -> 1 <= y <= p10 3000 -> rel (u / 1000000 + w) (value f) y ->
  let r := div d (one d) f in finite d r /\ full d r /\ rel (u / 5 + 10 * w) (value r) (1 / y).
Proof.
  intros Ff Pf By R. pose proof (u_small d Hd) as U. pose proof w_small as W. destruct (PowExtra.one_ok d Hd) as (F1 & P1 & V1).
  destruct (ok_of_rel f y Ff Pf R By) as [Of Vf]. set (e := u / 1000000 + w) in *. assert (He : 0 <= e <= / 100000) by (unfold e; lra).
  destruct Of as (_ & _ & [Z|[M1 M2]]); [lra|].
  assert (IR : in_range (value f)) by (unfold in_range; split; eapply Rle_trans; try eassumption; apply p10_le; lia).
  assert (IQ : in_range (value (one d) / value f)).
  { rewrite V1. unfold in_range, Rdiv. rewrite Rmult_1_l, Rabs_inv. set (M := Rabs (value f)) in *. assert (Mp : 0 < M) by (apply Rabs_pos_lt; lra).
    assert (I1 : / p10 3001 <= / M) by (apply Rinv_le_contravar; assumption). assert (I2 : / M <= / p10 (- (3001))) by (apply Rinv_le_contravar; [apply p10_pos|assumption]).
    rewrite p10_inv, Rinv_inv in I2. rewrite <- p10_inv in I1. split; eapply Rle_trans; try eassumption; apply p10_le; lia. }
  assert (Vp : 0 < value (one d)) by lra.
  destruct (div_accurate d (one d) f Hd ltac:(lia) F1 Ff P1 Pf IR IQ (or_intror Vp)) as (Fr & Pr & _ & _ & Er). specialize (Er Hd'). rewrite (p_1 d), V1 in Er.
  cbv zeta. split; [exact Fr|]. split; [exact Pr|].
  pose proof (rel_inv e _ y ltac:(lra) ltac:(lra) R) as Ri. assert (Rd : rel (u / 10) (value (div d (one d) f)) (1 / value f)) by exact Er.
  replace (1 / value f) with (/ value f) in Rd by (unfold Rdiv; ring). pose proof (rel_trans (u / 10) _ _ _ _ ltac:(lra) Rd Ri) as Rf. replace (1 / y) with (/ y) by (unfold Rdiv; ring). eapply rel_le; [|exact Rf].
  assert (u / 10 * (102 / 100 * e) <= u / 10 * / 10000) by (apply Rmult_le_compat_l; lra). unfold e in *. lra.
Qed.

End Quotient.

Lemma double_fact_bound n : (n <= 1000)%nat -> 1 <= INR (double_fact n) <= p10 3000.
Proof.
  intro H. assert (G : forall n, (double_fact n <= fact n)%nat /\ (double_fact (S n) <= fact (S n))%nat).
  { induction n0 as [|k [A B]]; [cbn; lia|]. split; [exact B|]. change (double_fact (S (S k))) with (S (S k) * double_fact k)%nat. rewrite (fact_simpl (S k)). apply Nat.mul_le_mono_l. eapply Nat.le_trans; [exact A|]. rewrite fact_simpl. nia. }
  split; [change 1 with (INR 1); apply le_INR; apply double_fact_pos|]. eapply Rle_trans; [apply le_INR, G|]. apply fact_bound. exact H.
Qed.
