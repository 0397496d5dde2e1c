(** * C44: factorials, double factorials and binomial coefficients *)

From Coq Require Import ZArith List Bool Arith Reals Lra Lia.
From Verif Require Import Model Spec SpecFact Limbs Value AddProofs Decide AddExtra MulCor ModelStr ModelDiv PowExtra ModelTables TabProofs TabFact TabFact2 TabBin TabCheck
  ExpReal SeriesFloat ExpFloat ModelFact FactProofs.
Import ListNotations.
Open Scope R_scope.

Lemma fact_length : Z.of_nat (List.length A000142) = 1001%Z.
Proof. vm_compute. reflexivity. Qed.
Lemma fact2_length : Z.of_nat (List.length A006882) = 1001%Z.
Proof. vm_compute. reflexivity. Qed.
Lemma binomial_length : Z.of_nat (List.length A007318) = 161%Z.
Proof. vm_compute. reflexivity. Qed.

Lemma table_error d : valid_digits d -> 2 * powerRZ 10 (- (d + 17)) + powerRZ 10 (-414) <= powerRZ 10 (- d) + powerRZ 10 (-414).
Proof. intro Hd. rewrite (p_17 d). pose proof (u_small d Hd). lra. Qed.

(** C44, factorial(n) for n <= 1000 (the table): relative error at most
    10^-digits10 + 10^-414; exact for n <= 243 as long as n! fits into the
    precision.  Missing: larger n, where a series is used. *)
Theorem C44_factorial_partial :
  forall d series n, valid_digits d -> (0 <= n <= 1000)%Z ->
  exists r, factorial d series n = Ok r /\ finite d r /\ full d r /\
  Rabs (value r - INR (fact (Z.to_nat n))) <= (powerRZ 10 (- d) + powerRZ 10 (-414)) * INR (fact (Z.to_nat n)) /\
  ((n <= 243)%Z -> INR (fact (Z.to_nat n)) < powerRZ 10 (d + 18) -> value r = INR (fact (Z.to_nat n))).
Proof.
  intros d series n Hd Hn. destruct (fact_read d n Hd Hn) as (r & R1 & R2 & R3 & R4 & R5). exists r. unfold factorial. rewrite fact_length.
  replace (n <? 1001)%Z with true by (symmetry; apply Z.ltb_lt; lia). split; [exact R1|]. split; [exact R2|]. split; [exact R3|]. split; [|exact R5].
  unfold rel in R4. rewrite (Rabs_pos_eq (INR _)) in R4 by apply pos_INR. eapply Rle_trans; [exact R4|]. apply Rmult_le_compat_r; [apply pos_INR|apply table_error; exact Hd].
Qed.
Print Assumptions C44_factorial_partial.

(** C44, factorial2(n) for 0 <= n <= 1000 (the table). *)
Theorem C44_factorial2_partial :
  forall d series n, valid_digits d -> (0 <= n <= 1000)%Z ->
  exists r, factorial2 d series n = Ok r /\ finite d r /\ full d r /\
  Rabs (value r - INR (double_fact (Z.to_nat n))) <= (powerRZ 10 (- d) + powerRZ 10 (-414)) * INR (double_fact (Z.to_nat n)) /\
  ((n <= 396)%Z -> INR (double_fact (Z.to_nat n)) < powerRZ 10 (d + 18) -> value r = INR (double_fact (Z.to_nat n))).
Proof.
  intros d series n Hd Hn. destruct (fact2_read d n Hd Hn) as (r & R1 & R2 & R3 & R4 & R5). exists r. unfold factorial2, f2_nonneg. rewrite fact2_length.
  replace (n >=? 0)%Z with true by (symmetry; rewrite Z.geb_leb; apply Z.leb_le; lia).
  replace (n <? 1001)%Z with true by (symmetry; apply Z.ltb_lt; lia). split; [exact R1|]. split; [exact R2|]. split; [exact R3|]. split; [|exact R5].
  unfold rel in R4. rewrite (Rabs_pos_eq (INR _)) in R4 by apply pos_INR. eapply Rle_trans; [exact R4|]. apply Rmult_le_compat_r; [apply pos_INR|apply table_error; exact Hd].
Qed.
Print Assumptions C44_factorial2_partial.

(** C44, factorial2 of negative numbers: NaN for even numbers other than the
    smallest int, and the continuation of the double factorial for odd ones. *)
Theorem C44_factorial2_negative_partial :
  forall d series n, valid_digits d -> (d <= 4967)%Z -> (-2147483648 < n < 0)%Z ->
  (Z.even n = true -> exists r, factorial2 d series n = Ok r /\ is_nan r) /\
  (forall k, (k <= 500)%nat -> n = (- (2 * Z.of_nat k + 1))%Z ->
   exists r, factorial2 d series n = Ok r /\ finite d r /\ full d r /\
   Rabs (value r - negative_double_fact k) <= (powerRZ 10 (- d) + powerRZ 10 (-412)) * Rabs (negative_double_fact k)).
Proof.
  intros d series n Hd Hd' Hn. unfold factorial2. replace (n >=? 0)%Z with false by (symmetry; rewrite Z.geb_leb; apply Z.leb_gt; lia).
  replace (n =? -2147483648)%Z with false by (symmetry; apply Z.eqb_neq; lia). split.
  - intro Ev. replace (n =? -1)%Z with false by (symmetry; apply Z.eqb_neq; intro E; rewrite E in Ev; discriminate Ev).
    replace (- n mod 2 =? 0)%Z with true.
    + exists (value_nan d). split; reflexivity.
    + symmetry. apply Z.eqb_eq. apply Z.even_spec in Ev. destruct Ev as (j & ->). replace (- (2 * j))%Z with (- j * 2)%Z by lia. apply Z_mod_mult.
  - intros k Hk ->. destruct k as [|k].
    + change (- (2 * Z.of_nat 0 + 1) =? -1)%Z with true. cbv iota. destruct (one_ok d Hd) as (F & P & V). exists (one d). split; [reflexivity|]. split; [exact F|]. split; [exact P|].
      assert (E : negative_double_fact 0 = 1) by (unfold negative_double_fact; cbn; field). rewrite E, V. unfold Rminus. rewrite Rplus_opp_r, Rabs_R0, Rabs_R1. pose proof (p10_pos (- d)). pose proof (p10_pos (-412)). lra.
    + replace (- (2 * Z.of_nat (S k) + 1) =? -1)%Z with false by (symmetry; apply Z.eqb_neq; lia). rewrite Z.opp_involutive. cbv zeta.
      replace ((2 * Z.of_nat (S k) + 1) mod 2 =? 0)%Z with false by (symmetry; apply Z.eqb_neq; rewrite Z.add_comm, Z.mul_comm, Z_mod_plus_full; discriminate).
      replace (2 * Z.of_nat (S k) + 1 - 2)%Z with (Z.of_nat (2 * S k - 1)) by lia. replace ((2 * Z.of_nat (S k) + 1 - 1) / 2)%Z with (Z.of_nat (S k)) by (replace (2 * Z.of_nat (S k) + 1 - 1)%Z with (Z.of_nat (S k) * 2)%Z by lia; rewrite Z_div_mult by lia; reflexivity).
      destruct (fact2_read d (Z.of_nat (2 * S k - 1)) Hd ltac:(lia)) as (f & R1 & R2 & R3 & R4 & _). rewrite Nat2Z.id in R4. unfold f2_nonneg. rewrite fact2_length.
      replace (Z.of_nat (2 * S k - 1) <? 1001)%Z with true by (symmetry; apply Z.ltb_lt; lia). rewrite R1. cbn [bind].
      pose proof (rel_le _ _ _ _ (table_rel_le d Hd) R4) as R4'. destruct (quotient_one d Hd Hd' f _ R2 R3 (double_fact_bound (2 * S k - 1) ltac:(lia)) R4') as (F & P & R). cbv zeta in F, P, R.
      set (q := div d (one d) f) in *. set (y := INR (double_fact (2 * S k - 1))) in *.
      assert (Y : 0 < / y) by (apply Rinv_0_lt_compat; unfold y; apply lt_0_INR; apply double_fact_pos).
      assert (B : Rabs (value q - / y) <= (powerRZ 10 (- d) + powerRZ 10 (-412)) * / y).
      { unfold rel, Rdiv in R. rewrite Rmult_1_l, (Rabs_pos_eq (/ y)) in R by lra. eapply Rle_trans; [exact R|]. apply Rmult_le_compat_r; [lra|]. pose proof (p10_pos (- d)).
        replace (-412)%Z with (2 + -414)%Z by lia. rewrite p10_add, (p10_nonneg 2) by lia. change (10 ^ 2)%Z with 100%Z. pose proof (p10_pos (-414)). lra. }
      unfold negative_double_fact. fold y.
      assert (Sg : (Z.of_nat (S k) mod 2 =? 0)%Z = true /\ (-1) ^ S k = 1 \/ (Z.of_nat (S k) mod 2 =? 0)%Z = false /\ (-1) ^ S k = -1).
      { destruct (Nat.Even_or_Odd (S k)) as [[j ->]|[j ->]]; [left|right].
        - split; [apply Z.eqb_eq; rewrite Nat2Z.inj_mul, Z.mul_comm; apply Z_mod_mult|]. apply pow_1_even.
        - split; [apply Z.eqb_neq; rewrite Nat2Z.inj_add, Nat2Z.inj_mul, Z.add_comm, Z.mul_comm, Z_mod_plus_full; discriminate|]. rewrite Nat.add_1_r. apply pow_1_odd. }
      destruct Sg as [[-> ->]|[-> ->]].
      * exists q. split; [reflexivity|]. split; [exact F|]. split; [exact P|]. unfold Rdiv. rewrite Rmult_1_l, (Rabs_pos_eq (/ y)) by lra. exact B.
      * exists (negate q). split; [reflexivity|]. split; [apply negate_finite; exact F|]. split; [unfold full in *; rewrite negate_prec; exact P|]. rewrite (negate_value d q Hd F). unfold Rdiv.
        replace (-1 * / y) with (- / y) by ring. rewrite Rabs_Ropp, (Rabs_pos_eq (/ y)) by lra. replace (- value q - - / y) with (- (value q - / y)) by ring. rewrite Rabs_Ropp. exact B.
Qed.
Print Assumptions C44_factorial2_negative_partial.

(** C44, binomial(n,k) for n <= 160: exact at every precision. *)
Theorem C44_binomial :
  forall d series n k, valid_digits d -> (0 <= n <= 160)%Z -> (0 <= k)%Z ->
  exists r, binomial d series n k = Ok r /\
  ((k <= n)%Z -> finite d r /\ full d r /\ value r = Binomial.C (Z.to_nat n) (Z.to_nat k)) /\
  ((n < k)%Z -> is_nan r).
Proof.
  intros d series n k Hd Hn Hk. unfold binomial. rewrite binomial_length. destruct (Z.gtb_spec k n) as [G|G].
  - exists (value_nan d). split; [reflexivity|]. split; [lia|]. intros _. reflexivity.
  - destruct (Z.eqb_spec k n) as [->|N].
    + destruct (one_ok d Hd) as (F & P & V). exists (one d). split; [reflexivity|]. split; [|lia]. intros _. split; [exact F|]. split; [exact P|]. rewrite V. symmetry. apply C_edge.
    + replace (n <? 161)%Z with true by (symmetry; apply Z.ltb_lt; lia). destruct (binomial_read d n k Hd ltac:(lia) ltac:(lia)) as (r & R1 & R2). exists r. split; [exact R1|]. split; [auto|lia].
Qed.
Print Assumptions C44_binomial.

(** C44, binomial(n,k) for 161 <= n <= 1000: the quotient of factorials. *)
Theorem C44_binomial_quotient_partial :
  forall d series n k, valid_digits d -> (d <= 4967)%Z -> (161 <= n <= 1000)%Z -> (0 <= k <= n)%Z ->
  exists r, binomial d series n k = Ok r /\ finite d r /\ full d r /\
  Rabs (value r - Binomial.C (Z.to_nat n) (Z.to_nat k)) <= (powerRZ 10 (- d) + powerRZ 10 (-412)) * Binomial.C (Z.to_nat n) (Z.to_nat k).
Proof.
  intros d series n k Hd Hd' Hn Hk. pose proof (p10_pos (- d)) as P1. pose proof (p10_pos (-412)) as P2. unfold binomial. rewrite binomial_length. replace (k >? n)%Z with false by (symmetry; rewrite Z.gtb_ltb; apply Z.ltb_ge; lia).
  destruct (Z.eqb_spec k n) as [->|N].
  - destruct (one_ok d Hd) as (F & P & V). exists (one d). split; [reflexivity|]. split; [exact F|]. split; [exact P|]. rewrite V, (proj2 (C_edge _)). unfold Rminus. rewrite Rplus_opp_r, Rabs_R0. lra.
  - replace (n <? 161)%Z with false by (symmetry; apply Z.ltb_ge; lia). unfold factorial. rewrite fact_length.
    replace (n <? 1001)%Z with true by (symmetry; apply Z.ltb_lt; lia). replace (k <? 1001)%Z with true by (symmetry; apply Z.ltb_lt; lia). replace (n - k <? 1001)%Z with true by (symmetry; apply Z.ltb_lt; lia).
    destruct (fact_read d n Hd ltac:(lia)) as (a & A1 & A2 & A3 & A4 & _). destruct (fact_read d k Hd ltac:(lia)) as (b & B1 & B2 & B3 & B4 & _). destruct (fact_read d (n - k) Hd ltac:(lia)) as (c & C1 & C2 & C3 & C4 & _).
    rewrite A1, B1, C1. cbn [bind]. eexists. split; [reflexivity|].
    pose proof (table_rel_le d Hd) as T. apply (rel_le _ _ _ _ T) in A4, B4, C4.
    destruct (quotient_ok d Hd Hd' a b c _ _ _ A2 A3 B2 B3 C2 C3 (fact_bound (Z.to_nat n) ltac:(lia)) (fact_bound (Z.to_nat k) ltac:(lia)) (fact_bound (Z.to_nat (n - k)) ltac:(lia)) A4 B4 C4) as (F & P & R).
    split; [exact F|]. split; [exact P|]. unfold Binomial.C. replace (Z.to_nat n - Z.to_nat k)%nat with (Z.to_nat (n - k)) by lia.
    set (x := INR (fact (Z.to_nat n))) in *. set (y := INR (fact (Z.to_nat k))) in *. set (z := INR (fact (Z.to_nat (n - k)))) in *.
    assert (0 < x) by apply INR_fact_lt_0. assert (0 < y) by apply INR_fact_lt_0. assert (0 < z) by apply INR_fact_lt_0.
    assert (Q : 0 < x / (y * z)) by (apply Rdiv_lt_0_compat; [assumption|apply Rmult_lt_0_compat; assumption]).
    unfold rel in R. rewrite (Rabs_pos_eq (x / (y * z))) in R by lra. eapply Rle_trans; [exact R|]. apply Rmult_le_compat_r; [lra|].
    replace (-412)%Z with (2 + -414)%Z by lia. rewrite p10_add, (p10_nonneg 2) by lia. change (10 ^ 2)%Z with 100%Z. pose proof (p10_pos (-414)). lra.
Qed.
Print Assumptions C44_binomial_quotient_partial.

Definition zfact (n : nat) : Z := fold_left (fun a k => a * Z.of_nat k)%Z (seq 1 n) 1%Z.
Lemma zfact_ok n : INR (fact n) = IZR (zfact n).
Proof.
  rewrite INR_IZR_INZ. f_equal. unfold zfact. induction n as [|n IH]; [reflexivity|]. rewrite seq_S, fold_left_app, <- IH. cbn [fold_left]. rewrite fact_simpl. lia.
Qed.

Definition wrong_entry (en : entry) (f : Z) : bool :=
  entry_okb en && (0 <=? scale en)%Z && (vlist (mant en) <? 10 ^ 420)%Z && (f <? Z.abs (vlist (mant en) * 10 ^ scale en - f) * 10 ^ 420)%Z.

Lemma wrong_320_checked : wrong_entry (nth 320 A000142 (IntE 0)) (zfact 320) = true.
Proof. vm_compute. reflexivity. Qed.

Lemma wrong_entry_read d en f : valid_digits d -> (403 <= d)%Z -> wrong_entry en f = true ->
  exists r, entry_ef d en = Ok r /\ finite d r /\ powerRZ 10 (-420) * IZR f < Rabs (value r - IZR f).
Proof.
  intros Hd D W. apply andb_true_iff in W. destruct W as [W W4]. apply andb_true_iff in W. destruct W as [W W3]. apply andb_true_iff in W. destruct W as [W1 W2].
  apply Z.leb_le in W2. apply Z.ltb_lt in W3, W4. destruct (read_entry d en Hd W1) as (r & R1 & R2 & _ & _ & R5). exists r. split; [exact R1|]. split; [exact R2|].
  pose proof (mant_pos en W1) as MP. rewrite (R5 _ _ eq_refl).
  - unfold entry_value. revert W3 W4. generalize (vlist (mant en)). intros m _ W4. rewrite (p10_nonneg _ W2), <- mult_IZR, <- minus_IZR, <- abs_IZR.
    apply IZR_lt in W4. rewrite mult_IZR, <- (p10_nonneg 420) in W4 by lia. change (-420)%Z with (- (420))%Z. rewrite p10_inv. pose proof (p10_pos 420) as P.
    apply Rmult_lt_reg_l with (1 := P). rewrite <- Rmult_assoc, Rinv_r, Rmult_1_l by lra. lra.
  - rewrite Z.abs_eq by lia. apply Z.lt_le_trans with (1 := W3). apply Z.pow_le_mono_r; lia.
Qed.

(** C44 is false at high precision: from 403 digits on 320! is read exactly as
    written in the table, which gives only 420 of its digits. *)
Theorem C44_factorial_refuted :
  forall d series, valid_digits d -> (403 <= d)%Z ->
  exists r, factorial d series 320 = Ok r /\ finite d r /\
  powerRZ 10 (-420) * INR (fact 320) < Rabs (value r - INR (fact 320)).
Proof.
  intros d series Hd D. unfold factorial. rewrite fact_length. change (320 <? 1001)%Z with true. cbv iota. unfold table_get.
  assert (E : nth_error A000142 (Z.to_nat 320) = Some (nth 320 A000142 (IntE 0))) by (apply nth_error_nth'; apply Nat2Z.inj_lt; rewrite fact_length; reflexivity).
  rewrite E, zfact_ok. exact (wrong_entry_read d _ _ Hd D wrong_320_checked).
Qed.
Print Assumptions C44_factorial_refuted.

(** C44 is false for factorial2: the smallest int is negated and the largest
    int is incremented, both without check. *)
Theorem C44_factorial2_refuted :
  forall d series, factorial2 d series (-2147483648) = UB /\ factorial2 d series 2147483647 = UB.
Proof.
  intros d series. split; [reflexivity|]. unfold factorial2, f2_nonneg. rewrite fact2_length. reflexivity.
Qed.
Print Assumptions C44_factorial2_refuted.

(** The hypotheses are met: 30 digits, 20!, 700!, (-7)!!, binomials. *)
Example C44_factorial_hypotheses_met :
  exists r, factorial 30 (fun _ => UB) 20 = Ok r /\ value r = 2432902008176640000.
Proof.
  destruct (C44_factorial_partial 30 (fun _ => UB) 20 valid_30 ltac:(lia)) as (r & R1 & _ & _ & _ & R5). exists r. split; [exact R1|].
  assert (E : INR (fact (Z.to_nat 20)) = 2432902008176640000) by (rewrite zfact_ok; reflexivity). rewrite E in R5. apply R5; [lia|].
  change (30 + 18)%Z with 48%Z. rewrite p10_nonneg by lia. apply IZR_lt. reflexivity.
Qed.

Example C44_factorial2_hypotheses_met :
  exists r s, factorial2 30 (fun _ => UB) 700 = Ok r /\ finite 30 r /\ factorial2 30 (fun _ => UB) (-6) = Ok s /\ is_nan s /\
  exists t, factorial2 30 (fun _ => UB) (-7) = Ok t /\ Rabs (value t - - / 15) <= (powerRZ 10 (- (30)) + powerRZ 10 (-412)) / 15.
Proof.
  destruct (C44_factorial2_partial 30 (fun _ => UB) 700 valid_30 ltac:(lia)) as (r & R1 & R2 & _).
  destruct (C44_factorial2_negative_partial 30 (fun _ => UB) (-6) valid_30 ltac:(lia) ltac:(lia)) as [A _]. destruct (A eq_refl) as (s & S1 & S2).
  destruct (C44_factorial2_negative_partial 30 (fun _ => UB) (-7) valid_30 ltac:(lia) ltac:(lia)) as [_ B]. destruct (B 3%nat ltac:(lia) eq_refl) as (t & T1 & _ & _ & T2).
  exists r, s. split; [exact R1|]. split; [exact R2|]. split; [exact S1|]. split; [exact S2|]. exists t. split; [exact T1|].
  assert (E : negative_double_fact 3 = - / 15) by (unfold negative_double_fact; cbn; field). rewrite E, Rabs_Ropp, (Rabs_pos_eq (/ 15)) in T2 by lra. exact T2.
Qed.

Example C44_binomial_hypotheses_met :
  exists r, binomial 30 (fun _ => UB) 6 2 = Ok r /\ value r = 15 /\ exists s, binomial 30 (fun _ => UB) 600 299 = Ok s /\ finite 30 s.
Proof.
  destruct (C44_binomial 30 (fun _ => UB) 6 2 valid_30 ltac:(lia) ltac:(lia)) as (r & R1 & R2 & _). destruct (R2 ltac:(lia)) as (_ & _ & V). exists r. split; [exact R1|]. split.
  - rewrite V. unfold Binomial.C. rewrite !zfact_ok. change (IZR (zfact (Z.to_nat 6)) / (IZR (zfact (Z.to_nat 2)) * IZR (zfact (Z.to_nat 6 - Z.to_nat 2))) = 15).
    change (zfact (Z.to_nat 6)) with 720%Z. change (zfact (Z.to_nat 2)) with 2%Z. change (zfact (Z.to_nat 6 - Z.to_nat 2)) with 24%Z. field.
  - destruct (C44_binomial_quotient_partial 30 (fun _ => UB) 600 299 valid_30 ltac:(lia) ltac:(lia) ltac:(lia)) as (s & S1 & S2 & _). exists s. split; [exact S1|exact S2].
Qed.

Example C44_factorial_refuted_hypotheses_met : valid_digits 500 /\ (403 <= 500)%Z.
Proof. split; [unfold valid_digits; lia|lia]. Qed.
