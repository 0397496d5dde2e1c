(** * Euler's formula for the zeta function at even integers (proofs only) *)

From Coq Require Import ZArith Arith Reals Lra Lia.
From Coquelicot Require Import Coquelicot.
From Verif Require Import SpecBern SpecZeta.
Open Scope R_scope.

(** ** The Bernoulli polynomials, divided by n! *)

Section Bernoulli.
Variable b : nat -> R.
Hypothesis Hb : is_bernoulli b.

Definition mono (m : nat) (t : R) : R := t ^ m / INR (fact m).
Definition bp (n : nat) (t : R) : R := sum_n (fun i => b i / INR (fact i) * mono (n - i) t) n.

Lemma mono_0 t : mono 0 t = 1.
Proof. unfold mono. cbn. field. Qed.

Lemma mono_derive m t : is_derive (mono (S m)) t (mono m t).
Proof.
  pose proof (INR_fact_neq_0 m) as N. assert (N' : INR (S m) <> 0) by (apply not_0_INR; lia).
  assert (E : forall t, mono (S m) t = / INR (fact (S m)) * t ^ S m) by (intro; unfold mono; apply Rmult_comm).
  apply (is_derive_ext (fun t => / INR (fact (S m)) * t ^ S m)); [intro; symmetry; apply E|].
  replace (mono m t) with (/ INR (fact (S m)) * (INR (S m) * 1 * t ^ pred (S m))) by (unfold mono; rewrite fact_simpl, mult_INR; cbn [pred]; field; auto).
  apply (is_derive_scal (fun t => t ^ S m) t (/ INR (fact (S m)))). apply (is_derive_pow (fun t => t) (S m) t 1). apply @is_derive_id.
Qed.

Lemma bp_derive n t : is_derive (bp (S n)) t (bp n t).
Proof.
  set (dd := fun i => if (i <=? n)%nat then b i / INR (fact i) * mono (n - i) t else 0).
  assert (E : bp n t = sum_n dd (S n)).
  { rewrite sum_Sn. unfold dd at 2. replace (S n <=? n)%nat with false by (symmetry; apply Nat.leb_gt; lia). transitivity (sum_n dd n); [|symmetry; exact (Rplus_0_r (sum_n dd n))]. apply sum_n_ext_loc. intros i Hi. unfold dd. replace (i <=? n)%nat with true by (symmetry; apply Nat.leb_le; exact Hi). reflexivity. }
  rewrite E. unfold bp. apply (is_derive_sum_n (fun i t => b i / INR (fact i) * mono (S n - i) t)). intros i Hi. unfold dd. destruct (Nat.leb_spec i n) as [L|L].
  - replace (S n - i)%nat with (S (n - i)) by lia. apply (is_derive_scal (mono (S (n - i))) t (b i / INR (fact i))). apply mono_derive.
  - replace (S n - i)%nat with 0%nat by lia. unfold mono. cbn [pow fact]. auto_derive; [exact I|reflexivity].
Qed.

Lemma bp_0 n : bp n 0 = b n / INR (fact n).
Proof.
  unfold bp. destruct n as [|n].
  - rewrite sum_O. unfold mono. cbn. field.
  - rewrite sum_Sn, Nat.sub_diag. rewrite (sum_n_ext_loc _ (fun _ => zero)).
    + rewrite sum_n_const, mono_0, Rmult_1_r. change (INR (S n) * 0 + b (S n) / INR (fact (S n)) = b (S n) / INR (fact (S n))). ring.
    + intros i Hi. unfold mono. replace (S n - i)%nat with (S (n - i)) by lia. rewrite pow_i by lia. unfold zero; cbn -[fact INR]. unfold Rdiv. ring.
Qed.

Lemma bp_1 n : (2 <= n)%nat -> bp n 1 = bp n 0.
Proof.
  intro N. rewrite bp_0. destruct n as [|n]; [lia|]. unfold bp. rewrite sum_Sn, Nat.sub_diag.
  assert (S0 : sum_n (fun i => b i / INR (fact i) * mono (S n - i) 1) n = 0).
  { rewrite <- (Rmult_0_r (/ INR (fact (S n)))). rewrite <- (proj2 Hb n ltac:(lia)). rewrite sum_n_Reals, scal_sum. apply sum_eq. intros i Hi. unfold Binomial.C, mono. rewrite pow1.
    pose proof (INR_fact_neq_0 (S n)). pose proof (INR_fact_neq_0 i). pose proof (INR_fact_neq_0 (S n - i)). field. auto. }
  rewrite S0, mono_0, Rmult_1_r. exact (Rplus_0_l _).
Qed.

Lemma bp_0_val t : bp 0 t = 1.
Proof. unfold bp. rewrite sum_O. unfold mono. rewrite (proj1 Hb). cbn. field. Qed.

Lemma bp_1_jump : bp 1 1 - bp 1 0 = 1.
Proof. unfold bp. rewrite !sum_Sn, !sum_O. unfold mono, plus. rewrite (proj1 Hb). cbn. field. Qed.

Lemma bp_continuous n t : continuous (bp n) t.
Proof. destruct n as [|n]; [apply (continuous_ext (fun _ => 1)); [intro; symmetry; apply bp_0_val|apply continuous_const]|apply (ex_derive_continuous (bp (S n))); eexists; apply bp_derive]. Qed.

(** ** Fourier coefficients *)

Section Frequency.
Variable j : nat.
Hypothesis Hj : (1 <= j)%nat.
Definition om : R := 2 * PI * INR j.

Lemma om_pos : 0 < om.
Proof. unfold om. pose proof PI_RGT_0. assert (0 < INR j) by (apply lt_0_INR; lia). nra. Qed.
Lemma sin_om : sin (om * 1) = 0.
Proof. unfold om. rewrite Rmult_1_r. replace (2 * PI * INR j) with (0 + 2 * INR j * PI) by ring. rewrite sin_period. apply sin_0. Qed.
Lemma cos_om : cos (om * 1) = 1.
Proof. unfold om. rewrite Rmult_1_r. replace (2 * PI * INR j) with (0 + 2 * INR j * PI) by ring. rewrite cos_period. apply cos_0. Qed.

Lemma cos_part n v : is_RInt (fun t => bp n t * sin (om * t)) 0 1 v -> is_RInt (fun t => bp (S n) t * cos (om * t)) 0 1 (- v / om).
Proof.
  intro H. pose proof om_pos as P.
  assert (D : is_RInt (fun t => bp n t * (sin (om * t) / om) + bp (S n) t * cos (om * t)) 0 1 (minus (bp (S n) 1 * (sin (om * 1) / om)) (bp (S n) 0 * (sin (om * 0) / om)))).
  { apply (is_RInt_derive (fun t => bp (S n) t * (sin (om * t) / om))).
    - intros t _. apply (is_derive_mult (bp (S n)) (fun t => sin (om * t) / om)); [apply bp_derive| |intros; apply Rmult_comm]. auto_derive; [exact I|]. field. lra.
    - intros t _. apply (continuous_plus (fun t => bp n t * (sin (om * t) / om)) (fun t => bp (S n) t * cos (om * t))).
      + apply (continuous_mult (bp n) (fun t => sin (om * t) / om)); [apply bp_continuous|]. apply (ex_derive_continuous (fun t => sin (om * t) / om)). auto_derive. exact I.
      + apply (continuous_mult (bp (S n)) (fun t => cos (om * t))); [apply bp_continuous|]. apply (ex_derive_continuous (fun t => cos (om * t))). auto_derive. exact I. }
  rewrite sin_om, Rmult_0_r, sin_0 in D.
  apply (is_RInt_scal _ _ _ (/ om)) in H. pose proof (is_RInt_minus _ _ _ _ _ _ D H) as Q.
  replace (- v / om) with (minus (minus (bp (S n) 1 * (0 / om)) (bp (S n) 0 * (0 / om))) (scal (/ om) v)).
  - eapply is_RInt_ext; [|exact Q]. intros t _. unfold minus, plus, opp, scal; cbn. unfold mult; cbn. field. lra.
  - unfold minus, plus, opp, scal; cbn. unfold mult; cbn. field. lra.
Qed.

Lemma sin_part n v : is_RInt (fun t => bp n t * cos (om * t)) 0 1 v -> is_RInt (fun t => bp (S n) t * sin (om * t)) 0 1 ((v - (bp (S n) 1 - bp (S n) 0)) / om).
Proof.
  intro H. pose proof om_pos as P.
  assert (D : is_RInt (fun t => bp n t * (- cos (om * t) / om) + bp (S n) t * sin (om * t)) 0 1 (minus (bp (S n) 1 * (- cos (om * 1) / om)) (bp (S n) 0 * (- cos (om * 0) / om)))).
  { apply (is_RInt_derive (fun t => bp (S n) t * (- cos (om * t) / om))).
    - intros t _. apply (is_derive_mult (bp (S n)) (fun t => - cos (om * t) / om)); [apply bp_derive| |intros; apply Rmult_comm]. auto_derive; [exact I|]. field. lra.
    - intros t _. apply (continuous_plus (fun t => bp n t * (- cos (om * t) / om)) (fun t => bp (S n) t * sin (om * t))).
      + apply (continuous_mult (bp n) (fun t => - cos (om * t) / om)); [apply bp_continuous|]. apply (ex_derive_continuous (fun t => - cos (om * t) / om)). auto_derive. exact I.
      + apply (continuous_mult (bp (S n)) (fun t => sin (om * t))); [apply bp_continuous|]. apply (ex_derive_continuous (fun t => sin (om * t))). auto_derive. exact I. }
  rewrite cos_om, Rmult_0_r, cos_0 in D.
  apply (is_RInt_scal _ _ _ (/ om)) in H. pose proof (is_RInt_plus _ _ _ _ _ _ D H) as Q.
  replace ((v - (bp (S n) 1 - bp (S n) 0)) / om) with (plus (minus (bp (S n) 1 * (- 1 / om)) (bp (S n) 0 * (- 1 / om))) (scal (/ om) v)).
  - eapply is_RInt_ext; [|exact Q]. intros t _. unfold minus, plus, opp, scal; cbn. unfold mult; cbn. field. lra.
  - unfold minus, plus, opp, scal; cbn. unfold mult; cbn. field. lra.
Qed.

Lemma cos_zero : is_RInt (fun t => cos (om * t)) 0 1 0.
Proof.
  pose proof om_pos as P. replace 0 with (minus (sin (om * 1) / om) (sin (om * 0) / om)) at 2 by (rewrite sin_om, Rmult_0_r, sin_0; unfold minus, plus, opp; cbn; field; lra).
  apply (is_RInt_derive (fun t => sin (om * t) / om)).
  - intros t _. auto_derive; [exact I|]. field. lra.
  - intros t _. apply (ex_derive_continuous (fun t => cos (om * t))). auto_derive. exact I.
Qed.

Lemma coefficient k : is_RInt (fun t => bp (2 * S k) t * cos (om * t)) 0 1 ((-1) ^ k / om ^ (2 * S k)).
Proof.
  pose proof om_pos as P. induction k as [|k IH].
  - assert (H0 : is_RInt (fun t => bp 0 t * cos (om * t)) 0 1 0) by (eapply is_RInt_ext; [|exact cos_zero]; intros t _; rewrite bp_0_val; symmetry; apply Rmult_1_l).
    apply sin_part in H0. rewrite bp_1_jump in H0. apply cos_part in H0. change (2 * 1)%nat with 2%nat. replace ((-1) ^ 0 / om ^ 2) with (- ((0 - 1) / om) / om) by (cbn; field; lra). exact H0.
  - apply sin_part in IH. rewrite bp_1, Rminus_eq_0, Rminus_0_r in IH by lia. apply cos_part in IH. replace (2 * S (S k))%nat with (S (S (2 * S k))) by lia.
    replace ((-1) ^ S k / om ^ S (S (2 * S k))) with (- ((-1) ^ k / om ^ (2 * S k) / om) / om); [exact IH|]. rewrite <- !tech_pow_Rmult. field. split; [apply pow_nonzero; lra|lra].
Qed.
End Frequency.

Lemma mean n : (1 <= n)%nat -> is_RInt (bp n) 0 1 0.
Proof.
  intro N. replace 0 with (minus (bp (S n) 1) (bp (S n) 0)) at 2 by (rewrite bp_1 by lia; apply (minus_eq_zero (bp (S n) 0))).
  apply (is_RInt_derive (bp (S n))); intros; [apply bp_derive|apply bp_continuous].
Qed.

End Bernoulli.

(** ** The Dirichlet kernel *)

Fixpoint dk (N : nat) (t : R) : R := match N with O => / 2 | S m => dk m t + cos (om (S m) * t) end.

Lemma dk_sin N t : 2 * sin (PI * t) * dk N t = sin ((2 * INR N + 1) * PI * t).
Proof.
  induction N as [|N IH].
  - cbn [dk INR]. replace ((2 * 0 + 1) * PI * t) with (PI * t) by ring. field.
  - cbn [dk]. rewrite Rmult_plus_distr_l, IH. unfold om. rewrite S_INR.
    replace ((2 * INR N + 1) * PI * t) with (2 * PI * (INR N + 1) * t - PI * t) by ring. replace ((2 * (INR N + 1) + 1) * PI * t) with (2 * PI * (INR N + 1) * t + PI * t) by ring.
    rewrite sin_minus, sin_plus. ring.
Qed.

Lemma dk_continuous N t : continuous (dk N) t.
Proof.
  induction N as [|N IH]; [apply continuous_const|]. cbn [dk]. apply (continuous_plus (dk N) (fun t => cos (om (S N) * t))); [exact IH|].
  apply (ex_derive_continuous (fun t => cos (om (S N) * t))). auto_derive. exact I.
Qed.

Lemma sin_ge t : 0 <= t <= / 3 -> t <= sin (PI * t).
Proof.
  intros [A B]. destruct (Req_dec t 0) as [->|N]; [rewrite Rmult_0_r, sin_0; lra|]. pose proof PI_RGT_0. pose proof PI2_3_2 as P3.
  destruct (MVT_cor2 sin cos 0 (PI * t) ltac:(nra) (fun c _ => derivable_pt_lim_sin c)) as (c & E & C). rewrite sin_0, !Rminus_0_r in E. rewrite E.
  assert (/ 2 <= cos c) by (replace (/ 2) with (1 / 2) by field; rewrite <- cos_PI3; apply cos_decr_1; nra). nra.
Qed.

Section Small.
Variables f f' : R -> R.
Hypothesis Df : forall t, is_derive f t (f' t).
Hypothesis Cf : forall t, continuous f' t.
Hypothesis F0 : f 0 = 0.
Hypothesis F1 : f 1 = 0.
Variable L : R.
Hypothesis HL : forall t, 0 <= t <= 1 -> Rabs (f' t) <= L.

Lemma f_continuous t : continuous f t.
Proof. apply (ex_derive_continuous f). exists (f' t). apply Df. Qed.

Lemma lip a c : 0 <= a <= c -> c <= 1 -> Rabs (f c - f a) <= L * (c - a).
Proof.
  intros A C. destruct (Req_dec a c) as [->|N]; [rewrite !Rminus_eq_0, Rabs_R0; lra|].
  destruct (MVT_cor2 f f' a c ltac:(lra) (fun x _ => proj1 (is_derive_Reals f x (f' x)) (Df x))) as (x & E & X). rewrite E, Rabs_mult, (Rabs_pos_eq (c - a)) by lra.
  apply Rmult_le_compat_r; [lra|]. apply HL. lra.
Qed.

Lemma near_0 N t : 0 <= t <= / 3 -> Rabs (f t * dk N t) <= L.
Proof.
  intro T. pose proof (Rabs_pos (f' 0)). pose proof (HL 0 ltac:(lra)). destruct (Req_dec t 0) as [->|Z]; [rewrite F0, Rmult_0_l, Rabs_R0; lra|].
  pose proof (lip 0 t ltac:(lra) ltac:(lra)) as Lp. rewrite F0, !Rminus_0_r in Lp. pose proof (sin_ge t T) as S. pose proof (dk_sin N t) as D.
  assert (B : 2 * sin (PI * t) * Rabs (dk N t) <= 1). { rewrite <- (Rabs_pos_eq (2 * sin (PI * t))) by lra. rewrite <- Rabs_mult, D. apply Rabs_le. apply SIN_bound. }
  rewrite Rabs_mult. pose proof (Rabs_pos (dk N t)). apply Rle_trans with (L * t * Rabs (dk N t)); [apply Rmult_le_compat_r; assumption|].
  rewrite Rmult_assoc. rewrite <- (Rmult_1_r L) at 2. apply Rmult_le_compat_l; [lra|]. nra.
Qed.

Lemma near_1 N t : 2 / 3 <= t <= 1 -> Rabs (f t * dk N t) <= L.
Proof.
  intro T. pose proof (Rabs_pos (f' 0)). pose proof (HL 0 ltac:(lra)). destruct (Req_dec t 1) as [->|Z]; [rewrite F1, Rmult_0_l, Rabs_R0; lra|].
  pose proof (lip t 1 ltac:(lra) ltac:(lra)) as Lp. rewrite F1, Rminus_0_l, Rabs_Ropp in Lp. pose proof (sin_ge (1 - t) ltac:(lra)) as S. pose proof (dk_sin N t) as D.
  assert (E : sin (PI * (1 - t)) = sin (PI * t)) by (replace (PI * (1 - t)) with (PI - PI * t) by ring; apply sin_PI_x). rewrite E in S.
  assert (B : 2 * sin (PI * t) * Rabs (dk N t) <= 1). { rewrite <- (Rabs_pos_eq (2 * sin (PI * t))) by lra. rewrite <- Rabs_mult, D. apply Rabs_le. apply SIN_bound. }
  rewrite Rabs_mult. pose proof (Rabs_pos (dk N t)). apply Rle_trans with (L * (1 - t) * Rabs (dk N t)); [apply Rmult_le_compat_r; assumption|].
  rewrite Rmult_assoc. rewrite <- (Rmult_1_r L) at 2. apply Rmult_le_compat_l; [lra|]. nra.
Qed.

Definition q (t : R) : R := / (2 * sin (PI * t)).
Definition q' (t : R) : R := - (2 * (PI * cos (PI * t))) / (2 * sin (PI * t)) ^ 2.

Lemma sin_pos t : 0 < t < 1 -> 0 < sin (PI * t).
Proof. intro T. pose proof PI_RGT_0. apply sin_gt_0; nra. Qed.

Lemma q_derive t : 0 < t < 1 -> is_derive q t (q' t).
Proof. intro T. pose proof (sin_pos t T). unfold q, q'. auto_derive; [lra|]. field. lra. Qed.

Lemma u'_continuous t : 0 < t < 1 -> continuous (fun t => f' t * q t + f t * q' t) t.
Proof.
  intro T. pose proof (sin_pos t T) as P. apply (continuous_plus (fun t => f' t * q t) (fun t => f t * q' t)).
  - apply (continuous_mult f' q); [apply Cf|]. apply (ex_derive_continuous q). eexists. apply q_derive, T.
  - apply (continuous_mult f q'); [apply f_continuous|]. apply (ex_derive_continuous q'). unfold q'. auto_derive. apply Rgt_not_eq. cbn. nra.
Qed.

Lemma middle a c : 0 < a < c -> c < 1 -> exists K, 0 <= K /\ forall N, Rabs (RInt (fun t => f t * dk N t) a c) <= K / (2 * INR N + 1).
Proof.
  intros A C. pose proof PI2_3_2 as P3. set (u' := fun t => f' t * q t + f t * q' t).
  destruct (continuity_ab_maj (fun t => Rabs (u' t)) a c ltac:(lra)) as (m & Hm & _).
  { intros t T. apply continuity_pt_filterlim. apply (continuous_comp u' Rabs); [apply u'_continuous; lra|apply continuous_Rabs]. }
  exists (Rabs (f a * q a) + Rabs (f c * q c) + (c - a) * Rabs (u' m)). pose proof (Rabs_pos (u' m)) as Um. split.
  { pose proof (Rabs_pos (f a * q a)). pose proof (Rabs_pos (f c * q c)). nra. }
  intro N. set (M := (2 * INR N + 1) * PI). pose proof (pos_INR N) as PN. assert (M1 : 2 * INR N + 1 <= M) by (unfold M; nra). assert (M0 : 0 < M) by lra.
  set (w := fun t => f t * q t * (- cos (M * t) / M)).
  assert (Dw : forall t, 0 < t < 1 -> is_derive w t (u' t * (- cos (M * t) / M) + f t * q t * sin (M * t))).
  { intros t T. apply (is_derive_mult (fun t => f t * q t) (fun t => - cos (M * t) / M)); [|auto_derive; [exact I|field; lra]|intros; apply Rmult_comm].
    apply (is_derive_mult f q); [apply Df|apply q_derive, T|intros; apply Rmult_comm]. }
  assert (Cc : forall t, continuous (fun t => - cos (M * t) / M) t) by (intro t; apply (ex_derive_continuous (fun t => - cos (M * t) / M)); auto_derive; exact I).
  assert (Cs : forall t, continuous (fun t => sin (M * t)) t) by (intro t; apply (ex_derive_continuous (fun t => sin (M * t))); auto_derive; exact I).
  assert (Cq : forall t, 0 < t < 1 -> continuous (fun t => f t * q t) t). { intros t T. apply (continuous_mult f q); [apply f_continuous|]. apply (ex_derive_continuous q). eexists. apply q_derive, T. }
  assert (B : forall t, Rmin a c <= t <= Rmax a c -> 0 < t < 1) by (intro t; rewrite Rmin_left, Rmax_right by lra; lra).
  assert (I1 : is_RInt (fun t => u' t * (- cos (M * t) / M) + f t * q t * sin (M * t)) a c (minus (w c) (w a))).
  { apply (is_RInt_derive w); intros t T; apply B in T; [apply Dw, T|].
    apply (continuous_plus (fun t => u' t * (- cos (M * t) / M)) (fun t => f t * q t * sin (M * t))).
    - apply (continuous_mult u' (fun t => - cos (M * t) / M)); [apply u'_continuous, T|apply Cc].
    - apply (continuous_mult (fun t => f t * q t) (fun t => sin (M * t))); [apply Cq, T|apply Cs]. }
  assert (X2 : ex_RInt (fun t => u' t * (- cos (M * t) / M)) a c).
  { apply (@ex_RInt_continuous R_CompleteNormedModule). intros t T. apply B in T. apply (continuous_mult u' (fun t => - cos (M * t) / M)); [apply u'_continuous, T|apply Cc]. }
  destruct X2 as (v & I2). pose proof (is_RInt_minus _ _ _ _ _ _ I1 I2) as I3.
  assert (I4 : is_RInt (fun t => f t * dk N t) a c (minus (minus (w c) (w a)) v)).
  { eapply is_RInt_ext; [|exact I3]. intros t T. assert (0 < t < 1) by (rewrite Rmin_left, Rmax_right in T by lra; lra). pose proof (sin_pos t ltac:(assumption)) as Sp.
    pose proof (dk_sin N t) as D. change (u' t * (- cos (M * t) / M) + f t * q t * sin (M * t) - u' t * (- cos (M * t) / M) = f t * dk N t).
    transitivity (f t * q t * sin (M * t)); [ring|]. unfold M. rewrite <- D. unfold q. field. lra. }
  rewrite (is_RInt_unique _ _ _ _ I4).
  assert (Co : forall t, Rabs (- cos (M * t) / M) <= / M).
  { intro t. unfold Rdiv. rewrite Rabs_mult, Rabs_Ropp, (Rabs_pos_eq (/ M)) by (left; apply Rinv_0_lt_compat; lra). rewrite <- (Rmult_1_l (/ M)) at 2. apply Rmult_le_compat_r; [left; apply Rinv_0_lt_compat; lra|]. apply Rabs_le. apply COS_bound. }
  assert (V : Rabs v <= (c - a) * (Rabs (u' m) * / M)).
  { apply (norm_RInt_le_const (fun t => u' t * (- cos (M * t) / M)) a c v (Rabs (u' m) * / M) ltac:(lra)); [|exact I2]. intros t T. change (Rabs (u' t * (- cos (M * t) / M)) <= Rabs (u' m) * / M).
    rewrite Rabs_mult. apply Rmult_le_compat; [apply Rabs_pos|apply Rabs_pos|apply Hm, T|apply Co]. }
  assert (W : forall t, Rabs (w t) <= Rabs (f t * q t) * / M). { intro t. unfold w. rewrite Rabs_mult. apply Rmult_le_compat_l; [apply Rabs_pos|apply Co]. }
  change (Rabs (w c - w a - v) <= (Rabs (f a * q a) + Rabs (f c * q c) + (c - a) * Rabs (u' m)) / (2 * INR N + 1)).
  apply Rle_trans with ((Rabs (f a * q a) + Rabs (f c * q c) + (c - a) * Rabs (u' m)) * / M).
  - unfold Rminus. eapply Rle_trans; [apply Rabs_triang|]. rewrite Rabs_Ropp. pose proof (Rabs_triang (w c) (- w a)) as Tr. rewrite Rabs_Ropp in Tr. pose proof (W a). pose proof (W c). lra.
  - unfold Rdiv. apply Rmult_le_compat_l; [|apply Rinv_le_contravar; lra]. pose proof (Rabs_pos (f a * q a)). pose proof (Rabs_pos (f c * q c)). nra.
Qed.

Lemma vanishes : is_lim_seq (fun N => RInt (fun t => f t * dk N t) 0 1) 0.
Proof.
  pose proof (Rabs_pos (f' 0)). pose proof (HL 0 ltac:(lra)) as L0. apply is_lim_seq_spec. intro eps. pose proof (cond_pos eps) as E.
  set (e := Rmin (/ 3) (pos eps / (4 * (L + 1)))). assert (E0 : 0 < e) by (apply Rmin_glb_lt; [lra|apply Rdiv_lt_0_compat; lra]). assert (E1 : e <= / 3) by apply Rmin_l.
  assert (E2 : e * L <= pos eps / 4). { apply Rle_trans with (pos eps / (4 * (L + 1)) * L); [apply Rmult_le_compat_r; [lra|apply Rmin_r]|]. apply Rmult_le_reg_r with (4 * (L + 1)); [lra|]. field_simplify; [nra|lra]. }
  destruct (middle e (1 - e) ltac:(lra) ltac:(lra)) as (K & K0 & HK).
  destruct (nfloor_ex (K / (pos eps / 4)) ltac:(apply Rdiv_le_0_compat; lra)) as (n0 & _ & N0). exists n0. intros N HN. apply le_INR in HN.
  assert (G : forall x y, ex_RInt (fun t => f t * dk N t) x y). { intros x y. apply (@ex_RInt_continuous R_CompleteNormedModule). intros t _. apply (continuous_mult f (dk N)); [apply f_continuous|apply dk_continuous]. }
  rewrite <- (RInt_Chasles _ 0 e 1 (G _ _) (G _ _)), <- (RInt_Chasles _ e (1 - e) 1 (G _ _) (G _ _)).
  assert (B0 : Rabs (RInt (fun t => f t * dk N t) 0 e) <= (e - 0) * L).
  { apply (norm_RInt_le_const (fun t => f t * dk N t) 0 e _ L ltac:(lra)); [|apply (@RInt_correct R_CompleteNormedModule), G]. intros t T. apply (near_0 N t). lra. }
  assert (B1 : Rabs (RInt (fun t => f t * dk N t) (1 - e) 1) <= (1 - (1 - e)) * L).
  { apply (norm_RInt_le_const (fun t => f t * dk N t) (1 - e) 1 _ L ltac:(lra)); [|apply (@RInt_correct R_CompleteNormedModule), G]. intros t T. apply (near_1 N t). lra. }
  pose proof (HK N) as B2.
  assert (B3 : K / (2 * INR N + 1) < pos eps / 4). { apply Rmult_lt_reg_r with (2 * INR N + 1); [pose proof (pos_INR N); lra|]. unfold Rdiv at 1. rewrite Rmult_assoc, Rinv_l, Rmult_1_r by (pose proof (pos_INR N); lra).
    assert (Q : K = K / (pos eps / 4) * (pos eps / 4)) by (field; lra). rewrite Q at 1. rewrite Rmult_comm. apply Rmult_lt_compat_l; [lra|]. pose proof (pos_INR N). lra. }
  change (Rabs (RInt (fun t => f t * dk N t) 0 e + (RInt (fun t => f t * dk N t) e (1 - e) + RInt (fun t => f t * dk N t) (1 - e) 1) - 0) < pos eps). rewrite Rminus_0_r.
  eapply Rle_lt_trans; [apply Rabs_triang|]. pose proof (Rabs_triang (RInt (fun t => f t * dk N t) e (1 - e)) (RInt (fun t => f t * dk N t) (1 - e) 1)). lra.
Qed.
End Small.

(** ** Euler's formula *)

Section Formula.
Variable b : nat -> R.
Hypothesis Hb : is_bernoulli b.
Variable k : nat.
Local Notation n := (2 * S k)%nat.
Local Notation P := (bp b n).

Fixpoint part (N : nat) : R := match N with O => 0 | S m => part m + / INR (S m) ^ n end.

Lemma part_integral N : is_RInt (fun t => (P t - P 0) * dk N t) 0 1 (- P 0 / 2 + (-1) ^ k / (2 * PI) ^ n * part N).
Proof.
  induction N as [|N IH].
  - pose proof (is_RInt_scal _ _ _ (/ 2) _ (is_RInt_minus _ _ _ _ _ _ (mean b Hb n ltac:(lia)) (is_RInt_const 0 1 (P 0)))) as Q. cbn [dk part].
    match type of Q with is_RInt _ _ _ ?v => replace v with (- P 0 / 2 + (-1) ^ k / (2 * PI) ^ n * 0) in Q end.
    + eapply is_RInt_ext; [|exact Q]. intros t _. change (/ 2 * (P t - P 0) = (P t - P 0) * / 2). ring.
    + change (- P 0 / 2 + (-1) ^ k / (2 * PI) ^ n * 0 = / 2 * (0 - (1 - 0) * P 0)). field. apply pow_nonzero. pose proof PI_RGT_0. lra.
  - pose proof (coefficient b Hb (S N) ltac:(lia) k) as C. pose proof (is_RInt_scal _ _ _ (P 0) _ (cos_zero (S N) ltac:(lia))) as Z. pose proof (is_RInt_plus _ _ _ _ _ _ IH (is_RInt_minus _ _ _ _ _ _ C Z)) as Q.
    eapply is_RInt_ext in Q; [|intros t _; instantiate (1 := fun t => (P t - P 0) * dk (S N) t); cbn [dk]; change ((P t - P 0) * dk N t + (P t * cos (om (S N) * t) - P 0 * cos (om (S N) * t)) = (P t - P 0) * (dk N t + cos (om (S N) * t))); ring].
    match type of Q with is_RInt _ _ _ ?v => replace v with (- P 0 / 2 + (-1) ^ k / (2 * PI) ^ n * part (S N)) in Q end; [exact Q|].
    cbn [part]. match goal with |- _ = ?r => change r with ((- P 0 / 2 + (-1) ^ k / (2 * PI) ^ n * part N) + ((-1) ^ k / om (S N) ^ n - P 0 * 0)) end. unfold om. rewrite (Rpow_mult_distr (2 * PI) (INR (S N))). set (W := (2 * PI) ^ n). set (Y := INR (S N) ^ n). assert (W <> 0) by (apply pow_nonzero; pose proof PI_RGT_0; lra).
    assert (Y <> 0) by (apply pow_nonzero, not_0_INR; lia). field. auto.
Qed.

Lemma part_limit : is_lim_seq part ((-1) ^ k * (2 * PI) ^ n * P 0 / 2).
Proof.
  assert (D : forall t, is_derive (fun t => P t - P 0) t (bp b (2 * k + 1) t)).
  { intro t. replace n with (S (2 * k + 1)) by lia. replace (bp b (2 * k + 1) t) with (minus (bp b (2 * k + 1) t) 0) by (apply Rminus_0_r). apply (is_derive_minus (bp b (S (2 * k + 1))) (fun _ => bp b (S (2 * k + 1)) 0)); [apply bp_derive|apply (@is_derive_const R_AbsRing R_NormedModule)]. }
  destruct (continuity_ab_maj (fun t => Rabs (bp b (2 * k + 1) t)) 0 1 ltac:(lra)) as (m & Hm & _).
  { intros t T. apply continuity_pt_filterlim. apply (continuous_comp (bp b (2 * k + 1)) Rabs); [apply (bp_continuous b Hb)|apply continuous_Rabs]. }
  pose proof (vanishes (fun t => P t - P 0) (bp b (2 * k + 1)) D (bp_continuous b Hb (2 * k + 1)) ltac:(cbv beta; ring) ltac:(cbv beta; rewrite (bp_1 b Hb) by lia; ring) (Rabs (bp b (2 * k + 1) m)) Hm) as V.
  assert (W : (2 * PI) ^ n <> 0) by (apply pow_nonzero; pose proof PI_RGT_0; lra).
  assert (U : (-1) ^ k * (-1) ^ k = 1) by (rewrite <- pow_add; replace (k + k)%nat with (2 * k)%nat by lia; apply pow_1_even).
  apply (is_lim_seq_ext (fun N => (-1) ^ k * (2 * PI) ^ n * (RInt (fun t => (P t - P 0) * dk N t) 0 1 + P 0 / 2))).
  - intro N. rewrite (is_RInt_unique _ _ _ _ (part_integral N)). transitivity ((-1) ^ k * (-1) ^ k * part N); [field; exact W|rewrite U; ring].
  - replace ((-1) ^ k * (2 * PI) ^ n * P 0 / 2) with ((-1) ^ k * (2 * PI) ^ n * (0 + P 0 / 2)) by (field).
    apply (is_lim_seq_scal_l _ ((-1) ^ k * (2 * PI) ^ n) (Finite (0 + P 0 / 2))). apply (is_lim_seq_plus' _ _ 0 (P 0 / 2)); [exact V|apply is_lim_seq_const].
Qed.

Lemma euler_formula : is_zeta (INR n) ((2 * PI) ^ n * Rabs (b n) / (2 * INR (fact n))).
Proof.
  assert (Sm : forall N, sum_n (fun i => Rpower (INR (S i)) (- INR n)) N = part (S N)).
  { assert (T : forall i, Rpower (INR (S i)) (- INR n) = / INR (S i) ^ n) by (intro i; rewrite Rpower_Ropp, Rpower_pow by (apply lt_0_INR; lia); reflexivity).
    induction N as [|N IH]; [rewrite sum_O, T; symmetry; apply Rplus_0_l|]. rewrite sum_Sn, IH, T. reflexivity. }
  pose proof part_limit as PL. set (l := (-1) ^ k * (2 * PI) ^ n * P 0 / 2) in *.
  assert (Lp : 0 <= l). { apply (is_lim_seq_le (fun _ => 0) part (Finite 0) (Finite l)); [|apply is_lim_seq_const|exact PL]. intro N. induction N as [|N IH]; [cbn; lra|]. cbn [part]. assert (0 < / INR (S N) ^ n) by (apply Rinv_0_lt_compat, pow_lt, lt_0_INR; lia). lra. }
  assert (E : l = (2 * PI) ^ n * Rabs (b n) / (2 * INR (fact n))).
  { pose proof (INR_fact_lt_0 n) as Fp. assert (W : 0 < (2 * PI) ^ n) by (apply pow_lt; pose proof PI_RGT_0; lra). rewrite <- (Rabs_pos_eq l Lp). unfold l. rewrite bp_0. unfold Rdiv. rewrite !Rabs_mult, pow_1_abs, (Rabs_pos_eq ((2 * PI) ^ n)) by lra.
    rewrite (Rabs_pos_eq (/ INR (fact n))) by (left; apply Rinv_0_lt_compat; exact Fp). rewrite (Rabs_pos_eq (/ 2)) by lra. field. lra. }
  rewrite <- E. unfold is_zeta, is_series. apply (is_lim_seq_ext (fun N => part (S N))) with (l := Finite l); [intro; symmetry; apply Sm|]. apply (is_lim_seq_incr_1 part). exact PL.
Qed.
End Formula.
