(** * Enclosures of ln 2, e and pi by integer arithmetic (proofs only) *)

From Coq Require Import ZArith Reals Lra Lia Psatz Machin.
From Verif Require Import ExpReal.
Open Scope R_scope.

(** ** Partial sums of the series of atan and artanh *)

(* sigma is 1 for artanh, -1 for atan *)
Fixpoint psum (sigma x : R) (m : nat) : R :=
  match m with O => 0 | S k => psum sigma x k + sigma ^ k * (x ^ (2 * k + 1) / INR (2 * k + 1)) end.

Lemma psum_derive sigma m x : 1 - sigma * (x * x) <> 0 ->
  derivable_pt_lim (fun x => psum sigma x m) x ((1 - (sigma * (x * x)) ^ m) / (1 - sigma * (x * x))).
Proof.
  intro N. induction m as [|m IH].
  - cbn [psum pow]. replace ((1 - 1) / _) with 0 by (field; exact N). apply derivable_pt_lim_const.
  - cbn [psum]. replace ((1 - (sigma * (x * x)) ^ S m) / (1 - sigma * (x * x))) with
      ((1 - (sigma * (x * x)) ^ m) / (1 - sigma * (x * x)) + sigma ^ m * (INR (2 * m + 1) * x ^ pred (2 * m + 1) * / INR (2 * m + 1))).
    + apply derivable_pt_lim_plus; [exact IH|].
      change (fun x0 : R => sigma ^ m * (x0 ^ (2 * m + 1) / INR (2 * m + 1))) with (mult_real_fct (sigma ^ m) (fun x0 => x0 ^ (2 * m + 1) / INR (2 * m + 1))).
      apply derivable_pt_lim_scal.
      apply (derivable_pt_lim_ext (fun x0 => / INR (2 * m + 1) * x0 ^ (2 * m + 1))); [intro; unfold Rdiv; ring|].
      rewrite Rmult_comm. apply (derivable_pt_lim_scal (fun x0 => x0 ^ (2 * m + 1))). apply derivable_pt_lim_pow.
    + replace (pred (2 * m + 1)) with (2 * m)%nat by lia. rewrite pow_mult. cbn [pow]. rewrite Rmult_1_r, Rpow_mult_distr. field.
      split; [exact N|apply not_0_INR; lia].
Qed.

Lemma psum_error (A : R -> R) sigma m x : Rabs sigma = 1 -> A 0 = 0 ->
  (forall y, 0 <= y <= / 2 -> derivable_pt_lim A y (/ (1 - sigma * (y * y)))) ->
  0 < x <= / 2 -> Rabs (A x - psum sigma x m) <= 2 * x ^ (2 * m + 1).
Proof.
  intros Hs A0 HA Hx.
  assert (B : forall y, 0 <= y <= x -> Rabs (sigma * (y * y)) <= x * x /\ / 2 <= 1 - sigma * (y * y)).
  { intros y Hy. assert (C : Rabs (sigma * (y * y)) <= x * x). { rewrite Rabs_mult, Hs, Rabs_pos_eq by nra. nra. }
    split; [exact C|]. assert (x * x <= / 4) by nra. pose proof (Rle_abs (sigma * (y * y))). lra. }
  destruct (MVT_cor2 (fun y => A y - psum sigma y m) (fun y => / (1 - sigma * (y * y)) - (1 - (sigma * (y * y)) ^ m) / (1 - sigma * (y * y))) 0 x) as (c & E & Hc); [lra| |].
  - intros c Hc. destruct (B c Hc) as [_ Bc]. apply derivable_pt_lim_minus; [apply HA; lra|]. apply psum_derive. lra.
  - assert (P0 : psum sigma 0 m = 0). { clear - m. induction m as [|m IH]; [reflexivity|]. cbn [psum]. rewrite IH, pow_i by lia. unfold Rdiv. ring. }
    rewrite A0, P0, !Rminus_0_r in E. rewrite E. destruct (B c ltac:(lra)) as [B1 B2].
    set (q := sigma * (c * c)) in *. replace (/ (1 - q) - (1 - q ^ m) / (1 - q)) with (q ^ m * / (1 - q)) by (field; lra).
    rewrite !Rabs_mult, (Rabs_pos_eq x) by lra. rewrite pow_add, pow_mult. cbn [pow]. rewrite !Rmult_1_r.
    assert (Q : Rabs (q ^ m) <= (x * x) ^ m). { rewrite <- RPow_abs. apply pow_incr. split; [apply Rabs_pos|exact B1]. }
    assert (I : Rabs (/ (1 - q)) <= 2). { rewrite Rabs_pos_eq by (left; apply Rinv_0_lt_compat; lra). replace 2 with (/ / 2) by field. apply Rinv_le_contravar; lra. }
    apply Rle_trans with ((x * x) ^ m * 2 * x); [|right; ring]. apply Rmult_le_compat_r; [lra|]. apply Rmult_le_compat; try apply Rabs_pos; assumption.
Qed.

Lemma atan_derive y : derivable_pt_lim atan y (/ (1 - -1 * (y * y))).
Proof. replace (/ (1 - -1 * (y * y))) with (/ (1 + y ^ 2)) by (f_equal; ring). apply derivable_pt_lim_atan. Qed.

(** artanh y *)
Definition artanh (y : R) : R := / 2 * (ln (1 + y) - ln (1 - y)).

Lemma artanh_derive y : 0 <= y <= / 2 -> derivable_pt_lim artanh y (/ (1 - 1 * (y * y))).
Proof.
  intro H. unfold artanh. replace (/ (1 - 1 * (y * y))) with (/ 2 * (/ (1 + y) * (0 + 1) - / (1 - y) * (0 - 1))) by (field; split; [nra|lra]).
  apply (derivable_pt_lim_scal (fun y => ln (1 + y) - ln (1 - y))). apply derivable_pt_lim_minus.
  - apply (derivable_pt_lim_comp (fun y => 1 + y) ln).
    + apply derivable_pt_lim_plus; [apply derivable_pt_lim_const|apply derivable_pt_lim_id].
    + apply derivable_pt_lim_ln. lra.
  - apply (derivable_pt_lim_comp (fun y => 1 - y) ln).
    + apply derivable_pt_lim_minus; [apply derivable_pt_lim_const|apply derivable_pt_lim_id].
    + apply derivable_pt_lim_ln. lra.
Qed.

Lemma artanh_0 : artanh 0 = 0.
Proof. unfold artanh. rewrite Rplus_0_r, Rminus_0_r. ring. Qed.

Lemma artanh_inv n : 1 < n -> artanh (/ n) = / 2 * (ln (n + 1) - ln (n - 1)).
Proof.
  intro H. unfold artanh. f_equal. replace (1 + / n) with ((n + 1) * / n) by (field; lra). replace (1 - / n) with ((n - 1) * / n) by (field; lra).
  assert (0 < / n) by (apply Rinv_0_lt_compat; lra). rewrite !ln_mult by lra. ring.
Qed.

(** ** The same sums with integers *)

Fixpoint zsum (m : nat) (n2 : Z) (alt sub : bool) (k t acc : Z) : Z :=
  match m with
  | O => acc
  | S m' => zsum m' n2 alt (xorb sub alt) (k + 2) (t / n2) (if sub then acc - t / k else acc + t / k)
  end.

Lemma div_floor a b : (0 < b)%Z -> IZR a / IZR b - 1 < IZR (a / b) <= IZR a / IZR b.
Proof.
  intro H. assert (Pb : 0 < IZR b) by (apply IZR_lt; exact H). pose proof (Z.div_mod a b ltac:(lia)) as E. pose proof (Z.mod_pos_bound a b H) as M.
  assert (E' : IZR a = IZR b * IZR (a / b) + IZR (a mod b)) by (rewrite <- mult_IZR, <- plus_IZR; f_equal; exact E).
  assert (0 <= IZR (a mod b) < IZR b) by (split; [apply IZR_le|apply IZR_lt]; lia).
  split.
  - apply Rmult_lt_reg_r with (IZR b); [exact Pb|]. replace ((IZR a / IZR b - 1) * IZR b) with (IZR a - IZR b) by (field; lra). lra.
  - apply Rmult_le_reg_r with (IZR b); [exact Pb|]. replace (IZR a / IZR b * IZR b) with (IZR a) by (field; lra). lra.
Qed.

Lemma zsum_step n (alt : bool) m : (2 <= n)%Z -> forall S0 j (sub : bool) t acc,
  0 <= S0 / IZR n ^ (2 * j + 1) - IZR t <= 2 ->
  sub = (if alt then Nat.odd j else false) ->
  Rabs (IZR acc - S0 * psum (if alt then -1 else 1) (/ IZR n) j) <= 3 * INR j ->
  Rabs (IZR (zsum m (n * n) alt sub (2 * Z.of_nat j + 1) t acc) - S0 * psum (if alt then -1 else 1) (/ IZR n) (j + m)) <= 3 * INR (j + m).
Proof.
  intro Hn. assert (Pn : 2 <= IZR n) by (apply IZR_le; exact Hn).
  induction m as [|m IH]; intros S0 j sub t acc Ht Hs Ha.
  - cbn [zsum]. rewrite Nat.add_0_r. exact Ha.
  - cbn [zsum]. replace (j + S m)%nat with (S j + m)%nat by lia.
    replace (2 * Z.of_nat j + 1 + 2)%Z with (2 * Z.of_nat (S j) + 1)%Z by lia.
    pose proof (div_floor t (n * n) ltac:(nia)) as D1. pose proof (div_floor t (2 * Z.of_nat j + 1) ltac:(lia)) as D2.
    assert (P2 : IZR n ^ (2 * S j + 1) = IZR n ^ (2 * j + 1) * (IZR n * IZR n)) by (replace (2 * S j + 1)%nat with (2 * j + 1 + 2)%nat by lia; rewrite pow_add; cbn [pow]; ring).
    assert (Pp : 0 < IZR n ^ (2 * j + 1)) by (apply pow_lt; lra).
    apply IH.
    + rewrite mult_IZR in D1. rewrite P2. set (w := S0 / IZR n ^ (2 * j + 1)) in *.
      replace (S0 / (IZR n ^ (2 * j + 1) * (IZR n * IZR n))) with (w / (IZR n * IZR n)) by (unfold w; field; split; lra).
      assert (Q : 0 < / (IZR n * IZR n) <= / 4) by (split; [apply Rinv_0_lt_compat; nra|apply Rinv_le_contravar; nra]).
      unfold Rdiv in *. set (i := / (IZR n * IZR n)) in *.
      assert (W : 0 <= (w - IZR t) * i <= 2 * / 4) by (split; [apply Rmult_le_pos; lra|apply Rmult_le_compat; lra]). lra.
    + subst sub. destruct alt; [|reflexivity]. rewrite Nat.odd_succ. rewrite <- Nat.negb_odd. destruct (Nat.odd j); reflexivity.
    + rewrite S_INR. cbn [psum].
      assert (Ik : IZR (2 * Z.of_nat j + 1) = INR (2 * j + 1)) by (rewrite INR_IZR_INZ; f_equal; lia). rewrite Ik in D2.
      assert (K1 : 1 <= INR (2 * j + 1)) by (replace 1 with (INR 1) by reflexivity; apply le_INR; lia).
      set (k := INR (2 * j + 1)) in *. set (w := S0 / IZR n ^ (2 * j + 1)) in *.
      assert (T : Rabs (w / k - IZR (t / (2 * Z.of_nat j + 1))) <= 3).
      { assert (Q : 0 < / k <= 1) by (split; [apply Rinv_0_lt_compat; lra|rewrite <- Rinv_1; apply Rinv_le_contravar; lra]).
        unfold Rdiv in *. assert (W : 0 <= (w - IZR t) * / k <= 2 * 1) by (split; [apply Rmult_le_pos; lra|apply Rmult_le_compat; lra]).
        apply Rabs_le. lra. }
      assert (X : S0 * ((/ IZR n) ^ (2 * j + 1) / k) = w / k) by (unfold w; rewrite pow_inv; field; split; lra).
      rewrite Rmult_plus_distr_l.
      assert (Y : S0 * ((if alt then -1 else 1) ^ j * ((/ IZR n) ^ (2 * j + 1) / k)) = (if sub then - (w / k) else w / k)).
      { rewrite <- X. subst sub. destruct alt.
        - destruct (Nat.odd j) eqn:O.
          + apply Nat.odd_spec in O. destruct O as [o ->]. rewrite pow_add, pow_1, pow_mult. replace ((-1) ^ 2) with 1 by (cbn [pow]; ring). rewrite pow1. ring.
          + assert (O' : Nat.even j = true) by (rewrite <- Nat.negb_odd, O; reflexivity). apply Nat.even_spec in O'. destruct O' as [o ->].
            rewrite (pow_mult (-1)). replace ((-1) ^ 2) with 1 by (cbn [pow]; ring). rewrite pow1. ring.
        - rewrite pow1. ring. }
      rewrite Y. clear Y X. set (tk := (t / (2 * Z.of_nat j + 1))%Z) in *. set (P := S0 * psum _ _ j) in *.
      destruct sub.
      * rewrite minus_IZR. replace (IZR acc - IZR tk - (P + - (w / k))) with ((IZR acc - P) + (w / k - IZR tk)) by ring. eapply Rle_trans; [apply Rabs_triang|]. lra.
      * rewrite plus_IZR. replace (IZR acc + IZR tk - (P + w / k)) with ((IZR acc - P) + - (w / k - IZR tk)) by ring. eapply Rle_trans; [apply Rabs_triang|]. rewrite Rabs_Ropp. lra.
Qed.

(** [inverse_series S0 n alt m] is S0 times artanh (1/n), or atan (1/n) when
    alt is true, to within 3 m + 2. *)
Definition inverse_series (S0 n : Z) (alt : bool) (m : nat) : Z := zsum m (n * n) alt false 1 (S0 / n) 0.

Lemma inverse_series_ok S0 n (alt : bool) m : (2 <= n)%Z -> (0 <= S0 <= n ^ (2 * Z.of_nat m + 1))%Z ->
  Rabs (IZR (inverse_series S0 n alt m) - IZR S0 * (if alt then atan (/ IZR n) else artanh (/ IZR n))) <= 3 * INR m + 2.
Proof.
  intros Hn HS. assert (Pn : 2 <= IZR n) by (apply IZR_le; exact Hn).
  pose proof (div_floor S0 n ltac:(lia)) as D.
  assert (Z1 : Rabs (IZR (inverse_series S0 n alt m) - IZR S0 * psum (if alt then -1 else 1) (/ IZR n) (0 + m)) <= 3 * INR (0 + m)).
  { apply (zsum_step n alt m Hn (IZR S0) 0 false (S0 / n) 0).
    - cbn [Nat.mul Nat.add]. rewrite pow_1. lra.
    - destruct alt; reflexivity.
    - cbn [psum INR]. replace (0 - IZR S0 * 0) with 0 by ring. rewrite Rabs_R0. lra. }
  cbn [Nat.add] in Z1.
  assert (Iv : 0 < / IZR n <= / 2) by (split; [apply Rinv_0_lt_compat; lra|apply Rinv_le_contravar; lra]).
  assert (Z2 : Rabs ((if alt then atan (/ IZR n) else artanh (/ IZR n)) - psum (if alt then -1 else 1) (/ IZR n) m) <= 2 * (/ IZR n) ^ (2 * m + 1)).
  { destruct alt.
    - apply psum_error; [rewrite Rabs_left; lra|apply atan_0|intros; apply atan_derive|exact Iv].
    - apply psum_error; [apply Rabs_R1|apply artanh_0|intros; apply artanh_derive; assumption|exact Iv]. }
  assert (Q : IZR S0 * (/ IZR n) ^ (2 * m + 1) <= 1).
  { rewrite pow_inv. assert (Pp : 0 < IZR n ^ (2 * m + 1)) by (apply pow_lt; lra). apply Rmult_le_reg_r with (IZR n ^ (2 * m + 1)); [exact Pp|].
    rewrite Rmult_assoc, Rinv_l, Rmult_1_l, Rmult_1_r by lra. rewrite pow_IZR. apply IZR_le.
    replace (Z.of_nat (2 * m + 1)) with (2 * Z.of_nat m + 1)%Z by lia. lia. }
  assert (P0 : 0 <= IZR S0) by (apply IZR_le; lia).
  set (A := if alt then atan (/ IZR n) else artanh (/ IZR n)) in *. set (P := psum _ _ m) in *. set (z := IZR (inverse_series S0 n alt m)) in *.
  replace (z - IZR S0 * A) with ((z - IZR S0 * P) + - (IZR S0 * (A - P))) by ring. eapply Rle_trans; [apply Rabs_triang|].
  rewrite Rabs_Ropp, (Rabs_mult (IZR S0)), (Rabs_pos_eq (IZR S0)) by exact P0. nra.
Qed.

(** ** ln 2, pi and e *)

Lemma ln2_artanh : ln 2 = 18 * artanh (/ 26) - 2 * artanh (/ 4801) + 8 * artanh (/ 8749).
Proof.
  rewrite !artanh_inv by lra.
  assert (E : 9 * ln 27 - 9 * ln 25 - (ln 4802 - ln 4800) + 4 * (ln 8750 - ln 8748) = ln 2).
  { replace 27 with (3 * 3 * 3) by ring. replace 25 with (5 * 5) by ring. replace 4802 with (2 * (7 * 7 * 7 * 7)) by ring.
    replace 4800 with (2 * 2 * 2 * 2 * 2 * 2 * 3 * 5 * 5) by ring. replace 8750 with (2 * 5 * 5 * 5 * 5 * 7) by ring.
    replace 8748 with (2 * 2 * 3 * 3 * 3 * 3 * 3 * 3 * 3) by ring. rewrite !ln_mult by lra. ring. }
  rewrite <- E. replace (26 + 1) with 27 by ring. replace (26 - 1) with 25 by ring. replace (4801 + 1) with 4802 by ring. replace (4801 - 1) with 4800 by ring.
  replace (8749 + 1) with 8750 by ring. replace (8749 - 1) with 8748 by ring. field.
Qed.

Definition ln2_int (S0 : Z) (a b c : nat) : Z :=
  18 * inverse_series S0 26 false a - 2 * inverse_series S0 4801 false b + 8 * inverse_series S0 8749 false c.

Lemma ln2_int_ok S0 a b c : (0 <= S0)%Z -> (S0 <= 26 ^ (2 * Z.of_nat a + 1))%Z -> (S0 <= 4801 ^ (2 * Z.of_nat b + 1))%Z -> (S0 <= 8749 ^ (2 * Z.of_nat c + 1))%Z ->
  Rabs (IZR (ln2_int S0 a b c) - IZR S0 * ln 2) <= 18 * (3 * INR a + 2) + 2 * (3 * INR b + 2) + 8 * (3 * INR c + 2).
Proof.
  intros H0 Ha Hb Hc. unfold ln2_int. rewrite plus_IZR, minus_IZR, !mult_IZR, ln2_artanh.
  pose proof (inverse_series_ok S0 26 false a ltac:(lia) ltac:(lia)) as A. pose proof (inverse_series_ok S0 4801 false b ltac:(lia) ltac:(lia)) as B.
  pose proof (inverse_series_ok S0 8749 false c ltac:(lia) ltac:(lia)) as C. cbv iota in A, B, C.
  set (x := IZR (inverse_series S0 26 false a)) in *. set (y := IZR (inverse_series S0 4801 false b)) in *. set (z := IZR (inverse_series S0 8749 false c)) in *.
  revert A B C. generalize (artanh (/ 26)) (artanh (/ 4801)) (artanh (/ 8749)). intros p q r A B C.
  replace (18 * x - 2 * y + 8 * z - IZR S0 * (18 * p - 2 * q + 8 * r)) with (18 * (x - IZR S0 * p) + (- (2 * (y - IZR S0 * q)) + 8 * (z - IZR S0 * r))) by ring.
  eapply Rle_trans; [apply Rabs_triang|]. eapply Rle_trans; [apply Rplus_le_compat_l, Rabs_triang|]. rewrite Rabs_Ropp, !Rabs_mult.
  rewrite (Rabs_pos_eq 18), (Rabs_pos_eq 2), (Rabs_pos_eq 8) by lra. lra.
Qed.

Definition pi_int (S0 : Z) (a b : nat) : Z := 16 * inverse_series S0 5 true a - 4 * inverse_series S0 239 true b.

Lemma pi_int_ok S0 a b : (0 <= S0)%Z -> (S0 <= 5 ^ (2 * Z.of_nat a + 1))%Z -> (S0 <= 239 ^ (2 * Z.of_nat b + 1))%Z ->
  Rabs (IZR (pi_int S0 a b) - IZR S0 * PI) <= 16 * (3 * INR a + 2) + 4 * (3 * INR b + 2).
Proof.
  intros H0 Ha Hb. unfold pi_int. rewrite minus_IZR, !mult_IZR. replace PI with (4 * (PI / 4)) by field. rewrite Machin_4_5_239.
  pose proof (inverse_series_ok S0 5 true a ltac:(lia) ltac:(lia)) as A. pose proof (inverse_series_ok S0 239 true b ltac:(lia) ltac:(lia)) as B. cbv iota in A, B.
  set (x := IZR (inverse_series S0 5 true a)) in *. set (y := IZR (inverse_series S0 239 true b)) in *.
  revert A B. generalize (atan (/ 5)) (atan (/ 239)). intros p q A B.
  replace (16 * x - 4 * y - IZR S0 * (4 * (4 * p - q))) with (16 * (x - IZR S0 * p) + - (4 * (y - IZR S0 * q))) by ring.
  eapply Rle_trans; [apply Rabs_triang|]. rewrite Rabs_Ropp, !Rabs_mult, (Rabs_pos_eq 16), (Rabs_pos_eq 4) by lra. lra.
Qed.

Fixpoint esum (m : nat) (k t acc : Z) : Z * Z :=
  match m with O => (t, acc) | S m' => esum m' (k + 1) (t / k) (acc + t) end.

Lemma esum_step m : forall S0 j t acc, (1 <= j)%Z ->
  Rabs (S0 * exp_term 1 (j - 1) - IZR t) <= 2 ->
  Rabs (IZR acc - S0 * (exp_part 1 j - exp_term 1 (j - 1))) <= 2 * IZR j ->
  let '(t', acc') := esum m j t acc in
  Rabs (S0 * exp_term 1 (j + Z.of_nat m - 1) - IZR t') <= 2 /\
  Rabs (IZR acc' - S0 * (exp_part 1 (j + Z.of_nat m) - exp_term 1 (j + Z.of_nat m - 1))) <= 2 * IZR (j + Z.of_nat m).
Proof.
  induction m as [|m IH]; intros S0 j t acc Hj Ht Ha.
  - cbn [esum]. rewrite Z.add_0_r. split; assumption.
  - cbn [esum]. replace (j + Z.of_nat (S m))%Z with (j + 1 + Z.of_nat m)%Z by lia. apply IH; [lia| |].
    + replace (j + 1 - 1)%Z with j by ring. rewrite (exp_term_step 1 j) by lia. pose proof (div_floor t j ltac:(lia)) as D.
      assert (1 <= IZR j) by (apply IZR_le; exact Hj). assert (Q : 0 < / IZR j <= 1) by (split; [apply Rinv_0_lt_compat; lra|rewrite <- Rinv_1; apply Rinv_le_contravar; lra]).
      destruct (Z.eq_dec j 1) as [->|N].
      * rewrite Z.div_1_r. replace (S0 * (exp_term 1 (1 - 1) * 1 / 1)) with (S0 * exp_term 1 (1 - 1)) by field. exact Ht.
      * assert (2 <= IZR j) by (apply IZR_le; lia). assert (Q2 : / IZR j <= / 2) by (apply Rinv_le_contravar; lra).
        unfold Rdiv in *. set (i := / IZR j) in *. set (w := S0 * exp_term 1 (j - 1)) in *.
        replace (S0 * (exp_term 1 (j - 1) * 1 * i)) with (w * i) by (unfold w; ring).
        assert (W : - (2) * / 2 <= (w - IZR t) * i <= 2 * / 2).
        { assert (Hb : Rabs ((w - IZR t) * i) <= 2 * / 2) by (rewrite Rabs_mult, (Rabs_pos_eq i) by lra; apply Rmult_le_compat; try lra; apply Rabs_pos).
          revert Hb. unfold Rabs. destruct (Rcase_abs _); lra. }
        apply Rabs_le. lra.
    + replace (j + 1 - 1)%Z with j by ring. rewrite exp_part_step by lia. rewrite plus_IZR, (plus_IZR j 1).
      replace (IZR acc + IZR t - S0 * (exp_part 1 j + exp_term 1 j - exp_term 1 j)) with
        ((IZR acc - S0 * (exp_part 1 j - exp_term 1 (j - 1))) + - (S0 * exp_term 1 (j - 1) - IZR t)) by ring.
      eapply Rle_trans; [apply Rabs_triang|]. rewrite Rabs_Ropp. lra.
Qed.

(** S0 times the sum of 1/k! for k < m, to within 2 m + 2 plus twice the first
    omitted term, which is the first component *)
Definition e_int (S0 : Z) (m : nat) : Z * Z := esum m 1 S0 0.

Lemma e_int_ok S0 m : (0 <= S0)%Z -> (1 <= m)%nat -> let '(t, z) := e_int S0 m in
  Rabs (IZR z - IZR S0 * exp 1) <= 2 * (INR m + 1) + 2 * (Rabs (IZR t) + 2).
Proof.
  intros H0 Hm. unfold e_int. pose proof (esum_step m (IZR S0) 1 S0 0 ltac:(lia)) as E. destruct (esum m 1 S0 0) as [t z].
  destruct E as [E1 E2].
  - change (1 - 1)%Z with 0%Z. unfold exp_term. cbn [Z.to_nat fact pow INR]. replace (IZR S0 * (/ 1 * 1) - IZR S0) with 0 by field. rewrite Rabs_R0. lra.
  - change (1 - 1)%Z with 0%Z. rewrite exp_part_1. unfold exp_term. cbn [Z.to_nat fact pow INR]. replace (0 - IZR S0 * (1 - / 1 * 1)) with 0 by field. rewrite Rabs_R0. lra.
  - replace (1 + Z.of_nat m - 1)%Z with (Z.of_nat m) in * by ring.
    replace (exp_part 1 (1 + Z.of_nat m)) with (exp_part 1 (Z.of_nat m) + exp_term 1 (Z.of_nat m)) in E2 by (rewrite Z.add_comm, exp_part_step by lia; reflexivity).
    replace (exp_part 1 (Z.of_nat m) + exp_term 1 (Z.of_nat m) - exp_term 1 (Z.of_nat m)) with (exp_part 1 (Z.of_nat m)) in E2 by ring.
    pose proof (exp_remainder 1 (Z.of_nat m) ltac:(lia) ltac:(rewrite Rabs_R1; lra)) as R.
    rewrite plus_IZR, <- INR_IZR_INZ in E2. assert (P0 : 0 <= IZR S0) by (apply IZR_le; exact H0).
    set (s := IZR S0) in *. set (T := exp_term 1 (Z.of_nat m)) in *. set (P := exp_part 1 (Z.of_nat m)) in *.
    replace (IZR z - s * exp 1) with ((IZR z - s * P) + - (s * (exp 1 - P))) by ring. eapply Rle_trans; [apply Rabs_triang|].
    rewrite Rabs_Ropp, (Rabs_mult s), (Rabs_pos_eq s) by exact P0.
    assert (X : s * Rabs T <= Rabs (IZR t) + 2).
    { replace (s * Rabs T) with (Rabs (s * T)) by (rewrite Rabs_mult, (Rabs_pos_eq s) by exact P0; reflexivity).
      replace (s * T) with ((s * T - IZR t) + IZR t) by ring. eapply Rle_trans; [apply Rabs_triang|]. lra. }
    assert (s * Rabs (exp 1 - P) <= s * (2 * Rabs T)) by (apply Rmult_le_compat_l; assumption). lra.
Qed.
