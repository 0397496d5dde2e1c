(** * The zeta function and products over primes (proofs only) *)

From Coq Require Import ZArith Znumtheory List Bool Arith Reals Lra Lia Sorted.
From Coquelicot Require Import Coquelicot.
From Verif Require Import SpecPrime SpecZeta.
Import ListNotations.
Open Scope R_scope.

(** ** Sums over multiples *)

Definition mult_only (p : nat) (f : nat -> R) (k : nat) : R := if (k mod p =? 0)%nat then f (k / p)%nat else 0.

Lemma div_succ p N : (0 < p)%nat -> ((S N) / p = N / p + (if (S N mod p =? 0) then 1 else 0))%nat.
Proof.
  intro P. pose proof (Nat.div_mod N p ltac:(lia)) as E. pose proof (Nat.mod_upper_bound N p ltac:(lia)) as B. destruct (Nat.eq_dec (S (N mod p)) p) as [C|C].
  - assert (D : (S N / p = N / p + 1)%nat) by (symmetry; apply (Nat.div_unique (S N) p (N / p + 1) 0); nia). assert (M : (S N mod p = 0)%nat) by (symmetry; apply (Nat.mod_unique (S N) p (N / p + 1) 0); nia). rewrite D, M. reflexivity.
  - assert (D : (S N / p = N / p)%nat) by (symmetry; apply (Nat.div_unique (S N) p (N / p) (S (N mod p))); nia). assert (M : (S N mod p = S (N mod p))%nat) by (symmetry; apply (Nat.mod_unique (S N) p (N / p) (S (N mod p))); nia). rewrite D, M. cbn. lia.
Qed.

Lemma sum_mult p f N : (0 < p)%nat -> sum_n (mult_only p f) N = sum_n f (N / p)%nat.
Proof.
  intro P. induction N as [|N IH].
  - rewrite Nat.div_0_l, !sum_O by lia. unfold mult_only. rewrite Nat.mod_0_l, Nat.div_0_l by lia. reflexivity.
  - rewrite sum_Sn, IH. pose proof (div_succ p N P) as D. unfold mult_only. destruct (S N mod p =? 0)%nat.
    + rewrite D. replace (N / p + 1)%nat with (S (N / p)) by lia. rewrite sum_Sn. reflexivity.
    + rewrite D, Nat.add_0_r. change (sum_n f (N / p) + 0 = sum_n f (N / p)). ring.
Qed.

Lemma series_mult p f S : (0 < p)%nat -> is_series f S -> is_series (mult_only p f) S.
Proof.
  intros P H. unfold is_series in *. apply filterlim_ext with (fun N => sum_n f (N / p)%nat); [intro N; symmetry; apply sum_mult; exact P|].
  apply (filterlim_comp _ _ _ (fun N => (N / p)%nat) (sum_n f) eventually eventually _); [|exact H].
  intros Q [N0 HN]. exists (N0 * p)%nat. intros n Hn. apply HN. apply Nat.div_le_lower_bound; nia.
Qed.

(** ** The terms that remain after sieving *)

Section Power.
Variable s : R.
Hypothesis Hs : 1 < s.

Definition term (k : nat) : R := if (k =? 0)%nat then 0 else Rpower (INR k) (- s).
Definition free (ps : list nat) (k : nat) : bool := forallb (fun p => negb (k mod p =? 0)%nat) ps.
Definition sieved (ps : list nat) (k : nat) : R := if free ps k then term k else 0.

Lemma term_nonneg k : 0 <= term k.
Proof. unfold term. destruct (k =? 0)%nat; [lra|]. unfold Rpower. left. apply exp_pos. Qed.

Lemma term_mult p j : (0 < p)%nat -> term (p * j) = Rpower (INR p) (- s) * term j.
Proof.
  intro P. unfold term. destruct j as [|j]; [rewrite Nat.mul_0_r; cbn; ring|]. replace (p * S j =? 0)%nat with false by (symmetry; apply Nat.eqb_neq; nia). replace (S j =? 0)%nat with false by reflexivity.
  rewrite mult_INR. rewrite <- Rpower_mult_distr; [reflexivity|apply lt_0_INR; lia|apply lt_0_INR; lia].
Qed.

Lemma sieve_step ps p S : (0 < p)%nat -> (forall q j, In q ps -> ((p * j) mod q =? 0)%nat = (j mod q =? 0)%nat) ->
  is_series (sieved ps) S -> is_series (sieved (p :: ps)) (S * (1 - Rpower (INR p) (- s))).
Proof.
  intros P C H. pose proof (series_mult p _ _ P (is_series_scal_l (Rpower (INR p) (- s)) _ _ H)) as M.
  pose proof (is_series_minus _ _ _ _ H M) as D. replace (S * (1 - Rpower (INR p) (- s))) with (plus S (opp (scal (Rpower (INR p) (- s)) S))) by (unfold plus, opp, scal; cbn; unfold mult; cbn; ring).
  eapply is_series_ext; [|exact D]. intro k. unfold mult_only, plus, opp. cbn. unfold sieved at 3. unfold free. cbn [forallb]. fold (free ps k).
  destruct (Nat.eqb_spec (k mod p) 0) as [E|E]; cbn [negb andb]; [|unfold sieved; ring].
  apply Nat.div_exact in E; [|lia]. unfold sieved.
  replace (free ps k) with (free ps (k / p)). 2:{ unfold free. clear - C E. induction ps as [|q ps IH]; [reflexivity|]. cbn [forallb]. rewrite IH by (intros; apply C; right; assumption). f_equal. f_equal. rewrite E at 2. symmetry. apply C. left. reflexivity. }
  assert (T : term k = Rpower (INR p) (- s) * term (k / p)) by (rewrite E at 1; apply term_mult; exact P). destruct (free ps (k / p)); unfold scal; cbn; unfold mult; cbn; rewrite ?T; ring.
Qed.

(** the product of 1 - p^-s over the list *)
Definition euler (ps : list nat) : R := fold_right (fun p acc => (1 - Rpower (INR p) (- s)) * acc) 1 ps.

Lemma sieve_all z ps : is_zeta s z -> NoDup ps -> (forall p, In p ps -> prime (Z.of_nat p)) -> is_series (sieved ps) (z * euler ps).
Proof.
  intros Hz. induction ps as [|p ps IH]; intros N Pr.
  - cbn [euler fold_right]. rewrite Rmult_1_r. unfold is_zeta in Hz. apply (is_series_ext (fun k => term k)); [reflexivity|]. apply is_series_decr_1.
    change (is_series (fun k => term (S k)) (z + - 0)). rewrite Ropp_0, Rplus_0_r. exact Hz.
  - inversion N as [|? ? N1 N2]; subst. cbn [euler fold_right]. replace (z * ((1 - Rpower (INR p) (- s)) * fold_right (fun p acc => (1 - Rpower (INR p) (- s)) * acc) 1 ps)) with (z * euler ps * (1 - Rpower (INR p) (- s))) by (unfold euler; ring).
    pose proof (Pr p (or_introl eq_refl)) as Pp. assert (P0 : (0 < p)%nat) by (destruct Pp; lia). apply sieve_step; [exact P0| |apply IH; [exact N2|intros; apply Pr; right; assumption]].
    intros q j I. pose proof (Pr q (or_intror I)) as Pq. assert (Q0 : (0 < q)%nat) by (destruct Pq; lia).
    apply eq_true_iff_eq. rewrite !Nat.eqb_eq. rewrite !Nat.mod_divide by lia. split; intro D.
    + destruct D as [c D]. assert (Dz : (Z.of_nat q | Z.of_nat p * Z.of_nat j)%Z) by (exists (Z.of_nat c); lia). destruct (prime_mult _ Pq _ _ Dz) as [D1|D1].
      * exfalso. apply (prime_div_prime _ _ Pq Pp) in D1. apply N1. replace p with q by lia. exact I.
      * destruct D1 as [e D1]. destruct (Nat.eq_dec j 0) as [->|]; [exists 0%nat; lia|]. exists (Z.to_nat e). apply Nat2Z.inj. rewrite Nat2Z.inj_mul, Z2Nat.id by nia. lia.
    + destruct D as [c D]. exists (p * c)%nat. lia.
Qed.

(** ** Tails *)

Definition pw (x : R) : R := Rpower x (1 - s).

Lemma pw_step k : (1 <= k)%nat -> (s - 1) * Rpower (INR (S k)) (- s) <= pw (INR k) - pw (INR (S k)).
Proof.
  intro K. assert (K0 : 1 <= INR k) by (change 1 with (INR 1); apply le_INR; exact K). rewrite S_INR. set (x := INR k) in *.
  destruct (MVT_gen pw x (x + 1) (fun c => (1 - s) * Rpower c (1 - s - 1))) as (c & C1 & C2).
  - intros c Hc. rewrite Rmin_left, Rmax_right in Hc by lra. apply is_derive_Reals. apply derivable_pt_lim_power. lra.
  - intros c Hc. rewrite Rmin_left, Rmax_right in Hc by lra. apply continuity_pt_filterlim. apply (ex_derive_continuous pw). exists ((1 - s) * Rpower c (1 - s - 1)). apply is_derive_Reals. apply derivable_pt_lim_power. lra.
  - rewrite Rmin_left, Rmax_right in C1 by lra. replace (1 - s - 1) with (- s) in C2 by ring. replace (x + 1 - x) with 1 in C2 by ring.
    assert (M : Rpower (x + 1) (- s) <= Rpower c (- s)). { rewrite !Rpower_Ropp. apply Rinv_le_contravar; [unfold Rpower; apply exp_pos|]. apply Rle_Rpower_l; [lra|]. split; lra. }
    nra.
Qed.

Lemma tail_sum P N : (1 <= P)%nat -> sum_n_m term (S P) (P + N) <= pw (INR P) / (s - 1) - pw (INR (P + N)) / (s - 1).
Proof.
  intro HP. induction N as [|N IH].
  - rewrite Nat.add_0_r, sum_n_m_zero by lia. change (0 <= pw (INR P) / (s - 1) - pw (INR P) / (s - 1)). lra.
  - rewrite Nat.add_succ_r, sum_n_Sm by lia. change (sum_n_m term (S P) (P + N) + term (S (P + N)) <= pw (INR P) / (s - 1) - pw (INR (S (P + N))) / (s - 1)).
    pose proof (pw_step (P + N) ltac:(lia)) as W. unfold term at 2. cbn [Nat.eqb]. assert (Rpower (INR (S (P + N))) (- s) <= (pw (INR (P + N)) - pw (INR (S (P + N)))) / (s - 1)) by (apply (Rmult_le_reg_l (s - 1)); [lra|]; replace ((s - 1) * ((pw (INR (P + N)) - pw (INR (S (P + N)))) / (s - 1))) with (pw (INR (P + N)) - pw (INR (S (P + N)))) by (field; lra); exact W).
    unfold Rdiv in *. rewrite Rmult_minus_distr_r in H. lra.
Qed.

Lemma pw_pos x : 0 < pw x. Proof. unfold pw, Rpower. apply exp_pos. Qed.

Lemma tail_bound P N : (1 <= P)%nat -> sum_n_m term (S P) (P + N) <= pw (INR P) / (s - 1).
Proof. intro H. pose proof (tail_sum P N H). pose proof (pw_pos (INR (P + N))). assert (0 <= pw (INR (P + N)) / (s - 1)) by (apply Rle_mult_inv_pos; lra). lra. Qed.

(** ** Sums of nonnegative terms between bounds *)
Lemma series_between f l a b M : is_series f l -> (forall n, (M <= n)%nat -> a <= sum_n f n <= b) -> a <= l <= b.
Proof.
  intros H B. assert (L : is_lim_seq (sum_n f) l) by exact H. split.
  - apply (is_lim_seq_le_loc (fun _ => a) (sum_n f) a l); [exists M; intros n Hn; apply B; exact Hn|apply is_lim_seq_const|exact L].
  - apply (is_lim_seq_le_loc (sum_n f) (fun _ => b) l b); [exists M; intros n Hn; apply B; exact Hn|exact L|apply is_lim_seq_const].
Qed.

Lemma term_1 : term 1 = 1.
Proof. unfold term. cbn [Nat.eqb INR]. unfold Rpower. rewrite ln_1, Rmult_0_r. apply exp_0. Qed.

(** there is a value *)
Lemma zeta_exists : exists z, is_zeta s z.
Proof.
  destruct (ex_finite_lim_seq_incr (sum_n (fun k => term (S k))) (1 + pw 1 / (s - 1))) as [z Hz].
  - intro n. rewrite sum_Sn. change (sum_n (fun k => term (S k)) n <= sum_n (fun k => term (S k)) n + term (S (S n))). pose proof (term_nonneg (S (S n))). lra.
  - intro n. unfold sum_n. rewrite (sum_n_m_S term 0 n). rewrite sum_Sn_m by lia. change (term 1 + sum_n_m term 2 (S n) <= 1 + pw 1 / (s - 1)). rewrite term_1. pose proof (tail_bound 1 n ltac:(lia)) as T. cbn [Nat.add INR] in T. change (pw 1) with (pw 1) in *. lra.
  - exists z. exact Hz.
Qed.

Lemma sieved_between ps P : (1 <= P)%nat -> (forall p, In p ps -> prime (Z.of_nat p)) -> (forall k, (2 <= k <= P)%nat -> free ps k = false) ->
  forall l, is_series (sieved ps) l -> 1 <= l <= 1 + pw (INR P) / (s - 1).
Proof.
  intros HP Pr F l H. apply (series_between _ _ _ _ P H). intros n Hn.
  assert (S0 : sieved ps 0 = 0) by (unfold sieved, term; cbn [Nat.eqb]; destruct (free ps 0); reflexivity).
  assert (S1 : sieved ps 1 = 1). { unfold sieved. replace (free ps 1) with true; [apply term_1|]. symmetry. apply forallb_forall. intros p I. destruct (Pr p I) as [P1 _]. rewrite Nat.mod_small by lia. reflexivity. }
  assert (E : sum_n (sieved ps) n = 1 + sum_n_m (sieved ps) (S P) n).
  { unfold sum_n. destruct (Nat.eq_dec n P) as [->|Nn].
    - rewrite (sum_n_m_zero (sieved ps) (S P) P) by lia. change (sum_n_m (sieved ps) 0 P = 1 + 0). rewrite Rplus_0_r.
      assert (G : forall Q, (1 <= Q <= P)%nat -> sum_n_m (sieved ps) 0 Q = 1).
      { induction Q as [|Q IH]; [lia|]. intro HQ. rewrite sum_n_Sm by lia. destruct Q as [|Q].
        - rewrite sum_n_n, S0, S1. change (0 + 1 = 1). ring.
        - rewrite IH by lia. unfold sieved. rewrite F by lia. change (1 + 0 = 1). ring. }
      apply G. lia.
    - rewrite (sum_n_m_Chasles _ 0 P n) by lia. change (sum_n_m (sieved ps) 0 P + sum_n_m (sieved ps) (S P) n = 1 + sum_n_m (sieved ps) (S P) n). f_equal.
      assert (G : forall Q, (1 <= Q <= P)%nat -> sum_n_m (sieved ps) 0 Q = 1).
      { induction Q as [|Q IH]; [lia|]. intro HQ. rewrite sum_n_Sm by lia. destruct Q as [|Q].
        - rewrite sum_n_n, S0, S1. change (0 + 1 = 1). ring.
        - rewrite IH by lia. unfold sieved. rewrite F by lia. change (1 + 0 = 1). ring. }
      apply G. lia. }
  change (1 <= sum_n (sieved ps) n <= 1 + pw (INR P) / (s - 1)). rewrite E. assert (B : forall k, 0 <= sieved ps k <= term k). { intro k. unfold sieved. pose proof (term_nonneg k). destruct (free ps k); lra. }
  assert (L1 : 0 <= sum_n_m (sieved ps) (S P) n). { replace 0 with (sum_n_m (fun _ => 0) (S P) n) by apply (sum_n_m_const_zero (G := R_AbelianGroup)). apply sum_n_m_le. intro k. apply B. }
  assert (L2 : sum_n_m (sieved ps) (S P) n <= sum_n_m term (S P) n). { apply sum_n_m_le. intro k. apply B. }
  pose proof (tail_bound P (n - P) HP) as T. replace (P + (n - P))%nat with n in T by lia. lra.
Qed.

(** the Euler product over all primes up to P *)
Lemma euler_product z ps P : is_zeta s z -> (1 <= P)%nat -> NoDup ps -> (forall p, In p ps -> prime (Z.of_nat p)) -> (forall p, prime (Z.of_nat p) -> (p <= P)%nat -> In p ps) ->
  1 <= z * euler ps <= 1 + pw (INR P) / (s - 1).
Proof.
  intros Hz HP N Pr A. apply (sieved_between ps P HP Pr); [|apply sieve_all; assumption]. intros k Hk.
  assert (K : exists q, prime (Z.of_nat q) /\ (q <= k)%nat /\ (k mod q = 0)%nat).
  { clear - Hk. assert (G : forall n k, (k <= n)%nat -> (2 <= k)%nat -> exists q, prime (Z.of_nat q) /\ (q <= k)%nat /\ (k mod q = 0)%nat).
    { induction n as [|n IH]; intros m Hm H2; [lia|]. destruct (prime_dec (Z.of_nat m)) as [Pm|Pm]; [exists m; split; [exact Pm|]; split; [lia|apply Nat.mod_same; lia]|].
      destruct (not_prime_divide (Z.of_nat m) ltac:(lia) Pm) as (d & D1 & D2). destruct (IH (Z.to_nat d) ltac:(lia) ltac:(lia)) as (q & Q1 & Q2 & Q3). exists q. split; [exact Q1|]. split; [lia|].
      assert (q0 : (q <> 0)%nat) by (destruct Q1; lia). apply Nat.mod_divide in Q3; [|exact q0]. apply Nat.mod_divide; [exact q0|]. destruct Q3 as [c Q3]. destruct D2 as [e D2]. exists (Z.to_nat e * c)%nat. apply Nat2Z.inj. rewrite !Nat2Z.inj_mul, Z2Nat.id by nia. rewrite <- Z.mul_assoc, <- Nat2Z.inj_mul, <- Q3, Z2Nat.id by lia. exact D2. }
    apply (G k k); lia. }
  destruct K as (q & Q1 & Q2 & Q3). apply not_true_is_false. intro C. apply forallb_forall with (x := q) in C; [|apply A; [exact Q1|lia]]. rewrite Q3 in C. discriminate C.
Qed.

Lemma euler_pos ps : (forall p, In p ps -> prime (Z.of_nat p)) -> 0 < euler ps.
Proof.
  induction ps as [|p ps IH]; intro Pr; cbn [euler fold_right]; [lra|]. apply Rmult_lt_0_compat; [|apply IH; intros; apply Pr; right; assumption].
  destruct (Pr p (or_introl eq_refl)) as [P1 _]. assert (1 < INR p) by (change 1 with (INR 1); apply lt_INR; lia).
  rewrite Rpower_Ropp. assert (1 < Rpower (INR p) s) by (rewrite <- (Rpower_O (INR p)) by lra; apply Rpower_lt; lra). assert (/ Rpower (INR p) s < 1) by (rewrite <- Rinv_1; apply Rinv_lt_contravar; lra). lra.
Qed.

End Power.
