(** * The zeta function: the product of primes and the reflection (proofs only) *)

From Coq Require Import ZArith Znumtheory List Bool Arith Reals Lra Lia Sorted.
From Flocq Require Import BinarySingleNaN.
From Coquelicot Require Import Coquelicot.
From Verif Require Import Model ModelPow ModelPrime SpecPrime SpecZeta SpecJPow ModelJPow JPowProofs EulerProduct Spec Value ModelZeta.
Import ListNotations.
Open Scope R_scope.

Local Notation r_exp := (fun x => Some (Rtrigo_def.exp x)).
Local Notation r_log := (fun n => Some (ln (IZR n))).

Section Product.
Variable integer_of : R -> option Z.
Variable factors_of : Z -> option (list (Z * Z)).
Variables (order : R -> Z) (tol : Z).
Local Notation jpow := (j_pow_x 1 Rmult (fun x => x * x) IZR r_pown r_exp Rmult r_log integer_of factors_of).
Local Notation loop := (product_loop 1 Rmult Rdiv Rminus order tol (fun x => x * x) IZR r_pown r_exp Rmult r_log integer_of factors_of).

Variable s : R.
Hypothesis Hs : 1 < s.
Hypothesis Hfresh : forall j, (1 <= j < 4294967296)%Z -> j_pow_x_fresh 1 Rmult (fun x => x * x) IZR r_pown r_exp Rmult r_log integer_of factors_of j s = Some (Rpower (IZR j) s).

Lemma jpow_value j lm pm : (1 <= j < 4294967296)%Z -> lm_ok r_log lm -> pm_ok IZR r_pown r_exp Rmult r_log integer_of s pm ->
  exists lm' pm', jpow j s lm pm = Some (Rpower (IZR j) s, lm', pm') /\ lm_ok r_log lm' /\ pm_ok IZR r_pown r_exp Rmult r_log integer_of s pm'.
Proof.
  intros J L P. pose proof (Hfresh j J) as F. rewrite fresh_plain in F. pose proof (j_pow_x_ok 1 Rmult (fun x => x * x) IZR r_pown r_exp Rmult r_log integer_of factors_of s j lm pm L P) as H. rewrite F in H. exact H.
Qed.

(* what a part of the list contributes *)
Definition eul (ps : list Z) : R := euler s (map Z.to_nat ps).

Lemma factor_value p : (2 <= p)%Z -> Rpower (IZR p) s / (Rpower (IZR p) s - 1) = / (1 - Rpower (INR (Z.to_nat p)) (- s)).
Proof.
  intro P. rewrite INR_IZR_INZ, Z2Nat.id by lia. assert (1 < IZR p) by (apply IZR_lt; lia). assert (1 < Rpower (IZR p) s) by (rewrite <- (Rpower_O (IZR p)) by lra; apply Rpower_lt; lra).
  rewrite Rpower_Ropp. field. lra.
Qed.

Lemma loop_value ps : forall product lm pm, lm_ok r_log lm -> pm_ok IZR r_pown r_exp Rmult r_log integer_of s pm -> (forall p, In p ps -> prime p /\ (p < 4294967296)%Z) -> ps <> [] ->
  exists lm' pre p, loop s ps product lm pm = Some (product * / eul (pre ++ [p]), lm') /\ lm_ok r_log lm' /\ (exists post, ps = pre ++ p :: post /\ (post = [] \/ (tol < order (Rpower (IZR p) s))%Z)).
Proof.
  induction ps as [|p ps IH]; intros product lm pm L P Pr N; [contradiction|]. destruct (Pr p (or_introl eq_refl)) as [Pp Lp]. assert (2 <= p)%Z by (destruct Pp; lia).
  cbn [product_loop]. destruct (jpow_value p lm pm ltac:(lia) L P) as (lm' & pm' & E & L' & P'). rewrite E. cbn [obnd]. clear E. rewrite (factor_value p) by assumption.
  destruct (Z.gtb_spec (order (Rpower (IZR p) s)) tol) as [B|B].
  - exists lm', [], p. cbn [app]. split; [|split; [exact L'|exists ps; split; [reflexivity|right; lia]]]. unfold eul. cbn [map euler fold_right]. rewrite Rmult_1_r. reflexivity.
  - destruct ps as [|q ps].
    + exists lm', [], p. cbn [product_loop app]. split; [|split; [exact L'|exists []; split; [reflexivity|left; reflexivity]]]. unfold eul. cbn [map euler fold_right]. rewrite Rmult_1_r. reflexivity.
    + destruct (IH (product * / (1 - Rpower (INR (Z.to_nat p)) (- s))) lm' pm' L' P' (fun r I => Pr r (or_intror I)) ltac:(discriminate)) as (lm'' & pre & r & E & L'' & (post & E2 & E3)).
      exists lm'', (p :: pre), r. rewrite E. split; [|split; [exact L''|exists post; split; [rewrite E2; reflexivity|exact E3]]].
      assert (Q : eul ((p :: pre) ++ [r]) = (1 - Rpower (INR (Z.to_nat p)) (- s)) * eul (pre ++ [r])) by reflexivity. rewrite Q, Rinv_mult, Rmult_assoc. reflexivity.
Qed.

Lemma product_accuracy ps lm z : lm_ok r_log lm -> first_primes ps -> ps <> [] -> (forall p, In p ps -> (p < 4294967296)%Z) -> is_zeta s z ->
  (forall v, 1 <= v -> powerRZ 10 (order v) <= v) -> powerRZ 10 tol <= Rpower (IZR (last ps 0%Z)) s ->
  exists r lm', loop s ps 1 lm [] = Some (r, lm') /\ lm_ok r_log lm' /\ 0 <= z - r <= IZR (last ps 0%Z) * powerRZ 10 (- tol) / (s - 1) * z.
Proof.
  intros L (FS & FP & FA) N B Hz Ho Hl. destruct (loop_value ps 1 lm [] L (nil_pm IZR r_pown r_exp Rmult r_log integer_of s) (fun p I => conj (FP p I) (B p I)) N) as (lm' & pre & p & E & L' & (post & E2 & E3)).
  rewrite Rmult_1_l in E. exists (/ eul (pre ++ [p])), lm'. split; [exact E|]. split; [exact L'|].
  assert (Ip : In p ps) by (rewrite E2; apply in_or_app; right; left; reflexivity). pose proof (FP p Ip) as Pp. assert (P2 : (2 <= p)%Z) by (destruct Pp; lia).
  assert (Sub : forall q, In q (pre ++ [p]) -> In q ps). { intros q I. rewrite E2. apply in_app_or in I. apply in_or_app. destruct I as [I|[I|[]]]; [left; exact I|right; left; exact I]. }
  assert (Srt : forall a q b, ps = a ++ q :: b -> (forall x, In x a -> (x < q)%Z) /\ (forall x, In x b -> (q < x)%Z)).
  { clear - FS. intros a. revert ps FS. induction a as [|x a IH]; intros ps FS q b ->.
    - cbn [app] in FS. inversion FS as [|? ? F1 F2]; subst. split; [intros x []|]. intros x I. rewrite Forall_forall in F2. apply F2. exact I.
    - cbn [app] in FS. inversion FS as [|? ? F1 F2]; subst. destruct (IH _ F1 q b eq_refl) as [I1 I2]. split; [|exact I2]. intros y [<-|I]; [|apply I1; exact I]. rewrite Forall_forall in F2. apply F2. apply in_or_app. right. left. reflexivity. }
  destruct (Srt _ _ _ E2) as [S1 S2].
  assert (ND : NoDup (map Z.to_nat (pre ++ [p]))).
  { assert (NDp : NoDup ps). { clear - FS. induction FS as [|x l F IH G]; constructor; [|exact IH]. intro I. rewrite Forall_forall in G. specialize (G x I). lia. }
    assert (NDq : NoDup (pre ++ [p])). { rewrite E2 in NDp. change (p :: post) with ([p] ++ post) in NDp. rewrite app_assoc in NDp. clear - NDp. induction (pre ++ [p]) as [|x l IH]; [constructor|]. cbn [app] in NDp. inversion NDp as [|? ? N1 N2]; subst. constructor; [intro I; apply N1; apply in_or_app; left; exact I|apply IH; exact N2]. }
    assert (NN : forall q, In q (pre ++ [p]) -> (0 <= q)%Z) by (intros q I; destruct (FP q (Sub q I)); lia). revert NDq NN. generalize (pre ++ [p]). induction l as [|x l IH]; intros ND NN; cbn [map]; [constructor|].
    inversion ND as [|? ? N1 N2]; subst. constructor; [|apply IH; [exact N2|intros; apply NN; right; assumption]]. intro I. apply in_map_iff in I. destruct I as (y & I1 & I2). apply N1. replace x with y; [exact I2|]. pose proof (NN y (or_intror I2)). pose proof (NN x (or_introl eq_refl)). lia. }
  assert (PrN : forall q, In q (map Z.to_nat (pre ++ [p])) -> prime (Z.of_nat q)). { intros q I. apply in_map_iff in I. destruct I as (y & <- & I). pose proof (FP y (Sub y I)) as Py. rewrite Z2Nat.id by (destruct Py; lia). exact Py. }
  assert (AllN : forall q, prime (Z.of_nat q) -> (q <= Z.to_nat p)%nat -> In q (map Z.to_nat (pre ++ [p]))).
  { intros q Q1 Q2. apply in_map_iff. exists (Z.of_nat q). split; [apply Nat2Z.id|]. apply in_or_app. destruct (Z.eq_dec (Z.of_nat q) p) as [<-|Nq]; [right; left; reflexivity|]. left.
    assert (Iq : In (Z.of_nat q) ps) by (apply (FA _ p Ip Q1); lia). rewrite E2 in Iq. apply in_app_or in Iq. destruct Iq as [Iq|[Iq|Iq]]; [exact Iq|lia|]. specialize (S2 _ Iq). lia. }
  pose proof (euler_product s Hs z (map Z.to_nat (pre ++ [p])) (Z.to_nat p) Hz ltac:(lia) ND PrN AllN) as [A1 A2]. pose proof (euler_pos s Hs (map Z.to_nat (pre ++ [p])) PrN) as A3.
  fold (eul (pre ++ [p])) in A1, A2, A3. set (e := eul (pre ++ [p])) in *.
  assert (K1 : 1 < Rpower (IZR p) s). { assert (1 < IZR p) by (apply IZR_lt; lia). rewrite <- (Rpower_O (IZR p)) by lra. apply Rpower_lt; lra. }
  assert (K2 : powerRZ 10 tol <= Rpower (IZR p) s).
  { destruct E3 as [->|E3]; [rewrite E2 in Hl; rewrite last_last in Hl; exact Hl|]. apply Rle_trans with (powerRZ 10 (order (Rpower (IZR p) s))); [|apply Ho; lra]. left. apply (Value.p10_lt tol). exact E3. }
  assert (K3 : (p <= last ps 0)%Z). { rewrite E2. destruct (exists_last (l := p :: post) ltac:(discriminate)) as (l' & x & Ex). rewrite Ex, app_assoc, last_last. assert (Ix : In x (p :: post)) by (rewrite Ex; apply in_or_app; right; left; reflexivity). destruct Ix as [<-|Ix]; [lia|]. specialize (S2 x Ix). lia. }
  assert (Hpw : pw s (INR (Z.to_nat p)) <= IZR (last ps 0%Z) * powerRZ 10 (- tol)).
  { unfold pw. rewrite INR_IZR_INZ, Z2Nat.id by lia. unfold Rminus. assert (0 < IZR p) by (apply IZR_lt; lia). rewrite Rpower_plus, Rpower_1, Rpower_Ropp by lra. pose proof (IZR_le _ _ K3). rewrite (p10_inv tol). pose proof (powerRZ_lt 10 tol ltac:(lra)) as T0.
    apply Rmult_le_compat; [lra| |lra|]; [left; apply Rinv_0_lt_compat; lra|]. apply Rinv_le_contravar; [exact T0|exact K2]. }
  assert (Hd : pw s (INR (Z.to_nat p)) / (s - 1) <= IZR (last ps 0%Z) * powerRZ 10 (- tol) / (s - 1)) by (apply Rmult_le_compat_r; [left; apply Rinv_0_lt_compat; lra|exact Hpw]).
  set (D := IZR (last ps 0%Z) * powerRZ 10 (- tol) / (s - 1)) in *. pose proof (pw_pos s (INR (Z.to_nat p))). assert (D0 : 0 <= D) by (apply Rle_trans with (pw s (INR (Z.to_nat p)) / (s - 1)); [apply Rle_mult_inv_pos; lra|exact Hd]).
  assert (Z1 : / e <= z) by (apply (Rmult_le_reg_r e); [exact A3|]; rewrite Rinv_l by lra; exact A1). split; [lra|]. assert (0 < / e) by (apply Rinv_0_lt_compat; exact A3).
  assert (Z2 : z <= / e * (1 + D)). { apply (Rmult_le_reg_r e); [exact A3|]. replace (/ e * (1 + D) * e) with (1 + D) by (field; lra). lra. }
  nra.
Qed.
End Product.
