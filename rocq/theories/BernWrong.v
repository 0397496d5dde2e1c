(** * An entry of the tables of Bernoulli numbers that is not exact (proofs only) *)

From Coq Require Import ZArith List Bool Arith Reals Lra Lia Psatz.
From Verif Require Import Model Spec SpecText SpecGen Limbs Value AddProofs MulCor IntProofs IntCor ModelDiv InvProofs PowExtra StrAny
  FloatEval SeriesFloat ExpReal ExpFloat ExpAcc SinFloat ModelStr ModelTables TabProofs ModelFact TabBern ModelBern SpecBern BernReal BernFloat BernTab.
Import ListNotations.
Open Scope R_scope.
Local Notation p10 := (powerRZ 10).
Local Notation length := List.length.
Local Notation "x ^ n" := (Rpow_def.pow x n) : R_scope.

(** ** The tangent numbers modulo p *)

Section Modulus.
Variable p : Z.
Hypothesis Hp : (0 < p)%Z.

Fixpoint mpass (c prev : Z) (l : list Z) : list Z :=
  match l with [] => [] | x :: r => let y := ((c * (prev + x) + 2 * x) mod p)%Z in y :: mpass (c + 1) y r end.
Fixpoint mtang (n : nat) (l : list Z) : list Z :=
  match n, l with S n, x :: r => x :: mtang n (mpass 0 0 r) | _, _ => [] end.
Fixpoint mfacts (n : nat) (k f : Z) : list Z := match n with O => [] | S n => f :: mfacts n (k + 1) ((f * k) mod p) end.

Definition cong (a b : Z) : Prop := exists k, (a = b + k * p)%Z.

Lemma cong_mod a b : cong a b -> cong (a mod p) b.
Proof. intros [k E]. exists (k - a / p)%Z. pose proof (Z.div_mod a p ltac:(lia)). lia. Qed.

Lemma mfacts_ok n : forall k f g, cong f g -> Forall2 cong (mfacts n k f) (zfacts n k g).
Proof.
  induction n as [|n IH]; intros k f g H; cbn [mfacts zfacts]; constructor; [exact H|]. apply IH, cong_mod. destruct H as [q E]. exists (q * k)%Z. rewrite E. ring.
Qed.

Lemma mpass_ok l l' : Forall2 cong l l' -> forall c a b, cong a b -> Forall2 cong (mpass c a l) (zpass c b l').
Proof.
  induction 1 as [|x y l l' H F IH]; intros c a b Ha; cbn [mpass zpass]; constructor.
  - apply cong_mod. destruct H as [q E]. destruct Ha as [r G]. exists (c * (r + q) + 2 * q)%Z. rewrite E, G. ring.
  - apply IH, cong_mod. destruct H as [q E]. destruct Ha as [r G]. exists (c * (r + q) + 2 * q)%Z. rewrite E, G. ring.
Qed.

Lemma mtang_ok n : forall l l', Forall2 cong l l' -> Forall2 cong (mtang n l) (ztang n l').
Proof.
  induction n as [|n IH]; intros l l' F; [constructor|]. destruct F as [|x y l l' H F]; cbn [mtang ztang]; constructor; [exact H|]. apply IH, mpass_ok; [exact F|]. exists 0%Z. reflexivity.
Qed.

Lemma mnth l l' : Forall2 cong l l' -> forall i, cong (nth i l 0%Z) (nth i l' 0%Z).
Proof. induction 1 as [|x y l l' H F IH]; intros [|i]; cbn [nth]; try exact H; try apply IH; exists 0%Z; reflexivity. Qed.
End Modulus.

(** ** The entry *)

(* i-th entry, the number of which is a * 10^s / c *)
Definition wrongb (p : Z) (i : nat) (ea ec : entry) : bool :=
  (0 <? p)%Z && (1 <=? i)%nat && Nat.odd i && entry_okb ea && entry_okb ec && (0 <=? scale ea)%Z && (scale ec =? 0)%Z &&
  let a := vlist (mant ea) in let c := vlist (mant ec) in let w := (4 ^ Z.of_nat i)%Z in let m := (2 * Z.of_nat i)%Z in
  let t := nth (i - 1) (mtang p i (mfacts p i 1 1)) 0%Z in
  negb (((a * 10 ^ scale ea) * (w * w - w) - m * t * c) mod p =? 0)%Z &&
  (a * 10 ^ scale ea <? 10 ^ 430)%Z && (w * w - w <? 10 ^ 200)%Z && (c <? 10 ^ 100)%Z.

Lemma wrong_distance p i ea ec b : is_bernoulli b -> wrongb p i ea ec = true ->
  exists w, 1 <= w < p10 200 /\ 1 <= w * entry_value ec * Rabs (entry_value ea / entry_value ec - b (2 * i)%nat) /\ 1 <= entry_value ec < p10 100 /\ 1 <= entry_value ea < p10 430.
Proof.
  intros Hb H. unfold wrongb in H. cbv zeta in H. apply andb_true_iff in H. destruct H as [H G]. apply andb_true_iff in G. destruct G as [G H10]. apply andb_true_iff in G. destruct G as [G H9]. apply andb_true_iff in G. destruct G as [H7 H8].
  apply andb_true_iff in H. destruct H as [H H6]. apply andb_true_iff in H. destruct H as [H H5]. apply andb_true_iff in H. destruct H as [H H4].
  apply andb_true_iff in H. destruct H as [H H3]. apply andb_true_iff in H. destruct H as [H H2]. apply andb_true_iff in H. destruct H as [H0 H1].
  apply Z.ltb_lt in H0, H8, H9, H10. apply Nat.leb_le in H1. apply Z.leb_le in H5. apply Z.eqb_eq in H6. apply negb_true_iff, Z.eqb_neq in H7.
  pose proof (mant_pos ea H3) as Pa. pose proof (mant_pos ec H4) as Pc. unfold entry_value. rewrite H6. change (p10 0) with 1. rewrite Rmult_1_r, (p10_nonneg _ H5), <- mult_IZR.
  pose proof (Z.pow_pos_nonneg 10 (scale ea) ltac:(lia) H5) as Ps. set (A := (vlist (mant ea) * 10 ^ scale ea)%Z) in *. assert (PA : (1 <= A)%Z) by (unfold A; nia). set (C := vlist (mant ec)) in *. clearbody A C.
  assert (TM : cong p (nth (i - 1) (mtang p i (mfacts p i 1 1)) 0%Z) (nth (i - 1) (ztang i (zfacts i 1 1)) 0%Z)) by (apply mnth, mtang_ok; [exact H0|]; apply mfacts_ok; [exact H0|]; exists 0%Z; reflexivity).
  destruct (zfacts_ok i 1 1 (Nat.le_refl 1) eq_refl) as [L0 Q0]. change (Z.of_nat 1) with 1%Z in L0, Q0. destruct (ztang_ok i 1 _ (Nat.le_refl 1) L0 Q0) as [L1 Q1]. specialize (Q1 (i - 1)%nat ltac:(lia)).
  set (t := nth (i - 1) (mtang p i (mfacts p i 1 1)) 0%Z) in *. set (T := nth (i - 1) (ztang i (zfacts i 1 1)) 0%Z) in *. clearbody t T. replace (1 + (i - 1))%nat with i in Q1 by lia.
  set (W := (4 ^ Z.of_nat i * 4 ^ Z.of_nat i - 4 ^ Z.of_nat i)%Z) in *. set (m := (2 * Z.of_nat i)%Z) in *.
  assert (Wp : (1 <= W)%Z) by (unfold W; assert (4 ^ 1 <= 4 ^ Z.of_nat i)%Z by (apply Z.pow_le_mono_r; lia); change (4 ^ 1)%Z with 4%Z in *; nia).
  assert (NZ : (A * W - m * T * C <> 0)%Z).
  { intro Z. apply H7. destruct TM as [q E]. rewrite E. replace (A * W - m * (T + q * p) * C)%Z with ((- (m * q * C)) * p)%Z by lia. apply Z_mod_mult. }
  assert (Wr : IZR W = 4 ^ i * 4 ^ i - 4 ^ i) by (unfold W; rewrite minus_IZR, mult_IZR; replace (IZR (4 ^ Z.of_nat i)) with (4 ^ i) by (rewrite <- pow_IZR; reflexivity); reflexivity).
  assert (Bi : b (2 * i)%nat = IZR m * IZR T / IZR W).
  { rewrite (bernoulli_tang b i Hb H1), <- Q1, Wr. replace ((-1) ^ (i - 1)) with 1; [rewrite Rmult_1_l; unfold m; rewrite INR_IZR_INZ, Nat2Z.inj_mul; reflexivity|].
    apply Nat.odd_spec in H2. destruct H2 as [j ->]. replace (2 * j + 1 - 1)%nat with (2 * j)%nat by lia. symmetry. apply pow_1_even. }
  clearbody W m. assert (Wr1 : 1 <= IZR W) by (apply IZR_le; lia). assert (Cr : 1 <= IZR C) by (apply IZR_le; lia).
  exists (IZR W). split; [split; [lra|rewrite p10_nonneg by lia; apply IZR_lt, H9]|]. split; [|split; [split; [lra|rewrite p10_nonneg by lia; apply IZR_lt, H10]|split; [apply IZR_le; lia|rewrite p10_nonneg by lia; apply IZR_lt, H8]]].
  rewrite Bi. replace (IZR A / IZR C - IZR m * IZR T / IZR W) with (IZR (A * W - m * T * C) / (IZR W * IZR C)) by (rewrite minus_IZR, !mult_IZR; field; lra).
  unfold Rdiv. rewrite Rabs_mult, Rabs_inv, (Rabs_pos_eq (IZR W * IZR C)) by nra. rewrite <- abs_IZR.
  assert (1 <= IZR (Z.abs (A * W - m * T * C))) by (apply IZR_le; lia). replace (IZR W * IZR C * (IZR (Z.abs (A * W - m * T * C)) * / (IZR W * IZR C))) with (IZR (Z.abs (A * W - m * T * C))) by (field; lra). exact H.
Qed.

Lemma wrong_quot d p i ea ec b : valid_digits d -> (640 <= d <= 4967)%Z -> is_bernoulli b -> wrongb p i ea ec = true ->
  exists x y, entry_ef d ea = Ok x /\ entry_ef d ec = Ok y /\ finite d (div d x y) /\ p10 (- d) * Rabs (b (2 * i)%nat) < Rabs (value (div d x y) - b (2 * i)%nat).
Proof.
  intros Hd Hd2 Hb H. destruct (wrong_distance p i ea ec b Hb H) as (w & W & D & Pc & Pa).
  assert (Oa : entry_okb ea = true /\ entry_okb ec = true) by (unfold wrongb in H; repeat (apply andb_true_iff in H; destruct H as [H ?]); split; assumption). clear H.
  destruct (read_entry d ea Hd (proj1 Oa)) as (x & X1 & X2 & X3 & X4 & _). destruct (read_entry d ec Hd (proj2 Oa)) as (y & Y1 & Y2 & Y3 & Y4 & _).
  exists x, y. split; [exact X1|]. split; [exact Y1|]. set (A := entry_value ea) in *. set (C := entry_value ec) in *. pose proof (u_small d Hd) as U. rewrite (p_17 d) in X4, Y4.
  assert (R1 : rel (p10 (- d) / 100000000000000000) (value x) A) by (unfold rel; rewrite (Rabs_pos_eq A) by lra; exact X4).
  assert (R2 : rel (p10 (- d) / 100000000000000000) (value y) C) by (unfold rel; rewrite (Rabs_pos_eq C) by lra; exact Y4).
  assert (V : forall z v, 1 <= v -> Rabs (z - v) <= p10 (- d) / 100000000000000000 * v -> 9 / 10 * v <= z <= 11 / 10 * v).
  { intros z v Hv R. apply Rabs_le_inv in R. assert (p10 (- d) / 100000000000000000 * v <= / 10 * v) by (apply Rmult_le_compat_r; lra). lra. }
  pose proof (V _ _ (proj1 Pa) X4) as Vx. pose proof (V _ _ (proj1 Pc) Y4) as Vy.
  assert (O : forall z v n, (1 <= n <= 1000)%Z -> finite d z -> full d z -> 1 <= v < p10 n -> 9 / 10 * v <= value z <= 11 / 10 * v -> ok d 1001 z).
  { intros z v n Hn F P B1 B2. apply ok_of_bounds; [exact F|exact P|]. rewrite Rabs_pos_eq by lra. split.
    - apply Rle_trans with (p10 (-1)); [apply p10_le; lia|]. change (p10 (-1)) with (/ 10 ^ 1). cbn. lra.
    - apply Rle_trans with (p10 1 * p10 1000); [pose proof (p10_le n 1000 ltac:(lia)); change (p10 1) with (10 ^ 1); cbn; lra|]. rewrite <- p10_add. apply p10_le. lia. }
  destruct (quot_signed d 1001 x y Hd ltac:(lia) ltac:(lia) (O x A 430%Z ltac:(lia) X2 X3 Pa Vx) (O y C 100%Z ltac:(lia) Y2 Y3 Pc Vy) ltac:(lra) ltac:(lra) ltac:(right; lra)) as (Fq & Pq & Rq). rewrite (p_1 d) in Rq.
  split; [exact Fq|]. set (k := p10 (- d) / 100000000000000000) in *. assert (K : 0 < k <= / 10000000000000000000000000000) by (unfold k; lra).
  pose proof (rel_div k k (value x) A (value y) C ltac:(lra) ltac:(lra) ltac:(lra) ltac:(lra) R1 R2) as Rd.
  pose proof (rel_trans (p10 (- d) / 10) _ _ _ _ ltac:(lra) Rq Rd) as Rf.
  assert (Rg : rel (p10 (- d) / 5) (value (div d x y)) (A / C)).
  { eapply rel_le; [|exact Rf]. assert (k * (102 / 100 * k) <= k * 1) by (apply Rmult_le_compat_l; lra). set (h := k + 102 / 100 * k + k * (102 / 100 * k)) in *.
    assert (Hh : 0 <= h <= 4 * k) by (unfold h; split; [assert (0 <= k * (102 / 100 * k)) by (apply Rmult_le_pos; lra); lra|lra]).
    assert (p10 (- d) / 10 * h <= 1 * h) by (apply Rmult_le_compat_r; lra). unfold k in Hh. lra. }
  apply Rnot_le_lt. intro N. unfold rel in Rg. set (q := value (div d x y)) in *. set (B := b (2 * i)%nat) in *.
  assert (Q : 0 < A / C) by (apply Rdiv_lt_0_compat; lra). rewrite (Rabs_pos_eq (A / C)) in Rg by lra.
  assert (QA : A / C <= A). { apply Rmult_le_reg_r with C; [lra|]. unfold Rdiv. rewrite Rmult_assoc, Rinv_l, Rmult_1_r by lra. nra. }
  assert (B2 : Rabs B <= 2 * (A / C)).
  { assert (T1 : Rabs B <= Rabs q + Rabs (q - B)) by (replace B with (q - (q - B)) at 1 by ring; unfold Rminus at 1; eapply Rle_trans; [apply Rabs_triang|rewrite Rabs_Ropp; lra]).
    assert (T2 : Rabs q <= A / C + Rabs (q - A / C)) by (replace q with (A / C + (q - A / C)) at 1 by ring; eapply Rle_trans; [apply Rabs_triang|rewrite (Rabs_pos_eq (A / C)); lra]).
    assert (p10 (- d) * Rabs B <= / 4 * Rabs B) by (apply Rmult_le_compat_r; [apply Rabs_pos|lra]).
    assert (p10 (- d) / 5 * (A / C) <= / 4 * (A / C)) by (apply Rmult_le_compat_r; lra). lra. }
  assert (DD : Rabs (A / C - B) <= 3 * p10 (- d) * (A / C)).
  { assert (T3 : Rabs (A / C - B) <= Rabs (q - B) + Rabs (q - A / C)) by (replace (A / C - B) with ((q - B) + - (q - A / C)) by ring; eapply Rle_trans; [apply Rabs_triang|rewrite Rabs_Ropp; lra]).
    assert (p10 (- d) * Rabs B <= p10 (- d) * (2 * (A / C))) by (apply Rmult_le_compat_l; [lra|exact B2]). clear - H N Rg T3 Q U. assert (0 < p10 (- d) * (A / C)) by (apply Rmult_lt_0_compat; lra). lra. }
  assert (E1 : w * C * Rabs (A / C - B) <= w * C * (3 * p10 (- d) * (A / C))) by (apply Rmult_le_compat_l; [nra|exact DD]).
  replace (w * C * (3 * p10 (- d) * (A / C))) with (3 * (w * p10 (- d) * A)) in E1 by (field; lra).
  assert (E2 : w * p10 (- d) * A <= p10 200 * p10 (-640) * p10 430).
  { pose proof (p10_le (- d) (-640) ltac:(lia)). pose proof (p10_pos 200). pose proof (p10_pos (-640)). apply Rmult_le_compat; [nra|lra| |lra]. apply Rmult_le_compat; lra. }
  rewrite <- !p10_add in E2. change (200 + -640 + 430)%Z with (-10)%Z in E2. change (p10 (-10)) with (/ 10 ^ 10) in E2. cbn in E2. lra.
Qed.

Definition wrong_entry_checkb (num den : list entry) : bool :=
  match nth_error num 163, nth_error den 163 with Some ea, Some ec => wrongb 11 163 ea ec | _, _ => false end.
Lemma wrong_entry_ok num den : wrong_entry_checkb num den = true ->
  exists ea ec, nth_error num 163 = Some ea /\ nth_error den 163 = Some ec /\ wrongb 11 163 ea ec = true.
Proof.
  unfold wrong_entry_checkb. destruct (nth_error num 163) as [ea|]; [|discriminate]. destruct (nth_error den 163) as [ec|]; [|discriminate]. intro H. exists ea, ec. auto.
Qed.
Lemma wrong_entry_checked : wrong_entry_checkb A000367 A002445 = true.
Proof. vm_compute. reflexivity. Qed.
