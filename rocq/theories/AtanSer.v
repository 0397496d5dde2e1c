(** * Accuracy of the arc tangent: the series for small and for large arguments (proofs only) *)

From Coq Require Import ZArith List Bool Reals Lra Lia Psatz.
From Verif Require Import Model Spec SpecGen Limbs Value CmpProofs AddProofs Decide OrderProofs OrderDec AddExtra MulProofs MulValue MulExtra MulCor
  IntProofs IntPartProofs IntConv MixedProofs IntCor ModelDiv DoubleProofs NewtonProofs InvProofs SqrtProofs ModelPow PowGen PowProofs PowExtra LdexpProofs
  StrAny FloatEval ModelGen ModelElem ElemProofs SeriesFloat ExpReal ExpFloat ExpAcc ConstReal SinReal SinFloat SinStep SinAcc HyperFloat AtanAcc.
Import ListNotations.
Open Scope R_scope.
Ltac Zify.zify_post_hook ::= Z.div_mod_to_equations.
Local Notation p10 := (powerRZ 10).
Local Notation exp := Rtrigo_def.exp.
Local Notation sin := Rtrigo_def.sin.
Local Notation cos := Rtrigo_def.cos.
Local Notation tan := Rtrigo1.tan.
Local Notation atan := Ratan.atan.
Local Notation sqrt := R_sqrt.sqrt.

(** ** Real numbers *)

Lemma atan_lipschitz a b : Rabs (atan a - atan b) <= Rabs (a - b).
Proof.
  assert (P : forall x y, x < y -> Rabs (atan y - atan x) <= Rabs (y - x)).
  { intros x y H. destruct (MVT_cor2 atan (fun t => / (1 + t ^ 2)) x y H) as (c & E & _).
    - intros t _. apply derivable_pt_lim_atan.
    - rewrite E, Rabs_mult. rewrite <- (Rmult_1_l (Rabs (y - x))) at 2. apply Rmult_le_compat_r; [apply Rabs_pos|].
      assert (0 <= c ^ 2) by apply pow2_ge_0. rewrite Rabs_pos_eq by (left; apply Rinv_0_lt_compat; lra). rewrite <- Rinv_1. apply Rinv_le_contravar; lra. }
  destruct (Rtotal_order a b) as [H|[->|H]].
  - rewrite (Rabs_minus_sym (atan a)), (Rabs_minus_sym a). apply P. exact H.
  - rewrite !Rminus_diag_eq by reflexivity. lra.
  - apply P. exact H.
Qed.

Lemma atan_le a : 0 <= a -> 0 <= atan a <= a.
Proof.
  intro H. destruct H as [H|<-]; [|rewrite atan_0; lra]. assert (0 < atan a) by (rewrite <- atan_0; apply atan_increasing; exact H).
  pose proof (atan_lipschitz a 0) as L. rewrite atan_0, !Rminus_0_r, !Rabs_pos_eq in L; lra.
Qed.

Lemma atan_quotient a y : 0 < a -> 0 < y -> Rabs (atan y / y - atan a / a) <= 2 * Rabs (y - a) / y.
Proof.
  intros Ha Hy. replace (atan y / y - atan a / a) with (((atan y - atan a) + (a - y) * (atan a / a)) / y) by (field; lra).
  unfold Rdiv at 1 3. rewrite Rabs_mult, (Rabs_pos_eq (/ y)) by (left; apply Rinv_0_lt_compat; lra).
  apply Rmult_le_compat_r; [left; apply Rinv_0_lt_compat; lra|]. eapply Rle_trans; [apply Rabs_triang|]. pose proof (atan_lipschitz y a) as L. rewrite Rabs_mult, (Rabs_minus_sym a y).
  assert (Q : 0 <= atan a / a <= 1).
  { destruct (atan_le a ltac:(lra)). split; [apply Rmult_le_pos; [lra|left; apply Rinv_0_lt_compat; lra]|]. apply (Rmult_le_reg_r a); [lra|]. unfold Rdiv. rewrite Rmult_assoc, Rinv_l by lra. lra. }
  rewrite (Rabs_pos_eq (atan a / a)) by lra. pose proof (Rabs_pos (y - a)). nra.
Qed.

(** A number close to minus the square of a is minus a square *)
Lemma near_square z a e : 0 < a -> 0 <= e <= / 100 -> Rabs (z - - (a * a)) <= e * (a * a) -> exists y, 0 < y /\ z = - (y * y) /\ Rabs (y - a) <= e * a.
Proof.
  intros Ha He H. exists (sqrt (- z)). assert (a2 : 0 < a * a) by (apply Rmult_lt_0_compat; assumption).
  assert (Z : 0 < - z) by (apply Rabs_le_inv in H; nra).
  pose proof (sqrt_lt_R0 _ Z) as P. assert (E : sqrt (- z) * sqrt (- z) = - z) by (apply sqrt_sqrt; lra). split; [exact P|]. split; [lra|].
  set (y := sqrt (- z)) in *. assert (F : z - - (a * a) = - ((y - a) * (y + a))) by (transitivity (- (y * y) + a * a); [rewrite E|]; ring).
  rewrite F, Rabs_Ropp, Rabs_mult, (Rabs_pos_eq (y + a)) in H by lra. apply (Rmult_le_reg_r (y + a)); [lra|]. eapply Rle_trans; [exact H|]. rewrite Rmult_assoc. apply Rmult_le_compat_l; [lra|]. nra.
Qed.

Lemma g_atan_term a b z n : (a = 1 /\ b = / 2) \/ (a = / 2 /\ b = 1) -> g_term a b (3 / 2) z (Z.of_nat n) = z ^ n / INR (2 * n + 1).
Proof.
  intro H. induction n as [|n IH].
  - change (Z.of_nat 0) with 0%Z. rewrite g_term_0. cbn. field.
  - rewrite Nat2Z.inj_succ. unfold Z.succ. rewrite g_term_step, IH by (try lra; lia). rewrite plus_IZR, <- INR_IZR_INZ, <- tech_pow_Rmult.
    replace (INR (2 * S n + 1)) with (2 * INR n + 3) by (rewrite plus_INR, mult_INR, !S_INR; cbn [INR]; ring). rewrite plus_INR, mult_INR. cbn [INR]. pose proof (pos_INR n).
    destruct H as [[-> ->]|[-> ->]]; field; lra.
Qed.

Lemma atan_series a b y : (a = 1 /\ b = / 2) \/ (a = / 2 /\ b = 1) -> 0 < y < 1 ->
  infinite_sum (fun i => g_term a b (3 / 2) (- (y * y)) (Z.of_nat i)) (atan y / y).
Proof.
  intros H Hy. rewrite (atan_eq_ps_atan y Hy). unfold ps_atan. destruct (in_int y) as [h|h]; [|lra]. destruct (ps_atan_exists_1 y h) as [l Hl].
  intros eps He. destruct (Hl (eps * y) ltac:(apply Rmult_lt_0_compat; lra)) as [N HN]. exists N. intros n Hn. specialize (HN n Hn). unfold R_dist in *.
  assert (E : sum_f_R0 (tg_alt (Ratan_seq y)) n = y * sum_f_R0 (fun i => g_term a b (3 / 2) (- (y * y)) (Z.of_nat i)) n).
  { rewrite scal_sum. apply sum_eq. intros i _. rewrite (g_atan_term a b) by exact H. unfold tg_alt, Ratan_seq. rewrite pow_add, pow_1, pow_mult.
    replace (- (y * y)) with (-1 * y ^ 2) by ring. rewrite Rpow_mult_distr. field. apply not_0_INR. lia. }
  rewrite E in HN. set (s := sum_f_R0 _ n) in *. replace (s - l / y) with ((y * s - l) / y) by (field; lra). unfold Rdiv. rewrite Rabs_mult, (Rabs_pos_eq (/ y)) by (left; apply Rinv_0_lt_compat; lra).
  apply (Rmult_lt_reg_r y); [lra|]. rewrite Rmult_assoc, Rinv_l by lra. lra.
Qed.

Section FixedDigits.
Variable d : Z.
Hypothesis Hd : valid_digits d.
Hypothesis Hd' : (d <= 4967)%Z.
Variable env : env.
Local Notation u := (p10 (- d)).

Lemma one_facts : ok d 1 (one d) /\ value (one d) = 1.
Proof. destruct (PowExtra.one_ok d Hd) as (F & P & V). split; [|exact V]. apply ok_near_one; [exact F|exact P|lra]. Qed.

(** The series of atan y / y at an argument close to minus the square of a *)
Lemma h2f1_atan m z a e ab : (0 <= m <= 1000000)%Z -> ok d m z -> 0 < a <= / 50 -> 0 <= e <= / 1000 -> Rabs (value z - - (a * a)) <= e * (a * a) ->
  let h := if ab : bool then h2f1 d (one d) (half d) (three_half d) z else h2f1 d (half d) (one d) (three_half d) z in
  ok d 1 h /\ 99 / 100 <= value h <= 101 / 100 /\ Rabs (value h - atan a / a) <= (23 / 100 * (a * a) + / 100000) * u + 21 / 10 * e.
Proof.
  intros Hm Oz Ha He Hz h. pose proof (u_small d Hd) as Us. destruct (near_square (value z) a e ltac:(lra) ltac:(lra) Hz) as (y & Y0 & Ez & Ry).
  destruct one_facts as [O1 V1]. destruct (half_facts d Hd) as [Oh Vh]. destruct (three_half_facts d Hd Hd') as [Ot Vt].
  assert (ea : 0 <= e * a <= / 1000 * a) by (split; [apply Rmult_le_pos; lra|apply Rmult_le_compat_r; lra]).
  assert (Y1 : 999 / 1000 * a <= y <= 1001 / 1000 * a) by (apply Rabs_le_inv in Ry; lra).
  assert (YY : y * y <= 1003 / 1000 * (a * a)) by nra. assert (aa : a * a <= / 2500) by nra. assert (Y3 : 0 < y * y) by nra.
  assert (Nz : value z <> 0) by lra. assert (Bz : Rabs (value z) <= / 1000) by (rewrite Ez, Rabs_Ropp, Rabs_pos_eq; lra).
  assert (G : ok d 1 h /\ 99 / 100 <= value h <= 101 / 100 /\ Rabs (value h - atan y / y) <= (22 / 100 * Rabs (value z) + / 100000) * u).
  { unfold h. destruct ab.
    - apply (h2f1_ok d Hd Hd' m 1 (/ 2) (3 / 2)); try assumption; try lra. rewrite Ez. apply atan_series; [left; split; reflexivity|lra].
    - apply (h2f1_ok d Hd Hd' m (/ 2) 1 (3 / 2)); try assumption; try lra. rewrite Ez. apply atan_series; [right; split; reflexivity|lra]. }
  destruct G as (G1 & G2 & G3). split; [exact G1|]. split; [exact G2|].
  pose proof (atan_quotient a y ltac:(lra) Y0) as Q.
  assert (Q' : 2 * Rabs (y - a) / y <= 21 / 10 * e). { apply (Rmult_le_reg_r y); [exact Y0|]. unfold Rdiv. rewrite Rmult_assoc, Rinv_l by lra. assert (e * (999 / 1000 * a) <= e * y) by (apply Rmult_le_compat_l; lra). lra. }
  replace (value h - atan a / a) with ((value h - atan y / y) + (atan y / y - atan a / a)) by ring. eapply Rle_trans; [apply Rabs_triang|].
  rewrite Ez, Rabs_Ropp, (Rabs_pos_eq (y * y)) in G3 by lra.
  assert ((22 / 100 * (y * y) + / 100000) * u <= (23 / 100 * (a * a) + / 100000) * u) by (apply Rmult_le_compat_r; lra). lra.
Qed.

Lemma atan_at_zero_ok m x : (0 <= m <= 499000)%Z -> ok d m x -> value x <> 0 -> Rabs (value x) <= / 1000 ->
  let r := atan_at_zero d x in
  ok d (m + 2) r /\ Rabs (value r - atan (value x)) <= / 10000 * u * Rabs (atan (value x)).
Proof.
  intros Hm Ox N Hx r. pose proof (u_small d Hd) as U.
  destruct (ok_rel_mul d Hd Hd' m m x x ltac:(lia) ltac:(lia) ltac:(lia) Ox Ox) as [Oq Rq]. destruct (ok_negate d _ _ Hd Oq) as [On Vn].
  set (z := negate (mul d x x)) in *. set (a := Rabs (value x)) in *. assert (A0 : 0 < a) by (apply Rabs_pos_lt; exact N).
  assert (Ea : value x * value x = a * a) by (unfold a; rewrite <- Rabs_mult, Rabs_pos_eq; [reflexivity|nra]).
  unfold rel in Rq. rewrite Ea, (Rabs_pos_eq (a * a)) in Rq by nra.
  assert (Hz : Rabs (value z - - (a * a)) <= u / 1000000 * (a * a)). { rewrite Vn. replace (- value (mul d x x) - - (a * a)) with (- (value (mul d x x) - a * a)) by ring. rewrite Rabs_Ropp. exact Rq. }
  destruct (h2f1_atan (m + m + 1) z a (u / 1000000) true ltac:(lia) On ltac:(lra) ltac:(lra) Hz) as (Oh & Vh & Bh). cbn iota in Oh, Vh, Bh.
  set (h := h2f1 d (one d) (half d) (three_half d) z) in *.
  destruct (ok_rel_mul d Hd Hd' m 1 x h ltac:(lia) ltac:(lia) ltac:(lia) Ox Oh) as [Or Rr]. change (mul d x h) with r in Or, Rr.
  split; [apply (ok_le d (m + 1 + 1)); [lia|exact Or]|].
  assert (Es : atan (value x) = value x * (atan a / a)).
  { unfold a, Rabs. destruct (Rcase_abs (value x)); [rewrite atan_opp|]; field; lra. }
  destruct (atan_le a ltac:(lra)) as [L0 L1].
  assert (Lq : 99 / 100 <= atan a / a <= 1).
  { assert (aa : a * a <= / 1000000) by nra. assert (u * (a * a) <= u * 1) by (apply Rmult_le_compat_l; lra).
    split; [|apply (Rmult_le_reg_r a); [lra|]; unfold Rdiv; rewrite Rmult_assoc, Rinv_l by lra; lra].
    destruct (atan_facts a A0) as (_ & T1 & T2 & T3 & T4 & T5 & T6). apply (Rmult_le_reg_r a); [lra|]. replace (atan a / a * a) with (atan a) by (field; lra). nra. }
  rewrite Es, Rabs_mult, (Rabs_pos_eq (atan a / a)) by lra. fold a.
  replace (value r - value x * (atan a / a)) with ((value r - value x * value h) + value x * (value h - atan a / a)) by ring.
  eapply Rle_trans; [apply Rabs_triang|]. rewrite (Rabs_mult (value x) (_ - _)). fold a. unfold rel in Rr. rewrite Rabs_mult, (Rabs_pos_eq (value h)) in Rr by lra. fold a in Rr.
  assert (B' : Rabs (value h - atan a / a) <= / 50000 * u). { eapply Rle_trans; [exact Bh|]. assert (aa : a * a <= / 1000000) by nra. assert (a * a * u <= / 1000000 * u) by (apply Rmult_le_compat_r; lra). lra. }
  assert (X1 : u / 1000000 * (a * value h) <= u / 1000000 * (a * 2)) by (apply Rmult_le_compat_l; [lra|]; apply Rmult_le_compat_l; lra).
  assert (X2 : a * Rabs (value h - atan a / a) <= a * (/ 50000 * u)) by (apply Rmult_le_compat_l; lra).
  assert (X3 : u * a * (99 / 100) <= u * a * (atan a / a)) by (apply Rmult_le_compat_l; [apply Rmult_le_pos; lra|lra]).
  assert (X4 : 0 <= u * a) by (apply Rmult_le_pos; lra). lra.
Qed.

Hypothesis Hpi : close_to d (c_pi env) PI.

Lemma atan_at_infinity_ok x : ok d 6000 x -> 100 <= value x ->
  let r := atan_at_infinity d env x in
  finite d r /\ full d r /\ Rabs (value r - atan (value x)) <= 12 / 100 * u * atan (value x).
Proof.
  intros Ox Hx r. pose proof (u_tiny d Hd) as U. set (xv := value x) in *.
  destruct (ok_rel_mul d Hd Hd' 6000 6000 x x ltac:(lia) ltac:(lia) ltac:(lia) Ox Ox) as [Oq Rq]. set (xq := mul d x x) in *. fold xv in Rq.
  assert (X2 : 10000 <= xv * xv) by nra.
  unfold rel in Rq. rewrite (Rabs_pos_eq (xv * xv)) in Rq by lra.
  assert (X3 : 9000 <= value xq). { apply Rabs_le_inv in Rq. assert (u / 1000000 * (xv * xv) <= / 100 * (xv * xv)) by (apply Rmult_le_compat_r; lra). lra. }
  destruct one_facts as [O1 V1]. destruct (ok_negate d _ _ Hd O1) as [On Vn]. rewrite V1 in Vn. set (n1 := negate (one d)) in *.
  destruct (ok_div d Hd Hd' 1 (6000 + 6000 + 1) n1 xq ltac:(lia) ltac:(lia) ltac:(lia) On Oq ltac:(lra) ltac:(lra)) as (Oz & _ & Rz).
  { left. rewrite Vn, Rabs_Ropp, Rabs_R1, Rabs_pos_eq by lra. lra. }
  set (z := div d n1 xq) in *. rewrite Vn in Rz. set (a := / xv).
  assert (A0 : 0 < a <= / 100) by (unfold a; split; [apply Rinv_0_lt_compat; lra|apply Rinv_le_contravar; lra]).
  assert (aa : a * a = / (xv * xv)) by (unfold a; field; lra).
  assert (Rz' : rel (11 / 100 * u) (value z) (- (a * a))).
  { assert (I : rel (102 / 100 * (u / 1000000)) (/ value xq) (/ (xv * xv))). { apply rel_inv; [lra|lra|]. unfold rel. rewrite (Rabs_pos_eq (xv * xv)) by lra. exact Rq. }
    assert (J : rel (102 / 100 * (u / 1000000)) (-1 / value xq) (- (a * a))). { rewrite aa. unfold Rdiv. replace (-1 * / value xq) with (/ value xq * -1) by ring. replace (- / (xv * xv)) with (/ (xv * xv) * -1) by ring. apply rel_scale. exact I. }
    eapply rel_le; [|eapply rel_trans; [|exact Rz|exact J]]; [|lra]. assert (u / 10 * (102 / 100 * (u / 1000000)) <= u / 10 * (/ 1000)) by (apply Rmult_le_compat_l; lra). lra. }
  unfold rel in Rz'. rewrite Rabs_Ropp, (Rabs_pos_eq (a * a)) in Rz' by nra.
  destruct (h2f1_atan (1 + (6000 + 6000 + 1) + 1) z a (11 / 100 * u) false ltac:(lia) Oz ltac:(lra) ltac:(lra) Rz') as (Oh & Vh & Bh). cbn iota in Oh, Vh, Bh.
  set (h := h2f1 d (half d) (one d) (three_half d) z) in *.
  destruct (ok_div d Hd Hd' 1 6000 h x ltac:(lia) ltac:(lia) ltac:(lia) Oh Ox ltac:(lra) ltac:(fold xv; lra) ltac:(right; lra)) as (Og & _ & Rg). set (g := div d h x) in *. fold xv in Rg.
  destruct (half_pi_facts d Hd env Hpi) as (Op & Ep & Vp). set (ph := pi_half d env) in *.
  destruct (ok_sub d 6100 ph g Hd ltac:(lia) ltac:(lia) ltac:(apply (ok_le d 10); [lia|exact Op]) ltac:(apply (ok_le d (1 + 6000 + 1)); [lia|exact Og])) as [Or Er].
  change (sub d ph g) with r in Or, Er. split; [apply Or|]. split; [apply Or|].
  assert (Eg : value h / xv = value h * a) by reflexivity. rewrite Eg in Rg. unfold rel in Rg. rewrite (Rabs_pos_eq (value h * a)) in Rg by (apply Rmult_le_pos; lra).
  assert (ha : 0 <= value h * a <= 2 / 100) by (split; [apply Rmult_le_pos; lra|nra]).
  assert (Rg' : Rabs (value g - value h * a) <= / 500 * u) by (eapply Rle_trans; [exact Rg|]; assert (u / 10 * (value h * a) <= u / 10 * (2 / 100)) by (apply Rmult_le_compat_l; lra); lra).
  assert (Bh' : Rabs (value h * a - atan a) <= / 200 * u).
  { replace (value h * a - atan a) with (a * (value h - atan a / a)) by (field; lra). rewrite Rabs_mult, (Rabs_pos_eq a) by lra. assert (a * a <= / 10000) by nra.
    assert (a * a * u <= / 10000 * u) by (apply Rmult_le_compat_r; lra).
    apply Rle_trans with (/ 100 * ((23 / 100 * (a * a) + / 100000) * u + 21 / 10 * (11 / 100 * u))); [apply Rmult_le_compat; try lra; apply Rabs_pos|]. lra. }
  assert (GV : Rabs (value g) <= 1). { apply Rabs_le_inv in Rg'. apply Rabs_le. lra. }
  rewrite (p_17 d) in Er. assert (Mx : Rmax (Rabs (value ph)) (Rabs (value g)) <= 2) by (apply Rmax_lub; [rewrite Rabs_pos_eq; lra|lra]).
  assert (Er' : Rabs (value r - (value ph - value g)) <= / 1000000 * u).
  { eapply Rle_trans; [exact Er|]. assert (2 * (u / 100000000000000000) * Rmax (Rabs (value ph)) (Rabs (value g)) <= 2 * (u / 100000000000000000) * 2) by (apply Rmult_le_compat_l; lra). lra. }
  assert (Ea : atan xv = PI / 2 - atan a). { unfold a. rewrite atan_inv by lra. ring. }
  assert (At : 15 / 10 <= atan xv). { rewrite Ea. destruct (atan_le a ltac:(lra)). pose proof pi_bounds. lra. }
  assert (X5 : u * (15 / 10) <= u * atan xv) by (apply Rmult_le_compat_l; lra).
  assert (G : Rabs (value r - atan xv) <= 17 / 100 * u).
  { rewrite Ea. apply Rabs_le_inv in Er', Ep, Rg', Bh'. apply Rabs_le. lra. }
  lra.
Qed.

End FixedDigits.
