(** * complex<e_float>: accuracy of products and quotients (proofs only) *)

From Coq Require Import ZArith List Bool Reals Lra Lia Psatz.
From Verif Require Import Model Spec SpecGen Limbs Value CmpProofs AddProofs Decide OrderProofs MulProofs MulValue MulExtra MulCor
  IntProofs IntPartProofs IntConv MixedProofs IntCor ModelDiv DoubleProofs NewtonProofs InvProofs SqrtProofs ModelPow PowGen PowProofs PowExtra FloatEval ModelGen.
Import ListNotations.
Open Scope R_scope.
Ltac Zify.zify_post_hook ::= Z.div_mod_to_equations.
Local Notation p10 := (powerRZ 10).
Local Notation exp := Model.exp.
Local Notation eps := product_error.

Local Lemma Rabs_le_inv x y : Rabs x <= y -> - y <= x <= y.
Proof. intro H. split; [apply Rle_trans with (- Rabs x); [lra|pose proof (Rle_abs (- x)) as A; rewrite Rabs_Ropp in A; lra]|pose proof (Rle_abs x); lra]. Qed.

Definition okc d m (z : cx ef) := ok d m (re z) /\ ok d m (im z).

(** u v + s (w x) with rounded products and a rounded sum *)
Lemma two_products d m u v w x (neg : bool) : valid_digits d -> (d <= 65000)%Z -> (0 <= m <= 1000000000)%Z ->
  ok d m u -> ok d m v -> ok d m w -> ok d m x ->
  let r := if neg then sub d (mul d u v) (mul d w x) else add d (mul d u v) (mul d w x) in
  let P := value u * value v in let Q := value w * value x in
  ok d (2 * m + 70001) r /\ Rabs (value r - (if neg then P - Q else P + Q)) <= 11 / 10 * eps d * (Rabs P + Rabs Q).
Proof.
  intros Hd Hd' Hm Ou Ov Ow Ox r P Q.
  destruct (ok_mul d m m u v Hd ltac:(lia) ltac:(lia) ltac:(lia) Ou Ov) as [O1 E1].
  destruct (ok_mul d m m w x Hd ltac:(lia) ltac:(lia) ltac:(lia) Ow Ox) as [O2 E2].
  fold P in E1. fold Q in E2.
  pose proof (tiny_below d Hd Hd') as T. pose proof (eps_pos d Hd) as Ep. pose proof p10_m36 as E36.
  set (p := mul d u v) in *. set (q := mul d w x) in *.
  assert (K : forall s, Rabs (s - (if neg then value p - value q else value p + value q)) <= 2 * p10 (- (d + 17)) * Rmax (Rabs (value p)) (Rabs (value q)) ->
    Rabs (s - (if neg then P - Q else P + Q)) <= 11 / 10 * eps d * (Rabs P + Rabs Q)).
  { intros s Hs. assert (M : Rmax (Rabs (value p)) (Rabs (value q)) <= 2 * (Rabs P + Rabs Q)).
    { pose proof (Rabs_triang (value p - P) P) as T1. replace (value p - P + P) with (value p) in T1 by ring.
      pose proof (Rabs_triang (value q - Q) Q) as T2. replace (value q - Q + Q) with (value q) in T2 by ring.
      pose proof (Rabs_pos P). pose proof (Rabs_pos Q). apply Rmax_lub; nra. }
    assert (M0 : 0 <= Rmax (Rabs (value p)) (Rabs (value q))) by (apply Rle_trans with (Rabs (value p)); [apply Rabs_pos|apply Rmax_l]).
    assert (Hs' : Rabs (s - (if neg then value p - value q else value p + value q)) <= / 500 * eps d * (Rabs P + Rabs Q)).
    { apply Rle_trans with (1 := Hs). apply Rle_trans with (/ 1000 * eps d * (2 * (Rabs P + Rabs Q))); [apply Rmult_le_compat; lra|lra]. }
    assert (Hd2 : Rabs ((if neg then value p - value q else value p + value q) - (if neg then P - Q else P + Q)) <= eps d * (Rabs P + Rabs Q)).
    { destruct neg.
      - replace (value p - value q - (P - Q)) with ((value p - P) - (value q - Q)) by ring. pose proof (Rabs_triang (value p - P) (- (value q - Q))) as T3. rewrite Rabs_Ropp in T3. unfold Rminus at 1. lra.
      - replace (value p + value q - (P + Q)) with ((value p - P) + (value q - Q)) by ring. pose proof (Rabs_triang (value p - P) (value q - Q)). lra. }
    pose proof (Rabs_triang (s - (if neg then value p - value q else value p + value q)) ((if neg then value p - value q else value p + value q) - (if neg then P - Q else P + Q))) as T4.
    replace (s - (if neg then value p - value q else value p + value q) + ((if neg then value p - value q else value p + value q) - (if neg then P - Q else P + Q))) with (s - (if neg then P - Q else P + Q)) in T4 by ring.
    pose proof (Rabs_pos P). pose proof (Rabs_pos Q). nra. }
  replace (2 * m + 70001)%Z with (m + m + 1 + 70000)%Z by ring. unfold r. clear r. destruct neg.
  - destruct (ok_sub d (m + m + 1) p q Hd Hd' ltac:(lia) O1 O2) as [O3 E3]. split; [exact O3|]. exact (K _ E3).
  - destruct (ok_add d (m + m + 1) p q Hd Hd' ltac:(lia) O1 O2) as [O3 E3]. split; [exact O3|]. exact (K _ E3).
Qed.

Lemma zero_value_twice d x : valid_digits d -> finite d x -> value x = 0 -> mul_ull d x 2 = zero d.
Proof.
  intros Hd F Z. unfold mul_ull. destruct (finite_flags d x F) as [-> ->]. rewrite (finite_zero_flag d x Hd F Z). reflexivity.
Qed.

Lemma twice_ok d m x : valid_digits d -> (0 <= m <= 2147483000)%Z -> ok d m x ->
  ok d (m + 1) (mul_ull d x 2) /\ Rabs (value (mul_ull d x 2) - 2 * value x) <= p10 (- (d + 17)) * Rabs (2 * value x).
Proof.
  intros Hd Hm (F & P & M). pose proof (p10_pos (- (d + 17))) as P17.
  destruct (Req_dec (value x) 0) as [Z|N].
  - rewrite (zero_value_twice d x Hd F Z), Z. destruct (zero_ok d Hd) as (A & B & C). rewrite C.
    split; [split; [exact A|split; [exact B|left; exact C]]|]. replace (0 - 2 * 0) with 0 by ring. replace (2 * 0) with 0 by ring. rewrite Rabs_R0. lra.
  - destruct (mul_ull_small_spec d x 2 Hd F P N ltac:(lia)) as (F' & P' & (C1 & C2 & _)).
    assert (L : limb (data (mul_ull d x 2)) 0 <> 0%Z).
    { rewrite mul_ull_cases by (auto; lia). rewrite (finite_nonzero_flag d x Hd F N). change (2 =? 0)%Z with false. cbn [orb].
      change (2 >=? mask)%Z with false. change (2 =? 1)%Z with false. cbv iota.
      destruct (mul_small_spec d x 2 Hd F (value_nonzero_lead d x Hd F N) ltac:(lia)) as (_ & Zs & _). exact Zs. }
    set (r := mul_ull d x 2) in *. replace (value x * 2) with (2 * value x) in * by ring. set (y := 2 * value x) in *.
    destruct (finite_abs_bounds d r Hd F' L) as [B _]. pose proof (elem_lower d Hd) as EL.
    assert (U : ulp d (exp r) <= p10 (- (d + 17)) * Rabs (value r)).
    { unfold ulp. replace (exp r - 8 * (elem_number d - 1))%Z with (exp r + (8 - 8 * elem_number d))%Z by ring. rewrite p10_add.
      pose proof (p10_le (8 - 8 * elem_number d) (- (d + 17)) ltac:(lia)). pose proof (p10_pos (exp r)). nra. }
    assert (G : Rabs (value r - y) = Rabs y - Rabs (value r)).
    { revert C1 C2. generalize (value r). clearbody y. intros z C1 C2.
      destruct (Rle_dec 0 y); [destruct (Req_dec y 0) as [->|]; [rewrite Rabs_R0 in *; pose proof (Rabs_pos z); assert (Rabs z = 0) by lra; rewrite Rminus_0_r; lra|]; rewrite (Rabs_pos_eq y), (Rabs_pos_eq z) in * by nra; rewrite Rabs_left1; lra|].
      rewrite (Rabs_left1 y), (Rabs_left1 z) in * by nra. rewrite Rabs_pos_eq; lra. }
    assert (T : p10 (- (d + 17)) <= / 1000000) by (apply Rle_trans with (p10 (-36)); [apply p10_le; destruct Hd; lia|apply p10_m36]).
    split; [split; [exact F'|split; [exact P'|right]]|].
    + destruct M as [|[M1 M2]]; [contradiction|]. unfold y in C1. rewrite Rabs_mult, (Rabs_pos_eq 2) in C1 by lra.
      pose proof (p10_pos m). pose proof (p10_pos (- m)). replace (- (m + 1))%Z with (- m + - (1))%Z by ring. rewrite !p10_add, (p10_inv 1), p10_1. nra.
    + rewrite G. pose proof (Rabs_pos (value r)). nra.
Qed.

Lemma complex_product d z w : valid_digits d -> (d <= 65000)%Z -> okc d 1000000000 z -> okc d 1000000000 w ->
  let p := ce_mul d false z w in
  let ac := value (re z) * value (re w) in let bd := value (im z) * value (im w) in
  let ad := value (re z) * value (im w) in let bc := value (im z) * value (re w) in
  finite d (re p) /\ full d (re p) /\ finite d (im p) /\ full d (im p) /\
  Rabs (value (re p) - (ac - bd)) <= 2 * eps d * (Rabs ac + Rabs bd) /\
  Rabs (value (im p) - (ad + bc)) <= 2 * eps d * (Rabs ad + Rabs bc).
Proof.
  intros Hd Hd' [Za Zb] [Wc Wd]. cbv zeta. unfold ce_mul, c_mul. cbn [re im].
  destruct (two_products d 1000000000 (re z) (re w) (im z) (im w) true Hd Hd' ltac:(lia) Za Wc Zb Wd) as [(F1 & P1 & _) E1].
  destruct (two_products d 1000000000 (re z) (im w) (im z) (re w) false Hd Hd' ltac:(lia) Za Wd Zb Wc) as [(F2 & P2 & _) E2].
  cbv iota in E1, E2. split; [exact F1|]. split; [exact P1|]. split; [exact F2|]. split; [exact P2|].
  pose proof (eps_pos d Hd) as Ep.
  pose proof (Rabs_pos (value (re z) * value (re w))). pose proof (Rabs_pos (value (im z) * value (im w))).
  pose proof (Rabs_pos (value (re z) * value (im w))). pose proof (Rabs_pos (value (im z) * value (re w))).
  split; [apply Rle_trans with (1 := E1)|apply Rle_trans with (1 := E2)]; apply Rmult_le_compat_r; lra.
Qed.

Lemma complex_square d z : valid_digits d -> (d <= 65000)%Z -> okc d 1000000000 z ->
  let p := ce_mul d true z z in let a := value (re z) in let b := value (im z) in
  finite d (re p) /\ full d (re p) /\ finite d (im p) /\ full d (im p) /\
  Rabs (value (re p) - (a * a - b * b)) <= 2 * eps d * (a * a + b * b) /\
  Rabs (value (im p) - 2 * (a * b)) <= 2 * eps d * Rabs (2 * (a * b)).
Proof.
  intros Hd Hd' [Za Zb]. cbv zeta. unfold ce_mul, c_mul. cbn [re im]. set (a := value (re z)). set (b := value (im z)).
  destruct (two_products d 1000000000 (re z) (re z) (im z) (im z) true Hd Hd' ltac:(lia) Za Za Zb Zb) as [(F1 & P1 & _) E1].
  cbv iota in E1. fold a b in E1. rewrite (Rabs_pos_eq (a * a)), (Rabs_pos_eq (b * b)) in E1 by nra.
  destruct (ok_mul d 1000000000 1000000000 (re z) (im z) Hd ltac:(lia) ltac:(lia) ltac:(lia) Za Zb) as [O2 E2]. fold a b in E2.
  destruct (twice_ok d (1000000000 + 1000000000 + 1) _ Hd ltac:(lia) O2) as [(F3 & P3 & _) E3]. unfold twice_ef.
  split; [exact F1|]. split; [exact P1|]. split; [exact F3|]. split; [exact P3|].
  pose proof (eps_pos d Hd) as Ep. pose proof (tiny_below d Hd Hd') as T. pose proof p10_m36 as E36. split.
  - apply Rle_trans with (1 := E1). apply Rmult_le_compat_r; nra.
  - set (p := value (mul d (re z) (im z))) in *. set (q := value (mul_ull d (mul d (re z) (im z)) 2)) in *.
    rewrite (Rabs_mult 2 p), (Rabs_pos_eq 2) in E3 by lra. rewrite (Rabs_mult 2 (a * b)), (Rabs_pos_eq 2) by lra.
    pose proof (Rabs_triang (p - a * b) (a * b)) as T1. replace (p - a * b + a * b) with p in T1 by ring.
    pose proof (Rabs_triang (q - 2 * p) (2 * (p - a * b))) as T2. replace (q - 2 * p + 2 * (p - a * b)) with (q - 2 * (a * b)) in T2 by ring.
    rewrite (Rabs_mult 2 (p - a * b)), (Rabs_pos_eq 2) in T2 by lra. pose proof (Rabs_pos (a * b)). set (Q := Rabs (a * b)) in *. set (P := Rabs p) in *.
    assert (p10 (- (d + 17)) * (2 * P) <= / 2000 * eps d * (2 * (2 * Q))); [|nra]. apply Rmult_le_compat; try lra; [apply Rmult_le_pos; [lra|apply Rabs_pos]|]. nra.
Qed.

(** quotient *)
Lemma quot_real S A X e1 di dn dm al be ga de : 0 < S -> Rabs X <= A -> Rabs e1 <= al * A -> Rabs di <= be -> Rabs dn <= ga -> Rabs dm <= de ->
  0 <= al <= / 1000 -> 0 <= be <= / 1000 -> 0 <= ga <= / 1000 -> 0 <= de <= / 1000 ->
  Rabs ((X + e1) * ((1 + di) / (S * (1 + dn))) * (1 + dm) - X / S) <= 102 / 100 * (al + be + ga + de) * (A / S).
Proof.
  intros HS HX H1 H2 H3 H4 Hal Hbe Hga Hde.
  assert (HA : 0 <= A) by (pose proof (Rabs_pos X); lra).
  apply Rabs_le_inv in H2, H3, H4.
  set (f := (1 + di) * (1 + dm) / (1 + dn) - 1).
  assert (Hf : Rabs f <= 101 / 100 * (be + ga + de)).
  { assert (E : f = (di + dm + di * dm - dn) / (1 + dn)) by (unfold f; field; lra).
    rewrite E. unfold Rdiv. rewrite Rabs_mult, Rabs_inv, (Rabs_pos_eq (1 + dn)) by lra.
    apply Rmult_le_reg_r with (1 + dn); [lra|]. rewrite Rmult_assoc, Rinv_l, Rmult_1_r by lra.
    assert (Hp : - (be * de) <= di * dm <= be * de) by (apply pb; lra).
    assert (be * de <= / 1000 * de) by nra. apply Rabs_le. split; nra. }
  replace ((X + e1) * ((1 + di) / (S * (1 + dn))) * (1 + dm) - X / S) with ((X * f + e1 * (1 + f)) * / S) by (unfold f; field; lra).
  rewrite Rabs_mult, (Rabs_pos_eq (/ S)) by (left; apply Rinv_0_lt_compat; exact HS).
  unfold Rdiv. rewrite <- Rmult_assoc. apply Rmult_le_compat_r; [left; apply Rinv_0_lt_compat; exact HS|].
  pose proof (Rabs_triang (X * f) (e1 * (1 + f))) as T. rewrite !Rabs_mult in T.
  assert (F1 : Rabs (1 + f) <= 1004 / 1000) by (apply Rabs_le; apply Rabs_le_inv in Hf; lra).
  pose proof (Rabs_pos f) as Pf. pose proof (Rabs_pos e1) as Pe. pose proof (Rabs_pos X) as PX. pose proof (Rabs_pos (1 + f)) as P1f.
  assert (Rabs X * Rabs f <= A * (101 / 100 * (be + ga + de))) by (apply Rmult_le_compat; lra).
  assert (Rabs e1 * Rabs (1 + f) <= al * A * (1004 / 1000)) by (apply Rmult_le_compat; lra).
  nra.
Qed.

Lemma rel_form x y e : y <> 0 -> Rabs (x - y) <= e * Rabs y -> exists del, x = y * (1 + del) /\ Rabs del <= e.
Proof.
  intros N H. exists ((x - y) / y). split; [field; exact N|]. unfold Rdiv. rewrite Rabs_mult, Rabs_inv.
  pose proof (Rabs_pos_lt y N). apply Rmult_le_reg_r with (Rabs y); [assumption|]. rewrite Rmult_assoc, Rinv_l by lra. lra.
Qed.

Lemma complex_quotient d z w : valid_digits d -> (d <= 65000)%Z -> okc d 500000000 z -> okc d 500000000 w ->
  let a := value (re z) in let b := value (im z) in let c := value (re w) in let e := value (im w) in
  let s := c * c + e * e in let q := ce_div d false z w in
  s <> 0 ->
  finite d (re q) /\ full d (re q) /\ finite d (im q) /\ full d (im q) /\
  Rabs (value (re q) - (a * c + b * e) / s) <= 2 * p10 (- d) * ((Rabs (a * c) + Rabs (b * e)) / s) /\
  Rabs (value (im q) - (b * c - a * e) / s) <= 2 * p10 (- d) * ((Rabs (b * c) + Rabs (a * e)) / s).
Proof.
  intros Hd Hd' [Za Zb] [Wc We] a b c e s q Ns. assert (HM : (0 <= 500000000 <= 1000000000)%Z) by lia. unfold q, ce_div, e_div. cbn [re im].
  pose proof (eps_small d Hd Hd') as [_ Es]. pose proof (eps_pos d Hd) as Ep.
  assert (Pd : 0 < p10 (- d) <= / 10000). { split; [apply p10_pos|]. apply Rle_trans with (p10 (- (4))); [apply p10_le; destruct Hd; lia|]. rewrite p10_inv, (powerRZ_pow 10 4) by lia. change (Z.to_nat 4) with 4%nat. cbn [pow]. lra. }
  assert (HS : 0 < s) by (unfold s in *; nra).
  (* norm *)
  destruct (two_products d 500000000 (re w) (re w) (im w) (im w) false Hd Hd' HM Wc Wc We We) as [On En].
  cbv iota in En. fold c e in En. rewrite (Rabs_pos_eq (c * c)), (Rabs_pos_eq (e * e)) in En by nra. fold s in En.
  change (add d (mul d (re w) (re w)) (mul d (im w) (im w))) with (e_norm (add d) (mul d) w) in *. set (n := e_norm (add d) (mul d) w) in *.
  assert (Hn' : Rabs (value n - s) <= 11 / 10 * eps d * Rabs s) by (rewrite (Rabs_pos_eq s) by lra; exact En).
  destruct (rel_form _ _ _ Ns Hn') as (dn & Vn & Hdn).
  pose proof Hdn as Hdn'. apply Rabs_le_inv in Hdn'.
  assert (Nn0 : value n <> 0). { rewrite Vn. apply Rmult_integral_contrapositive_currified; lra. }
  (* inverse *)
  destruct (ok_inv d (2 * 500000000 + 70001) n Hd Hd' ltac:(lia) On Nn0) as [Oi Ei]. set (r := inv d n) in *.
  set (di := value n * value r - 1) in *. assert (Vr : value r = (1 + di) / (s * (1 + dn))).
  { unfold di. rewrite <- Vn. field. exact Nn0. }
  assert (G : forall u A X, ok d 1000070001 u -> Rabs X <= A -> Rabs (value u - X) <= 11 / 10 * eps d * A ->
     finite d (mul d u r) /\ full d (mul d u r) /\ Rabs (value (mul d u r) - X / s) <= 2 * p10 (- d) * (A / s)).
  { intros u A X Ou HX Hu. destruct (ok_mul d 1000070001 (2 * 500000000 + 70001 + 1) u r Hd ltac:(lia) ltac:(lia) ltac:(lia) Ou Oi) as [(F & P & _) E].
    split; [exact F|]. split; [exact P|].
    assert (Q : exists dm, value (mul d u r) = value u * value r * (1 + dm) /\ Rabs dm <= eps d).
    { destruct (Req_dec (value u * value r) 0) as [Z|N]; [|apply rel_form; auto].
      rewrite Z, Rabs_R0, Rmult_0_r, Rminus_0_r in E. exists 0. rewrite Rabs_R0. split; [|lra]. rewrite Z. ring_simplify.
      destruct (Req_dec (value (mul d u r)) 0) as [|N]; auto. pose proof (Rabs_pos_lt _ N). lra. }
    destruct Q as (dm & Vm & Hdm). rewrite Vm, Vr. replace (value u) with (X + (value u - X)) by ring.
    eapply Rle_trans; [apply (quot_real s A X (value u - X) di dn dm (11 / 10 * eps d) (p10 (- d)) (11 / 10 * eps d) (eps d)); auto; lra|].
    assert (0 <= A / s). { apply Rmult_le_pos; [pose proof (Rabs_pos X); lra|left; apply Rinv_0_lt_compat; exact HS]. }
    apply Rmult_le_compat_r; [assumption|]. lra. }
  destruct (two_products d 500000000 (re z) (re w) (im z) (im w) false Hd Hd' HM Za Wc Zb We) as [O1 E1].
  destruct (two_products d 500000000 (im z) (re w) (re z) (im w) true Hd Hd' HM Zb Wc Za We) as [O2 E2].
  cbv iota in E1, E2, O1, O2. change (2 * 500000000 + 70001)%Z with 1000070001%Z in O1, O2. fold a b c e in E1, E2.
  destruct (G (add d (mul d (re z) (re w)) (mul d (im z) (im w))) (Rabs (a * c) + Rabs (b * e)) (a * c + b * e) O1 (Rabs_triang _ _) E1) as (F1 & P1 & G1).
  destruct (G (sub d (mul d (im z) (re w)) (mul d (re z) (im w))) (Rabs (b * c) + Rabs (a * e)) (b * c - a * e) O2) as (F2 & P2 & G2); [|exact E2|].
  { pose proof (Rabs_triang (b * c) (- (a * e))) as T. rewrite Rabs_Ropp in T. exact T. }
  exact (conj F1 (conj P1 (conj F2 (conj P2 (conj G1 G2))))).
Qed.

(** bugs *)
Lemma complex_refuted : let E := of_sll 30 in let V (z : cx ef) := (value (re z), value (im z)) in
  (* 1 / i = i *)
  V (ce_rdiv 30 (E 1%Z) (mkcx (E 0%Z) (E 1%Z))) = (0, 1) /\
  (* sqrt(0) = i *)
  V (ce_sqrt 30 (mkcx (E 0%Z) (E 0%Z))) = (0, 1) /\
  (* sqrt(3 - 4i) = 2 + i *)
  V (mkcx (E 3%Z) (E (-4)%Z)) = (3, -4) /\ V (ce_sqrt 30 (mkcx (E 3%Z) (E (-4)%Z))) = (2, 1) /\
  (* z /= z is 1 for z = 0 *)
  V (ce_div 30 true (mkcx (E 0%Z) (E 0%Z)) (mkcx (E 0%Z) (E 0%Z))) = (1, 0).
Proof.
  cbv zeta.
  assert (H0 : zero 30 = of_sll 30 0) by (vm_compute; reflexivity).
  assert (H1 : one 30 = of_sll 30 1) by (vm_compute; reflexivity).
  assert (V : forall n, (-9223372036854775808 <= n < 9223372036854775808)%Z -> value (of_sll 30 n) = IZR n).
  { intros n Hn. assert (Hv : valid_digits 30) by (unfold valid_digits; lia). destruct (of_sll_spec 30 n Hv Hn) as (_ & _ & H & _). exact H. }
  repeat apply conj.
  - replace (ce_rdiv 30 (of_sll 30 1) (mkcx (of_sll 30 0) (of_sll 30 1))) with (mkcx (of_sll 30 0) (of_sll 30 1)) by (vm_compute; reflexivity).
    cbn [re im]. rewrite !V by lia. reflexivity.
  - replace (ce_sqrt 30 (mkcx (of_sll 30 0) (of_sll 30 0))) with (mkcx (of_sll 30 0) (of_sll 30 1)) by (vm_compute; reflexivity).
    cbn [re im]. rewrite !V by lia. reflexivity.
  - cbn [re im]. rewrite !V by lia. reflexivity.
  - replace (ce_sqrt 30 (mkcx (of_sll 30 3) (of_sll 30 (-4)))) with (mkcx (of_sll 30 2) (of_sll 30 1)) by (vm_compute; reflexivity).
    cbn [re im]. rewrite !V by lia. reflexivity.
  - unfold ce_div, e_div. cbn [re im]. rewrite H0, H1, !V by lia. reflexivity.
Qed.
