(** * Accuracy of the exponential function: argument reduction (proofs only) *)

From Coq Require Import ZArith List Bool Reals Lra Lia Psatz.
From Verif Require Import Model Spec SpecGen Limbs Value CmpProofs AddProofs Decide OrderProofs OrderDec AddExtra MulProofs MulValue MulExtra MulCor
  IntProofs IntPartProofs IntConv MixedProofs IntCor ModelDiv DoubleProofs NewtonProofs InvProofs SqrtProofs ModelPow PowGen PowProofs PowExtra LdexpProofs
  FloatEval ModelGen ModelElem ElemProofs SeriesFloat ExpReal ExpFloat.
Import ListNotations.
Open Scope R_scope.
Ltac Zify.zify_post_hook ::= Z.div_mod_to_equations.
Local Notation p10 := (powerRZ 10).
Local Notation exp := Rtrigo_def.exp.
Local Notation eps := product_error.

Lemma exp_pow x n : exp x ^ n = exp (INR n * x).
Proof.
  induction n as [|n IH]; [cbn [Rpow_def.pow INR]; rewrite Rmult_0_l, exp_0; reflexivity|].
  cbn [Rpow_def.pow]. rewrite IH, S_INR, <- exp_plus. f_equal. ring.
Qed.

Lemma exp_powerRZ n : (0 <= n)%Z -> powerRZ (exp 1) n = exp (IZR n).
Proof. intro H. rewrite (powerRZ_pow (exp 1) n H), exp_pow. f_equal. rewrite INR_IZR_INZ, Z2Nat.id by lia. ring. Qed.

Lemma Ztrunc_pos r : 0 <= r -> (0 <= Ztrunc r)%Z /\ IZR (Ztrunc r) <= r < IZR (Ztrunc r) + 1.
Proof.
  intro H. rewrite Ztrunc_nonneg by exact H. destruct (base_Int_part r) as [A B]. split; [|lra].
  apply Z.lt_succ_r. apply lt_IZR. rewrite succ_IZR. lra.
Qed.

Section FixedDigits.
Variable d : Z.
Hypothesis Hd : valid_digits d.
Hypothesis Hd' : (d <= 4967)%Z.

Local Notation u := (p10 (- d)).

Lemma u_tiny : 0 < u <= / 1000000000000000000000000.
Proof.
  split; [apply p10_pos|]. apply Rle_trans with (p10 (- (24))); [apply p10_le; destruct Hd; lia|]. p10num H 24%nat. rewrite H. lra.
Qed.

Lemma ok_mul_le m m' x y : (0 <= m)%Z -> (0 <= m')%Z -> (m + m' <= 2147483000)%Z -> ok d m x -> ok d m' y ->
  Rabs (value (mul d x y)) <= Rabs (value x * value y).
Proof.
  intros H1 H2 H3 Ox Oy. destruct (Req_dec (value x) 0) as [Zx|Nx]; [|destruct (Req_dec (value y) 0) as [Zy|Ny]].
  1,2: rewrite (mul_zero_l d x y Hd (proj1 Ox) (proj1 Oy)) by auto; destruct (zero_ok d Hd) as (_ & _ & C); rewrite C, Rabs_R0; apply Rabs_pos.
  pose proof (ok_exp d m x Hd Ox Nx). pose proof (ok_exp d m' y Hd Oy Ny).
  destruct Ox as (Fx & Px & _), Oy as (Fy & Py & _).
  destruct (mul_eps_acc d x y Hd Fx Fy Px Py Nx Ny ltac:(lia)) as (_ & _ & _ & A & _). exact A.
Qed.

Lemma ok_of_bounds m x : finite d x -> full d x -> p10 (- m) <= Rabs (value x) <= p10 m -> ok d m x.
Proof. intros F P B. split; [exact F|]. split; [exact P|]. right. exact B. Qed.

Lemma ok_in_range m x : ok d m x -> (m <= 2147483580)%Z -> value x <> 0 -> in_range (value x).
Proof.
  intros (_ & _ & [Z|[A B]]) H N; [contradiction|]. unfold in_range.
  pose proof (p10_le (-2147483590) (- m) ltac:(lia)). pose proof (p10_le m 2147483590 ltac:(lia)). lra.
Qed.

Lemma sub_zero_eq x y : finite d x -> finite d y -> cls (sub d x y) = Finite -> value (sub d x y) = 0 -> value x = value y.
Proof.
  intros Fx Fy C Z. rewrite (sub_as_add d x y Hd Fx Fy) in *. pose proof (negate_finite d y Fy) as Fn. pose proof (negate_value d y Hd Fy) as Vn.
  destruct (add_finite_spec d x (negate y) Hd Fx Fn) as (r & Fr & (_ & _ & R3) & [[E _]|[_ E]]).
  - rewrite E in Z. specialize (R3 Z). lra.
  - rewrite E, signed_inf_eq in C. discriminate C.
Qed.

(** ** The constants *)

Definition close_to (c : ef) (r : R) : Prop := finite d c /\ full d c /\ Rabs (value c - r) <= p10 (- (d + 8)).

Lemma close_ok c r : close_to c r -> 2 / 10 <= r <= 9 -> ok d 1 c.
Proof.
  intros (F & P & B) Hr. apply ok_of_bounds; [exact F|exact P|]. rewrite (p_8 d) in B. pose proof u_tiny. apply Rabs_le_inv in B.
  rewrite (p10_inv 1), p10_1. rewrite Rabs_pos_eq by lra. lra.
Qed.

Variable env : env.
Local Notation ln2 := (c_ln2 env).

Section Scaled.
Hypothesis Hln2 : close_to ln2 (ln 2).
Hypothesis Hrec : value (div d (one d) ln2) * value ln2 < 1.
Variable x : ef.
Hypothesis Fx : finite d x.
Hypothesis Px : full d x.
Hypothesis Vx : / 1000 <= value x <= 2147483616.
Local Notation X := (value x).

Lemma x_ok : ok d 10 x.
Proof.
  apply ok_of_bounds; [exact Fx|exact Px|]. rewrite Rabs_pos_eq by lra. rewrite p10_inv, (powerRZ_pow 10 10) by lia. change (Z.to_nat 10) with 10%nat. cbn [Rpow_def.pow]. lra.
Qed.

Lemma l_bounds : 689 / 1000 < value ln2 < 701 / 1000 /\ Rabs (value ln2 - ln 2) <= u / 100000000.
Proof.
  destruct Hln2 as (_ & _ & B). rewrite (p_8 d) in B. split; [|exact B]. pose proof u_tiny. pose proof ln2_bounds. apply Rabs_le_inv in B. lra.
Qed.

Lemma recip_ok : ok d 2 (div d (one d) ln2) /\ rel (u / 10) (value (div d (one d) ln2)) (/ value ln2).
Proof.
  destruct l_bounds as [L _]. pose proof u_tiny as U. destruct Hln2 as (F & P & _). destruct (PowExtra.one_ok d Hd) as (O1 & O2 & O3).
  pose proof (close_ok ln2 (ln 2) Hln2 ltac:(pose proof ln2_bounds; lra)) as O.
  assert (I : 142 / 100 <= / value ln2 <= 146 / 100).
  { split; apply Rmult_le_reg_r with (value ln2); try lra; rewrite Rinv_l by lra; lra. }
  destruct (div_accurate d (one d) ln2 Hd ltac:(lia) O1 F O2 P) as (A & B & C & _ & D).
  - apply (ok_in_range 1); [exact O|lia|lra].
  - rewrite O3. unfold Rdiv. rewrite Rmult_1_l. unfold in_range. rewrite Rabs_pos_eq by lra.
    pose proof (p10_le (-2147483590) 0 ltac:(lia)) as Q1. pose proof (p10_le 1 2147483590 ltac:(lia)) as Q2. rewrite powerRZ_O in Q1. rewrite p10_1 in Q2. lra.
  - right. rewrite O3. lra.
  - specialize (D Hd'). rewrite O3, (p_1 d) in D. unfold Rdiv in D at 1 3. rewrite Rmult_1_l in D.
    assert (R : rel (u / 10) (value (div d (one d) ln2)) (/ value ln2)) by exact D.
    split; [|exact R]. apply ok_of_bounds; [exact A|exact B|]. pose proof (rel_bound _ _ _ R) as Bd. rewrite (Rabs_pos_eq (/ value ln2)) in Bd by lra.
    rewrite p10_inv, (powerRZ_pow 10 2) by lia. change (Z.to_nat 2) with 2%nat. cbn [Rpow_def.pow]. nra.
Qed.

Local Notation p := (mul d x (div d (one d) ln2)).
Local Notation k := (Ztrunc (value p)).
Local Notation nf := (integer_part d p).

Lemma p_facts : ok d 13 p /\ 0 < value p /\ value p * value ln2 < X /\ X * (1 - 2 / 10 * u) <= value p * value ln2.
Proof.
  destruct l_bounds as [L _]. pose proof u_tiny as U. destruct recip_ok as [Or Rr]. pose proof x_ok as Ox.
  destruct (ok_rel_mul d Hd Hd' 10 2 x (div d (one d) ln2) ltac:(lia) ltac:(lia) ltac:(lia) Ox Or) as [Om Rm].
  pose proof (ok_mul_le 10 2 x (div d (one d) ln2) ltac:(lia) ltac:(lia) ltac:(lia) Ox Or) as Le.
  set (i := value (div d (one d) ln2)) in *. set (l := value ln2) in *. set (q := value p) in *.
  assert (Pi : 0 < / l) by (apply Rinv_0_lt_compat; lra).
  unfold rel in Rr. rewrite (Rabs_pos_eq (/ l)) in Rr by lra. apply Rabs_le_inv in Rr.
  assert (Il : 1 - u / 10 <= i * l).
  { replace (1 - u / 10) with ((/ l - u / 10 * / l) * l) by (field; lra). apply Rmult_le_compat_r; lra. }
  assert (Pi' : 0 < i) by nra.
  unfold rel in Rm. assert (0 < X * i) by (apply Rmult_lt_0_compat; lra). rewrite (Rabs_pos_eq (X * i)) in * by lra.
  apply Rabs_le_inv in Rm. assert (Q0 : 0 < q) by nra. rewrite (Rabs_pos_eq q) in Le by lra.
  split; [exact Om|]. split; [exact Q0|]. split.
  - apply Rle_lt_trans with (X * i * l); [apply Rmult_le_compat_r; lra|]. rewrite Rmult_assoc. nra.
  - apply Rle_trans with ((X * i - u / 1000000 * (X * i)) * l); [|apply Rmult_le_compat_r; lra].
    replace ((X * i - u / 1000000 * (X * i)) * l) with (X * ((i * l) * (1 - u / 1000000))) by ring. apply Rmult_le_compat_l; [lra|]. nra.
Qed.

Lemma k_facts : (0 <= k)%Z /\ IZR k <= value p < IZR k + 1 /\ IZR k <= 146 / 100 * X /\ IZR k * value ln2 < X /\ X - IZR k * value ln2 <= 702 / 1000.
Proof.
  destruct l_bounds as [L _]. pose proof u_tiny as U. destruct p_facts as (_ & P0 & P1 & P2).
  destruct (Ztrunc_pos (value p) ltac:(lra)) as (K0 & K1 & K2). split; [exact K0|]. split; [lra|].
  set (kk := IZR k) in *. set (q := value p) in *. set (l := value ln2) in *.
  assert (0 <= kk) by (unfold kk; apply IZR_le; exact K0).
  split. { apply Rle_trans with q; [exact K1|]. apply Rmult_le_reg_r with l; nra. }
  split. { nra. }
  assert (q * l < (kk + 1) * l) by (apply Rmult_lt_compat_r; lra).
  assert (X * (2 / 10 * u) <= / 10000) by nra. lra.
Qed.

Lemma nf_facts : ok d 10 nf /\ value nf = IZR k.
Proof.
  destruct p_facts as ((Fp & Pp & _) & P0 & P1 & P2). destruct k_facts as (K0 & _ & K1 & K2 & K3). destruct l_bounds as [L _].
  assert (B : value p < 10000000000) by (apply Rmult_lt_reg_r with (value ln2); lra).
  assert (E : (Model.exp p < d - 1)%Z).
  { apply (exp_of_bound d p (d - 1) Hd Fp); [|lra]. rewrite Rabs_pos_eq by lra. apply Rlt_le_trans with (p10 10).
    - rewrite (powerRZ_pow 10 10) by lia. change (Z.to_nat 10) with 10%nat. cbn [Rpow_def.pow]. lra.
    - apply p10_le. destruct Hd. lia. }
  destruct (integer_part_spec d p Hd Fp E) as (F & V & _ & P). split; [|exact V].
  split; [exact F|]. split; [auto|]. rewrite V. destruct (Z.eq_dec k 0) as [->|N]; [left; reflexivity|right].
  assert (1 <= IZR k) by (apply IZR_le; lia). rewrite Rabs_pos_eq by lra.
  rewrite p10_inv, (powerRZ_pow 10 10) by lia. change (Z.to_nat 10) with 10%nat. cbn [Rpow_def.pow]. lra.
Qed.

Local Notation q := (mul d nf ln2).
Local Notation s := (sub d x q).

Lemma s_facts : ok d 80000 s /\ value s <> 0 /\ Rabs (value s - (X - IZR k * ln 2)) <= 102 / 100000000 * u * X /\ Rabs (value s) <= 71 / 100.
Proof.
  destruct l_bounds as [L Ll]. pose proof u_tiny as U. destruct k_facts as (K0 & _ & K1 & K2 & K3). destruct nf_facts as [On Vn]. pose proof x_ok as Ox.
  pose proof (close_ok ln2 (ln 2) Hln2 ltac:(pose proof ln2_bounds; lra)) as Ol.
  destruct (ok_rel_mul d Hd Hd' 10 1 nf ln2 ltac:(lia) ltac:(lia) ltac:(lia) On Ol) as [Oq Rq].
  pose proof (ok_mul_le 10 1 nf ln2 ltac:(lia) ltac:(lia) ltac:(lia) On Ol) as Lq.
  destruct (ok_sub d 12 x q Hd ltac:(lia) ltac:(lia) (ok_le d 10 12 x ltac:(lia) Ox) Oq) as [Os Es].
  rewrite (p_17 d) in Es. unfold rel in Rq. rewrite Vn in Rq, Lq. 
  set (l := value ln2) in *. set (kk := IZR k) in *. assert (P0 : 0 <= kk) by (apply IZR_le; exact K0).
  assert (P1 : 0 <= kk * l) by (apply Rmult_le_pos; lra).
  rewrite (Rabs_pos_eq (kk * l)) in Rq, Lq by lra.
  assert (Qle : Rabs (value q) <= X) by lra.
  rewrite (Rmax_left (Rabs X)) in Es by (rewrite (Rabs_pos_eq X) by lra; exact Qle). rewrite (Rabs_pos_eq X) in Es by lra.
  assert (Rl : Rabs (kk * l - kk * ln 2) <= 146 / 100 * X * (u / 100000000)).
  { replace (kk * l - kk * ln 2) with (kk * (l - ln 2)) by ring. rewrite Rabs_mult, (Rabs_pos_eq kk) by lra. apply Rmult_le_compat; try lra. apply Rabs_pos. }
  assert (Rq' : Rabs (value q - kk * l) <= u / 1000000 * X) by (eapply Rle_trans; [exact Rq|]; apply Rmult_le_compat_l; lra).
  assert (uX : 0 <= u * X <= / 1000000) by nra.
  assert (B1 : Rabs (value s - (X - kk * ln 2)) <= 102 / 100000000 * u * X).
  { replace (value s - (X - kk * ln 2)) with ((value s - (X - value q)) + (- (value q - kk * l) + - (kk * l - kk * ln 2))) by ring.
    eapply Rle_trans; [apply Rabs_triang|]. eapply Rle_trans; [apply Rplus_le_compat_l, Rabs_triang|]. rewrite !Rabs_Ropp. lra. }
  split; [apply (ok_le d (12 + 70000)); [lia|exact Os]|]. split; [|split; [exact B1|]].
  - intro Z. pose proof (sub_zero_eq x q Fx (proj1 Oq) (proj2 (proj1 Os)) Z) as E. rewrite <- E in *. rewrite (Rabs_pos_eq X) in Lq by lra. lra.
  - apply Rabs_le_inv in B1. apply Rabs_le_inv in Rl. apply Rabs_le. lra.
Qed.

Local Notation v := (div_int d s 2048).
Local Notation h := (h0f0 d v).

Lemma h_facts : ok d 1 h /\ 99 / 100 <= value h <= 101 / 100 /\ Rabs (2048 * value v - (X - IZR k * ln 2)) <= (72 / 1000 + 102 / 100000000 * X) * u /\
  Rabs (2048 * value v) <= 72 / 100 /\ rel (101 / 1000000 * u) (value h) (exp (value v)).
Proof.
  pose proof u_tiny as U. destruct s_facts as (Os & Ns & Es & Bs). destruct (ok_div_int d Hd 80000 s 2048 ltac:(lia) Os Ns ltac:(lia)) as (Ov & Nv & Rv).
  unfold rel in Rv. unfold Rdiv in Rv at 2 3. rewrite Rabs_mult, (Rabs_pos_eq (/ 2048)) in Rv by lra.
  assert (R2 : Rabs (2048 * value v - value s) <= 71 / 1000 * u).
  { replace (2048 * value v - value s) with (2048 * (value v - value s * / 2048)) by lra. rewrite Rabs_mult, (Rabs_pos_eq 2048) by lra. nra. }
  assert (B2 : Rabs (2048 * value v) <= 72 / 100).
  { replace (2048 * value v) with ((2048 * value v - value s) + value s) by ring. eapply Rle_trans; [apply Rabs_triang|]. lra. }
  assert (Bv : Rabs (value v) <= / 2800). { rewrite Rabs_mult, (Rabs_pos_eq 2048) in B2 by lra. lra. }
  destruct (h0f0_ok d Hd Hd' 80009 v ltac:(lia) Ov Nv ltac:(lra)) as (Oh & Bh & Eh).
  split; [exact Oh|]. split; [exact Bh|]. split; [|split; [exact B2|]].
  - replace (2048 * value v - (X - IZR k * ln 2)) with ((2048 * value v - value s) + (value s - (X - IZR k * ln 2))) by ring.
    eapply Rle_trans; [apply Rabs_triang|]. lra.
  - unfold rel. pose proof (exp_near_0 (value v) ltac:(lra)) as Ne. apply Rabs_le_inv in Ne. rewrite (Rabs_pos_eq (exp (value v))) by lra.
    eapply Rle_trans; [exact Eh|]. nra.
Qed.

Lemma power_facts : exists P, pown d h 2048 = Defined P /\ ok d 1 P /\ 0 < value P /\
  rel ((32 / 100 + 104 / 100000000 * X) * u) (value P) (exp (X - IZR k * ln 2)).
Proof.
  pose proof u_tiny as U. destruct h_facts as ((Fh & Ph & _) & Bh & Ev & Bv & Rh).
  assert (G : exists N, N = Z.to_nat 2048 /\ INR N = 2048) by (eexists; split; [reflexivity|rewrite INR_IZR_INZ, Z2Nat.id by lia; reflexivity]).
  destruct G as (N & EN & IN).
  assert (R1 : rel (102 / 100 * INR N * (101 / 1000000 * u)) (value h ^ N) (exp (value v) ^ N)) by (apply rel_pow; [lra|rewrite IN; lra|exact Rh]).
  rewrite exp_pow, IN in R1.
  assert (E1 : exp (2048 * value v) <= 2 + 2 /\ / 4 <= exp (2048 * value v)).
  { apply Rabs_le_inv in Bv. assert (Q : exp (2 * ln 2) = 4) by (replace (2 * ln 2) with (ln 2 + ln 2) by ring; rewrite exp_plus, exp_ln by lra; lra).
    pose proof ln2_bounds as LB. split.
    - replace (2 + 2) with (exp (2 * ln 2)) by (rewrite Q; ring). apply Rlt_le, exp_increasing. lra.
    - rewrite <- Q, <- exp_Ropp. apply Rlt_le, exp_increasing. lra. }
  pose proof (rel_bound _ _ _ R1) as B1. rewrite (Rabs_pos_eq (exp _)) in B1 by (left; apply exp_pos).
  assert (B1' : / 5 <= Rabs (value h ^ N) <= 5) by nra.
  assert (IR : in_range (powerRZ (value h) 2048)).
  { rewrite (powerRZ_pow (value h) 2048) by lia. rewrite <- EN. unfold in_range.
    pose proof (p10_le (-2147483590) (- (1)) ltac:(lia)) as Q1. pose proof (p10_le 1 2147483590 ltac:(lia)) as Q2. rewrite p10_inv, p10_1 in Q1. rewrite p10_1 in Q2. lra. }
  assert (DP : exists P, pown d h 2048 = Defined P) by (unfold pown, pown_gen; change (2048 <? 0)%Z with false; cbv iota; eexists; reflexivity).
  destruct DP as (P & EP). exists P. split; [exact EP|].
  destruct (pow_accurate d h 2048 Hd Fh Ph ltac:(lra) ltac:(lia) IR P (or_intror EP)) as (FP & PP & SP & LP & AP).
  rewrite (powerRZ_pow (value h) 2048) in SP, LP, AP by lia. rewrite <- EN in SP, LP, AP.
  assert (Hp : 0 < value h ^ N) by (apply pow_lt; lra).
  assert (VP : 0 < value P) by (apply Rmult_lt_reg_r with (value h ^ N); lra).
  rewrite (Rabs_pos_eq (value h ^ N)) in * by lra. rewrite (Rabs_pos_eq (value P)) in * by lra. rewrite (eps_u d Hd') in AP.
  assert (RP : rel (2048 * (u / 1000000)) (value P) (value h ^ N)).
  { unfold rel. rewrite Rabs_left1 by lra. rewrite (Rabs_pos_eq (value h ^ N)) by lra. lra. }
  assert (R2 : rel (1001 / 1000 * ((72 / 1000 + 102 / 100000000 * X) * u)) (exp (2048 * value v)) (exp (X - IZR k * ln 2))).
  { apply rel_exp; [exact Ev|]. nra. }
  assert (uX : 0 <= u * X <= / 1000000) by nra.
  split; [|split; [exact VP|]].
  - apply ok_of_bounds; [exact FP|exact PP|]. rewrite Rabs_pos_eq by lra. rewrite p10_inv, p10_1. nra.
  - eapply rel_le; [|eapply rel_trans; [|exact RP|eapply rel_trans; [|exact R1|exact R2]]]; [|lra|lra].
    set (a := 2048 * (u / 1000000)). set (b := 102 / 100 * 2048 * (101 / 1000000 * u)). set (c := 1001 / 1000 * ((72 / 1000 + 102 / 100000000 * X) * u)).
    assert (0 <= a <= 21 / 10000 * u) by (unfold a; lra). assert (0 <= b <= 2111 / 10000 * u) by (unfold b; lra).
    assert (0 <= c <= (721 / 10000 + 103 / 100000000 * X) * u) by (unfold c; lra). assert (c <= / 1000) by lra.
    assert (b * c <= b * / 1000) by (apply Rmult_le_compat_l; lra). assert (a * (b + c + b * c) <= a * 1) by (apply Rmult_le_compat_l; lra). lra.
Qed.

Lemma pow2_facts : exists W, obind (extract_sll d nf) (pow2 d) = Defined W /\ ok d 1666666667 W /\ 0 < value W /\
  rel (146 / 100000000 * X * u) (value W) (exp (IZR k * ln 2)).
Proof.
  pose proof u_tiny as U. destruct nf_facts as [(Fn & Pn & _) Vn]. destruct k_facts as (K0 & _ & K1 & K2 & K3).
  assert (K9 : (k <= 4000000000)%Z) by (apply le_IZR; lra).
  destruct (extract_sll_spec d nf Hd Fn) as [E _]. rewrite Vn, Ztrunc_IZR in E.
  assert (N : IZR k <> -9223372036854775808) by (pose proof (IZR_le 0 k K0); lra). specialize (E N).
  assert (C : clamp (-9223372036854775808) 9223372036854775807 k = k) by (unfold clamp; lia). rewrite C in E. rewrite E. cbn [obind].
  destruct (pow2_accurate_wide d k Hd ltac:(lia)) as (W & EW & FW & PW & LW & AW & BW & _). exists W. split; [exact EW|].
  assert (Q : powerRZ 2 k = exp (IZR k * ln 2)).
  { rewrite powerRZ_Rpower by lra. unfold Rpower. reflexivity. }
  rewrite (eps_u d Hd'), Z.abs_eq in AW by lia. pose proof (p2_pos k) as P0.
  assert (1 <= powerRZ 2 k). { rewrite <- (powerRZ_O 2). apply p2_le. exact K0. }
  destruct (p2_range_wide k ltac:(lia)) as [_ P2].
  split; [|split; [lra|]].
  - apply ok_of_bounds; [exact FW|exact PW|]. rewrite Rabs_pos_eq by lra. split; [|lra].
    apply Rle_trans with (p10 (- (1))); [apply p10_le; lia|]. rewrite p10_inv, p10_1. lra.
  - rewrite <- Q. unfold rel. rewrite Rabs_left1 by lra. rewrite (Rabs_pos_eq (powerRZ 2 k)) by lra.
    apply Rle_trans with (IZR k * (u / 1000000) * powerRZ 2 k); [lra|]. apply Rmult_le_compat_r; [lra|].
    apply Rle_trans with (146 / 100 * X * (u / 1000000)); [|right; field]. apply Rmult_le_compat_r; lra.
Qed.

Lemma scaled_ok : exists r, obind2 (mul d) (pown d h 2048) (obind (extract_sll d nf) (pow2 d)) = Defined r /\
  ok d 1700000000 r /\ 0 < value r /\ rel ((34 / 100 + 26 / 10000000 * X) * u) (value r) (exp X).
Proof.
  pose proof u_tiny as U. destruct power_facts as (P & EP & OP & P0 & RP). destruct pow2_facts as (W & EW & OW & W0 & RW).
  rewrite EP, EW. cbn [obind2]. eexists. split; [reflexivity|].
  destruct (ok_rel_mul d Hd Hd' 1 1666666667 P W ltac:(lia) ltac:(lia) ltac:(lia) OP OW) as [Om Rm].
  split; [apply (ok_le d (1 + 1666666667 + 1)); [lia|exact Om]|].
  assert (PW : 0 < value P * value W) by (apply Rmult_lt_0_compat; assumption).
  split. { unfold rel in Rm. rewrite (Rabs_pos_eq (value P * value W)) in Rm by lra. apply Rabs_le_inv in Rm. nra. }
  assert (uX : 0 <= u * X <= / 1000000) by nra.
  assert (R1 : rel ((33 / 100 + 255 / 100000000 * X) * u) (value P * value W) (exp X)).
  { replace (exp X) with (exp (X - IZR k * ln 2) * exp (IZR k * ln 2)) by (rewrite <- exp_plus; f_equal; ring).
    eapply rel_le; [|apply rel_mult; [|exact RP|exact RW]]; [|lra].
    set (a := (32 / 100 + 104 / 100000000 * X) * u). set (b := 146 / 100000000 * X * u).
    assert (0 <= a <= / 10000) by (unfold a; lra). assert (0 <= b) by (unfold b; lra). assert (a * b <= / 10000 * b) by (apply Rmult_le_compat_r; lra).
    unfold a, b in *. lra. }
  eapply rel_le; [|eapply rel_trans; [|exact Rm|exact R1]]; [|lra].
  set (a := (33 / 100 + 255 / 100000000 * X) * u) in *. assert (0 <= a <= / 10000) by (unfold a; lra).
  assert (u / 1000000 * a <= u / 1000000 * / 10000) by (apply Rmult_le_compat_l; lra). unfold a in *. lra.
Qed.

End Scaled.
(** ** All arguments *)

Lemma e_bounds : 2 < exp 1 < 3.
Proof.
  pose proof (exp_remainder 1 5 ltac:(lia) ltac:(rewrite Rabs_pos_eq; lra)) as R. rewrite exp_part_5, exp_term_5 in R.
  rewrite (Rabs_pos_eq (1 ^ 5 / 120)) in R by lra. apply Rabs_le_inv in R. lra.
Qed.

Lemma pow_base_bound b n : 1 <= b -> b * b <= 10 -> 1 <= b ^ n <= p10 ((Z.of_nat n + 1) / 2).
Proof.
  intros H1 H2. split; [apply pow_R1_Rle; exact H1|]. set (m := Z.to_nat ((Z.of_nat n + 1) / 2)).
  apply Rle_trans with (b ^ (2 * m)).
  - apply Rle_pow; [exact H1|]. unfold m. lia.
  - rewrite pow_mult. rewrite (powerRZ_pow 10) by lia. fold m. apply pow_incr. cbn [Rpow_def.pow]. split; nra.
Qed.

Local Notation e := (c_e env).

Lemma power_e_ok n : close_to e (exp 1) -> (0 <= n <= 2147483616)%Z ->
  exists r, pown d e n = Defined r /\ ok d 1073741810 r /\ 0 < value r /\ rel (2 / 1000000 * IZR n * u) (value r) (exp (IZR n)).
Proof.
  intros He Hn. pose proof u_tiny as U. pose proof e_bounds as E3. destruct He as (F & P & B). rewrite (p_8 d) in B.
  assert (B' := B). apply Rabs_le_inv in B'. assert (V : 19 / 10 <= value e <= 31 / 10) by lra.
  set (N := Z.to_nat n). assert (IN : INR N = IZR n) by (unfold N; rewrite INR_IZR_INZ, Z2Nat.id by lia; reflexivity).
  assert (Hn' : 0 <= IZR n <= 2147483616) by (split; apply IZR_le; lia).
  assert (PB : 1 <= value e ^ N <= p10 1073741809).
  { destruct (pow_base_bound (value e) N ltac:(lra) ltac:(nra)) as [A1 A2]. split; [exact A1|]. eapply Rle_trans; [exact A2|]. apply p10_le. unfold N. lia. }
  assert (IR : in_range (powerRZ (value e) n)).
  { rewrite (powerRZ_pow (value e) n) by lia. fold N. unfold in_range. rewrite Rabs_pos_eq by lra.
    pose proof (p10_le (-2147483590) 0 ltac:(lia)) as Q1. pose proof (p10_le 1073741809 2147483590 ltac:(lia)) as Q2. rewrite powerRZ_O in Q1. lra. }
  assert (DP : exists r, pown d e n = Defined r) by (unfold pown, pown_gen; destruct (Z.ltb_spec n 0); [lia|]; eexists; reflexivity).
  destruct DP as (r & ER). exists r. split; [exact ER|].
  destruct (pow_accurate d e n Hd F P ltac:(lra) ltac:(lia) IR r (or_intror ER)) as (FR & PR & SR & LR & AR).
  rewrite (powerRZ_pow (value e) n) in SR, LR, AR by lia. fold N in SR, LR, AR. rewrite (eps_u d Hd') in AR.
  rewrite (Rabs_pos_eq (value e ^ N)) in * by lra. assert (VR : 0 < value r) by (apply Rmult_lt_reg_r with (value e ^ N); lra).
  rewrite (Rabs_pos_eq (value r)) in * by lra.
  assert (nu : 0 <= IZR n * u <= / 1000000) by nra.
  split; [|split; [exact VR|]].
  - apply ok_of_bounds; [exact FR|exact PR|]. rewrite Rabs_pos_eq by lra. split.
    + apply Rle_trans with (p10 (- (1))); [apply p10_le; lia|]. rewrite p10_inv, p10_1. nra.
    + apply Rle_trans with (p10 1073741809); [lra|]. apply p10_le. lia.
  - assert (R1 : rel (IZR n * (u / 1000000)) (value r) (value e ^ N)).
    { unfold rel. rewrite Rabs_left1 by lra. rewrite (Rabs_pos_eq (value e ^ N)) by lra. lra. }
    assert (R2 : rel (102 / 100 * INR N * (u / 100000000)) (value e ^ N) (exp 1 ^ N)).
    { apply rel_pow; [lra|rewrite IN; lra|]. unfold rel. rewrite (Rabs_pos_eq (exp 1)) by lra. nra. }
    rewrite exp_pow, IN, Rmult_1_r in R2. eapply rel_le; [|eapply rel_trans; [|exact R1|exact R2]]; [|lra].
    set (a := IZR n * (u / 1000000)). assert (0 <= a <= / 1000000) by (unfold a; lra).
    replace (102 / 100 * IZR n * (u / 100000000)) with (102 / 10000 * a) by (unfold a; field). replace (2 / 1000000 * IZR n * u) with (2 * a) by (unfold a; field). nra.
Qed.

Lemma recip_rel m r y t : (0 <= m <= 2147483000)%Z -> ok d m r -> 0 < value r -> 0 < y -> 0 <= t <= / 100 -> rel t (value r) y ->
  forall o, o = one d \/ o = of_sll d 1 ->
  finite d (div d o r) /\ full d (div d o r) /\ 0 < value (div d o r) /\ rel (11 / 100 * u + 103 / 100 * t) (value (div d o r)) (/ y).
Proof.
  intros Hm Or Pr Py Ht R o Ho. pose proof u_tiny as U.
  assert (O : finite d o /\ full d o /\ value o = 1) by (destruct Ho as [->| ->]; [apply PowExtra.one_ok; exact Hd|apply one_s_ok; exact Hd]).
  destruct O as (O1 & O2 & O3). destruct Or as (Fr & Pr' & M). destruct M as [|[M1 M2]]; [lra|]. rewrite Rabs_pos_eq in M1, M2 by lra.
  assert (I : 0 < / value r) by (apply Rinv_0_lt_compat; exact Pr).
  assert (IB : p10 (- m) <= / value r <= p10 m).
  { split.
    - rewrite p10_inv. apply Rinv_le_contravar; [exact Pr|exact M2].
    - rewrite <- (Rinv_inv (p10 m)), <- p10_inv. apply Rinv_le_contravar; [apply p10_pos|exact M1]. }
  pose proof (p10_le (-2147483590) (- m) ltac:(lia)) as Q1. pose proof (p10_le m 2147483590 ltac:(lia)) as Q2.
  destruct (div_accurate d o r Hd ltac:(lia) O1 Fr O2 Pr') as (A & B & C & _ & D).
  - unfold in_range. rewrite Rabs_pos_eq by lra. lra.
  - rewrite O3. unfold Rdiv. rewrite Rmult_1_l. unfold in_range. rewrite Rabs_pos_eq by lra. lra.
  - right. rewrite O3. lra.
  - specialize (D Hd'). rewrite O3, (p_1 d) in D. rewrite O3 in C. unfold Rdiv in C. rewrite Rmult_1_l in C. unfold Rdiv in D at 1 3. rewrite Rmult_1_l in D.
    split; [exact A|]. split; [exact B|]. split; [apply Rmult_lt_reg_r with (/ value r); lra|].
    assert (R1 : rel (u / 10) (value (div d o r)) (/ value r)) by exact D.
    pose proof (rel_inv t (value r) y ltac:(lra) Ht R) as R2.
    eapply rel_le; [|eapply rel_trans; [|exact R1|exact R2]]; [|lra]. nra.
Qed.

Lemma series_ok x : close_to ln2 (ln 2) -> value (div d (one d) ln2) * value ln2 < 1 ->
  finite d x -> full d x -> 0 < value x <= 2147483616 -> (- tolerance d <= order x)%Z ->
  exists r, (if (order x >? -4)%Z then
          let nf := integer_part d (mul d x (div d (one d) ln2)) in
          obind2 (mul d)
            (pown d (h0f0 d (div_int d (sub d x (mul d nf ln2)) 2048)) 2048)
            (obind (extract_sll d nf) (pow2 d))
        else Defined (h0f0 d x)) = Defined r /\
  ok d 1700000000 r /\ 0 < value r /\ rel ((34 / 100 + 26 / 10000000 * value x) * u) (value r) (exp (value x)).
Proof.
  intros HL HR F P V HO. pose proof u_tiny as U. destruct (order_spec d x Hd F ltac:(lra)) as [O1 O2]. rewrite Rabs_pos_eq in O1, O2 by lra.
  destruct (Z.gtb_spec (order x) (-4)) as [G|G].
  - assert (Q : / 1000 <= value x). { rewrite <- p10_m3. eapply Rle_trans; [|exact O1]. apply p10_le. lia. }
    cbv zeta. exact (scaled_ok HL HR x F P (conj Q (proj2 V))).
  - assert (Q : value x < / 1000). { rewrite <- p10_m3. eapply Rlt_le_trans; [exact O2|]. apply p10_le. lia. }
    assert (T : (tolerance d <= 5600)%Z) by (destruct (tol_bounds d Hd Hd') as [T _]; lia).
    assert (O : ok d 5600 x).
    { apply ok_of_bounds; [exact F|exact P|]. rewrite Rabs_pos_eq by lra. split.
      - eapply Rle_trans; [|exact O1]. apply p10_le. lia.
      - apply Rle_trans with (p10 0); [rewrite powerRZ_O; lra|apply p10_le; lia]. }
    destruct (h0f0_ok d Hd Hd' 5600 x ltac:(lia) O ltac:(lra) ltac:(rewrite Rabs_pos_eq; lra)) as (A & B & C).
    eexists. split; [reflexivity|]. split; [apply (ok_le d 1); [lia|exact A]|]. split; [lra|].
    unfold rel. pose proof (exp_ineq1 (value x) ltac:(lra)) as E1. rewrite (Rabs_pos_eq (exp (value x))) by lra. rewrite (Rabs_pos_eq (value x)) in C by lra.
    eapply Rle_trans; [exact C|]. assert (0 <= u * value x) by nra.
    assert ((34 / 100 + 26 / 10000000 * value x) * u * 1 <= (34 / 100 + 26 / 10000000 * value x) * u * exp (value x)) by (apply Rmult_le_compat_l; nra).
    nra.
Qed.

Lemma exp_accurate x : close_to ln2 (ln 2) -> value (div d (one d) ln2) * value ln2 < 1 -> close_to e (exp 1) ->
  finite d x -> full d x -> Rabs (value x) <= 2147483616 ->
  exists r, ModelElem.exp d env x = Defined r /\ finite d r /\ full d r /\ 0 < value r /\
  Rabs (value r - exp (value x)) <= (1 / 2 + Rabs (value x) / 200000) * u * exp (value x).
Proof.
  intros HL HR HE F P V. pose proof u_tiny as U.
  cut (exists r, ModelElem.exp d env x = Defined r /\ finite d r /\ full d r /\ 0 < value r /\ rel ((1 / 2 + Rabs (value x) / 200000) * u) (value r) (exp (value x))).
  { intros (r & R1 & R2 & R3 & R4 & R5). exists r. split; [exact R1|]. split; [exact R2|]. split; [exact R3|]. split; [exact R4|].
    unfold rel in R5. rewrite (Rabs_pos_eq (exp (value x))) in R5 by (left; apply exp_pos). exact R5. }
  pose proof (Rabs_pos (value x)) as V0.
  assert (uV : 0 <= u * Rabs (value x) <= / 1000000) by nra.
  unfold ModelElem.exp. replace (isnan x) with false by (unfold isnan; rewrite (proj2 F); reflexivity).
  replace (isinf x) with false by (unfold isinf; rewrite (proj2 F); reflexivity).
  destruct (iszero_isneg_spec d x Hd F) as [Zs Ns].
  destruct (iszero x || (order x <? - tolerance d)%Z) eqn:Sm.
  - destruct (PowExtra.one_ok d Hd) as (O1 & O2 & O3). exists (one d). split; [reflexivity|]. split; [exact O1|]. split; [exact O2|]. split; [lra|].
    assert (Vs : Rabs (value x) <= u / 1000).
    { apply orb_true_iff in Sm. destruct (Req_dec (value x) 0) as [Z|N]; [rewrite Z, Rabs_R0; lra|].
      destruct Sm as [Z|O]; [exfalso; apply N, Zs, Z|]. apply Z.ltb_lt in O. destruct (order_spec d x Hd F N) as [_ O4].
      destruct (tol_bounds d Hd Hd') as [[T _] _]. apply Rlt_le. eapply Rlt_le_trans; [exact O4|]. apply Rle_trans with (p10 (- d + - (3))); [apply p10_le; lia|].
      rewrite p10_add. change (- (3))%Z with (-3)%Z. rewrite p10_m3. lra. }
    rewrite O3. unfold rel. pose proof (exp_near_0 (value x) ltac:(lra)) as Ne. rewrite Rabs_minus_sym. rewrite (Rabs_pos_eq (exp (value x))) by (left; apply exp_pos).
    eapply Rle_trans; [exact Ne|]. apply Rabs_le_inv in Ne.
    assert (1 / 2 * u * (9 / 10) <= (1 / 2 + Rabs (value x) / 200000) * u * exp (value x)) by (apply Rmult_le_compat; nra). lra.
  - apply orb_false_iff in Sm. destruct Sm as [Sz So]. apply Z.ltb_ge in So.
    assert (N : value x <> 0). { intro Z. apply Zs in Z. congruence. }
    destruct (of_sll_spec d max_exp10 Hd ltac:(unfold max_exp10; lia)) as (Fm & _ & Vm & _).
    cbv zeta. set (xx := if negb (isneg x) then x else negate x).
    assert (XX : finite d xx /\ full d xx /\ value xx = Rabs (value x) /\ order xx = order x).
    { unfold xx. destruct (isneg x) eqn:Sg; cbn [negb].
      - assert (value x < 0) by (apply Ns; reflexivity). split; [apply negate_finite; exact F|]. split; [unfold full in *; rewrite negate_prec; exact P|].
        split; [rewrite (negate_value d x Hd F), Rabs_left by assumption; reflexivity|apply order_negate].
      - split; [exact F|]. split; [exact P|]. split; [|reflexivity]. symmetry. apply Rabs_pos_eq. apply Rnot_lt_le. intro C. apply Ns in C. congruence. }
    destruct XX as (Fxx & Pxx & Vxx & Oxx).
    assert (G : op_gt xx (of_sll d max_exp10) = false).
    { destruct (op_gt xx (of_sll d max_exp10)) eqn:G; [|reflexivity]. apply (cmp_all_ops d xx (of_sll d max_exp10) Hd Fxx Fm) in G. rewrite Vm, Vxx in G. change (IZR max_exp10) with 2147483616 in G. lra. }
    rewrite G. clear G.
    assert (PV : 0 < Rabs (value x)) by (apply Rabs_pos_lt; exact N).
    destruct (isint d x) eqn:II.
    + apply (isint_spec d x Hd F) in II. destruct II as [n En].
      assert (Hn : (-2147483616 <= n <= 2147483616)%Z). { rewrite En in V. rewrite <- abs_IZR in V. apply le_IZR in V. lia. }
      destruct (extract_sll_spec d x Hd F) as [E _]. rewrite En in E at 2. rewrite Ztrunc_IZR in E.
      assert (Nn : value x <> -9223372036854775808). { rewrite En. intro C. apply eq_IZR in C. lia. } specialize (E Nn).
      assert (C : clamp (-9223372036854775808) 9223372036854775807 n = n) by (unfold clamp; lia). rewrite C in E. rewrite E. cbn [obind]. clear C E Nn.
      rewrite En in *. destruct (Z_le_gt_dec 0 n) as [S|S].
      * destruct (power_e_ok n HE ltac:(lia)) as (r & E & O & Pr & R). exists r. split; [exact E|]. split; [apply O|]. split; [apply O|]. split; [exact Pr|].
        eapply rel_le; [|exact R]. rewrite (Rabs_pos_eq (IZR n)) in * by (apply IZR_le; exact S). lra.
      * destruct (power_e_ok (- n) HE ltac:(lia)) as (r & E & O & Pr & R).
        assert (An : Rabs (IZR n) = IZR (- n)). { rewrite opp_IZR. apply Rabs_left. apply IZR_lt. lia. } rewrite An in *.
        assert (E' : pown d e n = Defined (div d (of_sll d 1) r)).
        { revert E. unfold pown, pown_gen. destruct (Z.ltb_spec (- n) 0); [lia|]. destruct (Z.ltb_spec n 0); [|lia].
          destruct (Z.eqb_spec n sll_min) as [Y|_]; [unfold sll_min in Y; lia|]. intro E. injection E as <-. reflexivity. }
        destruct (recip_rel 1073741810 r (exp (IZR (- n))) (2 / 1000000 * IZR (- n) * u) ltac:(lia) O Pr ltac:(apply exp_pos)
           ltac:(split; lra) R (of_sll d 1) (or_intror eq_refl)) as (A1 & A2 & A3 & A4).
        exists (div d (of_sll d 1) r). split; [exact E'|]. split; [exact A1|]. split; [exact A2|]. split; [exact A3|].
        rewrite opp_IZR in A4 at 2. rewrite exp_Ropp, Rinv_inv in A4. eapply rel_le; [|exact A4]. lra.
    + destruct (series_ok xx HL HR Fxx Pxx ltac:(lra) ltac:(lia)) as (r & E & O & Pr & R). cbv zeta in E. rewrite E. clear E. rewrite Vxx in R.
      destruct (isneg x) eqn:Sg; cbn [negb omap].
      * assert (Neg : value x < 0) by (apply Ns; reflexivity).
        destruct (recip_rel 1700000000 r (exp (Rabs (value x))) ((34 / 100 + 26 / 10000000 * Rabs (value x)) * u) ltac:(lia) O Pr ltac:(apply exp_pos)
           ltac:(split; lra) R (one d) (or_introl eq_refl)) as (A1 & A2 & A3 & A4).
        exists (div d (one d) r). split; [reflexivity|]. split; [exact A1|]. split; [exact A2|]. split; [exact A3|].
        rewrite (Rabs_left (value x) Neg) in A4 at 2. rewrite exp_Ropp, Rinv_inv in A4. eapply rel_le; [|exact A4]. lra.
      * assert (Pos : 0 <= value x). { apply Rnot_lt_le. intro C. apply Ns in C. discriminate C. }
        exists r. split; [reflexivity|]. split; [apply O|]. split; [apply O|]. split; [exact Pr|].
        rewrite (Rabs_pos_eq (value x) Pos) in R at 2. eapply rel_le; [|exact R]. lra.
Qed.

End FixedDigits.
