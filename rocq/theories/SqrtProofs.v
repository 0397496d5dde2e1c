(** * Square root (proofs only). *)

From Flocq Require Import Core Relative BinarySingleNaN.
From Coq Require Import ZArith List Bool Reals Lra Lia Psatz.
From Verif Require Import Model Spec Limbs Value CmpProofs AddProofs Decide OrderProofs MulProofs MulValue MulCor
  IntProofs ModelDiv NewtonProofs DoubleProofs SeedProofs InvProofs.
Import ListNotations.
Open Scope R_scope.
Ltac Zify.zify_post_hook ::= Z.div_mod_to_equations.
Local Notation p10 := (powerRZ 10).
Local Notation exp := Model.exp.
Local Notation ulp := Spec.ulp.
Local Notation mag := AddProofs.mag.

(** ** One step over the reals *)

Lemma pb x y X Y : - X <= x <= X -> - Y <= y <= Y -> - (X * Y) <= x * y <= X * Y.
Proof.
  intros Hx Hy. assert (0 <= X) by lra. assert (0 <= Y) by lra.
  apply Rabs_le_inv. rewrite Rabs_mult. apply Rmult_le_compat; try apply Rabs_pos; apply Rabs_le; lra.
Qed.

(* new value of vi: relative error *)
Lemma sqrt_real_v F S B s n d1 d2 d3 d4 d5 : 0 <= F <= 1 / 1000000 -> 0 <= S <= 1 / 1000000 -> 0 <= B <= 1 / 100000 ->
  Rabs s <= S -> Rabs n <= B -> Rabs d1 <= F -> Rabs d2 <= F / 100 -> Rabs d3 <= 4 / 7 * F -> Rabs d4 <= F -> Rabs d5 <= 2 / 7 * F ->
  let a := 1 - (1 + s) * (1 + n) * (1 + d1) * (1 + d2) + d3 in
  Rabs a <= 1 / 1000 /\
  Rabs ((1 + n) * (1 + a * (1 + d4) + d5) - 1) <= 1001 / 1000 * (S + B * B) + 2 * F.
Proof.
  intros HF HS HB Hs Hn H1 H2 H3 H4 H5 a.
  apply Rabs_le_inv in Hs, Hn, H1, H2, H3, H4, H5.
  pose proof (pb s n S (1 / 100000) Hs ltac:(lra)) as Bsn.
  pose proof (pb n n B B Hn Hn) as Bnn.
  pose proof (pb (s * n) n (S * (1 / 100000)) (1 / 100000) Bsn ltac:(lra)) as Bsnn.
  pose proof (pb d1 d2 F (1 / 1000) H1 ltac:(lra)) as B12.
  set (sn := s * n) in *. set (e := - (d1 + d2 + d1 * d2)).
  assert (Be : - (1012 / 1000 * F) <= e <= 1012 / 1000 * F) by (unfold e; lra).
  set (k := s + n + sn).
  assert (Bk : - (1 / 10000) <= k <= 1 / 10000) by (unfold k; lra).
  pose proof (pb k e (1 / 10000) (1012 / 1000 * F) Bk Be) as Bke.
  assert (Ha : a = - k + e + k * e + d3) by (unfold a, k, e, sn; ring).
  set (ke := k * e) in *.
  assert (Ba : - (2 / 10000) <= a <= 2 / 10000) by (rewrite Ha; lra).
  split; [apply Rabs_le; lra|].
  pose proof (pb a d4 (2 / 10000) F Ba H4) as Bad.
  replace ((1 + n) * (1 + a * (1 + d4) + d5) - 1) with ((- s - 2 * sn - n * n - sn * n) + (1 + n) * (e + ke + d3 + a * d4 + d5)).
  2: { set (z := a * d4). replace (a * (1 + d4)) with (a + z) by (unfold z; ring). rewrite Ha. unfold k, sn. ring. }
  set (g := e + ke + d3 + a * d4 + d5) in *.
  assert (Bg : - (195 / 100 * F) <= g <= 195 / 100 * F) by (unfold g; lra).
  pose proof (pb n g (1 / 100000) (195 / 100 * F) ltac:(lra) Bg) as Bng.
  clearbody g. apply Rabs_le. split; lra.
Qed.

(* new value of the root: relative error *)
Lemma sqrt_real_s F S s n d6 d7 d8 d9 W : 0 <= F <= 1 / 1000000 -> 0 <= S <= 1 / 1000000 -> 0 <= W <= 1 / 100000 ->
  Rabs s <= S -> Rabs n <= W -> Rabs d6 <= F -> Rabs d7 <= 32 / 100 * F -> Rabs d8 <= F -> Rabs d9 <= 2 / 7 * F ->
  let b := 1 - (1 + s) * (1 + s) * (1 + d6) + d7 in
  Rabs b <= 1 / 1000 /\
  Rabs (s + 1 / 2 * (1 + n) * b * (1 + d8) + (1 + s) * d9) <= 51 / 100 * (S * S) + 1001 / 1000 * (W * S) + 95 / 100 * F.
Proof.
  intros HF HS HW Hs Hn H6 H7 H8 H9 b.
  apply Rabs_le_inv in Hs, Hn, H6, H7, H8, H9.
  pose proof (pb s s S S Hs Hs) as Bss.
  assert (BSS : S * S <= S * (1 / 1000000)) by (apply Rmult_le_compat_l; lra).
  set (ss := s * s) in *. set (k := 2 * s + ss).
  assert (Bk : - (1 / 100000) <= k <= 1 / 100000) by (unfold k; lra).
  pose proof (pb k d6 (1 / 100000) F Bk H6) as Bkd.
  assert (Hb : b = - k - d6 - k * d6 + d7) by (unfold b, k, ss; ring).
  assert (Bb : - (1 / 10000) <= b <= 1 / 10000) by (rewrite Hb; lra).
  split; [apply Rabs_le; lra|].
  pose proof (pb b d8 (1 / 10000) F Bb H8) as Bbd.
  pose proof (pb s d9 (1 / 1000000) (2 / 7 * F) ltac:(lra) H9) as B9.
  replace (s + 1 / 2 * (1 + n) * b * (1 + d8) + (1 + s) * d9) with
    (- (1 / 2) * ss - n * (s + 1 / 2 * ss) + 1 / 2 * ((1 + n) * (- d6 - k * d6 + d7 + b * d8)) + d9 + s * d9).
  2: { set (z := b * d8). replace (1 / 2 * (1 + n) * b * (1 + d8)) with (1 / 2 * (1 + n) * (b + z)) by (unfold z; ring). rewrite Hb. unfold k, ss. field. }
  set (g := - d6 - k * d6 + d7 + b * d8) in *.
  assert (Bg : - (1321 / 1000 * F) <= g <= 1321 / 1000 * F) by (unfold g; lra).
  pose proof (pb n g (1 / 100000) (1321 / 1000 * F) ltac:(lra) Bg) as Bng.
  set (q := s + 1 / 2 * ss) in *.
  assert (Bq : - (1001 / 1000 * S) <= q <= 1001 / 1000 * S) by (unfold q; lra).
  pose proof (pb n q W (1001 / 1000 * S) Hn Bq) as Bn.
  clearbody q g. clear Hb Bbd. apply Rabs_le. split; lra.
Qed.

(** ** Helpers on e_floats *)

Lemma add_opp_exp d u v : valid_digits d -> finite d u -> finite d v -> value u * value v < 0 ->
  finite d (add d u v) -> value (add d u v) <> 0 ->
  (Z.max (exp u) (exp v) - 8 * elem_number d <= exp (add d u v))%Z.
Proof.
  intros Hd Fu Fv Hs Fr Hr. destruct (add_finite_spec d u v Hd Fu Fv) as (r & F & (_ & Hop & _) & [[E _]|[_ E]]).
  - rewrite E in *. destruct (Hop Hs) as (_ & _ & k & Hk).
    assert (K : k <> 0%Z) by (intro; subst k; rewrite Rmult_0_l in Hk; auto).
    assert (L : limb (data r) 0 <> 0%Z) by (apply (value_nonzero_lead d); auto).
    pose proof (finite_abs_bounds d r Hd F L) as [_ B].
    set (e := Z.max (exp u) (exp v)) in *.
    assert (ulp d e <= Rabs (value r)).
    { rewrite Hk, Rabs_mult, (Rabs_pos_eq (ulp d e)) by (apply Rlt_le, ulp_pos). pose proof (ulp_pos d e).
      assert (1 <= Rabs (IZR k)); [|nra]. rewrite <- abs_IZR. apply IZR_le. lia. }
    assert (p10 (e - 8 * (elem_number d - 1)) < p10 (exp r + 8)) as Q by (unfold Spec.ulp in H; lra).
    apply p10_lt_inv in Q. lia.
  - exfalso. destruct Fr as [_ C]. rewrite E, signed_inf_eq in C. discriminate C.
Qed.

Definition Fmul d p := Emul p + Emul (elem_number d).

Lemma mul_ok0 d u v p : valid_digits d -> finite d u -> finite d v -> (2 <= p <= elem_number d)%Z ->
  (prec u = p \/ prec u = elem_number d) -> (prec v = p \/ prec v = elem_number d) ->
  (value v <> 0 -> ~ exponents_overflow u v) -> (value v <> 0 -> ~ exponents_underflow u v) ->
  let r := mul d u v in
  finite d r /\ (prec r = prec u \/ prec r = elem_number d) /\
  exists del, Rabs del <= Fmul d p /\ value r = value u * value v * (1 + del).
Proof.
  intros Hd Fu Fv Hp Pu Pv Ho Hun r. pose proof (elem_number_bounds d Hd).
  assert (EP : 0 < Emul p) by (apply Emul_pos; lia). assert (EN : 0 < Emul (elem_number d)) by (apply Emul_pos; lia).
  assert (Zc : value u = 0 \/ value v = 0 -> finite d r /\ (prec r = prec u \/ prec r = elem_number d) /\
     exists del, Rabs del <= Fmul d p /\ value r = value u * value v * (1 + del)).
  { intro Z0. destruct (mul_finite_cases d u v Hd Fu Fv) as [[_ E]|(L1 & L2 & _)].
    - unfold r. rewrite E. split; [apply zero_finite; auto|]. split; [right; reflexivity|]. exists 0. rewrite Rabs_R0. split; [unfold Fmul; lra|].
      rewrite value_zero by auto. destruct Z0 as [->| ->]; ring.
    - exfalso. destruct Z0 as [Z0|Z0]; apply (finite_zero_iff d) in Z0; auto. }
  destruct (Req_dec (value u) 0) as [U|U]; [apply Zc; auto|]. destruct (Req_dec (value v) 0) as [V|V]; [apply Zc; auto|]. clear Zc.
  destruct (mul_ok d u v Hd Fu Fv U V (Ho V) (Hun V)) as (Fr & _ & Pr & del & Hdel & E).
  split; [exact Fr|]. split; [left; exact Pr|]. exists del. split; [|exact E].
  eapply Rle_trans; [exact Hdel|]. unfold Fmul.
  destruct Pu as [->| ->]; destruct Pv as [->| ->]; rewrite ?Z.min_id, ?Z.min_l, ?Z.min_r by lia; lra.
Qed.

Lemma mul_int2 d w : valid_digits d -> finite d w -> 1 / 4 <= value w <= 1 ->
  let r := mul_int d w 2 in
  finite d r /\ prec r = prec w /\ exists del, Rabs del <= p10 (10 - 8 * prec w) /\ value r = 2 * value w * (1 + del).
Proof.
  intros Hd Fw Bw r. assert (L : limb (data w) 0 <> 0%Z) by (apply (value_nonzero_lead d); auto; lra).
  pose proof (finite_nonzero_flag d w Hd Fw ltac:(lra)) as Zw.
  destruct (mul_small_spec d w 2 Hd Fw L ltac:(lia)) as (Fr & Lr & Pr & Nr & _ & Er & _).
  set (y := IntProofs.mul_small w 2) in *.
  pose proof (finite_value_sign d w Hd Fw L) as Sw. destruct (neg w) eqn:Nw; [lra|].
  pose proof (value_mag d w Fw) as Mw. rewrite Nw in Mw. unfold sign in Mw. rewrite Rmult_1_l in Mw. rewrite <- Mw in Er.
  pose proof (value_mag d y Fr) as My. rewrite Nr in My. unfold sign in My. rewrite Rmult_1_l in My. rewrite <- My in Er.
  assert (P2 : 2 * p10 (8 - 8 * prec w) <= p10 (10 - 8 * prec w)).
  { replace (10 - 8 * prec w)%Z with (2 + (8 - 8 * prec w))%Z by lia. rewrite p10_add, (p10_nonneg 2) by lia. change (10 ^ 2)%Z with 100%Z. pose proof (p10_pos (8 - 8 * prec w)). lra. }
  assert (Pp : p10 (10 - 8 * prec w) <= 1).
  { rewrite <- p10_0. apply p10_le. destruct Fw as [W _]. pose proof (wf_prec _ _ W). lia. }
  pose proof (p10_pos (8 - 8 * prec w)) as P8.
  assert (EQ : r = y).
  { unfold r, mul_int, mul_sll. change (2 =? sll_min)%Z with false. change (2 <? 0)%Z with false. cbn [negb].
    change (u64 2) with 2%Z. rewrite (mul_ull_cases d w 2 Hd Fw ltac:(lia)). rewrite Zw. change (2 =? 0)%Z with false. cbn [orb].
    change (2 >=? mask)%Z with false. change (2 =? 1)%Z with false. fold y. cbv iota.
    assert (OG : op_gt (fabs y) (value_max d) = false); [|rewrite OG; reflexivity].
    destruct (op_gt (fabs y) (value_max d)) eqn:G; auto. exfalso.
    apply (op_gt_spec d _ _ Hd (fabs_finite d y Fr) (value_max_finite d Hd)) in G.
    rewrite (fabs_value d), (value_max_value d) in G by auto. pose proof (max_value_ge d Hd) as MM.
    assert (100 <= p10 max_exp10).
    { apply Rle_trans with (p10 2); [rewrite (p10_nonneg 2) by lia; change (10 ^ 2)%Z with 100%Z; lra|]. apply p10_le. unfold max_exp10. lia. }
    assert (QW : 2 * p10 (8 - 8 * prec w) * (2 * value w) <= 1 * (2 * value w)) by (apply Rmult_le_compat_r; lra).
    apply Rabs_le_inv in Er. rewrite Rabs_pos_eq in G by lra. lra. }
  rewrite EQ. split; [exact Fr|]. split; [exact Pr|].
  exists ((value y - 2 * value w) / (2 * value w)). split; [|field; lra].
  unfold Rdiv. rewrite Rabs_mult, Rabs_inv. apply Rmult_le_reg_r with (Rabs (2 * value w)); [apply Rabs_pos_lt; lra|].
  rewrite Rmult_assoc, Rinv_l by (apply Rabs_no_R0; lra). rewrite Rmult_1_r.
  eapply Rle_trans; [exact Er|]. rewrite (Rabs_pos_eq (2 * value w)) by lra. apply Rmult_le_compat_r; lra.
Qed.

Lemma one_ok_ef d : valid_digits d -> finite d (one d) /\ value (one d) = 1 /\ prec (one d) = elem_number d /\ exp (one d) = 0%Z.
Proof.
  intro Hd. split; [apply one_finite; auto|]. split; [apply one_value; auto|]. unfold one. rewrite of_ull_small by (auto; split; reflexivity). auto.
Qed.

Lemma mul_int_prec_small d p : valid_digits d -> (5 <= p <= elem_number d)%Z -> p10 (10 - 8 * p) <= Emul p / 100.
Proof.
  intros Hd Hp. unfold Emul. pose proof (E0_nonneg p ltac:(lia)).
  replace (16 - 8 * p)%Z with (6 + (10 - 8 * p))%Z by lia. rewrite p10_add, (p10_nonneg 6) by lia. change (10 ^ 6)%Z with 1000000%Z.
  pose proof (p10_pos (10 - 8 * p)). assert (1 <= IZR (E0 p + 2)) by (apply IZR_le; lia). nra.
Qed.

Lemma Emul_N_small d : valid_digits d -> Emul (elem_number d) <= p10 (-20).
Proof. intro Hd. pose proof (elem_number_bounds d Hd). apply (Emul_small d); auto. lia. Qed.

Lemma p10_tenth a : p10 (a - 1) = p10 a / 10.
Proof. rewrite <- (p10_pred a). field. Qed.

Lemma root_exps d x s g r : valid_digits d -> finite d x -> finite d s -> 0 < r -> value x = r * r -> value s = r * (1 + g) ->
  Rabs g <= 1 / 1000 -> (exp x - 16 <= 2 * exp s <= exp x + 8)%Z.
Proof.
  intros Hd Fx Fs Hr Vx Vs Hg. apply Rabs_le_inv in Hg.
  assert (Px : 0 < value x) by (rewrite Vx; nra). assert (Ps : 0 < value s) by (rewrite Vs; nra).
  pose proof (finite_abs_bounds d x Hd Fx ltac:(apply (value_nonzero_lead d); auto; lra)) as Bx.
  pose proof (finite_abs_bounds d s Hd Fs ltac:(apply (value_nonzero_lead d); auto; lra)) as Bs.
  rewrite Rabs_pos_eq in Bx, Bs by lra.
  assert (Q : value s * value s = value x * ((1 + g) * (1 + g))) by (rewrite Vx, Vs; ring).
  assert (G : 99 / 100 <= (1 + g) * (1 + g) <= 101 / 100) by (split; nra).
  pose proof (p10_pos (exp s)) as P1. pose proof (p10_pos (exp s + 8)) as P2.
  destruct (exp8 d x Fx) as [kx Kx]. destruct (exp8 d s Fs) as [ks Ks].
  assert (U : (exp s + exp s < exp x + 9)%Z).
  { apply p10_lt_inv. rewrite p10_add. apply Rle_lt_trans with (value s * value s); [nra|]. rewrite Q.
    replace (exp x + 9)%Z with (exp x + 8 + 1)%Z by lia. rewrite (p10_add (exp x + 8)), p10_1. nra. }
  assert (L : (exp x - 1 < exp s + 8 + (exp s + 8))%Z).
  { apply p10_lt_inv. rewrite (p10_add (exp s + 8)), p10_tenth. apply Rlt_trans with (value s * value s); [|nra]. rewrite Q. nra. }
  lia.
Qed.

Lemma inv_root_exps d s v a : valid_digits d -> finite d s -> finite d v -> 0 < value s -> value v * value s = a ->
  1 / 4 <= a <= 1 -> (-16 <= exp v + exp s <= 0)%Z.
Proof.
  intros Hd Fs Fv Hs E Ha. assert (Hv : 0 < value v) by nra.
  pose proof (finite_abs_bounds d s Hd Fs ltac:(apply (value_nonzero_lead d); auto; lra)) as Bs.
  pose proof (finite_abs_bounds d v Hd Fv ltac:(apply (value_nonzero_lead d); auto; lra)) as Bv.
  rewrite Rabs_pos_eq in Bs, Bv by lra.
  pose proof (p10_pos (exp s)). pose proof (p10_pos (exp v)).
  destruct (exp8 d s Fs) as [ks Ks]. destruct (exp8 d v Fv) as [kv Kv].
  assert (U : (exp v + exp s < 1)%Z).
  { apply p10_lt_inv. rewrite p10_add, p10_1. nra. }
  assert (L : (-1 < exp v + 8 + (exp s + 8))%Z).
  { apply p10_lt_inv. rewrite (p10_add (exp v + 8)). change (-1)%Z with (- (1))%Z. rewrite p10_inv, p10_1. nra. }
  lia.
Qed.

Lemma sqrt_step_ok d x s v m r g n S B : valid_digits d -> (d <= 65000)%Z -> finite d x -> full d x -> in_range (value x) ->
  finite d s -> finite d v -> (1 <= m)%Z ->
  0 < r -> value x = r * r -> value s = r * (1 + g) -> value v = (1 + n) / (2 * r) ->
  Rabs g <= S -> Rabs n <= B -> 0 <= S <= 1 / 1000000 -> 0 <= B <= 1 / 100000 ->
  let F := Fmul d (Z.min (elem_number d) (3 * m + 2)) in
  let W := 1001 / 1000 * (S + B * B) + 2 * F in
  exists s' v' t g' n', sqrt_step d x s v (12 * m) = (s', v', t) /\ finite d s' /\ finite d v' /\
    value s' = r * (1 + g') /\ value v' = (1 + n') / (2 * r) /\
    Rabs n' <= W /\ Rabs g' <= 51 / 100 * (S * S) + 1001 / 1000 * (W * S) + 95 / 100 * F.
Proof.
  intros Hd Hd5 Fx Ux Rx Fs Fv Hm Hr Vx Vs Vv Hg Hn HS HB F W.
  pose proof (elem_number_bounds d Hd) as HN. pose proof (elem_number_digits d Hd) as HN'.
  set (p := Z.min (elem_number d) (3 * m + 2)) in *.
  assert (Hp : (5 <= p <= elem_number d)%Z) by (unfold p; lia).
  assert (HF0 : 0 < F). { unfold F, Fmul. pose proof (Emul_pos p ltac:(lia)). pose proof (Emul_pos (elem_number d) ltac:(lia)). lra. }
  assert (HF1 : F <= 1 / 1000000).
  { unfold F, Fmul. pose proof (Emul_small d p Hd Hp). pose proof (Emul_N_small d Hd).
    assert (p10 (-20) <= / 10000000); [|lra]. apply Rle_trans with (p10 (-7)); [apply p10_le; lia|].
    change (-7)%Z with (- (7))%Z. rewrite p10_inv, p10_nonneg by lia. change (10 ^ 7)%Z with 10000000%Z. lra. }
  assert (HFp : Emul p <= F). { unfold F, Fmul. pose proof (Emul_pos (elem_number d) ltac:(lia)). lra. }
  assert (HA : 7 * p10 (- (d + 17)) <= F). { pose proof (add_below_mul d p Hd Hp). lra. }
  pose proof (p10_pos (- (d + 17))) as PA.
  assert (Px : 0 < value x) by (rewrite Vx; nra).
  pose proof (Rabs_le_inv _ _ Hg) as Hg'. pose proof (Rabs_le_inv _ _ Hn) as Hn'.
  assert (Hexs : (exp x - 16 <= 2 * exp s <= exp x + 8)%Z) by (apply (root_exps d x s g r); auto; lra).
  assert (Hex : (-2147483592 <= exp x <= 2147483590)%Z).
  { pose proof (finite_abs_bounds d x Hd Fx ltac:(apply (value_nonzero_lead d); auto; lra)) as Bx. destruct Rx as [R1 R2].
    destruct (exp8 d x Fx) as [kx Kx]. split.
    - assert (-2147483590 < exp x + 8)%Z; [apply p10_lt_inv; lra|lia].
    - assert (exp x < 2147483591)%Z; [apply p10_lt_inv; eapply Rle_lt_trans; [exact (proj1 Bx)|]; eapply Rle_lt_trans; [exact R2|]; apply p10_lt; lia|lia]. }
  assert (Bsv : value v * value s = (1 + n) * (1 + g) / 2) by (rewrite Vs, Vv; field; lra).
  pose proof (pb n g (1 / 1000) (1 / 1000) ltac:(lra) ltac:(lra)) as Bng.
  assert (Ps : 0 < value s) by (rewrite Vs; nra).
  assert (Hexv : (-16 <= exp v + exp s <= 0)%Z) by (apply (inv_root_exps d s v _ Hd Fs Fv Ps Bsv); lra).
  unfold sqrt_step.
  set (s0 := precision d s (12 * m * 2 + 10)). set (v0 := precision d v (12 * m * 2 + 10)).
  assert (Fs0 : finite d s0) by (apply precision_finite; auto). assert (Fv0 : finite d v0) by (apply precision_finite; auto).
  assert (Ps0 : prec s0 = p) by (apply precision_12; auto). assert (Pv0 : prec v0 = p) by (apply precision_12; auto).
  change (value s) with (value s0) in *. change (value v) with (value v0) in *. change (exp s) with (exp s0) in *. change (exp v) with (exp v0) in *.
  clearbody s0 v0 p. clear Fs Fv s v.
  assert (Pv : 0 < value v0). { rewrite Vv. apply Rmult_lt_0_compat; [lra|]. apply Rinv_0_lt_compat. lra. }
  (* w = s v *)
  destruct (mul_ok0 d s0 v0 p Hd Fs0 Fv0 ltac:(lia) (or_introl Ps0) (or_introl Pv0)) as (Fw & Pw & d1 & H1 & Ew).
  { unfold exponents_overflow. lia. } { unfold exponents_underflow. lia. }
  fold F in H1. set (w := mul d s0 v0) in *. pose proof (Rabs_le_inv _ _ H1) as H1'.
  assert (Vw : value w = 1 / 2 * ((1 + g) * (1 + n) * (1 + d1))).
  { rewrite Ew, (Rmult_comm (value s0)), Bsv. field. }
  pose proof (pb (g + n + n * g) d1 (1 / 100) (1 / 100) ltac:(lra) ltac:(lra)) as Bgd.
  assert (Bw : 45 / 100 <= value w <= 55 / 100).
  { rewrite Vw. replace ((1 + g) * (1 + n) * (1 + d1)) with (1 + (g + n + n * g) + d1 + (g + n + n * g) * d1) by ring. lra. }
  (* 2 w *)
  destruct (mul_int2 d w Hd Fw ltac:(lra)) as (F2 & P2 & d2 & H2 & E2). set (w2 := mul_int d w 2) in *.
  assert (H2' : Rabs d2 <= F / 100).
  { eapply Rle_trans; [exact H2|]. destruct Pw as [->| ->].
    - rewrite Ps0. pose proof (mul_int_prec_small d p Hd Hp). lra.
    - pose proof (mul_int_prec_small d (elem_number d) Hd ltac:(lia)). unfold F, Fmul in *. pose proof (Emul_pos p ltac:(lia)). lra. }
  assert (V2 : value w2 = (1 + g) * (1 + n) * (1 + d1) * (1 + d2)) by (rewrite E2, Vw; field).
  pose proof (Rabs_le_inv _ _ H2') as H2''.
  assert (B2 : 8 / 10 <= value w2 <= 12 / 10).
  { rewrite E2. pose proof (pb (value w) d2 1 (1 / 100) ltac:(lra) ltac:(lra)). lra. }
  assert (Ex2 : (exp w2 = 0 \/ exp w2 = -8)%Z) by (apply (near_one_exp d); auto; lra).
  (* a = 1 - 2 w *)
  destruct (one_ok_ef d Hd) as (F1 & V1 & P1 & X1).
  destruct (negate_spec d w2 Hd F2) as (Fn & Vn & _ & _ & _ & Pn & _).
  assert (Xn : exp (negate w2) = exp w2) by apply negate_exp.
  assert (Hbig : 100 <= p10 max_exp10).
  { apply Rle_trans with (p10 2); [rewrite (p10_nonneg 2) by lia; change (10 ^ 2)%Z with 100%Z; lra|]. apply p10_le. unfold max_exp10. lia. }
  destruct (add_ok d (negate w2) (one d) Hd Fn F1) as (Fa & Ea).
  { rewrite Vn, V1, Rabs_Ropp, (Rabs_pos_eq (value w2)), (Rabs_pos_eq 1) by lra. lra. }
  rewrite Vn, V1, Rabs_Ropp, (Rabs_pos_eq (value w2)), (Rabs_pos_eq 1) in Ea by lra.
  pose proof (prec_add d (negate w2) (one d)) as Pa. rewrite Pn, P2, P1 in Pa.
  assert (Xa : value (add d (negate w2) (one d)) <> 0 -> (-8 * elem_number d - 8 <= exp (add d (negate w2) (one d)))%Z).
  { intro Ha. pose proof (add_opp_exp d (negate w2) (one d) Hd Fn F1 ltac:(rewrite Vn, V1; lra) Fa Ha). lia. }
  set (a := add d (negate w2) (one d)) in *.
  set (d3 := value a - (1 - value w2)).
  assert (H3 : Rabs d3 <= 4 / 7 * F).
  { unfold d3. replace (1 - value w2) with (- value w2 + 1) by ring. eapply Rle_trans; [exact Ea|].
    assert (Rmax (value w2) 1 <= 12 / 10) by (apply Rmax_lub; lra).
    assert (1 <= Rmax (value w2) 1) by apply Rmax_r. nra. }
  assert (Va : value a = 1 - (1 + g) * (1 + n) * (1 + d1) * (1 + d2) + d3) by (unfold d3; rewrite <- V2; ring).
  assert (Pa' : prec a = p \/ prec a = elem_number d).
  { destruct Pw as [Pw|Pw]; rewrite Pw in Pa; rewrite ?Ps0 in Pa; destruct Pa as [|[|]]; auto. }
  (* v' *)
  destruct (sqrt_real_v F S B g n d1 d2 d3 0 0) as (Baa & _); try lra; auto; try (rewrite Rabs_R0; lra).
  rewrite <- Va in Baa.
  assert (Xa2 : value a <> 0 -> (exp a <= 0)%Z).
  { intro Ha. pose proof (finite_abs_bounds d a Hd Fa ltac:(apply (value_nonzero_lead d); auto)) as [Q _].
    assert (exp a < 1)%Z; [|lia]. apply p10_lt_inv. rewrite p10_1. lra. }
  destruct (mul_ok0 d v0 a p Hd Fv0 Fa ltac:(lia) (or_introl Pv0) Pa') as (Fq & Pq & d4 & H4 & Eq).
  { intro Z0. specialize (Xa2 Z0). unfold exponents_overflow. lia. }
  { intro Z0. specialize (Xa Z0). unfold exponents_underflow. lia. }
  fold F in H4. set (q := mul d v0 a) in *. rewrite Pv0 in Pq. pose proof (Rabs_le_inv _ _ H4) as H4'. pose proof (Rabs_le_inv _ _ Baa) as Baa'.
  pose proof (pb (value a) d4 (1 / 1000) (1 / 100) Baa' ltac:(lra)) as Bad.
  assert (Qv : Rabs (value q) <= value v0).
  { rewrite Eq. replace (value v0 * value a * (1 + d4)) with (value v0 * (value a + value a * d4)) by ring.
    rewrite Rabs_mult, (Rabs_pos_eq (value v0)) by lra. rewrite <- (Rmult_1_r (value v0)) at 2. apply Rmult_le_compat_l; [lra|].
    apply Rabs_le. lra. }
  pose proof (finite_abs_bounds d v0 Hd Fv0 ltac:(apply (value_nonzero_lead d); auto; lra)) as Bv. rewrite Rabs_pos_eq in Bv by lra.
  assert (Bigv : 100 * value v0 <= p10 max_exp10).
  { apply Rle_trans with (p10 2 * p10 (exp v0 + 8)).
    - rewrite (p10_nonneg 2) by lia. change (10 ^ 2)%Z with 100%Z. lra.
    - rewrite <- p10_add. apply p10_le. unfold max_exp10. lia. }
  destruct (add_ok d v0 q Hd Fv0 Fq) as (Fv1 & Ev1). { rewrite (Rabs_pos_eq (value v0)) by lra. lra. }
  rewrite (Rabs_pos_eq (value v0)), (Rmax_left (value v0)) in Ev1 by lra.
  pose proof (prec_add d v0 q) as Pv1. rewrite Pv0 in Pv1. set (v1 := add d v0 q) in *.
  assert (Pv1' : prec v1 = p \/ prec v1 = elem_number d) by (destruct Pq as [Pq|Pq]; rewrite Pq in Pv1; destruct Pv1 as [|[|]]; auto).
  set (d5 := (value v1 - (value v0 + value q)) / value v0).
  assert (H5 : Rabs d5 <= 2 / 7 * F).
  { unfold d5, Rdiv. rewrite Rabs_mult, Rabs_inv, (Rabs_pos_eq (value v0)) by lra.
    apply Rmult_le_reg_r with (value v0); [lra|]. rewrite Rmult_assoc, Rinv_l, Rmult_1_r by lra.
    eapply Rle_trans; [exact Ev1|]. apply Rmult_le_compat_r; lra. }
  assert (Ev : value v1 = value v0 * (1 + value a * (1 + d4) + d5)).
  { unfold d5. rewrite Eq. field. lra. }
  set (n1 := (1 + n) * (1 + value a * (1 + d4) + d5) - 1).
  assert (Vv1 : value v1 = (1 + n1) / (2 * r)) by (rewrite Ev, Vv; unfold n1; field; lra).
  assert (Hn1 : Rabs n1 <= W).
  { unfold n1. rewrite Va. destruct (sqrt_real_v F S B g n d1 d2 d3 d4 d5) as (_ & Q); try lra; auto. }
  assert (BB : B * B <= 1 / 100000 * (1 / 100000)) by (apply Rmult_le_compat; lra).
  assert (HBB : 0 <= B * B) by (apply Rmult_le_pos; lra).
  assert (HW : 0 <= W <= 1 / 100000) by (unfold W; lra).
  pose proof (Rabs_le_inv _ _ Hn1) as Hn1'.
  clear Ev1 Ea Eq.
  (* b = x - s^2 *)
  destruct (mul_ok0 d s0 s0 p Hd Fs0 Fs0 ltac:(lia) (or_introl Ps0) (or_introl Ps0)) as (Fss & Pss & d6 & H6 & Ess).
  { unfold exponents_overflow. lia. } { intros _. unfold exponents_underflow. destruct (exp8 d s0 Fs0). lia. }
  fold F in H6. rewrite Ps0 in Pss. set (ss := mul d s0 s0) in *. pose proof (Rabs_le_inv _ _ H6) as H6'.
  assert (Vss : value ss = value x * ((1 + g) * (1 + g) * (1 + d6))) by (rewrite Ess, Vs, Vx; ring).
  pose proof (pb g g (1 / 1000) (1 / 1000) ltac:(lra) ltac:(lra)) as Bgg.
  pose proof (pb (2 * g + g * g) d6 (1 / 100) (1 / 100) ltac:(lra) ltac:(lra)) as Bgd6.
  set (c := (1 + g) * (1 + g) * (1 + d6)) in *.
  assert (Bc : 9 / 10 <= c <= 11 / 10).
  { unfold c. replace ((1 + g) * (1 + g) * (1 + d6)) with (1 + (2 * g + g * g) + d6 + (2 * g + g * g) * d6) by ring. lra. }
  assert (Bss : 9 / 10 * value x <= value ss <= 11 / 10 * value x).
  { rewrite Vss, (Rmult_comm (value x)). split; apply Rmult_le_compat_r; lra. }
  pose proof (finite_abs_bounds d x Hd Fx ltac:(apply (value_nonzero_lead d); auto; lra)) as Bx. rewrite Rabs_pos_eq in Bx by lra.
  assert (Bigx : 100 * value x <= p10 max_exp10).
  { apply Rle_trans with (p10 2 * p10 2147483590).
    - destruct Rx as [_ R2]. rewrite Rabs_pos_eq in R2 by lra. rewrite (p10_nonneg 2) by lia. change (10 ^ 2)%Z with 100%Z. lra.
    - rewrite <- p10_add. apply p10_le. unfold max_exp10. lia. }
  destruct (negate_spec d ss Hd Fss) as (Fns & Vns & _ & _ & _ & Pns & _).
  destruct (add_ok d (negate ss) x Hd Fns Fx) as (Fb & Eb).
  { rewrite Vns, Rabs_Ropp, (Rabs_pos_eq (value ss)), (Rabs_pos_eq (value x)) by lra. lra. }
  rewrite Vns, Rabs_Ropp, (Rabs_pos_eq (value ss)), (Rabs_pos_eq (value x)) in Eb by lra.
  pose proof (prec_add d (negate ss) x) as Pb. rewrite Pns in Pb.
  assert (Sg : - value ss * value x < 0).
  { assert (0 < value ss * value x) by (apply Rmult_lt_0_compat; lra). lra. }
  assert (Xb : value (add d (negate ss) x) <> 0 -> (exp x - 8 * elem_number d <= exp (add d (negate ss) x))%Z).
  { intro Ha. pose proof (add_opp_exp d (negate ss) x Hd Fns Fx) as Q. rewrite Vns in Q. specialize (Q Sg Fb Ha). clear - Q. lia. }
  set (b := add d (negate ss) x) in *.
  set (d7 := (value b - (value x - value ss)) / value x).
  assert (H7 : Rabs d7 <= 32 / 100 * F).
  { unfold d7, Rdiv. rewrite Rabs_mult, Rabs_inv, (Rabs_pos_eq (value x)) by lra.
    apply Rmult_le_reg_r with (value x); [lra|]. rewrite Rmult_assoc, Rinv_l, Rmult_1_r by lra.
    replace (value x - value ss) with (- value ss + value x) by ring. eapply Rle_trans; [exact Eb|].
    assert (Rmax (value ss) (value x) <= 11 / 10 * value x) by (apply Rmax_lub; lra).
    assert (value x <= Rmax (value ss) (value x)) by apply Rmax_r.
    apply Rle_trans with (2 * p10 (- (d + 17)) * (11 / 10 * value x)); [apply Rmult_le_compat_l; lra|].
    rewrite <- Rmult_assoc. apply Rmult_le_compat_r; lra. }
  assert (Vb : value b = value x * (1 - c + d7)) by (unfold d7; rewrite Vss; field; lra).
  destruct (sqrt_real_s F S g n1 d6 d7 0 0 W) as (Bbb & _); try lra; auto; try (rewrite Rabs_R0; lra).
  fold c in Bbb. pose proof (Rabs_le_inv _ _ Bbb) as Bbb'.
  assert (Pb' : prec b = p \/ prec b = elem_number d).
  { unfold full in Ux. destruct Pss as [Pss|Pss]; rewrite Pss, Ux in Pb; destruct Pb as [|[|]]; auto. }
  assert (Bsv1 : value v1 * value s0 = (1 + n1) * (1 + g) / 2) by (rewrite Vs, Vv1; field; lra).
  pose proof (pb n1 g (1 / 1000) (1 / 1000) ltac:(lra) ltac:(lra)) as Bng1.
  assert (Hexv1 : (-16 <= exp v1 + exp s0 <= 0)%Z) by (apply (inv_root_exps d s0 v1 _ Hd Fs0 Fv1 Ps Bsv1); lra).
  assert (Xb2 : value b <> 0 -> (exp b <= exp x + 8)%Z).
  { intro Ha. pose proof (finite_abs_bounds d b Hd Fb ltac:(apply (value_nonzero_lead d); auto)) as [Q _].
    assert (exp b < exp x + 8)%Z; [|lia]. apply p10_lt_inv. apply Rle_lt_trans with (2 := proj2 Bx). eapply Rle_trans; [exact Q|].
    rewrite Vb, Rabs_mult, (Rabs_pos_eq (value x)) by lra. rewrite <- (Rmult_1_r (value x)) at 2. apply Rmult_le_compat_l; lra. }
  destruct (mul_ok0 d v1 b p Hd Fv1 Fb ltac:(lia) Pv1' Pb') as (Ft & _ & d8 & H8 & Et).
  { intro Z0. specialize (Xb2 Z0). unfold exponents_overflow. lia. }
  { intro Z0. specialize (Xb Z0). unfold exponents_underflow. lia. }
  fold F in H8. set (t := mul d v1 b) in *. pose proof (Rabs_le_inv _ _ H8) as H8'.
  set (u := 1 - c + d7) in *.
  assert (Vt : value t = r * (1 / 2 * (1 + n1) * u * (1 + d8))).
  { rewrite Et, Vb, Vv1, Vx. field. lra. }
  pose proof (pb u d8 (1 / 1000) (1 / 100) Bbb' ltac:(lra)) as Bud.
  pose proof (pb n1 (u + u * d8) (1 / 100) (2 / 1000) ltac:(lra) ltac:(lra)) as Bnu.
  assert (Ts : Rabs (value t) <= value s0).
  { rewrite Vt, Vs, Rabs_mult, (Rabs_pos_eq r) by lra. apply Rmult_le_compat_l; [lra|].
    replace (1 / 2 * (1 + n1) * u * (1 + d8)) with (1 / 2 * ((u + u * d8) + n1 * (u + u * d8))) by ring. apply Rabs_le. lra. }
  pose proof (finite_abs_bounds d s0 Hd Fs0 ltac:(apply (value_nonzero_lead d); auto; lra)) as Bs. rewrite Rabs_pos_eq in Bs by lra.
  assert (Bigs : 100 * value s0 <= p10 max_exp10).
  { apply Rle_trans with (p10 2 * p10 (exp s0 + 8)).
    - rewrite (p10_nonneg 2) by lia. change (10 ^ 2)%Z with 100%Z. lra.
    - rewrite <- p10_add. apply p10_le. unfold max_exp10. lia. }
  destruct (add_ok d s0 t Hd Fs0 Ft) as (Fs1 & Es1). { rewrite (Rabs_pos_eq (value s0)) by lra. lra. }
  rewrite (Rabs_pos_eq (value s0)), (Rmax_left (value s0)) in Es1 by lra. set (s1 := add d s0 t) in *.
  set (d9 := (value s1 - (value s0 + value t)) / value s0).
  assert (H9 : Rabs d9 <= 2 / 7 * F).
  { unfold d9, Rdiv. rewrite Rabs_mult, Rabs_inv, (Rabs_pos_eq (value s0)) by lra.
    apply Rmult_le_reg_r with (value s0); [lra|]. rewrite Rmult_assoc, Rinv_l, Rmult_1_r by lra.
    eapply Rle_trans; [exact Es1|]. apply Rmult_le_compat_r; lra. }
  assert (Vs1 : value s1 = r * (1 + (g + 1 / 2 * (1 + n1) * u * (1 + d8) + (1 + g) * d9))).
  { replace (value s1) with (value s0 + value t + value s0 * d9) by (unfold d9; field; lra). rewrite Vt, Vs. ring. }
  exists s1, v1, t, (g + 1 / 2 * (1 + n1) * u * (1 + d8) + (1 + g) * d9), n1.
  split; [reflexivity|]. split; [exact Fs1|]. split; [exact Fv1|]. split; [exact Vs1|]. split; [exact Vv1|]. split; [exact Hn1|].
  destruct (sqrt_real_s F S g n1 d6 d7 d8 d9 W) as (_ & Q); try lra; auto.
Qed.

(** ** The loop *)

Definition sS d q := 2 / 10 * (q * q) + 5 / 2 * Emul (elem_number d).
Definition sB d q := 1 / 2 * q + 7 * Emul (elem_number d).

Lemma Fmul_bound d m q : valid_digits d -> (1 <= m)%Z -> q * q = p10 (- (11 * m)) ->
  Fmul d (Z.min (elem_number d) (3 * m + 2)) <= 1 / 12 * (q * q * (q * q)) + 2 * Emul (elem_number d).
Proof.
  intros Hd Hm Hq. pose proof (elem_number_bounds d Hd). unfold Fmul.
  pose proof (Emul_pos (elem_number d) ltac:(lia)) as PE.
  assert (Q4 : q * q * (q * q) = p10 (- (22 * m))). { rewrite Hq, <- p10_add. f_equal. lia. }
  destruct (Z.le_gt_cases (3 * m + 2) (elem_number d)) as [L|L].
  - rewrite Z.min_r by lia. pose proof (Emul_m d m Hd Hm L). rewrite Q4. lra.
  - rewrite Z.min_l by lia. pose proof (p10_pos (- (22 * m))). lra.
Qed.

Lemma sqrt_inv_real q E F : 0 < q <= 1 / 100000 -> 0 < E <= 1 / 100000000000000000000 -> 0 < F ->
  F <= 1 / 12 * (q * q * (q * q)) + 2 * E ->
  let S := 2 / 10 * (q * q) + 5 / 2 * E in let B := 1 / 2 * q + 7 * E in
  let W := 1001 / 1000 * (S + B * B) + 2 * F in
  W <= 1 / 2 * (q * q) + 7 * E /\
  51 / 100 * (S * S) + 1001 / 1000 * (W * S) + 95 / 100 * F <= 2 / 10 * (q * q * (q * q)) + 5 / 2 * E.
Proof.
  intros Hq HE HF0 HF S B W.
  set (Q := q * q) in *. assert (HQ : 0 < Q <= 1 / 10000000000) by (unfold Q; split; nra).
  assert (HqE : 0 < q * E <= 1 / 100000 * E) by (split; nra).
  assert (HEE : 0 < E * E <= 1 / 100000000000000000000 * E) by (split; nra).
  assert (HQE : 0 < Q * E <= 1 / 10000000000 * E) by (split; nra).
  assert (HQQ : 0 < Q * Q <= 1 / 10000000000 * Q) by (split; nra).
  assert (HB : B * B = 1 / 4 * Q + 7 * (q * E) + 49 * (E * E)) by (unfold B, Q; field).
  assert (HW : W <= 46 / 100 * Q + 66 / 10 * E) by (unfold W, S; rewrite HB; lra).
  assert (HS0 : 0 < S) by (unfold S; lra).
  split; [lra|].
  assert (HSS : S * S = 4 / 100 * (Q * Q) + Q * E + 25 / 4 * (E * E)) by (unfold S; field).
  assert (HWS : W * S <= (46 / 100 * Q + 66 / 10 * E) * S) by (apply Rmult_le_compat_r; lra).
  assert (HWS' : (46 / 100 * Q + 66 / 10 * E) * S = 92 / 1000 * (Q * Q) + 247 / 100 * (Q * E) + 165 / 10 * (E * E)) by (unfold S; field).
  rewrite HSS. lra.
Qed.

Lemma q_small q m : (1 <= m)%Z -> 0 < q -> q * q = p10 (- (11 * m)) -> q <= 1 / 100000.
Proof.
  intros Hm Hq H. assert (p10 (- (11 * m)) <= p10 (- (10))) by (apply p10_le; lia).
  rewrite (p10_inv 10), (p10_nonneg 10) in H0 by lia. change (10 ^ 10)%Z with 10000000000%Z in H0.
  assert (q <= 1 / 100000 \/ 1 / 100000 < q) as [|C] by lra; auto. exfalso.
  assert (1 / 100000 * (1 / 100000) < q * q) by (apply Rmult_gt_0_lt_compat; lra). lra.
Qed.

Lemma E_small d : valid_digits d -> 0 < Emul (elem_number d) <= 1 / 100000000000000000000.
Proof.
  intro Hd. pose proof (elem_number_bounds d Hd). split; [apply Emul_pos; lia|].
  eapply Rle_trans; [apply Emul_N_small; auto|]. change (-20)%Z with (- (20))%Z.
  rewrite (p10_inv 20), (p10_nonneg 20) by lia. change (10 ^ 20)%Z with 100000000000000000000%Z. lra.
Qed.

Lemma sqrt_loop_ok d x r : valid_digits d -> (d <= 65000)%Z -> finite d x -> full d x -> in_range (value x) ->
  0 < r -> value x = r * r ->
  forall fuel s v m q g n, finite d s -> finite d v -> (1 <= m)%Z -> (tolerance d < 12 * m * 2 ^ Z.of_nat fuel)%Z ->
  0 < q -> q * q = p10 (- (11 * m)) ->
  value s = r * (1 + g) -> value v = (1 + n) / (2 * r) -> Rabs g <= sS d q -> Rabs n <= sB d q ->
  exists m' g', (tolerance d < 24 * m')%Z /\ finite d (sqrt_loop d fuel x s v (12 * m)) /\
    value (sqrt_loop d fuel x s v (12 * m)) = r * (1 + g') /\
    Rabs g' <= 2 / 10 * p10 (- (11 * m')) + 5 / 2 * Emul (elem_number d).
Proof.
  intros Hd Hd5 Fx Ux Rx Hr Vx.
  induction fuel as [|f IH]; intros s v m q g n Fs Fv Hm Hf Hq Hqq Vs Vv Hg Hn.
  - exists m, g. cbn [sqrt_loop]. rewrite Z.mul_1_r in Hf. split; [lia|]. split; auto. split; auto. rewrite <- Hqq. exact Hg.
  - cbn [sqrt_loop]. destruct (Z.leb_spec (12 * m) (tolerance d)) as [L|L].
    + pose proof (q_small q m Hm Hq Hqq) as Qs. pose proof (E_small d Hd) as Es.
      assert (QQ : 0 < q * q <= 1 / 100000 * (1 / 100000)) by (split; [nra|apply Rmult_le_compat; lra]).
      destruct (sqrt_step_ok d x s v m r g n (sS d q) (sB d q)) as (s' & v' & t & g' & n' & E & Fs' & Fv' & Vs' & Vv' & Hn' & Hg');
        auto; try (unfold sS, sB; lra).
      rewrite E.
      pose proof (Fmul_bound d m q Hd Hm Hqq) as HF.
      set (F := Fmul d (Z.min (elem_number d) (3 * m + 2))) in *.
      assert (F0 : 0 < F). { unfold F, Fmul. pose proof (elem_number_bounds d Hd). pose proof (Emul_pos (Z.min (elem_number d) (3 * m + 2)) ltac:(lia)). lra. }
      destruct (sqrt_inv_real q (Emul (elem_number d)) F ltac:(lra) Es F0 HF) as (I1 & I2).
      fold (sS d q) in I1, I2. fold (sB d q) in I1, I2.
      assert (Hn2 : Rabs n' <= sB d (q * q)) by (unfold sB at 1; eapply Rle_trans; [exact Hn'|exact I1]).
      assert (Hg2 : Rabs g' <= sS d (q * q)) by (unfold sS at 1; eapply Rle_trans; [exact Hg'|exact I2]).
      assert (Q4 : q * q * (q * q) = p10 (- (11 * (2 * m)))). { rewrite Hqq, <- p10_add. f_equal. lia. }
      destruct ((12 * m >? tolerance d / 4)%Z && (order s' - order t >? tolerance d / 2)%Z)%bool eqn:C.
      * apply andb_prop in C. destruct C as [C _]. apply Z.gtb_lt in C.
        exists (2 * m)%Z, g'. split; [lia|]. split; auto. split; auto. rewrite <- Q4. exact Hg2.
      * replace (12 * m * 2)%Z with (12 * (2 * m))%Z by lia.
        apply IH with (q := q * q) (g := g') (n := n'); auto; try lia; try lra.
        rewrite Nat2Z.inj_succ, Z.pow_succ_r in Hf by lia. lia.
    + exists m, g. split; [lia|]. split; auto. split; auto. rewrite <- Hqq. exact Hg.
Qed.

(** ** The initial values *)

Lemma root_near M X r y : 0 < r -> X = r * r -> 0 <= y -> M = y * y -> Rabs (M - X) <= / 100000000000000 * X ->
  Rabs (y - r) <= / 100000000000000 * r.
Proof.
  intros Hr HX Hy HM H. replace (M - X) with ((y - r) * (y + r)) in H by (subst; ring).
  rewrite Rabs_mult, (Rabs_pos_eq (y + r)) in H by lra. rewrite HX in H.
  apply Rmult_le_reg_r with r; [lra|]. rewrite Rmult_assoc. eapply Rle_trans; [|exact H].
  apply Rmult_le_compat_l; [apply Rabs_pos|lra].
Qed.

Lemma rnd_rel_at x y : / 1000000 <= x -> y = rnd x -> Rabs (y - x) <= / 1000000000000000 * x.
Proof.
  intros Hx ->. destruct (rnd_rel x) as (e & He & E). { rewrite Rabs_pos_eq; lra. }
  rewrite E. replace (x * (1 + e) - x) with (x * e) by ring. rewrite Rabs_mult, (Rabs_pos_eq x), Rmult_comm by lra.
  apply Rmult_le_compat_r; [lra|]. unfold uu in He. lra.
Qed.

Lemma sqrt_parts_ok d x : valid_digits d -> finite d x -> limb (data x) 0 <> 0%Z -> neg x = false -> 0 < value x ->
  exists m k, sqrt_parts x = (m, 2 * k)%Z /\ is_finite m = true /\ 9 / 100 <= D m <= 102 / 10 /\
  Rabs (D m * p10 (2 * k) - value x) <= / 100000000000000 * value x.
Proof.
  intros Hd Fx L Nx Px. destruct (parts_mantissa_ok d x Hd Fx L Nx) as (Fm & Bm & Em). unfold sqrt_parts.
  set (m := parts_mantissa x) in *. set (e := parts_exponent x) in *.
  destruct (Z.eqb_spec (Z.rem e 2) 0) as [R|R].
  - exists m, (e / 2)%Z. assert (Ee : (e = 2 * (e / 2))%Z).
    { apply Z.rem_divide in R; [|lia]. destruct R as [z Hz]. rewrite Hz, Z.div_mul by lia. lia. }
    rewrite <- Ee. split; auto. split; auto. split; [lra|]. lra.
  - destruct ten_ok as [F10 V10]. destruct (ddiv_ok m (d_of_Z 10) Fm ltac:(rewrite V10; lra)) as [Fq Vq].
    { rewrite V10. rewrite Rabs_pos_eq; lra. }
    rewrite V10 in Vq. destruct (rnd_rel (D m / 10)) as (h & Hh & E). { rewrite Rabs_pos_eq; lra. }
    rewrite E in Vq. apply Rabs_le_inv in Hh. unfold uu in Hh.
    exists (ddiv m (d_of_Z 10)), ((e + 1) / 2)%Z.
    assert (Ee : (e + 1 = 2 * ((e + 1) / 2))%Z).
    { assert (e mod 2 = 1)%Z. { destruct (Z.mod_pos_bound e 2 ltac:(lia)). assert (e mod 2 <> 0)%Z; [|lia]. intro Z0. apply R. apply Z.rem_divide; [lia|]. apply Z.mod_divide; [lia|auto]. } lia. }
    rewrite <- Ee. split; auto. split; auto. split; [rewrite Vq; nra|].
    set (M := D m * p10 e) in *.
    replace (D (ddiv m (d_of_Z 10)) * p10 (e + 1)) with (M * (1 + h)). 2: { rewrite Vq, p10_add, p10_1. unfold M. field. }
    apply Rabs_le_inv in Em. assert (PM : 0 < M) by lra.
    pose proof (pb M h M (/ 4503599627370496) ltac:(lra) ltac:(lra)). apply Rabs_le. lra.
Qed.

Lemma rel_factor y r e : 0 < r -> Rabs (y - r) <= e * r -> exists g, y = r * (1 + g) /\ Rabs g <= e.
Proof.
  intros Hr H. exists ((y - r) / r). split; [field; lra|]. unfold Rdiv. rewrite Rabs_mult, Rabs_inv, (Rabs_pos_eq r) by lra.
  apply Rmult_le_reg_r with r; auto. rewrite Rmult_assoc, Rinv_l by lra. lra.
Qed.

Lemma sqrt_seed_ok d x r : valid_digits d -> finite d x -> limb (data x) 0 <> 0%Z -> neg x = false -> 0 < r -> value x = r * r ->
  let dd := fst (sqrt_parts x) in let ne := snd (sqrt_parts x) in
  let s := of_double d (dsqrt dd) (Z.quot ne 2) in
  let v := of_double d (ddiv (ddiv (d_of_Z 1) (d_of_Z 2)) (dsqrt dd)) (Z.quot (- ne) 2) in
  finite d s /\ finite d v /\
  exists g n, value s = r * (1 + g) /\ value v = (1 + n) / (2 * r) /\ Rabs g <= / 10000000000000 /\ Rabs n <= / 1000000000000.
Proof.
  intros Hd Fx L Nx Hr Vx dd ne s v.
  assert (Px : 0 < value x) by (rewrite Vx; nra).
  destruct (sqrt_parts_ok d x Hd Fx L Nx Px) as (m & k & E & Fm & Bm & Em).
  unfold dd, ne in *. clear dd ne. unfold s, v. rewrite E. cbn [fst snd].
  assert (K1 : Z.quot (2 * k) 2 = k). { rewrite Z.mul_comm. apply Z.quot_mul. lia. }
  assert (K2 : Z.quot (- (2 * k)) 2 = (- k)%Z). { replace (- (2 * k))%Z with (- k * 2)%Z by lia. apply Z.quot_mul. lia. }
  rewrite K1, K2. clear s v.
  set (y := R_sqrt.sqrt (D m)).
  assert (Yp : 0 <= y) by apply R_sqrt.sqrt_pos. assert (Yy : y * y = D m) by (apply R_sqrt.sqrt_sqrt; lra).
  assert (By : 3 / 10 <= y <= 32 / 10) by (split; nra).
  destruct (dsqrt_ok m Fm ltac:(lra)) as [Fz Vz]. fold y in Vz. set (z := dsqrt m) in *.
  pose proof (rnd_rel_at y (D z) ltac:(lra) Vz) as Ez. pose proof (Rabs_le_inv _ _ Ez) as Ez'.
  assert (Bz : 29 / 100 <= D z <= 33 / 10) by lra.
  destruct (of_double_ok d z k Hd Fz ltac:(lra)) as (Fs & _ & _ & _ & Es).
  set (s := of_double d z k) in *.
  destruct one_ok as [F1 V1]. destruct (d_of_Z_ok 2 ltac:(lia)) as [F2 V2].
  destruct (ddiv_ok (d_of_Z 1) (d_of_Z 2) F1 ltac:(rewrite V2; lra)) as [Fh Vh]. { rewrite V1, V2, Rabs_pos_eq; lra. }
  rewrite V1, V2 in Vh.
  assert (Vh' : D (ddiv (d_of_Z 1) (d_of_Z 2)) = 1 / 2).
  { rewrite Vh. apply rnd_id. apply (generic_format_FLT radix2 (-1074) 53). exists (Float radix2 1 (-1)); [|reflexivity|simpl; lia].
    unfold F2R. cbn [Fnum Fexp]. change (bpow radix2 (-1)) with (/ 2). lra. }
  set (h := ddiv (d_of_Z 1) (d_of_Z 2)) in *.
  assert (Iz : 10 / 33 <= / D z <= 100 / 29).
  { split; [replace (10 / 33) with (/ (33 / 10)) by field|replace (100 / 29) with (/ (29 / 100)) by field]; apply Rinv_le_contravar; lra. }
  destruct (ddiv_ok h z Fh ltac:(lra)) as [Fw Vw]. { rewrite Vh'. unfold Rdiv. rewrite Rabs_pos_eq by nra. nra. }
  rewrite Vh' in Vw. set (w := ddiv h z) in *.
  assert (HI : 1 / 2 / D z = / D z / 2) by (field; lra).
  pose proof (rnd_rel_at (1 / 2 / D z) (D w) ltac:(rewrite HI; lra) Vw) as Ew. pose proof (Rabs_le_inv _ _ Ew) as Ew'.
  assert (Bw : 1 / 16 <= D w < 10) by (rewrite HI in Ew'; lra).
  destruct (of_double_ok d w (- k) Hd Fw Bw) as (Fv & _ & _ & _ & Ev).
  set (v := of_double d w (- k)) in *.
  split; [exact Fs|]. split; [exact Fv|].
  pose proof (p10_pos k) as Pk.
  assert (Er : Rabs (y * p10 k - r) <= / 100000000000000 * r).
  { apply root_near with (M := D m * p10 (2 * k)) (X := value x); auto.
    - apply Rmult_le_pos; lra.
    - replace (2 * k)%Z with (k + k)%Z by lia. rewrite p10_add, <- Yy. ring. }
  destruct (rel_factor (y * p10 k) r _ Hr Er) as (g1 & G1 & B1).
  destruct (rel_factor (D z) y _ ltac:(lra) Ez) as (g2 & G2 & B2).
  destruct (rel_factor (value s) (D z * p10 k) _ ltac:(apply Rmult_lt_0_compat; lra) Es) as (g3 & G3 & B3).
  assert (W0 : 0 < 1 / 2 / D z) by (rewrite HI; lra).
  destruct (rel_factor (D w) (1 / 2 / D z) _ W0 Ew) as (g4 & G4 & B4).
  destruct (rel_factor (value v) (D w * p10 (- k)) _ ltac:(apply Rmult_lt_0_compat; [lra|apply p10_pos]) Ev) as (g5 & G5 & B5).
  apply Rabs_le_inv in B1, B2, B3, B4, B5.
  pose proof (pb g1 g2 (/ 1000000) (/ 100000000000000) ltac:(lra) ltac:(lra)) as C12.
  set (h12 := g1 + g2 + g1 * g2) in *.
  assert (Vz1 : D z * p10 k = r * (1 + h12)). { rewrite G2. unfold h12. replace (y * (1 + g2) * p10 k) with (y * p10 k * (1 + g2)) by ring. rewrite G1. ring. }
  assert (B12 : - (/ 50000000000000) <= h12 <= / 50000000000000) by (unfold h12; lra).
  pose proof (pb h12 g3 (/ 1000000) (/ 100000000000000) ltac:(lra) ltac:(lra)) as C123.
  pose proof (pb g4 g5 (/ 1000000) (/ 100000000000000) ltac:(lra) ltac:(lra)) as C45.
  exists (h12 + g3 + h12 * g3). exists ((g4 + g5 + g4 * g5 - h12) / (1 + h12)).
  split. { rewrite G3, Vz1. ring. }
  split. { rewrite G5, G4, p10_inv. replace (1 / 2 / D z * (1 + g4) * / p10 k * (1 + g5)) with ((1 + g4) * (1 + g5) / (2 * (D z * p10 k))) by (field; split; lra).
    rewrite Vz1. field. split; lra. }
  split; [apply Rabs_le; lra|].
  unfold Rdiv. rewrite Rabs_mult, Rabs_inv, (Rabs_pos_eq (1 + h12)) by lra.
  apply Rmult_le_reg_r with (1 + h12); [lra|]. rewrite Rmult_assoc, Rinv_l, Rmult_1_r by lra. apply Rabs_le. lra.
Qed.

Lemma sqrt_accurate d x : valid_digits d -> (d <= 65000)%Z -> finite d x -> full d x -> in_range (value x) -> 0 < value x ->
  finite d (sqrt d x) /\ full d (sqrt d x) /\ 0 < value (sqrt d x) /\
  Rabs (value (sqrt d x) * value (sqrt d x) - value x) < p10 (- (d / 2)) * value x.
Proof.
  intros Hd Hd5 Fx Ux Rx Px.
  pose proof (elem_number_bounds d Hd) as HN. pose proof (elem_number_digits d Hd) as HN'.
  assert (L : limb (data x) 0 <> 0%Z) by (apply (value_nonzero_lead d); auto; lra).
  pose proof (finite_value_sign d x Hd Fx L) as Sx. destruct (neg x) eqn:Nx; [lra|].
  destruct (iszero_isneg_spec d x Hd Fx) as [Iz In].
  assert (In' : isneg x = false) by (destruct (isneg x); auto; pose proof (proj1 In eq_refl); lra).
  assert (Iz' : iszero x = false) by (destruct (iszero x); auto; pose proof (proj1 Iz eq_refl); lra).
  assert (If : isfinite x = true). { destruct Fx as [_ C]. unfold isfinite. rewrite C. reflexivity. }
  pose proof (p10_pos (- (d / 2))) as Pd.
  unfold sqrt. rewrite In', If, Iz'. cbn [negb orb].
  destruct (isone x) eqn:I1.
  { apply (isone_spec d x Hd Fx) in I1. split; auto. split; auto. split; auto.
    pose proof (p10_pos (- (8 * elem_number d))) as P8. set (e := p10 (- (8 * elem_number d))) in *.
    replace (value x * value x - value x) with ((value x - 1) * value x) by ring.
    rewrite Rabs_mult, (Rabs_pos_eq (value x)) by lra. apply Rmult_lt_compat_r; auto. rewrite I1.
    replace (1 - e - 1) with (- e) by ring. rewrite Rabs_Ropp, Rabs_pos_eq by lra. apply p10_lt. lia. }
  destruct (sqrt_parts x) as [dd ne] eqn:Ep.
  set (r := R_sqrt.sqrt (value x)).
  assert (Hr : 0 < r) by (apply R_sqrt.sqrt_lt_R0; auto). assert (Vx : value x = r * r) by (symmetry; apply R_sqrt.sqrt_sqrt; lra).
  destruct (sqrt_seed_ok d x r Hd Fx L Nx Hr Vx) as (Fs & Fv & g & n & Vs & Vv & Hg & Hn). rewrite Ep in *. cbn [fst snd] in *.
  set (s := of_double d (dsqrt dd) (Z.quot ne 2)) in *.
  set (v := of_double d (ddiv (ddiv (d_of_Z 1) (d_of_Z 2)) (dsqrt dd)) (Z.quot (- ne) 2)) in *.
  set (q := R_sqrt.sqrt (p10 (- (11 * 1)))).
  assert (P11 : p10 (- (11 * 1)) = / 100000000000). { change (11 * 1)%Z with 11%Z. rewrite p10_inv, p10_nonneg by lia. reflexivity. }
  assert (Qp : 0 < q) by (apply R_sqrt.sqrt_lt_R0, p10_pos). assert (Qq : q * q = p10 (- (11 * 1))) by (apply R_sqrt.sqrt_sqrt, Rlt_le, p10_pos).
  assert (Ql : / 1000000 <= q). { assert (/ 1000000 <= q \/ q < / 1000000) as [|C] by lra; auto. exfalso. assert (q * q < / 1000000 * / 1000000) by (apply Rmult_le_0_lt_compat; lra). rewrite Qq, P11 in H. lra. }
  pose proof (E_small d Hd) as Es.
  destruct (sqrt_loop_ok d x r Hd Hd5 Fx Ux Rx Hr Vx 40 s v 1 q g n) as (m & g' & Hm & Fr & Vr & Hg'); auto; try lia.
  { unfold tolerance, max_digits10, valid_digits in *. change (2 ^ Z.of_nat 40)%Z with 1099511627776%Z. lia. }
  { unfold sS. rewrite Qq, P11. lra. } { unfold sB. lra. }
  change (12 * 1)%Z with 12%Z in *. set (y := sqrt_loop d 40 x s v 12) in *.
  destruct (bnd_final_large d (tolerance d + 1) Hd Hd5) as (_ & EN). { unfold tolerance, max_digits10, valid_digits in *. lia. }
  assert (B1 : p10 (- (11 * m)) <= p10 (- (d / 2))).
  { apply p10_le. unfold tolerance, max_digits10, valid_digits in *. lia. }
  assert (B2 : p10 (- d) <= 1 / 1000 * p10 (- (d / 2))).
  { apply Rle_trans with (p10 (-3) * p10 (- (d / 2))).
    - rewrite <- p10_add. apply p10_le. unfold valid_digits in Hd. lia.
    - apply Rmult_le_compat_r; [lra|]. change (-3)%Z with (- (3))%Z. rewrite p10_inv, p10_nonneg by lia. change (10 ^ 3)%Z with 1000%Z. lra. }
  assert (B3 : p10 (- (d / 2)) <= 1 / 10).
  { apply Rle_trans with (p10 (- (1))); [apply p10_le; unfold valid_digits in Hd; lia|]. rewrite p10_inv, p10_1. lra. }
  set (T := p10 (- (d / 2))) in *.
  assert (G : Rabs g' <= 21 / 100 * T) by lra. apply Rabs_le_inv in G.
  assert (Fz : finite d (set_prec y (prec x))) by (apply set_prec_finite; auto; apply (wf_prec d x), Fx).
  split; [exact Fz|]. split; [exact Ux|]. rewrite set_prec_value, Vr.
  split; [apply Rmult_lt_0_compat; lra|].
  replace (r * (1 + g') * (r * (1 + g')) - value x) with ((2 * g' + g' * g') * value x) by (rewrite Vx; ring).
  rewrite Rabs_mult, (Rabs_pos_eq (value x)) by lra. apply Rmult_lt_compat_r; auto.
  pose proof (pb g' g' (1 / 10) (21 / 100 * T) ltac:(lra) ltac:(lra)). apply Rabs_def1; lra.
Qed.

Lemma sqrt_special d x : valid_digits d -> wf d x ->
  (finite d x -> value x < 0 -> is_nan (sqrt d x)) /\ (is_nan x -> is_nan (sqrt d x)) /\
  (forall b, is_inf x b -> is_nan (sqrt d x)) /\ (finite d x -> value x = 0 -> finite d (sqrt d x) /\ value (sqrt d x) = 0).
Proof.
  intros Hd W. unfold sqrt. split; [|split; [|split]].
  - intros F V. rewrite (proj2 (proj2 (iszero_isneg_spec d x Hd F)) V). reflexivity.
  - intro H. unfold isfinite. rewrite H. rewrite orb_true_r. reflexivity.
  - intros b [H _]. unfold isfinite. rewrite H. rewrite orb_true_r. reflexivity.
  - intros F V. destruct (iszero_isneg_spec d x Hd F) as [Iz In]. rewrite (proj2 Iz V).
    assert (In' : isneg x = false) by (destruct (isneg x); auto; pose proof (proj1 In eq_refl); lra).
    destruct F as [W' C]. unfold isfinite. rewrite In', C. cbn [negb orb]. split; [split|]; auto.
Qed.

(** ** Early termination of the iteration *)

(* 1 + 2*10^-97 with 173 digits *)
Definition near_one_173 : ef := mkef (1 :: repeat 0 12 ++ [20000000] ++ repeat 0 11)%Z 0 false Finite 25.

Lemma sqrt_refuted_ex :
  finite 173 near_one_173 /\ value near_one_173 = 1 + 2 * p10 (-97) /\ finite 173 (sqrt 173 near_one_173) /\
  value (sqrt 173 near_one_173) * value (sqrt 173 near_one_173) - value near_one_173 > p10 (-104).
Proof.
  assert (Fx : finite 173 near_one_173) by (apply wfb_finite; vm_compute; reflexivity).
  assert (Fs : finite 173 (sqrt 173 near_one_173)) by (apply wfb_finite; vm_compute; reflexivity).
  pose proof (multiple_sv 173 _ Fx) as Vx. pose proof (multiple_sv 173 _ Fs) as Vs.
  set (s := sqrt 173 near_one_173) in *.
  assert (Ax : sv near_one_173 = (10 ^ 192 + 2 * 10 ^ 95)%Z) by (vm_compute; reflexivity).
  assert (As : sv s = (10 ^ 192 + 100000005 * 10 ^ 87)%Z) by (vm_compute; reflexivity).
  assert (Ux : ulp 173 (exp near_one_173) = p10 (- (192))) by reflexivity.
  assert (Us : ulp 173 (exp s) = p10 (- (192))). { assert (E : exp s = 0%Z) by (vm_compute; reflexivity). rewrite E. reflexivity. }
  rewrite Ax, Ux in Vx. rewrite As, Us in Vs.
  assert (Q : forall a b, (0 <= a)%Z -> p10 (a) * p10 (b) = p10 (a + b)) by (intros; rewrite p10_add; auto).
  assert (V1 : value near_one_173 = 1 + 2 * p10 (-97)).
  { rewrite Vx, plus_IZR, mult_IZR, <- (p10_nonneg 192), <- (p10_nonneg 95) by lia.
    rewrite Rmult_plus_distr_r, Rmult_assoc, !Q by lia. change (192 + - (192))%Z with 0%Z. change (95 + - (192))%Z with (-97)%Z. rewrite p10_0. reflexivity. }
  assert (V2 : value s = 1 + 100000005 * p10 (-105)).
  { rewrite Vs, plus_IZR, mult_IZR, <- (p10_nonneg 192), <- (p10_nonneg 87) by lia.
    rewrite Rmult_plus_distr_r, Rmult_assoc, !Q by lia. change (192 + - (192))%Z with 0%Z. change (87 + - (192))%Z with (-105)%Z. rewrite p10_0. reflexivity. }
  split; auto. split; auto. split; auto. rewrite V1, V2.
  replace (-97)%Z with (8 + -105)%Z by lia. replace (-104)%Z with (1 + -105)%Z by lia.
  rewrite (p10_add 8), (p10_add 1), p10_1, (p10_nonneg 8) by lia. change (10 ^ 8)%Z with 100000000%Z.
  pose proof (p10_pos (-105)). nra.
Qed.
