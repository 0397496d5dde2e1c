(** * Accuracy of log near one, and log1p of zero (proofs only) *)

From Coq Require Import ZArith List Bool Reals Lra Lia Psatz.
From Verif Require Import Model Spec SpecGen Limbs Value CmpProofs AddProofs Decide OrderProofs OrderDec AddExtra MulProofs MulValue MulExtra MulCor
  IntProofs IntPartProofs IntConv MixedProofs IntCor ModelDiv DoubleProofs NewtonProofs InvProofs SqrtProofs ModelPow PowGen PowProofs PowExtra LdexpProofs
  StrAny FloatEval ModelGen ModelElem ElemProofs SeriesFloat ExpReal ExpFloat ExpAcc ConstReal SinReal SinFloat SinStep SinAcc SinTiny HyperFloat AtanSer AtanTop LogSer.
Import ListNotations.
Open Scope R_scope.
Ltac Zify.zify_post_hook ::= Z.div_mod_to_equations.
Local Notation p10 := (powerRZ 10).

Section FixedDigits.
Variable d : Z.
Hypothesis Hd : valid_digits d.
Hypothesis Hd' : (d <= 4967)%Z.
Variable env : env.
Local Notation u := (p10 (- d)).

(** ** The series at zero never stops *)

Definition q_inv (n : Z) (pb : ef * ef) : Prop :=
  ok d (n * 8) (fst pb) /\ 0 < value (fst pb) /\ finite d (snd pb) /\ full d (snd pb) /\ / 2 <= value (snd pb) <= 2 * IZR n.

Lemma q_inv_step n pb : (2 <= n <= 10000)%Z -> q_inv (n - 1) pb -> q_inv n (next_p (mul d) (pre_inc d) pb).
Proof.
  intros Hn (B1 & B2 & C1 & C2 & C3). destruct pb as [pb bp]. cbn [fst snd] in *. pose proof (u_small d Hd) as U.
  assert (In : 2 <= IZR n <= 10000) by (split; apply IZR_le; lia). rewrite minus_IZR in C3.
  assert (P5 : p10 5 = 100000) by (rewrite (p10_nonneg 5) by lia; reflexivity).
  assert (Ob : ok d 5 bp) by (apply (ok_of_bounds d); [exact C1|exact C2|]; rewrite p10_inv, P5, Rabs_pos_eq; lra).
  destruct (PowExtra.one_ok d Hd) as (F1 & P1 & V1).
  assert (O1 : ok d 5 (one d)) by (apply (ok_of_bounds d); [exact F1|exact P1|]; rewrite V1, Rabs_R1, p10_inv, P5; lra).
  unfold next_p, pre_inc. cbn [fst snd].
  destruct (ok_add d 5 bp (one d) Hd ltac:(lia) ltac:(lia) Ob O1) as [Oq Eq]. rewrite V1, (p_17 d) in Eq.
  assert (M : Rmax (Rabs (value bp)) (Rabs 1) <= 20001) by (rewrite (Rabs_pos_eq 1), (Rabs_pos_eq (value bp)) by lra; apply Rmax_lub; lra).
  assert (Eq' : Rabs (value (add d bp (one d)) - (value bp + 1)) <= 2 * (u / 100000000000000000) * 20001) by (eapply Rle_trans; [exact Eq|]; apply Rmult_le_compat_l; lra).
  set (bq := add d bp (one d)) in *. clearbody bq. apply Rabs_le_inv in Eq'.
  assert (Vq : / 2 <= value bq <= 2 * IZR n) by lra.
  assert (Oq' : ok d 5 bq) by (apply (ok_of_bounds d); [apply Oq|apply Oq|]; rewrite p10_inv, P5, Rabs_pos_eq; lra).
  destruct (ok_rel_mul d Hd Hd' ((n - 1) * 8) 5 pb bq ltac:(lia) ltac:(lia) ltac:(lia) B1 Oq') as [Om Rm].
  split; [|split; [|split; [|split]]]; cbn [fst snd].
  - apply (ok_le d ((n - 1) * 8 + 5 + 1)); [lia|exact Om].
  - unfold rel in Rm. assert (P : 0 < value pb * value bq) by (apply Rmult_lt_0_compat; lra). rewrite (Rabs_pos_eq (value pb * value bq)) in Rm by lra. apply Rabs_le_inv in Rm.
    assert (u / 1000000 * (value pb * value bq) <= / 2 * (value pb * value bq)) by (apply Rmult_le_compat_r; lra). lra.
  - apply Oq.
  - apply Oq.
  - exact Vq.
Qed.

Lemma zero_term n pa pb pc : (1 <= n <= 10000)%Z -> q_inv n pa -> q_inv n pb -> q_inv n pc ->
  mul d (div d (mul d (fst pa) (fst pb)) (fst pc)) (zero d) = zero d.
Proof.
  intros Hn (A & A' & _) (B & B' & _) (C & C' & _). destruct (zero_ok d Hd) as (Fz & _ & Vz). pose proof (u_small d Hd) as U.
  destruct (ok_rel_mul d Hd Hd' (n * 8) (n * 8) (fst pa) (fst pb) ltac:(lia) ltac:(lia) ltac:(lia) A B) as [O R].
  assert (P : 0 < value (mul d (fst pa) (fst pb))).
  { unfold rel in R. assert (P : 0 < value (fst pa) * value (fst pb)) by (apply Rmult_lt_0_compat; lra). rewrite (Rabs_pos_eq (value (fst pa) * value (fst pb))) in R by lra. apply Rabs_le_inv in R.
    assert (u / 1000000 * (value (fst pa) * value (fst pb)) <= / 2 * (value (fst pa) * value (fst pb))) by (apply Rmult_le_compat_r; lra). lra. }
  destruct (ok_div d Hd Hd' (n * 8 + n * 8 + 1) (n * 8) (mul d (fst pa) (fst pb)) (fst pc) ltac:(lia) ltac:(lia) ltac:(lia) O C ltac:(lra) ltac:(lra) ltac:(right; lra)) as (O2 & _ & _).
  apply (mul_zero_l d); [exact Hd|apply O2|exact Fz|right; exact Vz].
Qed.

Lemma zero_series2 fuel : forall n pa pb pc, (2 <= n)%Z -> (n + Z.of_nat fuel <= 10000)%Z -> q_inv (n - 1) pa -> q_inv (n - 1) pb -> q_inv (n - 1) pc ->
  series (add d) (small_ef d) (fun n '(xp, pa, pb, pc) => (next_x (mul d) (div_int d) (zero d) n xp, next_p (mul d) (pre_inc d) pa, next_p (mul d) (pre_inc d) pb, next_p (mul d) (pre_inc d) pc))
    (fun '(xp, pa, pb, pc) => mul d (div d (mul d (fst pa) (fst pb)) (fst pc)) xp) fuel n (zero d, pa, pb, pc) (one d) = None.
Proof.
  induction fuel as [|f IH]; intros n pa pb pc H1 H2 I1 I2 I3; cbn [series]; [reflexivity|].
  pose proof (q_inv_step n pa ltac:(lia) I1) as J1. pose proof (q_inv_step n pb ltac:(lia) I2) as J2. pose proof (q_inv_step n pc ltac:(lia) I3) as J3.
  set (qa := next_p _ _ pa) in *. set (qb := next_p _ _ pb) in *. set (qc := next_p _ _ pc) in *. clearbody qa qb qc. destruct (zero_ok d Hd) as (Fz & _ & Vz).
  assert (X : next_x (mul d) (div_int d) (zero d) n (zero d) = zero d) by (unfold next_x; rewrite (mul_zero_l d) by auto; apply div_int_zero; [exact Hd|lia]). rewrite X.
  rewrite (zero_term n qa qb qc ltac:(lia) J1 J2 J3).
  assert (S : small_ef d (zero d) (one d) = false) by (unfold small_ef; rewrite (order_zero d Hd), (order_one d Hd); apply Z.ltb_ge; pose proof (tolerance_pos d Hd); lia). rewrite S, andb_false_r.
  destruct (PowExtra.one_ok d Hd) as (F & _ & V). destruct (finite_flags d _ F) as [N1 N2].
  assert (Z1 : iszero (one d) = false) by (apply (finite_nonzero_flag d); auto; lra).
  rewrite (add_zero_r d Hd (one d) N2 N1 Z1) || rewrite (add_zero_r d Hd (one d) N1 N2 Z1).
  apply IH; try lia; replace (n + 1 - 1)%Z with n by lia; assumption.
Qed.

Lemma log1p_zero : isnan (log1p d (zero d)) = true.
Proof.
  unfold log1p, log_at_one. rewrite (negate_zero d Hd). destruct (zero_ok d Hd) as (Fz & _ & Vz).
  assert (E : h2f1 d (one d) (one d) (two d) (zero d) = value_nan d).
  { unfold h2f1, hyper_2f1, series_from. destruct (one_facts d Hd) as [O1 V1]. destruct (two_facts d Hd) as [O2 V2].
    assert (Q1 : q_inv 1 (one d, one d)) by (unfold q_inv; cbn [fst snd]; rewrite V1; split; [apply (ok_le d 1); [lia|exact O1]|]; split; [lra|]; split; [apply O1|]; split; [apply O1|lra]).
    assert (Q2 : q_inv 1 (two d, two d)) by (unfold q_inv; cbn [fst snd]; rewrite V2; split; [apply (ok_le d 1); [lia|exact O2]|]; split; [lra|]; split; [apply O2|]; split; [apply O2|lra]).
    pose proof (zero_term 1 (one d, one d) (one d, one d) (two d, two d) ltac:(lia) Q1 Q1 Q2) as T. rewrite T.
    destruct (PowExtra.one_ok d Hd) as (F & _ & V). destruct (finite_flags d _ F) as [N1 N2].
    assert (Z1 : iszero (one d) = false) by (apply (finite_nonzero_flag d); auto; lra).
    rewrite (add_zero_r d Hd (one d) N2 N1 Z1) || rewrite (add_zero_r d Hd (one d) N1 N2 Z1).
    assert (G : exists f, f = Z.to_nat (max_iteration - 2) /\ (2 + Z.of_nat f <= 10000)%Z).
    { eexists. split; [reflexivity|]. rewrite Z2Nat.id; unfold max_iteration; lia. }
    destruct G as (f & <- & G). rewrite zero_series2; [reflexivity|lia|lia| | |]; assumption. }
  rewrite E. apply (isnan_mul_nan d Hd). apply Fz.
Qed.

(** ** The logarithm near one *)

Lemma ln_close a b : 1 / 2 <= a -> 1 / 2 <= b -> Rabs (ln a - ln b) <= 2 * Rabs (a - b).
Proof.
  assert (W : forall a b, 1 / 2 <= a -> a < b -> 0 <= ln b - ln a <= 2 * (b - a)).
  { intros x y Hx L. destruct (MVT_cor2 ln Rinv x y L) as (c & E & Hc); [intros t Ht; apply derivable_pt_lim_ln; lra|]. rewrite E.
    assert (0 < / c <= 2) by (split; [apply Rinv_0_lt_compat; lra|]; replace 2 with (/ / 2) by field; apply Rinv_le_contravar; lra).
    split; [apply Rmult_le_pos; lra|apply Rmult_le_compat_r; lra]. }
  intros Ha Hb. destruct (Rtotal_order a b) as [L|[->|L]].
  - specialize (W a b Ha L). rewrite (Rabs_left1 (ln a - ln b)), (Rabs_left1 (a - b)) by lra. lra.
  - unfold Rminus. rewrite !Rplus_opp_r, Rabs_R0. lra.
  - specialize (W b a Hb L). rewrite (Rabs_pos_eq (ln a - ln b)), (Rabs_pos_eq (a - b)) by lra. lra.
Qed.

Lemma log_near_one x : finite d x -> full d x -> p10 (- (d + 10)) <= Rabs (value x - 1) <= p10 (- (d / 8 + 8)) ->
  exists r, log d env x = Defined r /\ finite d r /\ Rabs (value r - ln (value x)) <= (Rabs (ln (value x)) / 1000 + / 1000000000000000) * u.
Proof.
  intros F P H. pose proof (u_tiny d Hd) as U. destruct (one_facts d Hd) as [O1 V1].
  assert (T8 : p10 (- (d / 8 + 8)) <= / 100000000) by (apply Rle_trans with (p10 (- (8))); [apply p10_le; destruct Hd; lia|p10num H8 8%nat; rewrite H8; lra]).
  assert (Hx : Rabs (value x - 1) <= / 100000000) by lra. pose proof (Rabs_le_inv _ _ Hx) as Hx'.
  assert (Ox : ok d 1 x) by (apply (ok_of_bounds d); [exact F|exact P|]; rewrite (p10_inv 1), p10_1, Rabs_pos_eq; lra).
  assert (MM : Rmax (Rabs (value x)) (Rabs 1) <= 2) by (rewrite !Rabs_pos_eq by lra; apply Rmax_lub; lra).
  assert (Eu : forall v w, Rabs (v - w) <= 2 * p10 (- (d + 17)) * Rmax (Rabs (value x)) (Rabs 1) -> Rabs (v - w) <= 4 / 100000000000000000 * u).
  { intros v w E. rewrite (p_17 d) in E. eapply Rle_trans; [exact E|]. replace (4 / 100000000000000000 * u) with (2 * (u / 100000000000000000) * 2) by field. apply Rmult_le_compat_l; lra. }
  destruct (ok_sub d 1 x (one d) Hd ltac:(lia) ltac:(lia) Ox O1) as [Oy Ey]. rewrite V1 in Ey. apply Eu in Ey.
  destruct (ok_sub d 1 (one d) x Hd ltac:(lia) ltac:(lia) O1 Ox) as [Oz Ez]. rewrite V1 in Ez. rewrite Rmax_comm in Ez. apply Eu in Ez.
  set (y := sub d x (one d)) in *. set (z := sub d (one d) x) in *.
  assert (T10 : p10 (- (d + 10)) = u / 10000000000). { replace (- (d + 10))%Z with (- d + - (10))%Z by ring. rewrite p10_add. p10num H10 10%nat. rewrite H10. field. }
  rewrite T10 in H. assert (X4 : 4 / 100000000000000000 * u < u / 10000000000 / 1000) by lra.
  assert (Yb : Rabs (value x - 1) * (999 / 1000) <= Rabs (value y) <= Rabs (value x - 1) * (1001 / 1000)).
  { pose proof (Rabs_triang_inv (value x - 1) (value y)) as A. pose proof (Rabs_triang_inv (value y) (value x - 1)) as B. rewrite (Rabs_minus_sym (value x - 1)) in A. lra. }
  assert (Zb : Rabs (value x - 1) * (999 / 1000) <= Rabs (value z) <= Rabs (value x - 1) * (1001 / 1000)).
  { pose proof (Rabs_triang_inv (1 - value x) (value z)) as A. pose proof (Rabs_triang_inv (value z) (1 - value x)) as B. rewrite (Rabs_minus_sym (1 - value x) (value z)) in A. rewrite (Rabs_minus_sym 1 (value x)) in A, B. lra. }
  assert (Ny : value y <> 0) by (intro Z; rewrite Z, Rabs_R0 in Yb; lra). assert (Nz : value z <> 0) by (intro Z; rewrite Z, Rabs_R0 in Zb; lra).
  unfold log. destruct (finite_flags d x F) as [Ni Nn]. destruct (iszero_isneg_spec d x Hd F) as [Zs Ns].
  assert (Z0 : iszero x = false) by (apply (finite_nonzero_flag d); auto; lra).
  assert (G0 : isneg x = false) by (apply not_true_is_false; intro G; apply Ns in G; lra).
  rewrite Nn, G0, Ni, Z0. cbn [orb].
  destruct (isone x) eqn:Eo.
  { exfalso. apply (isone_spec d x Hd F) in Eo. rewrite Eo in H. replace (1 - p10 (- (8 * elem_number d)) - 1) with (- p10 (- (8 * elem_number d))) in H by ring.
    rewrite Rabs_Ropp, Rabs_pos_eq in H by (left; apply p10_pos). rewrite <- T10 in H. destruct H as [H _].
    assert (L : p10 (- (8 * elem_number d)) < p10 (- (d + 10))); [|lra]. apply p10_lt. unfold elem_number, max_digits10. destruct Hd. destruct (_ =? _)%Z; lia. }
  destruct (limit_bounds d Hd Hd') as (L1 & L2 & L3).
  assert (En : near_one d x = true).
  { unfold near_one, small_arg. fold z. apply Z.ltb_lt. pose proof (fabs_finite d z (proj1 Oz)) as Ff. pose proof (fabs_value d z Hd (proj1 Oz)) as Vf. assert (Nf : value (fabs z) <> 0) by (rewrite Vf; apply Rabs_no_R0; exact Nz).
    destruct (order_spec d (fabs z) Hd Ff Nf) as [A _]. rewrite Vf, Rabs_Rabsolu in A.
    apply p10_lt_inv. eapply Rle_lt_trans; [exact A|]. apply Rle_lt_trans with (p10 (- (d / 8 + 8)) * (1001 / 1000)); [lra|].
    apply Rlt_le_trans with (p10 (- (d / 8 + 8)) * 10); [apply Rmult_lt_compat_l; [apply p10_pos|lra]|]. apply Rle_trans with (p10 (- (d / 8 + 8) + 1)); [rewrite (p10_add (- (d / 8 + 8)) 1), p10_1; lra|]. apply p10_le. unfold arg_limit, tolerance, max_digits10. rewrite Z.quot_div_nonneg by (destruct Hd; lia). destruct Hd. lia. }
  rewrite En. fold y. eexists. split; [reflexivity|].
  destruct (log_at_one_ok d Hd Hd' (d + 11) y) as [Or Vr]; [destruct Hd; lia| |exact Ny|lra|].
  { apply (ok_of_bounds d); [apply Oy|apply Oy|]. split.
    - apply Rle_trans with (u / 10000000000 * (1 / 10)); [|lra]. rewrite <- T10. replace (- (d + 11))%Z with (- (d + 10) + - (1))%Z by ring. rewrite p10_add, (p10_inv 1), p10_1. lra.
    - apply Rle_trans with (p10 0); [rewrite p10_0; lra|apply p10_le; destruct Hd; lia]. }
  split; [apply Or|]. set (r := log_at_one d y) in *.
  assert (C : Rabs (ln (1 + value y) - ln (value x)) <= 8 / 100000000000000000 * u).
  { eapply Rle_trans; [apply ln_close; apply Rabs_le_inv in Ey; lra|]. replace (1 + value y - value x) with (value y - (value x - 1)) by ring. lra. }
  assert (Cy : 25 / 100 * Rabs (value y) + / 50000 <= / 10000) by lra.
  assert (A1 : Rabs (ln (1 + value y)) <= Rabs (ln (value x)) + 8 / 100000000000000000 * u).
  { pose proof (Rabs_triang_inv (ln (1 + value y)) (ln (value x))). lra. }
  assert (A2 : (25 / 100 * Rabs (value y) + / 50000) * u * Rabs (ln (1 + value y)) <= / 10000 * u * (Rabs (ln (value x)) + 8 / 100000000000000000 * u)).
  { apply Rmult_le_compat; [|apply Rabs_pos| |exact A1]; [apply Rmult_le_pos; [|lra]; pose proof (Rabs_pos (value y)); lra|apply Rmult_le_compat_r; lra]. }
  replace (value r - ln (value x)) with ((value r - ln (1 + value y)) + (ln (1 + value y) - ln (value x))) by ring. eapply Rle_trans; [apply Rabs_triang|].
  assert (A3 : 0 <= u * Rabs (ln (value x))) by (apply Rmult_le_pos; [lra|apply Rabs_pos]).
  assert (A4 : u * u <= u) by nra. lra.
Qed.

End FixedDigits.
