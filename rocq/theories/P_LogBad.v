(** * C79: the accuracy of the logarithm

    log(x) starts from a double precision estimate and improves it by Newton's
    method, each step at twice the working precision of the one before.  The
    steps stop when the nominal number of digits exceeds digits10 + 1 by a tenth.
    For some settings of digits10 the last step then runs at less than full
    precision, and what it starts from is not as good as its nominal number of
    digits.  log(10) shows it: ef::ln10() is the same number from its literal. *)

From Coq Require Import ZArith List Bool String Reals Lra Lia.
From Flocq Require Import BinarySingleNaN.
From Verif Require Import Model Spec Value Decide ModelDiv ModelPow ModelStr ModelConst ModelElem ExpReal ConstReal ConstLit SeriesFloat FloatEval NewtonProofs PowExtra ExpFloat ExpAcc MulCor LdexpProofs P_Const CmpProofs.
Import ListNotations.
Open Scope R_scope.

(* std::log(10.0) = 2.302585092994046, the double nearest to ln 10; for x = 10 the
   estimate is e_float of this number: elementary/elementary_trans.cpp 318-341 *)
Definition double_ln10 : double := binary_normalize 53 1024 d_prec d_emax mode_NE 5184960683398422 (-51) false.

(* the constants as the library reads them, and the estimate for x = 10 *)
Definition get (d : Z) (x : io ef) : ef := match x with Ok e => e | _ => zero d end.
Definition env_log (d : Z) : env :=
  mkenv (zero d) (get d (const_e d)) (get d (const_ln2 d)) (get d (const_ln10 d)) (zero d) (fun x => x) (fun x => x) (fun _ => of_double d double_ln10 0) (fun x _ => x).

(* the double is as close to the constant as a double can be *)
Definition close_est (d : Z) : bool :=
  let v := of_double d double_ln10 0 in let c := c_ln10 (env_log d) in let t := of_limbs d [3]%Z (-16) false in
  wfb d v && isfinite v && op_ge v (zero d) && op_le c (add d v t) && op_le v (add d c t).

(* log(10) is finite and larger than ln10() + a 10^k *)
Definition too_large (d a k : Z) : bool :=
  match ModelElem.log d (env_log d) (of_ull d 10) with
  | Defined r => wfb d r && isfinite r && op_ge r (add d (c_ln10 (env_log d)) (of_limbs d [a]%Z k false))
  | Undefined => false
  end.

Lemma too_large_met : too_large 49 100000 (-48) = true.
Proof. vm_cast_no_check (eq_refl true). Qed.

Lemma constant_get d f r : valid_digits d -> (d <= 1084)%Z -> is_constant d f r ->
  f d = Ok (get d (f d)) /\ finite d (get d (f d)) /\ Rabs (value (get d (f d)) - r) <= powerRZ 10 (- (d + 15)).
Proof. intros Hd D H. destruct (C60_constants_partial d f r Hd D H) as (c & E & F & _ & V). rewrite E. cbn [get]. auto. Qed.

Lemma bad_values d c v r : valid_digits d -> d = 49%Z -> finite d c -> finite d v -> finite d r -> Rabs (value c - ln 10) <= powerRZ 10 (- (d + 15)) ->
  op_ge v (zero d) = true -> op_le c (add d v (of_limbs d [3]%Z (-16) false)) = true -> op_le v (add d c (of_limbs d [3]%Z (-16) false)) = true ->
  op_ge r (add d c (of_limbs d [100000]%Z (-48) false)) = true ->
  Rabs (value v - ln 10) <= powerRZ 10 (-15) /\ value r - ln 10 >= powerRZ 10 (-44).
Proof.
  intros Hd D F3 Fv Fr V3 G C1 C2 T.
  destruct (of_limbs1 d 100000 (-48) Hd ltac:(lia) eq_refl) as (Fa & _ & Va). set (a := of_limbs d [100000]%Z (-48) false) in *. clearbody a.
  destruct (of_limbs1 d 3 (-16) Hd ltac:(lia) eq_refl) as (Fb & _ & Vb). set (b := of_limbs d [3]%Z (-16) false) in *. clearbody b.
  assert (Q : powerRZ 10 (- (d + 15)) <= powerRZ 10 (- (60))) by (apply p10_le; lia).
  assert (Q' : powerRZ 10 (- (d + 17)) <= powerRZ 10 (- (60))) by (apply p10_le; lia).
  change (-48)%Z with (- (48))%Z in Va. change (-16)%Z with (- (16))%Z in Vb. change (-15)%Z with (- (15))%Z. change (-44)%Z with (- (44))%Z.
  p10num H60 60%nat. p10num H48 48%nat. p10num H16 16%nat. p10num H44 44%nat. p10num H15 15%nat.
  rewrite H60 in Q, Q'. rewrite H48 in Va. rewrite H16 in Vb. rewrite H15, H44.
  pose proof ln10_bound as L. apply Rabs_le_inv in V3.
  assert (M : 100 <= powerRZ 10 max_exp10). { apply Rle_trans with (powerRZ 10 (1 + 1)); [rewrite p10_add, p10_1; lra|apply p10_le; unfold max_exp10; lia]. }
  assert (A : forall u w, finite d u -> finite d w -> 0 <= value u <= 4 -> 0 <= value w <= 1 -> finite d (add d u w) /\ Rabs (value (add d u w) - (value u + value w)) <= 10 * / 10 ^ 60).
  { intros u w Fu Fw Bu Bw. destruct (add_ok d u w Hd Fu Fw) as [F E]; [rewrite !Rabs_pos_eq by lra; lra|]. split; [exact F|]. eapply Rle_trans; [exact E|].
    assert (Rmax (Rabs (value u)) (Rabs (value w)) <= 4) by (apply Rmax_lub; rewrite Rabs_pos_eq; lra). pose proof (p10_pos (- (d + 17))) as P0.
    assert (0 <= Rmax (Rabs (value u)) (Rabs (value w))) by (eapply Rle_trans; [apply Rabs_pos|apply Rmax_l]).
    apply Rle_trans with (2 * / 10 ^ 60 * 4); [apply Rmult_le_compat; lra|]. assert (0 < / 10 ^ 60) by (apply Rinv_0_lt_compat, pow_lt; lra). lra. }
  cbn [Rpow_def.pow] in *.
  destruct (A c a F3 Fa) as [Fca Vca]; [lra|lra|]. destruct (A c b F3 Fb) as [Fcb Vcb]; [lra|lra|].
  assert (Tr : value r >= value (add d c a)) by (apply (cmp_all_ops d r _ Hd Fr Fca); exact T).
  assert (T2 : value v <= value (add d c b)) by (apply (cmp_all_ops d v _ Hd Fv Fcb); exact C2).
  destruct (zero_ok d Hd) as (Fz & _ & Vz). assert (N : 0 <= value v). { apply (cmp_all_ops d v _ Hd Fv Fz) in G. lra. }
  apply Rabs_le_inv in Vca, Vcb.
  destruct (A v b Fv Fb) as [Fvb Vvb]; [lra|lra|].
  assert (T1 : value c <= value (add d v b)) by (apply (cmp_all_ops d c _ Hd F3 Fvb); exact C1). apply Rabs_le_inv in Vvb.
  split; [apply Rabs_le; lra|lra].
Qed.

Lemma close_est_met : close_est 49 = true.
Proof. vm_cast_no_check (eq_refl true). Qed.

Lemma ten_met : of_ull 49 10 = of_limbs 49 [10]%Z 0 false.
Proof. vm_compute. reflexivity. Qed.

Lemma env_fields d x : c_e (env_log d) = get d (const_e d) /\ c_ln2 (env_log d) = get d (const_ln2 d) /\ c_ln10 (env_log d) = get d (const_ln10 d) /\ est_log (env_log d) x = of_double d double_ln10 0.
Proof. repeat split. Qed.

Lemma log_bad d : d = 49%Z -> close_est d = true -> too_large d 100000 (-48) = true -> of_ull d 10 = of_limbs d [10]%Z 0 false ->
  exists env x r,
  const_e d = Ok (c_e env) /\ const_ln2 d = Ok (c_ln2 env) /\ const_ln10 d = Ok (c_ln10 env) /\
  finite d x /\ full d x /\ value x = 10 /\
  finite d (est_log env x) /\ Rabs (value (est_log env x) - ln (value x)) <= powerRZ 10 (-15) /\
  log d env x = Defined r /\ finite d r /\
  value r - ln (value x) >= powerRZ 10 (-44).
Proof.
  intros D K T X. assert (Hd : valid_digits d) by (unfold valid_digits; lia). assert (D' : (d <= 1084)%Z) by lia.
  destruct (constant_get d _ _ Hd D' (is_e d)) as (E1 & _ & _). destruct (constant_get d _ _ Hd D' (is_ln2 d)) as (E2 & _ & _). destruct (constant_get d _ _ Hd D' (is_ln10 d)) as (E3 & F3 & V3).
  unfold too_large in T. remember (ModelElem.log d (env_log d) (of_ull d 10)) as r eqn:R. destruct r as [r|]; [|discriminate T].
  apply andb_true_iff in T. destruct T as [Fr T]. apply wfb_finite in Fr.
  unfold close_est in K. cbv zeta in K. apply andb_true_iff in K. destruct K as [K K2]. apply andb_true_iff in K. destruct K as [K K1]. apply andb_true_iff in K. destruct K as [Fv G]. apply wfb_finite in Fv.
  destruct (env_fields d (of_ull d 10)) as (N1 & N2 & N3 & N4). rewrite N3 in K1, K2, T. destruct (bad_values d _ _ _ Hd D F3 Fv Fr V3 G K1 K2 T) as [A B].
  destruct (of_limbs1 d 10 0 Hd ltac:(lia) eq_refl) as (Fx & Px & Vx). rewrite <- X in Fx, Px, Vx. rewrite p10_0, Rmult_1_r in Vx.
  exists (env_log d), (of_ull d 10), r. rewrite N1, N2, N3, N4, Vx. repeat match goal with |- _ /\ _ => split end; try assumption; [reflexivity|symmetry; exact R].
Qed.

(** C79 is false: with 49 decimal digits log(10) differs from ln 10 already in the
    44th decimal place, although the constants and the estimate from which
    Newton's method starts are as good as they can be. *)
Theorem C79_log_refuted :
  exists env x r, let d := 49%Z in
  const_e d = Ok (c_e env) /\ const_ln2 d = Ok (c_ln2 env) /\ const_ln10 d = Ok (c_ln10 env) /\
  finite d x /\ full d x /\ value x = 10 /\
  finite d (est_log env x) /\ Rabs (value (est_log env x) - ln (value x)) <= powerRZ 10 (-15) /\
  log d env x = Defined r /\ finite d r /\
  value r - ln (value x) >= powerRZ 10 (-44).
Proof. exact (log_bad 49 eq_refl close_est_met too_large_met ten_met). Qed.
Print Assumptions C79_log_refuted.
