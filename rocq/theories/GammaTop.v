(** * The gamma function: values from an exact asymptotic series (proofs only) *)

From Coq Require Import ZArith List Bool Reals Lra Lia.
Import ListNotations.
From Coquelicot Require Import Complex.
From Verif Require Import Model ModelDiv ModelStr ModelGen ComplexReal ModelCplx SpecCplx SpecGen SpecGamma CplxReal CplxProofs ModelGamma GammaReal GammaProofs.
Open Scope R_scope.
Ltac Zify.zify_post_hook ::= Z.div_mod_to_equations.

Lemma whole_dec x : {k | x = IZR k} + {forall k, x <> IZR k}.
Proof. destruct (Req_EM_T x (IZR (Int_part x))) as [E|E]; [left; eexists; exact E|right]. intros k K. apply E. rewrite K, Int_part_IZR. reflexivity. Qed.

Section Values.
Variables (nan : R) (factorial : Z -> io R) (min_arg_n table_size : Z).
Hypothesis Hmin : (1 <= min_arg_n < 2147483647)%Z.

Section Real.
Hypothesis Htab : (table_size <= 9223372036854775807)%Z.
Hypothesis Hfact : forall n, (0 <= n < table_size)%Z -> factorial n = Ok (INR (fact (Z.to_nat n))).
Variables (small : R -> bool) (series : R -> R) (stirling : R -> io R) (G : R -> R).
Hypothesis HG : gamma_like G.
Hypothesis Hser : forall x, 0 < x -> small x = true -> series x = G x.
Hypothesis Hst : forall y, IZR min_arg_n <= y -> stirling y = Ok (G y).
Local Notation o := (real_ops nan factorial small series stirling).
Local Notation gamma := (gamma o min_arg_n table_size).

Lemma G_integers n : G (INR n + 1) = INR (fact n).
Proof.
  destruct HG as (G1 & GS & _). induction n as [|n IH].
  - cbn [INR fact]. rewrite Rplus_0_l. exact G1.
  - rewrite GS by (pose proof (pos_INR (S n)); rewrite S_INR in *; pose proof (pos_INR n); lra). change (fact (S n)) with (S n * fact n)%nat. rewrite mult_INR, <- IH, S_INR. reflexivity.
Qed.

Lemma down_values k x : 0 < x -> snd (down o k (x + INR k) (G (x + INR k))) = G x.
Proof.
  intro P. induction k as [|k IH]; [cbn [down snd INR]; rewrite Rplus_0_r; reflexivity|]. cbn [down]. cbn [g_dec g_div real_ops]. replace (x + INR (S k) - 1) with (x + INR k) by (rewrite S_INR; ring).
  replace (G (x + INR (S k)) / (x + INR k)) with (G (x + INR k)); [exact IH|]. replace (x + INR (S k)) with (x + INR k + 1) by (rewrite S_INR; ring). pose proof (pos_INR k).
  rewrite (proj1 (proj2 HG)) by lra. field. lra.
Qed.

Lemma general_value x : 0 < x -> gamma_general o min_arg_n false x = Ok (G x).
Proof.
  intro P. destruct (small x) eqn:S.
  - unfold gamma_general. cbn [negb g_small real_ops]. rewrite S. cbn [g_series real_ops]. rewrite (Hser x P S). reflexivity.
  - destruct (Rlt_dec x (IZR min_arg_n)) as [L|L].
    + pose proof (trunc_pos x min_arg_n P L ltac:(lia)) as B.
      pose proof (general_form o min_arg_n (real_H0 nan factorial small series stirling) (real_H1 nan factorial small series stirling) false x S (Int_part x) (real_to32 nan factorial min_arg_n table_size Hmin small series stirling x P L) ltac:(lia) ltac:(apply lessb_iff; exact L)) as E1. cbn [negb] in E1. rewrite E1. clear E1.
      set (n := (min_arg_n - Int_part x + 1)%Z). destruct (base_Int_part x) as [I1 I2]. cbn [g_stirling g_add_n real_ops]. rewrite Hst by (unfold n; rewrite plus_IZR, minus_IZR; lra). cbn [bind]. f_equal. unfold finish. cbn [negb].
      replace (IZR n) with (INR (Z.to_nat n)) by (rewrite INR_IZR_INZ, Z2Nat.id by (unfold n; lia); reflexivity). apply down_values. exact P.
    + pose proof (large_form o min_arg_n (real_H0 nan factorial small series stirling) false x S ltac:(apply lessb_false; cbn; lra)) as E1. cbn [negb] in E1. rewrite E1. cbn [g_stirling real_ops]. rewrite Hst by lra. reflexivity.
Qed.

Lemma values x : (forall k, (k <= 0)%Z -> x <> IZR k) -> gamma x = Ok (G x).
Proof.
  intro N. destruct (Rtotal_order x 0) as [C|[C|C]].
  - destruct (whole_dec x) as [[k E]|I].
    + exfalso. apply (N k); [|exact E]. apply le_IZR. lra.
    + assert (I' : forall k, - x <> IZR k) by (intros k E; apply (I (- k)%Z); rewrite opp_IZR; lra). replace x with (- - x) by lra.
      rewrite (real_reflection nan factorial min_arg_n table_size Hmin small series stirling (- x) ltac:(lra) I').
      rewrite (real_pos nan factorial min_arg_n table_size small series stirling (- x) ltac:(lra) I'), general_value by lra. cbn [bind]. f_equal. symmetry. apply HG; [lra|exact I'].
  - exfalso. apply (N 0%Z); [lia|exact C].
  - destruct (whole_dec x) as [[n E]|I].
    + assert (1 <= n)%Z. { rewrite E in C. apply lt_IZR in C. lia. } destruct (Z_lt_le_dec n table_size) as [T|T].
      * destruct (real_integers nan factorial min_arg_n table_size small series stirling x n E) as [_ R]. rewrite (R ltac:(lia) Htab), Hfact by lia. f_equal. rewrite <- G_integers. f_equal. rewrite E, INR_IZR_INZ, Z2Nat.id, minus_IZR by lia. ring.
      * unfold ModelGamma.gamma. cbn [g_real r_isfinite r_isneg r_isint r_iszero r_to64 real_ops negb]. rewrite lessb_false by lra. unfold zerob. destruct (Req_EM_T x 0); [lra|]. cbn [orb].
        destruct (whole x); [|apply general_value; exact C]. unfold trunc64. destruct (Rlt_dec x 0); [lra|]. rewrite E, Int_part_IZR. cbn [bind]. unfold u64. rewrite Z.mod_small by lia.
        destruct (Z.ltb_spec (Z.min (Z.max n (-9223372036854775808)) 9223372036854775807) table_size) as [H1|H1]; [lia|]. rewrite <- E. apply general_value. exact C.
    + rewrite (real_pos nan factorial min_arg_n table_size small series stirling x C I). apply general_value. exact C.
Qed.
End Real.

Section Cplx.
Variables (small : cx R -> bool) (series : cx R -> cx R) (stirling : cx R -> io (cx R)) (G : C -> C).
Hypothesis HG : gamma_like_C G.
Hypothesis Hser : forall z, 0 < re z -> small z = true -> toC (series z) = G (toC z).
Hypothesis Hst : forall z, IZR min_arg_n <= re z -> exists g, stirling z = Ok g /\ toC g = G (toC z).
Local Notation o := (cplx_ops nan factorial small series stirling).
Local Notation gamma := (gamma o min_arg_n table_size).

Lemma cdown_values k z g : 0 < re z -> toC g = G (toC z + INR k)%C -> toC (snd (down o k (mkcx (re z + INR k) (im z)) g)) = G (toC z).
Proof.
  intro P. revert g. induction k as [|k IH]; intros g E.
  - cbn [down snd INR] in *. rewrite E. f_equal. change (RtoC 0) with (RtoC 0). ring.
  - cbn [down]. cbn [g_dec g_div cplx_ops]. unfold cr_sub. cbn [re im]. replace (re z + INR (S k) - 1) with (re z + INR k) by (rewrite S_INR; ring). apply IH. pose proof (pos_INR k) as Pk.
    assert (T : toC (mkcx (re z + INR k) (im z)) = (toC z + INR k)%C) by (unfold toC, Cplus, RtoC; cbn [re im fst snd]; rewrite Rplus_0_r; reflexivity).
    assert (N : (toC z + INR k)%C <> 0%C). { rewrite <- T. unfold toC. cbn [re im]. intro Q. apply (f_equal fst) in Q. cbn in Q. lra. }
    destruct (real_division g (mkcx (re z + INR k) (im z)) ltac:(rewrite T; exact N)) as (_ & D & _). unfold op_ediv. rewrite D, E, T. rewrite S_INR, RtoC_plus.
    replace (toC z + (INR k + 1))%C with (toC z + INR k + 1)%C by ring. rewrite (proj1 (proj2 HG)); [field; exact N|]. rewrite <- T. unfold toC, Re. cbn. lra.
Qed.

Lemma cgeneral_value z : 0 < re z -> exists g, gamma_general o min_arg_n false z = Ok g /\ toC g = G (toC z).
Proof.
  intro P. destruct (small z) eqn:S.
  - exists (series z). split; [|apply Hser; assumption]. unfold gamma_general. cbn [negb]. change (g_small o z) with (small z). rewrite S. reflexivity.
  - destruct (Rlt_dec (re z) (IZR min_arg_n)) as [L|L].
    + pose proof (trunc_pos (re z) min_arg_n P L ltac:(lia)) as B.
      pose proof (general_form o min_arg_n (cplx_H0 nan factorial small series stirling) (cplx_H1 nan factorial small series stirling) false z S (Int_part (re z)) (cplx_to32 nan factorial min_arg_n table_size Hmin small series stirling z P L) ltac:(lia) ltac:(apply lessb_iff; exact L)) as E1. cbn [negb] in E1. rewrite E1. clear E1.
      set (n := (min_arg_n - Int_part (re z) + 1)%Z). destruct (base_Int_part (re z)) as [I1 I2]. cbn [g_stirling g_add_n cplx_ops].
      replace (IZR n) with (INR (Z.to_nat n)) by (rewrite INR_IZR_INZ, Z2Nat.id by (unfold n; lia); reflexivity).
      destruct (Hst (mkcx (re z + INR (Z.to_nat n)) (im z))) as (g & Eg & Vg). { cbn [re]. rewrite INR_IZR_INZ, Z2Nat.id by (unfold n; lia). unfold n. rewrite plus_IZR, minus_IZR. lra. }
      rewrite Eg. cbn [bind]. eexists. split; [reflexivity|]. unfold finish. cbn [negb]. apply cdown_values; [exact P|]. rewrite Vg. f_equal. unfold toC, Cplus, RtoC; cbn [re im fst snd]; rewrite Rplus_0_r; reflexivity.
    + pose proof (large_form o min_arg_n (cplx_H0 nan factorial small series stirling) false z S ltac:(apply lessb_false; cbn; lra)) as E1. cbn [negb] in E1. rewrite E1. cbn [g_stirling cplx_ops].
      destruct (Hst z ltac:(lra)) as (g & Eg & Vg). rewrite Eg. cbn [bind]. exists g. split; [reflexivity|exact Vg].
Qed.

Lemma csin_nonzero z : fractional (re z) -> csin (RtoC PI * toC z)%C <> 0%C.
Proof.
  intros I E. replace (RtoC PI * toC z)%C with (toC (mkcx (PI * re z) (PI * im z))) in E by (unfold toC, RtoC, Cmult; cbn [re im fst snd]; apply injective_projections; cbn; ring).
  rewrite <- sin_ok in E. unfold Rsin, x_sin, toC in E. cbn [re im] in E. apply (f_equal fst) in E. cbn in E. apply Rmult_integral in E. destruct E as [E|E].
  - apply sin_eq_0_0 in E. destruct E as [k E]. apply (I k). apply (Rmult_eq_reg_l PI); [lra|]. apply PI_neq0.
  - unfold cosh in E. pose proof (exp_pos (PI * im z)). pose proof (exp_pos (- (PI * im z))). lra.
Qed.

Lemma cvalues z : fractional (re z) -> exists g, gamma z = Ok g /\ toC g = G (toC z).
Proof.
  intro I. destruct (Rtotal_order (re z) 0) as [C|[C|C]].
  - set (w := c_neg Ropp z). assert (W : z = c_neg Ropp w). { destruct z as [a b]. unfold w, c_neg. cbn. f_equal; lra. }
    assert (P : 0 < re w) by (unfold w, c_neg; cbn; lra). assert (I' : fractional (re w)) by (intros k E; apply (I (- k)%Z); unfold w, c_neg in E; cbn in E; rewrite opp_IZR; lra).
    rewrite W. rewrite (cplx_reflection nan factorial min_arg_n table_size Hmin small series stirling w P I'). rewrite (cplx_pos nan factorial min_arg_n table_size small series stirling w P I').
    destruct (cgeneral_value w P) as (g & Eg & Vg). rewrite Eg. cbn [bind]. eexists. split; [reflexivity|]. cbn [g_npi_div g_mul g_sin g_pi_mul cplx_ops].
    destruct HG as (N1 & _ & R). assert (T : toC (c_neg Ropp w) = (- toC w)%C) by (apply (real_arith w w)). rewrite T. rewrite R by assumption.
    assert (M : toC (op_cmul Rplus Rminus Rmult rtwice (op_cmul Rplus Rminus Rmult rtwice w g) (Rsin (er_mul Rmult PI w))) = (toC w * G (toC w) * csin (RtoC PI * toC w))%C).
    { unfold op_cmul. rewrite (proj1 (proj2 (proj2 (real_arith _ _)))), (proj1 (proj2 (proj2 (real_arith w g)))), sin_ok, Vg. destruct (real_mixed PI w) as (_ & _ & _ & _ & _ & _ & Q & _). rewrite Q. reflexivity. }
    match goal with |- toC (re_div _ _ _ _ _ ?d) = _ => destruct (real_mixed (- PI) d) as (_ & _ & _ & _ & _ & _ & _ & _ & Q) end.
    destruct Q as [_ Q]. { rewrite M. apply Cmult_neq_0; [apply Cmult_neq_0|].
      - intro Z. apply (f_equal fst) in Z. unfold toC in Z. cbn in Z. lra.
      - apply N1. exact P.
      - apply csin_nonzero. exact I'. }
    rewrite Q, M. f_equal. apply RtoC_opp.
  - exfalso. apply (I 0%Z). exact C.
  - rewrite (cplx_pos nan factorial min_arg_n table_size small series stirling z C I). apply cgeneral_value. exact C.
Qed.
End Cplx.
End Values.

Section Callers.
Variables (nan : R) (factorial : Z -> io R) (min_arg_n table_size : Z) (small : R -> bool) (series : R -> R) (stirling : R -> io R) (G : R -> R).
Local Notation o := (real_ops nan factorial small series stirling).
Local Notation gamma := (gamma o min_arg_n table_size).
Hypothesis HG : gamma_like G.
Hypothesis V : forall x, (forall k, (k <= 0)%Z -> x <> IZR k) -> gamma x = Ok (G x).

Lemma near_n_value n x : (-2147483648 < n <= 2147483647)%Z -> ((0 <= n)%Z -> forall k, (k <= 0)%Z -> IZR n + x <> IZR k) -> ((n < 0)%Z -> IZR n + x < 0 /\ fractional x) ->
  gamma_near_n o min_arg_n table_size n x = Ok (G (IZR n + x)).
Proof.
  intros N A B. unfold gamma_near_n. destruct (Z.geb_spec n 0) as [H|H].
  - cbn [g_plus real_ops]. apply V. apply A. lia.
  - destruct (Z.eqb_spec n (-2147483648)); [lia|]. destruct (B ltac:(lia)) as [P I]. cbv zeta. cbn [g_inc g_from g_pi_div g_mul g_sin g_pi_mul g_opp real_ops].
    set (y := IZR (- n) - x). assert (E : IZR n + x = - y) by (unfold y; rewrite opp_IZR; ring). rewrite E in P |- *. assert (I' : fractional y). { intros k K. apply (I (- n - k)%Z). unfold y in K. rewrite minus_IZR. lra. }
    rewrite V. 2:{ intros k K Q. apply (I' (k - 1)%Z). rewrite minus_IZR. lra. } cbn [bind]. f_equal. destruct HG as (_ & GS & GR). rewrite (GR y ltac:(lra) I'), (GS y ltac:(lra)). replace (sin (PI * y)) with (if ((- n) mod 2 =? 0)%Z then - sin (PI * x) else sin (PI * x)) by (symmetry; apply sin_shift_n; lia).
    destruct ((- n) mod 2 =? 0)%Z; cbn [negb]; unfold Rdiv.
    + rewrite (Ropp_mult_distr_r_reverse (y * G y)), Rinv_opp. ring.
    + ring.
Qed.

Lemma plus_minus_value x : fractional x -> gamma_plus_minus o min_arg_n table_size Rabs x = Ok (G x, G (- x)).
Proof.
  intro I. assert (N : x <> 0) by (exact (I 0%Z)). unfold gamma_plus_minus. cbn [g_real r_isneg real_ops]. destruct HG as (_ & _ & GR). destruct (Rlt_dec x 0) as [C|C].
  - rewrite (proj2 (lessb_iff x 0) C), Rabs_left by lra. assert (I' : fractional (- x)) by (intros k E; apply (I (- k)%Z); rewrite opp_IZR; lra).
    rewrite V by (intros k _; apply I'). cbn [bind g_npi_div g_mul g_sin g_pi_mul real_ops]. rewrite <- (GR (- x) ltac:(lra) I'), Ropp_involutive. reflexivity.
  - rewrite (lessb_false x 0), Rabs_pos_eq by lra. rewrite V by (intros k _; apply I). cbn [bind g_npi_div g_mul g_sin g_pi_mul real_ops]. rewrite <- (GR x ltac:(lra) I). reflexivity.
Qed.

Lemma G_rising x n : 0 < x -> G (x + INR n) = rising_factorial x n * G x.
Proof.
  intro P. induction n as [|n IH]; [cbn [INR rising_factorial]; rewrite Rplus_0_r; ring|]. rewrite S_INR. replace (x + (INR n + 1)) with (x + INR n + 1) by ring. pose proof (pos_INR n).
  rewrite (proj1 (proj2 HG)) by lra. rewrite IH. cbn [rising_factorial]. ring.
Qed.

Lemma pochhammer_value x n : (0 <= n)%Z -> ((50 <= n)%Z -> 0 < x /\ G x <> 0) -> pochhammer_n o min_arg_n table_size 1 (fun t k => t + IZR k) x n = Ok (rising_factorial x (Z.to_nat n)).
Proof.
  intros N H. unfold pochhammer_n. destruct (Z.ltb_spec n 50) as [C|C].
  - f_equal. cbn [g_mul real_ops]. destruct (Z.to_nat n) as [|[|m]]; cbn [pochhammer].
    + reflexivity.
    + cbn [rising_factorial INR]. ring.
    + apply poch_rising.
  - destruct (H C) as [P Q]. assert (A : forall y, 0 < y -> gamma y = Ok (G y)). { intros y Py. apply V. intros k K E. apply IZR_le in K. lra. }
    pose proof (IZR_le 0 n N). rewrite !A by lra. cbn [bind g_div real_ops]. f_equal. replace (IZR n) with (INR (Z.to_nat n)) by (rewrite INR_IZR_INZ, Z2Nat.id by exact N; reflexivity). rewrite G_rising by exact P. field. exact Q.
Qed.
End Callers.

(** A function with the recurrence and the reflection formula *)
Definition steps (x : R) : Z := (- Int_part (- x) - 1)%Z.
Definition toy_pos (x : R) : R := rising_factorial (x - IZR (steps x)) (Z.to_nat (steps x)).
Definition toy (x : R) : R := if Rlt_dec 0 x then toy_pos x else - PI / (- x * toy_pos (- x) * sin (PI * - x)).

Lemma steps_succ x : steps (x + 1) = (steps x + 1)%Z.
Proof. unfold steps. pose proof (Int_part_succ (- (x + 1))) as E. replace (- (x + 1) + 1) with (- x) in E by ring. lia. Qed.
Lemma steps_pos x : 0 < x -> (0 <= steps x)%Z /\ 0 < x - IZR (steps x).
Proof.
  intro P. unfold steps. destruct (base_Int_part (- x)) as [A B]. split.
  - assert (IZR (Int_part (- x)) < 0) by lra. apply lt_IZR in H. lia.
  - rewrite minus_IZR, opp_IZR. lra.
Qed.

Lemma toy_pos_succ x : 0 < x -> toy_pos (x + 1) = x * toy_pos x.
Proof.
  intro P. destruct (steps_pos x P) as [S1 S2]. unfold toy_pos. rewrite steps_succ. replace (Z.to_nat (steps x + 1)) with (S (Z.to_nat (steps x))) by lia. rewrite plus_IZR. replace (x + 1 - (IZR (steps x) + 1)) with (x - IZR (steps x)) by ring.
  cbn [rising_factorial]. rewrite INR_IZR_INZ, Z2Nat.id by exact S1. ring.
Qed.

Lemma toy_gamma_like : gamma_like toy /\ forall x, 0 < x -> 0 < toy x.
Proof.
  split; [split; [|split]|].
  - unfold toy. destruct (Rlt_dec 0 1); [|lra]. unfold toy_pos. replace (steps 1) with 0%Z; [reflexivity|]. unfold steps. rewrite <- opp_IZR, Int_part_IZR. reflexivity.
  - intros x P. unfold toy. destruct (Rlt_dec 0 (x + 1)); [|lra]. destruct (Rlt_dec 0 x); [|lra]. apply toy_pos_succ. exact P.
  - intros x P _. unfold toy. destruct (Rlt_dec 0 (- x)); [lra|]. destruct (Rlt_dec 0 x); [|lra]. rewrite Ropp_involutive. reflexivity.
  - intros x P. unfold toy. destruct (Rlt_dec 0 x); [|lra]. apply rising_pos. apply steps_pos. exact P.
Qed.

Definition ctoy_pos (z : C) : C := fold_right Cmult 1%C (map (fun k => (z - IZR (steps (Re z)) + INR k)%C) (seq 0 (Z.to_nat (steps (Re z))))).
Definition ctoy (z : C) : C := if Rlt_dec 0 (Re z) then ctoy_pos z else (- RtoC PI / (- z * ctoy_pos (- z) * csin (RtoC PI * - z)))%C.

Lemma ctoy_pos_succ z : 0 < Re z -> ctoy_pos (z + 1)%C = (z * ctoy_pos z)%C.
Proof.
  intro P. destruct (steps_pos _ P) as [S1 S2]. unfold ctoy_pos. replace (Re (z + 1)%C) with (Re z + 1) by (unfold Re, Cplus, RtoC; cbn; reflexivity). rewrite steps_succ.
  replace (Z.to_nat (steps (Re z) + 1)) with (S (Z.to_nat (steps (Re z)))) by lia. rewrite plus_IZR, RtoC_plus. rewrite seq_S, map_app. cbn [map Nat.add].
  replace (z + 1 - (IZR (steps (Re z)) + 1))%C with (z - IZR (steps (Re z)))%C by ring. set (w := (z - IZR (steps (Re z)))%C).
  assert (F : forall l a, fold_right Cmult 1%C (l ++ a :: nil) = (a * fold_right Cmult 1%C l)%C). { induction l as [|b l IH]; intro a; cbn [app fold_right]; [ring|]. rewrite IH. ring. }
  rewrite F. f_equal. rewrite INR_IZR_INZ, Z2Nat.id by exact S1. unfold w. ring.
Qed.

Lemma ctoy_gamma_like : gamma_like_C ctoy.
Proof.
  split; [|split].
  - intros z P. unfold ctoy. destruct (Rlt_dec 0 (Re z)); [|lra]. destruct (steps_pos _ P) as [S1 S2]. unfold ctoy_pos. generalize (seq 0 (Z.to_nat (steps (Re z)))). induction l as [|k l IH]; cbn [map fold_right].
    + intro E. apply (f_equal fst) in E. cbn in E. lra.
    + apply Cmult_neq_0; [|exact IH]. intro E. apply (f_equal Re) in E. pose proof (pos_INR k). unfold Re in *. unfold Cminus, Cplus, Copp, RtoC in E. cbn [fst snd] in E. lra.
  - intros z P. unfold ctoy. replace (Re (z + 1)%C) with (Re z + 1) by (unfold Re, Cplus, RtoC; cbn; reflexivity). destruct (Rlt_dec 0 (Re z + 1)); [|lra]. destruct (Rlt_dec 0 (Re z)); [|lra]. apply ctoy_pos_succ. exact P.
  - intros z P _. unfold ctoy. replace (Re (- z)%C) with (- Re z) by (unfold Re, Copp; cbn; reflexivity). destruct (Rlt_dec 0 (- Re z)); [lra|]. destruct (Rlt_dec 0 (Re z)); [|lra]. replace (- - z)%C with z by ring. reflexivity.
Qed.
