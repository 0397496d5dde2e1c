(** * C71: accuracy of sinh, cosh and tanh *)

From Coq Require Import ZArith List Bool Ascii String Reals Lra Lia.
From Verif Require Import Model Spec Limbs Value CmpProofs AddProofs Decide OrderProofs OrderDec AddExtra IntProofs IntPartProofs IntConv PowExtra MulCor InvProofs LdexpProofs ModelDiv ModelPow ModelStr ModelConst ModelElem
  ElemProofs SeriesFloat FloatEval ExpReal ExpFloat ExpAcc SinFloat SinAcc SinTiny P_Const RecipCheck P_Exp AtanSer HypAcc.
Import ListNotations.
Open Scope R_scope.
Local Notation Rsinh := Rtrigo_def.sinh.
Local Notation Rcosh := Rtrigo_def.cosh.

Lemma hyp_constants d env : In d [30; 50; 100; 101; 200]%Z -> const_ln2 d = Ok (c_ln2 env) -> const_e d = Ok (c_e env) ->
  valid_digits d /\ (d <= 4967)%Z /\ close_to d (c_ln2 env) (ln 2) /\ value (div d (one d) (c_ln2 env)) * value (c_ln2 env) < 1 /\ close_to d (c_e env) (Rtrigo_def.exp 1).
Proof.
  intros Hd L E. assert (V : (30 <= d <= 200)%Z) by (cbn [In] in Hd; lia). assert (Hv : valid_digits d) by (unfold valid_digits; lia). split; [exact Hv|]. split; [lia|].
  destruct (constants_close d env Hv ltac:(lia) L E) as [A B]. split; [exact A|]. split; [|exact B]. refine (recip_value d (c_ln2 env) _ L).
  pose proof recip_checked as H. rewrite forallb_forall in H. apply H. exact Hd.
Qed.

(** C71, for the numbers of digits of C59 and |x| <= 2147483616: the relative
    error of cosh(x) is at most (1 + |x|/100000) * 10^-digits10; the error of
    sinh(x) is at most that multiple of cosh(x); the error of tanh(x) is at
    most (4 + |x|/40000) * 10^-digits10.  Missing: other numbers of digits, larger
    arguments, arguments of reduced precision. *)
Theorem C71_cosh_partial :
  forall d env x, In d [30; 50; 100; 101; 200]%Z -> const_ln2 d = Ok (c_ln2 env) -> const_e d = Ok (c_e env) ->
  finite d x -> full d x -> Rabs (value x) <= 2147483616 ->
  exists r, cosh d env x = Defined r /\ finite d r /\ full d r /\
  Rabs (value r - Rcosh (value x)) <= (1 + Rabs (value x) / 100000) * powerRZ 10 (- d) * Rcosh (value x).
Proof.
  intros d env x Hd L E F P B. destruct (hyp_constants d env Hd L E) as (Hv & Hl & A1 & A2 & A3).
  destruct (sinhcosh_accurate d Hv Hl env A1 A2 A3 x F P B) as (s & c & Q & Os & Oc & _ & Es & Ec). exists c. unfold cosh. rewrite (finite_isfinite d x F), Q.
  split; [reflexivity|]. split; [apply Oc|]. split; [apply Oc|]. exact Ec.
Qed.
Print Assumptions C71_cosh_partial.

Theorem C71_sinh_partial :
  forall d env x, In d [30; 50; 100; 101; 200]%Z -> const_ln2 d = Ok (c_ln2 env) -> const_e d = Ok (c_e env) ->
  finite d x -> full d x -> Rabs (value x) <= 2147483616 ->
  exists r, sinh d env x = Defined r /\ finite d r /\ full d r /\
  Rabs (value r - Rsinh (value x)) <= (1 + Rabs (value x) / 100000) * powerRZ 10 (- d) * Rcosh (value x).
Proof.
  intros d env x Hd L E F P B. destruct (hyp_constants d env Hd L E) as (Hv & Hl & A1 & A2 & A3).
  destruct (sinhcosh_accurate d Hv Hl env A1 A2 A3 x F P B) as (s & c & Q & Os & Oc & _ & Es & Ec). exists s. unfold sinh. rewrite (finite_isfinite d x F), Q.
  split; [reflexivity|]. split; [apply Os|]. split; [apply Os|]. exact Es.
Qed.
Print Assumptions C71_sinh_partial.

Theorem C71_tanh_partial :
  forall d env x, In d [30; 50; 100; 101; 200]%Z -> const_ln2 d = Ok (c_ln2 env) -> const_e d = Ok (c_e env) ->
  finite d x -> full d x -> Rabs (value x) <= 2147483616 ->
  exists r, tanh d env x = Defined r /\ finite d r /\ full d r /\
  Rabs (value r - Rsinh (value x) / Rcosh (value x)) <= (4 + Rabs (value x) / 40000) * powerRZ 10 (- d).
Proof.
  intros d env x Hd L E F P B. destruct (hyp_constants d env Hd L E) as (Hv & Hl & A1 & A2 & A3). exact (tanh_accurate d Hv Hl env A1 A2 A3 x F P B).
Qed.
Print Assumptions C71_tanh_partial.

(** The hyperbolic sine and tangent are not accurate relative to their own size: for
    every number of digits up to 4967 and every nonzero x below 10^-(2 digits10) in magnitude
    sinh(x) and tanh(x) are zero, although their values are close to x. *)
Theorem C71_sinh_refuted :
  forall d env x, valid_digits d -> (d <= 4967)%Z -> finite d x -> value x <> 0 -> Rabs (value x) < powerRZ 10 (- (2 * d)) ->
  exists r t, sinh d env x = Defined r /\ tanh d env x = Defined t /\ value r = 0 /\ value t = 0.
Proof.
  intros d env x Hd D F N B. destruct (order_spec d x Hd F N) as [A _]. destruct (iszero_isneg_spec d x Hd F) as [Zs _]. destruct (finite_flags d _ F) as [Ni Nn].
  assert (O : (order x < - (2 * d))%Z) by (apply p10_lt_inv; lra).
  assert (T : (order x <? - tolerance d)%Z = true) by (apply Z.ltb_lt; unfold tolerance, max_digits10; destruct Hd; lia).
  destruct (one_ok d Hd) as (F1 & P1 & V1). destruct (zero_ok d Hd) as (F0 & _ & V0).
  assert (Z : iszero x = false) by (destruct (iszero x); [exfalso; apply N, Zs; reflexivity|reflexivity]).
  assert (SM : same_magnitude (one d) (one d) = true) by (apply (same_magnitude_spec d (one d) (one d) Hd F1 F1 ltac:(lra)); reflexivity).
  assert (DV : div d (one d) (one d) = one d) by (unfold div; rewrite SM; reflexivity).
  assert (SC : sinhcosh d env x = Defined (div_int d (sub d (one d) (one d)) 2, div_int d (add d (one d) (one d)) 2)).
  { unfold sinhcosh, exp. rewrite Z, Ni, Nn, T. cbn [orb omap]. rewrite DV. reflexivity. }
  destruct (one_facts d Hd) as [O1 _]. destruct (ok_sub d 1 (one d) (one d) Hd ltac:(lia) ltac:(lia) O1 O1) as [OS _]. destruct (ok_add d 1 (one d) (one d) Hd ltac:(lia) ltac:(lia) O1 O1) as [OA EA].
  destruct (sub_same d (one d) (one d) Hd F1 F1 eq_refl) as [_ SV]. pose proof (proj1 OS) as SF.
  assert (DZ : div_int d (sub d (one d) (one d)) 2 = sub d (one d) (one d)) by (apply (div_int_value_zero d Hd); [exact SF|exact SV|lia]).
  assert (NA : value (add d (one d) (one d)) <> 0).
  { intro Q. rewrite Q, V1, Rabs_R1, Rmax_left in EA by lra. pose proof (u_tiny d Hd). pose proof (p10_le (- (d + 17)) (- d) ltac:(lia)). apply Rabs_le_inv in EA. lra. }
  destruct (ok_div_int d Hd (1 + 70000) (add d (one d) (one d)) 2 ltac:(lia) OA NA ltac:(lia)) as (OC & NC & _).
  destruct (ok_inv d (1 + 70000 + 9) _ Hd ltac:(lia) ltac:(lia) OC NC) as [OI _].
  exists (sub d (one d) (one d)). eexists. unfold sinh, tanh. rewrite (finite_isfinite d x F), SC. cbn [negb omap fst]. rewrite DZ.
  split; [reflexivity|]. split; [reflexivity|]. split; [exact SV|].
  rewrite (mul_zero_l d); [exact V0|exact Hd|exact SF|exact (proj1 OI)|left; exact SV].
Qed.
Print Assumptions C71_sinh_refuted.

Example C71_hypotheses_met :
  let d := 101%Z in let x := div_int d (of_sll d (-200)) 7 in
  In d [30; 50; 100; 101; 200]%Z /\ finite d x /\ full d x /\ value x <> 0 /\ Rabs (value x) <= 2147483616 /\ (exists l, const_ln2 d = Ok l) /\ (exists e, const_e d = Ok e).
Proof.
  cbv zeta. assert (H : valid_digits 101) by (unfold valid_digits; lia). split; [cbn [In]; lia|]. split; [meets|]. split; [vm_compute; reflexivity|].
  assert (F : finite 101 (div_int 101 (of_sll 101 (-200)) 7)) by meets.
  assert (N : value (div_int 101 (of_sll 101 (-200)) 7) <> 0) by (apply (value_nonzero_check 101); [exact H|vm_compute; reflexivity]).
  destruct (OrderDec.order_spec 101 _ H F N) as [A B]. change (order (div_int 101 (of_sll 101 (-200)) 7)) with 1%Z in A, B. change (1 + 1)%Z with 2%Z in B.
  split; [exact N|]. split. { rewrite (p10_nonneg 2) in B by lia. change (10 ^ 2)%Z with 100%Z in B. lra. }
  destruct (C60_constants_partial 101 _ _ ltac:(unfold valid_digits; lia) ltac:(lia) (is_ln2 _)) as (l & L & _).
  destruct (C60_constants_partial 101 _ _ ltac:(unfold valid_digits; lia) ltac:(lia) (is_e _)) as (e & E & _). split; [exists l; exact L|exists e; exact E].
Qed.

Example C71_refuted_hypotheses_met :
  let x := of_limbs 101 [1%Z] (-1600) false in finite 101 x /\ value x <> 0 /\ Rabs (value x) < powerRZ 10 (- (2 * 101)).
Proof.
  cbv zeta. assert (H : valid_digits 101) by (unfold valid_digits; lia).
  destruct (of_limbs1 101 1 (-1600) H ltac:(lia) ltac:(reflexivity)) as (F & _ & V). split; [exact F|]. rewrite V. pose proof (p10_pos (-1600)).
  split; [lra|]. rewrite Rabs_pos_eq by lra. rewrite Rmult_1_l || rewrite Rmult_1_r. apply p10_lt. lia.
Qed.
