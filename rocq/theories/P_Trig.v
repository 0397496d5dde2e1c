(** * C70: accuracy of tan, cot, sec and csc *)

From Coq Require Import ZArith List Bool Ascii String Reals Lra Lia.
From Verif Require Import Model Spec Limbs Value CmpProofs AddProofs Decide OrderProofs AddExtra IntProofs IntPartProofs IntConv PowExtra MulCor InvProofs LdexpProofs ModelDiv ModelPow ModelStr ModelConst ModelElem
  ElemProofs SeriesFloat FloatEval ExpReal ExpFloat ExpAcc SinFloat SinAcc SinTiny P_Const P_Sin TanAcc.
Import ListNotations.
Open Scope R_scope.
Local Notation Rsin := Rtrigo_def.sin.
Local Notation Rcos := Rtrigo_def.cos.

(** C70, up to 1009 digits, for the arguments of C61 and C62.  With
    A = min(1, |x|) + |x| / 250000 and B = 4/3 + |x| / 250000 the relative errors of
    csc(x) and sec(x) are at most (A / |sin x| + 1) * 10^-digits10 and
    (B / |cos x| + 1) * 10^-digits10, as long as the sine and the cosine are larger
    than 100 A and 100 B units of the last digit. *)
Theorem C70_csc_partial :
  forall d env x, valid_digits d -> (d <= 1009)%Z -> const_pi d = Ok (c_pi env) ->
  finite d x -> full d x -> powerRZ 10 (-300000) <= Rabs (value x) -> Rabs (value x) <= 300000000 ->
  let A := Rmin 1 (Rabs (value x)) + Rabs (value x) / 250000 in
  100 * A * powerRZ 10 (- d) <= Rabs (Rsin (value x)) ->
  let r := csc d env x in
  finite d r /\ full d r /\
  Rabs (value r - 1 / Rsin (value x)) <= (A / Rabs (Rsin (value x)) + 1) * powerRZ 10 (- d) * Rabs (1 / Rsin (value x)).
Proof.
  intros d env x Hd D E F P L B A H. assert (N : value x <> 0). { intro Z. rewrite Z, Rabs_R0 in L. pose proof (p10_pos (-300000)). lra. }
  apply (csc_accurate d Hd ltac:(lia) env (pi_close d env Hd D E) x); [apply range_ok; [assumption|assumption|right; exact L|exact B]|exact B|exact N|exact H].
Qed.
Print Assumptions C70_csc_partial.

Theorem C70_sec_partial :
  forall d env x, valid_digits d -> (d <= 1009)%Z -> const_pi d = Ok (c_pi env) ->
  finite d x -> full d x -> value x = 0 \/ powerRZ 10 (-300000) <= Rabs (value x) -> Rabs (value x) <= 300000000 ->
  let B := 4 / 3 + Rabs (value x) / 250000 in
  100 * B * powerRZ 10 (- d) <= Rabs (Rcos (value x)) ->
  let r := sec d env x in
  finite d r /\ full d r /\
  Rabs (value r - 1 / Rcos (value x)) <= (B / Rabs (Rcos (value x)) + 1) * powerRZ 10 (- d) * Rabs (1 / Rcos (value x)).
Proof.
  intros d env x Hd D E F P L B A H.
  apply (sec_accurate d Hd ltac:(lia) env (pi_close d env Hd D E) x); [apply range_ok; assumption|exact B|exact H].
Qed.
Print Assumptions C70_sec_partial.

(** The relative errors of tan(x) and cot(x) are at most
    (A / |sin x| + B / |cos x| + 1) * 10^-digits10 under both conditions, unless
    |sin x| and |cos x| are too close to be told apart and the numerator is negative:
    then the sign of the quotient may be wrong. *)
Theorem C70_tan_partial :
  forall d env x, valid_digits d -> (d <= 1009)%Z -> const_pi d = Ok (c_pi env) ->
  finite d x -> full d x -> powerRZ 10 (-300000) <= Rabs (value x) -> Rabs (value x) <= 300000000 ->
  let A := Rmin 1 (Rabs (value x)) + Rabs (value x) / 250000 in
  let B := 4 / 3 + Rabs (value x) / 250000 in
  100 * A * powerRZ 10 (- d) <= Rabs (Rsin (value x)) -> 100 * B * powerRZ 10 (- d) <= Rabs (Rcos (value x)) ->
  (A + B) * powerRZ 10 (- d) < Rabs (Rabs (Rsin (value x)) - Rabs (Rcos (value x))) \/ 0 < Rsin (value x) ->
  let r := tan d env x in
  finite d r /\ full d r /\
  Rabs (value r - Rsin (value x) / Rcos (value x)) <= (A / Rabs (Rsin (value x)) + B / Rabs (Rcos (value x)) + 1) * powerRZ 10 (- d) * Rabs (Rsin (value x) / Rcos (value x)).
Proof.
  intros d env x Hd D E F P L V A B H1 H2. assert (N : value x <> 0). { intro Z. rewrite Z, Rabs_R0 in L. pose proof (p10_pos (-300000)). lra. }
  apply (trig_quotients d Hd ltac:(lia) env (pi_close d env Hd D E) x); [apply range_ok; [assumption|assumption|right; exact L|exact V]|exact V|exact N|exact H1|exact H2].
Qed.
Print Assumptions C70_tan_partial.

Theorem C70_cot_partial :
  forall d env x, valid_digits d -> (d <= 1009)%Z -> const_pi d = Ok (c_pi env) ->
  finite d x -> full d x -> powerRZ 10 (-300000) <= Rabs (value x) -> Rabs (value x) <= 300000000 ->
  let A := Rmin 1 (Rabs (value x)) + Rabs (value x) / 250000 in
  let B := 4 / 3 + Rabs (value x) / 250000 in
  100 * A * powerRZ 10 (- d) <= Rabs (Rsin (value x)) -> 100 * B * powerRZ 10 (- d) <= Rabs (Rcos (value x)) ->
  (A + B) * powerRZ 10 (- d) < Rabs (Rabs (Rsin (value x)) - Rabs (Rcos (value x))) \/ 0 < Rcos (value x) ->
  let r := cot d env x in
  finite d r /\ full d r /\
  Rabs (value r - Rcos (value x) / Rsin (value x)) <= (A / Rabs (Rsin (value x)) + B / Rabs (Rcos (value x)) + 1) * powerRZ 10 (- d) * Rabs (Rcos (value x) / Rsin (value x)).
Proof.
  intros d env x Hd D E F P L V A B H1 H2. assert (N : value x <> 0). { intro Z. rewrite Z, Rabs_R0 in L. pose proof (p10_pos (-300000)). lra. }
  apply (trig_quotients d Hd ltac:(lia) env (pi_close d env Hd D E) x); [apply range_ok; [assumption|assumption|right; exact L|exact V]|exact V|exact N|exact H1|exact H2].
Qed.
Print Assumptions C70_cot_partial.

(** x = 1: the sine is greater than 1/2, the cosine greater than 1/3. *)
Example C70_hypotheses_met :
  let d := 101%Z in let x := of_sll d 1 in let A := Rmin 1 (Rabs (value x)) + Rabs (value x) / 250000 in let B := 4 / 3 + Rabs (value x) / 250000 in
  valid_digits d /\ (d <= 1009)%Z /\ finite d x /\ full d x /\ powerRZ 10 (-300000) <= Rabs (value x) /\ Rabs (value x) <= 300000000 /\ (exists p, const_pi d = Ok p) /\
  100 * A * powerRZ 10 (- d) <= Rabs (Rsin (value x)) /\ 100 * B * powerRZ 10 (- d) <= Rabs (Rcos (value x)) /\ 0 < Rsin (value x) /\ 0 < Rcos (value x).
Proof.
  cbv zeta. assert (H : valid_digits 101) by (unfold valid_digits; lia). split; [exact H|]. split; [lia|].
  destruct (of_sll_spec 101 1 H ltac:(lia)) as (F1 & P1 & V1 & _). split; [exact F1|]. split; [exact P1|]. rewrite V1, Rabs_R1.
  split; [change 1 with (powerRZ 10 0); apply p10_le; lia|]. split; [lra|]. split.
  { destruct (C60_constants_partial 101 _ _ H ltac:(lia) (is_pi 101 ltac:(lia))) as (l & L & _). exists l. exact L. }
  pose proof (u_tiny 101 H) as U. pose proof pi_bounds as PB.
  assert (S : / 2 <= Rsin 1). { pose proof (sin_incr_1 (PI / 6) 1 ltac:(lra) ltac:(lra) ltac:(lra) ltac:(lra) ltac:(lra)). rewrite sin_PI6 in *. lra. }
  assert (C : / 2 <= Rcos 1). { pose proof (cos_decr_1 1 (PI / 3) ltac:(lra) ltac:(lra) ltac:(lra) ltac:(lra) ltac:(lra)). rewrite cos_PI3 in *. lra. }
  rewrite Rmin_left, !Rabs_pos_eq by lra. repeat split; lra.
Qed.
