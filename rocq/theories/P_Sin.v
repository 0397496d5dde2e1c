(** * C61, C62: accuracy of sine and cosine *)

From Coq Require Import ZArith List Bool Ascii String Reals Lra Lia.
From Verif Require Import Model Spec Limbs Value CmpProofs AddProofs Decide OrderProofs AddExtra IntProofs IntPartProofs IntConv PowExtra MulCor InvProofs LdexpProofs ModelDiv ModelPow ModelStr ModelConst ModelElem
  ElemProofs SeriesFloat FloatEval ExpReal ExpAcc SinFloat SinAcc SinTiny P_Const.
Import ListNotations.
Open Scope R_scope.
Local Notation Rsin := Rtrigo_def.sin.
Local Notation Rcos := Rtrigo_def.cos.

Lemma pi_close d env : valid_digits d -> (d <= 1009)%Z -> const_pi d = Ok (c_pi env) -> close_to d (c_pi env) PI.
Proof.
  intros Hd D E. assert (P : powerRZ 10 (- (d + 15)) <= powerRZ 10 (- (d + 8))) by (apply p10_le; lia).
  destruct (C60_constants_partial d _ _ Hd ltac:(lia) (is_pi d ltac:(lia))) as (l & L1 & L2 & L3 & L4).
  rewrite E in L1. injection L1 as L1. rewrite L1. unfold close_to. split; [assumption|split; [assumption|lra]].
Qed.

Lemma pi_sane_of d env : valid_digits d -> (d <= 1009)%Z -> const_pi d = Ok (c_pi env) -> pi_sane d env.
Proof.
  intros Hd D E. destruct (pi_close d env Hd D E) as (F & P & B). split; [exact F|]. split; [exact P|].
  assert (powerRZ 10 (- (d + 8)) <= / 10) by (apply Rle_trans with (powerRZ 10 (- (1))); [apply p10_le; destruct Hd; lia|rewrite (p10_inv 1), p10_1; lra]).
  pose proof pi_bounds. apply Rabs_le_inv in B. lra.
Qed.

Lemma range_ok d x : finite d x -> full d x -> value x = 0 \/ powerRZ 10 (-300000) <= Rabs (value x) -> Rabs (value x) <= 300000000 -> ok d 300000 x.
Proof.
  intros F P [Z|L] B; (split; [exact F|]; split; [exact P|]); [left; exact Z|right]. split; [exact L|].
  apply Rle_trans with (1 := B). apply Rle_trans with (powerRZ 10 9); [|apply p10_le; lia]. rewrite (p10_nonneg 9) by lia. change (10 ^ 9)%Z with 1000000000%Z. lra.
Qed.

(** C61, up to 1009 digits: for every finite x of full precision with
    |x| <= 3 * 10^8 which is zero or at least 10^-300000 in magnitude, sin(x) is a
    finite number within (min(1,|x|)/2 + |x|/500000) * 10^-digits10 of the sine
    of x.  Missing: arguments of reduced precision, larger and smaller arguments,
    more digits. *)
Theorem C61_sin_partial :
  forall d env x, valid_digits d -> (d <= 1009)%Z -> const_pi d = Ok (c_pi env) ->
  finite d x -> full d x -> value x = 0 \/ powerRZ 10 (-300000) <= Rabs (value x) -> Rabs (value x) <= 300000000 ->
  let r := sin d env x in
  finite d r /\ full d r /\
  Rabs (value r - Rsin (value x)) <= (Rmin 1 (Rabs (value x)) / 2 + Rabs (value x) / 500000) * powerRZ 10 (- d).
Proof.
  intros d env x Hd D E F P L B. apply sin_accurate; [exact Hd|lia|apply pi_close; assumption|apply range_ok; assumption|exact B].
Qed.
Print Assumptions C61_sin_partial.

(** C62: the same for the cosine. *)
Theorem C62_cos_partial :
  forall d env x, valid_digits d -> (d <= 1009)%Z -> const_pi d = Ok (c_pi env) ->
  finite d x -> full d x -> value x = 0 \/ powerRZ 10 (-300000) <= Rabs (value x) -> Rabs (value x) <= 300000000 ->
  let r := cos d env x in
  finite d r /\ full d r /\
  Rabs (value r - Rcos (value x)) <= (2 / 3 + Rabs (value x) / 500000) * powerRZ 10 (- d).
Proof.
  intros d env x Hd D E F P L B. apply cos_accurate; [exact Hd|lia|apply pi_close; assumption|apply range_ok; assumption|exact B].
Qed.
Print Assumptions C62_cos_partial.

(** Both are false for very small arguments: the square of the argument
    underflows, the terms of the series are zero, a zero term is not recognised
    as small, and the series is given up.  The results are NaN instead of x and
    1. *)
Theorem C61_sin_refuted :
  forall d env x, valid_digits d -> (d <= 1009)%Z -> const_pi d = Ok (c_pi env) ->
  finite d x -> value x <> 0 -> Rabs (value x) < powerRZ 10 (-1073741808) -> is_nan (sin d env x).
Proof.
  intros d env x Hd D E F N B. destruct (tiny_nan d Hd ltac:(lia) env (pi_sane_of d env Hd D E) x F N B) as [A _].
  revert A. unfold isnan, is_nan. destruct (cls (sin d env x)); intro; congruence.
Qed.
Print Assumptions C61_sin_refuted.

Theorem C62_cos_refuted :
  forall d env x, valid_digits d -> (d <= 1009)%Z -> const_pi d = Ok (c_pi env) ->
  finite d x -> value x <> 0 -> Rabs (value x) < powerRZ 10 (-1073741808) -> is_nan (cos d env x).
Proof.
  intros d env x Hd D E F N B. destruct (tiny_nan d Hd ltac:(lia) env (pi_sane_of d env Hd D E) x F N B) as [_ A].
  revert A. unfold isnan, is_nan. destruct (cls (cos d env x)); intro; congruence.
Qed.
Print Assumptions C62_cos_refuted.

Example C61_C62_hypotheses_met :
  let d := 101%Z in let x := div_int d (of_sll d (-200)) 7 in
  valid_digits d /\ (d <= 1009)%Z /\ finite d x /\ full d x /\ powerRZ 10 (-300000) <= Rabs (value x) /\ Rabs (value x) <= 300000000 /\ (exists p, const_pi d = Ok p).
Proof.
  cbv zeta. assert (H : valid_digits 101) by (unfold valid_digits; lia). split; [exact H|]. split; [lia|]. split; [meets|]. split; [vm_compute; reflexivity|].
  assert (F : finite 101 (div_int 101 (of_sll 101 (-200)) 7)) by meets.
  assert (N : value (div_int 101 (of_sll 101 (-200)) 7) <> 0) by (apply (value_nonzero_check 101); [exact H|vm_compute; reflexivity]).
  destruct (OrderDec.order_spec 101 _ H F N) as [A B]. change (order (div_int 101 (of_sll 101 (-200)) 7)) with 1%Z in A, B. change (1 + 1)%Z with 2%Z in B.
  split; [apply Rle_trans with (2 := A); apply p10_le; lia|]. split.
  - rewrite (p10_nonneg 2) in B by lia. change (10 ^ 2)%Z with 100%Z in B. lra.
  - destruct (C60_constants_partial 101 _ _ H ltac:(lia) (is_pi 101 ltac:(lia))) as (l & L & _). exists l. exact L.
Qed.

Example C61_C62_refuted_hypotheses_met :
  let x := of_limbs 101 [1%Z] (-1100000000) false in finite 101 x /\ value x <> 0 /\ Rabs (value x) < powerRZ 10 (-1073741808).
Proof.
  cbv zeta. assert (H : valid_digits 101) by (unfold valid_digits; lia).
  destruct (of_limbs1 101 1 (-1100000000) H ltac:(lia) ltac:(reflexivity)) as (F & _ & V). split; [exact F|]. rewrite V. pose proof (p10_pos (-1100000000)).
  split; [lra|]. rewrite Rabs_pos_eq by lra. rewrite Rmult_1_l || rewrite Rmult_1_r. apply p10_lt. lia.
Qed.
