(** * C68, C69: accuracy of the arc tangent and of atan2 *)

From Coq Require Import ZArith List Bool Ascii String Reals Lra Lia.
From Verif Require Import Model Spec Limbs Value CmpProofs AddProofs Decide OrderProofs AddExtra IntProofs IntPartProofs IntConv PowExtra MulCor InvProofs LdexpProofs ModelDiv ModelPow ModelStr ModelConst ModelElem
  ElemProofs ElemSpecial SeriesFloat FloatEval ExpReal ExpFloat ExpAcc SinFloat SinAcc SinTiny P_Const P_Sin SpecTrig AtanAcc AtanSer AtanTop Atan2Acc.
Import ListNotations.
Open Scope R_scope.
Local Notation Ratan := Ratan.atan.

(** C68, up to 1009 digits: for every finite x of full precision, at least
    -10^7 and zero or at least 10^-400000 in magnitude, atan(x) has a relative
    error of at most 14/10 * 10^-digits10.  The double precision estimate the
    Newton iteration starts from, needed for 10^-digits10 <= |x| < 100, is assumed
    to have a relative error of at most 4 * 10^-15.  Missing: arguments of reduced
    precision, more digits, smaller arguments, large negative arguments (see
    the refutation). *)
Theorem C68_atan_partial :
  forall d env x, valid_digits d -> (d <= 1009)%Z -> const_pi d = Ok (c_pi env) ->
  finite d x -> full d x -> value x = 0 \/ powerRZ 10 (-400000) <= Rabs (value x) -> - 10000000 < value x ->
  (forall y, finite d y -> full d y -> value y = Rabs (value x) -> powerRZ 10 (- d) <= value y < 100 -> estimates d (est_atan env y) (Ratan (value y))) ->
  let r := atan d env x in
  finite d r /\ full d r /\ Rabs (value r - Ratan (value x)) <= 14 / 10 * powerRZ 10 (- d) * Rabs (Ratan (value x)).
Proof.
  intros d env x Hd D E F P L Hn Hest. apply atan_accurate; [exact Hd|lia|apply pi_close; assumption|assumption|assumption|assumption|assumption|].
  intros y Fy Py Vy By. rewrite <- Vy in *. exact (Hest y Fy Py eq_refl By).
Qed.
Print Assumptions C68_atan_partial.

(** Large negative arguments: the result can be positive. *)
Theorem C68_atan_refuted :
  exists d env x, valid_digits d /\ pi_sane d env /\ finite d x /\ value x < 0 /\ finite d (atan d env x) /\ 0 < value (atan d env x).
Proof.
  exists 30%Z, env_30, (negate (ten_power 10)). split; [exact valid_30|]. split; [exact pi_30_sane|].
  assert (F : finite 30 (negate (ten_power 10))) by (apply wfb_finite; vm_compute; reflexivity). split; [exact F|].
  split; [|exact (check_pos _ _ valid_30 atan_check2)].
  destruct (iszero_isneg_spec 30 _ valid_30 F) as [_ N]. apply N. vm_compute. reflexivity.
Qed.
Print Assumptions C68_atan_refuted.

(** C69, up to 1009 digits: for full-precision y and x, each zero or between
    10^-190000 and 10^190000 in magnitude, with |y| <> |x| or y > 0, and y / x
    greater than -10^6 (or x = 0), atan2(y, x) is within 5/2 * 10^-digits10 of the
    angle of the point (x, y); in particular the quadrant is right.  The double
    precision estimate for the arc tangent of the quotient is assumed to have a
    relative error of at most 4 * 10^-15. *)
Theorem C69_atan2_partial :
  forall d env y x t, valid_digits d -> (d <= 1009)%Z -> const_pi d = Ok (c_pi env) ->
  finite d y -> full d y -> finite d x -> full d x ->
  value y = 0 \/ powerRZ 10 (-190000) <= Rabs (value y) <= powerRZ 10 190000 ->
  value x = 0 \/ powerRZ 10 (-190000) <= Rabs (value x) <= powerRZ 10 190000 ->
  (Rabs (value y) <> Rabs (value x) \/ 0 < value y) -> (- 1000000 < value y / value x \/ value x = 0) ->
  (forall w, finite d w -> full d w -> value w = Rabs (value (div d y x)) -> powerRZ 10 (- d) <= value w < 100 -> estimates d (est_atan env w) (Ratan (value w))) ->
  is_angle (value x) (value y) t ->
  let r := atan2 d env y x in finite d r /\ full d r /\ Rabs (value r - t) <= 5 / 2 * powerRZ 10 (- d).
Proof.
  intros d env y x t Hd D E Fy Py Fx Px Ry Rx H1 H2 H3 H4. apply atan2_accurate; try assumption; [lia|apply pi_close; assumption].
Qed.
Print Assumptions C69_atan2_partial.

(** Whenever y is negative and |y| = |x| the result is wrong by a quarter of a
    turn: atan2(-1, 1) is pi/4 and atan2(-1, -1) is -5 pi/4. *)
Theorem C69_atan2_refuted :
  forall d env y x t, valid_digits d -> (d <= 1009)%Z -> const_pi d = Ok (c_pi env) ->
  finite d y -> finite d x -> value y < 0 -> Rabs (value y) = Rabs (value x) ->
  (forall w, finite d w -> full d w -> value w = 1 -> estimates d (est_atan env w) (Ratan 1)) ->
  is_angle (value x) (value y) t ->
  let r := atan2 d env y x in finite d r /\ full d r /\ 3 / 2 < Rabs (value r - t).
Proof.
  intros d env y x t Hd D E Fy Fx H1 H2 H3 H4. apply atan2_equal_magnitudes; try assumption; [lia|apply pi_close; assumption].
Qed.
Print Assumptions C69_atan2_refuted.

(** An environment in which the hypotheses hold: the estimate for the arc tangent
    of one is a quarter of pi. *)
Definition env_with_pi (d : Z) (p : ef) : env :=
  mkenv p (zero d) (zero d) (zero d) (zero d) (fun _ => zero d) (fun _ => div_int d p 4) (fun _ => zero d) (fun _ _ => zero d).

Lemma quarter_pi d p : valid_digits d -> (d <= 1009)%Z -> const_pi d = Ok p -> estimates d (div_int d p 4) (Ratan 1).
Proof.
  intros Hd D E. pose proof (u_tiny d Hd) as U. pose proof (pi_close d (env_with_pi d p) Hd D E) as C. cbn [c_pi env_with_pi] in C.
  destruct (pi_facts d Hd (env_with_pi d p) C) as (Op & Ep & Vp). cbn [c_pi env_with_pi] in *. pose proof pi_bounds.
  destruct (ok_div_int d Hd 1 p 4 ltac:(lia) Op ltac:(lra) ltac:(lia)) as (O & _ & R). split; [apply O|]. split; [apply O|]. rewrite atan_1.
  unfold rel in R. rewrite (Rabs_pos_eq (value p / 4)) in R by lra. apply Rabs_le_inv in R. apply Rabs_le_inv in Ep.
  assert (powerRZ 10 (- d) / 10 * (value p / 4) <= powerRZ 10 (- d) / 10 * 1) by (apply Rmult_le_compat_l; lra).
  apply Rabs_le. lra.
Qed.

Example C68_hypotheses_met :
  exists env, const_pi 101 = Ok (c_pi env) /\ let x := one 101 in finite 101 x /\ full 101 x /\ value x = 1 /\
  forall y, finite 101 y -> full 101 y -> value y = Rabs (value x) -> powerRZ 10 (- 101) <= value y < 100 -> estimates 101 (est_atan env y) (Ratan (value y)).
Proof.
  assert (H : valid_digits 101) by (unfold valid_digits; lia). destruct (C60_constants_partial 101 _ _ H ltac:(lia) (is_pi 101 ltac:(lia))) as (p & L & _).
  exists (env_with_pi 101 p). split; [exact L|]. destruct (one_facts 101 H) as [O V]. split; [apply O|]. split; [apply O|]. split; [exact V|].
  intros y Fy Py Vy _. rewrite V, Rabs_R1 in Vy. rewrite Vy. apply quarter_pi; [exact H|lia|exact L].
Qed.

Lemma quarter_angle r : 0 < r -> is_angle r (- r) (- (PI / 4)).
Proof.
  intro R. pose proof pi_bounds. split; [lra|]. exists (r * R_sqrt.sqrt 2). assert (S : 0 < R_sqrt.sqrt 2) by (apply sqrt_lt_R0; lra).
  split; [apply Rmult_lt_0_compat; assumption|]. rewrite cos_neg, sin_neg, cos_PI4, sin_PI4. split; field; lra.
Qed.

Lemma third_quarter_angle r : 0 < r -> is_angle (- r) r (3 * (PI / 4)).
Proof.
  intro R. pose proof pi_bounds. split; [lra|]. exists (r * R_sqrt.sqrt 2). assert (S : 0 < R_sqrt.sqrt 2) by (apply sqrt_lt_R0; lra).
  split; [apply Rmult_lt_0_compat; assumption|]. rewrite cos_3PI4, sin_3PI4. split; field; lra.
Qed.

(** (-7, 7), at the angle 3 pi/4, for C69_atan2_partial; (7, -7), at the angle -pi/4,
    for the refutation *)
Example C69_hypotheses_met :
  exists env, const_pi 101 = Ok (c_pi env) /\ let y := of_sll 101 7 in let x := of_sll 101 (-7) in
  finite 101 y /\ full 101 y /\ finite 101 x /\ full 101 x /\ value y = 7 /\ value x = - 7 /\ is_angle (value x) (value y) (3 * (PI / 4)) /\
  is_angle (value y) (value x) (- (PI / 4)) /\
  (forall w, finite 101 w -> full 101 w -> value w = Rabs (value (div 101 y x)) -> powerRZ 10 (- 101) <= value w < 100 -> estimates 101 (est_atan env w) (Ratan (value w))) /\
  (forall w, finite 101 w -> full 101 w -> value w = 1 -> estimates 101 (est_atan env w) (Ratan 1)).
Proof.
  assert (H : valid_digits 101) by (unfold valid_digits; lia). destruct (C60_constants_partial 101 _ _ H ltac:(lia) (is_pi 101 ltac:(lia))) as (p & L & _).
  exists (env_with_pi 101 p). split; [exact L|]. cbv zeta. destruct (of_sll_spec 101 7 H ltac:(lia)) as (F1 & P1 & V1 & _). destruct (of_sll_spec 101 (-7) H ltac:(lia)) as (F2 & P2 & V2 & _).
  assert (V1' : value (of_sll 101 7) = 7) by (rewrite V1; reflexivity). assert (V2' : value (of_sll 101 (-7)) = - 7) by (rewrite V2; simpl; lra).
  split; [exact F1|]. split; [exact P1|]. split; [exact F2|]. split; [exact P2|]. split; [exact V1'|]. split; [exact V2'|]. rewrite V1', V2'.
  split; [apply third_quarter_angle; lra|]. split; [apply quarter_angle; lra|]. split.
  - intros w Fw Pw Vw _. assert (Q : div 101 (of_sll 101 7) (of_sll 101 (-7)) = negate (one 101)) by (vm_compute; reflexivity). rewrite Q in Vw.
    destruct (one_facts 101 H) as [O V]. destruct (ok_negate 101 1 (one 101) H O) as [_ Vn]. rewrite Vn, V, Rabs_Ropp, Rabs_R1 in Vw. rewrite Vw. apply quarter_pi; [exact H|lia|exact L].
  - intros w Fw Pw Vw. apply quarter_pi; [exact H|lia|exact L].
Qed.
