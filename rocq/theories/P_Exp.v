(** * C59: accuracy of exp *)

From Coq Require Import ZArith List Bool Ascii String Reals Lra Lia.
From Verif Require Import Model Spec Limbs Value CmpProofs AddProofs Decide OrderProofs AddExtra IntProofs IntPartProofs IntConv PowExtra OrderDec InvProofs ModelDiv ModelPow ModelStr ModelConst ModelElem
  SeriesFloat ExpReal ExpAcc ConstReal ConstLit RecipCheck P_Const.
Import ListNotations.
Open Scope R_scope.
Local Notation Rexp := Rtrigo_def.exp.

Lemma constants_close d env : valid_digits d -> (d <= 1084)%Z ->
  const_ln2 d = Ok (c_ln2 env) -> const_e d = Ok (c_e env) ->
  close_to d (c_ln2 env) (ln 2) /\ close_to d (c_e env) (Rexp 1).
Proof.
  intros Hd D L E. assert (P : powerRZ 10 (- (d + 15)) <= powerRZ 10 (- (d + 8))) by (apply p10_le; lia).
  destruct (C60_constants_partial d _ _ Hd D (is_ln2 _)) as (l & L1 & L2 & L3 & L4). destruct (C60_constants_partial d _ _ Hd D (is_e _)) as (e & E1 & E2 & E3 & E4).
  rewrite L in L1. injection L1 as L1. rewrite E in E1. injection E1 as E1. rewrite L1, E1. unfold close_to. split; (split; [assumption|split; [assumption|lra]]).
Qed.

(** C59, up to 1084 digits: for every finite x of full precision with
    |x| <= 2147483616 (beyond which exp returns infinity or zero) the result is a
    positive finite number whose relative error is at most
    (1/2 + |x| / 200000) * 10^-digits10.
    The hypothesis on the reciprocal is about the single quotient 1 / ln2() and
    does not involve x; see the next theorem.
    Missing: arguments of reduced precision, more digits, and larger arguments,
    where the true result may still be representable (C57). *)
Theorem C59_exp_given_reciprocal_partial :
  forall d env x, valid_digits d -> (d <= 1084)%Z ->
  const_ln2 d = Ok (c_ln2 env) -> const_e d = Ok (c_e env) ->
  value (div d (one d) (c_ln2 env)) * value (c_ln2 env) < 1 ->
  finite d x -> full d x -> Rabs (value x) <= 2147483616 ->
  exists r, exp d env x = Defined r /\ finite d r /\ full d r /\ 0 < value r /\
  Rabs (value r - Rexp (value x)) <= (1 / 2 + Rabs (value x) / 200000) * powerRZ 10 (- d) * Rexp (value x).
Proof.
  intros d env x Hd D L E R F P B. destruct (constants_close d env Hd D L E) as [A1 A2].
  apply exp_accurate; auto. lia.
Qed.
Print Assumptions C59_exp_given_reciprocal_partial.

(** For some numbers of digits, among them the default 101, the hypothesis on
    the reciprocal has been checked by computation. *)
Theorem C59_exp_partial :
  forall d env x, In d [30; 50; 100; 101; 200]%Z ->
  const_ln2 d = Ok (c_ln2 env) -> const_e d = Ok (c_e env) ->
  finite d x -> full d x -> Rabs (value x) <= 2147483616 ->
  exists r, exp d env x = Defined r /\ finite d r /\ full d r /\ 0 < value r /\
  Rabs (value r - Rexp (value x)) <= (1 / 2 + Rabs (value x) / 200000) * powerRZ 10 (- d) * Rexp (value x).
Proof.
  intros d env x Hd L E F P B. assert (V : (30 <= d <= 200)%Z) by (cbn [In] in Hd; lia).
  apply C59_exp_given_reciprocal_partial; auto; [unfold valid_digits; lia|lia|]. refine (recip_value d (c_ln2 env) _ L).
  pose proof recip_checked as H. rewrite forallb_forall in H. apply H. exact Hd.
Qed.
Print Assumptions C59_exp_partial.

(** C59 is false from 1104 digits on: exp(1) is the constant e(), which carries
    only 1100 digits. *)
Theorem C59_exp_refuted :
  forall d env, valid_digits d -> (1104 <= d)%Z -> const_e d = Ok (c_e env) ->
  finite d (one d) /\ value (one d) = 1 /\
  exists r, exp d env (one d) = Defined r /\ finite d r /\ powerRZ 10 (-1103) <= Rabs (value r - Rexp 1).
Proof.
  intros d env Hd D E. destruct (one_ok d Hd) as (O1 & O2 & O3). split; [exact O1|]. split; [exact O3|].
  destruct (C60_constants_refuted d _ _ Hd D (is_e _)) as (e & E1 & E2 & E3 & E4). rewrite E in E1. injection E1 as E1. rewrite <- E1 in *.
  exists (c_e env). split; [|split; [exact E2|apply E4]].
  unfold exp. replace (isnan (one d)) with false by reflexivity. replace (isinf (one d)) with false by reflexivity.
  destruct (iszero_isneg_spec d (one d) Hd O1) as [Zs Ns].
  assert (Z : iszero (one d) = false) by (destruct (iszero (one d)); [|reflexivity]; exfalso; pose proof (proj1 Zs eq_refl); lra).
  assert (G : isneg (one d) = false) by (destruct (isneg (one d)); [|reflexivity]; exfalso; pose proof (proj1 Ns eq_refl); lra).
  rewrite Z, G. cbn [orb negb].
  assert (T : (order (one d) <? - tolerance d)%Z = false).
  { destruct (order_spec d (one d) Hd O1 ltac:(lra)) as [_ O4]. rewrite O3, Rabs_R1, <- p10_0 in O4. apply p10_lt_inv in O4. apply Z.ltb_ge.
    unfold tolerance, max_digits10. destruct Hd. assert (0 <= (d + 1) / 10)%Z by (apply Z.div_pos; lia). lia. }
  rewrite T. cbv zeta.
  destruct (of_sll_spec d max_exp10 Hd ltac:(unfold max_exp10; lia)) as (Fm & _ & Vm & _).
  assert (C : op_gt (one d) (of_sll d max_exp10) = false).
  { destruct (op_gt (one d) (of_sll d max_exp10)) eqn:C; [|reflexivity]. apply (cmp_all_ops d (one d) (of_sll d max_exp10) Hd O1 Fm) in C. rewrite Vm, O3 in C. change (IZR max_exp10) with 2147483616 in C. lra. }
  rewrite C. assert (I : isint d (one d) = true) by (apply (isint_spec d (one d) Hd O1); exists 1%Z; exact O3). rewrite I.
  destruct (extract_sll_spec d (one d) Hd O1) as [X _]. rewrite O3 in X. specialize (X ltac:(lra)). change 1 with (IZR 1) in X. rewrite Ztrunc_IZR in X. change (clamp (-9223372036854775808) 9223372036854775807 1) with 1%Z in X.
  rewrite X. reflexivity.
Qed.
Print Assumptions C59_exp_refuted.

Example C59_hypotheses_met :
  let d := 101%Z in let x := div_int d (of_sll d (-200)) 7 in
  valid_digits d /\ In d [30; 50; 100; 101; 200]%Z /\ finite d x /\ full d x /\ value x <> 0 /\ (exists l, const_ln2 d = Ok l) /\ (exists e, const_e d = Ok e).
Proof.
  cbv zeta. split; [unfold valid_digits; lia|]. split; [cbn [In]; lia|]. split; [meets|]. split; [vm_compute; reflexivity|]. split; [apply (value_nonzero_check 101); [unfold valid_digits; lia|vm_compute; reflexivity]|].
  destruct (C60_constants_partial 101 _ _ ltac:(unfold valid_digits; lia) ltac:(lia) (is_ln2 _)) as (l & L & _).
  destruct (C60_constants_partial 101 _ _ ltac:(unfold valid_digits; lia) ltac:(lia) (is_e _)) as (e & E & _). split; [exists l; exact L|exists e; exact E].
Qed.
