(** * Accuracy of tan, cot, sec and csc (proofs only) *)

From Coq Require Import ZArith List Bool Reals Lra Lia Psatz.
From Verif Require Import Model Spec SpecGen Limbs Value CmpProofs AddProofs Decide OrderProofs OrderDec AddExtra MulProofs MulValue MulExtra MulCor
  IntProofs IntPartProofs IntConv MixedProofs IntCor ModelDiv DoubleProofs NewtonProofs InvProofs SqrtProofs ModelPow PowGen PowProofs PowExtra LdexpProofs
  StrAny FloatEval ModelGen ModelElem ElemProofs SeriesFloat ExpReal ExpFloat ExpAcc ConstReal SinReal SinFloat SinStep SinAcc AtanSer.
Import ListNotations.
Open Scope R_scope.
Local Notation p10 := (powerRZ 10).
Local Notation sin := Rtrigo_def.sin.
Local Notation cos := Rtrigo_def.cos.

Section FixedDigits.
Variable d : Z.
Hypothesis Hd : valid_digits d.
Hypothesis Hd' : (d <= 4967)%Z.
Variable env : env.
Local Notation u := (p10 (- d)).
Hypothesis Hpi : close_to d (c_pi env) PI.

(** Twice the error bounds of sine and cosine, in units of 10^-d *)
Definition sin_unit (x : R) : R := Rmin 1 (Rabs x) + Rabs x / 250000.
Definition cos_unit (x : R) : R := 4 / 3 + Rabs x / 250000.

Lemma sin_rel x : ok d 300000 x -> Rabs (value x) <= 300000000 -> value x <> 0 -> 100 * sin_unit (value x) * u <= Rabs (sin (value x)) ->
  let s := ModelElem.sin d env x in ok d 310000 s /\ value s <> 0 /\ rel (sin_unit (value x) / Rabs (sin (value x)) / 2 * u) (value s) (sin (value x)) /\
  0 <= sin_unit (value x) / Rabs (sin (value x)) / 2 * u <= / 200.
Proof.
  intros O B N H s. pose proof (u_tiny d Hd) as U. destruct (sin_accurate d Hd Hd' env Hpi x O B) as (F & P & E). fold s in F, P, E.
  set (X := value x) in *. set (A := sin_unit X) in *. pose proof (Rabs_pos_lt X N) as X0.
  assert (A0 : Rabs X / 250000 <= A). { unfold A, sin_unit. assert (0 <= Rmin 1 (Rabs X)) by (apply Rmin_glb; lra). lra. }
  assert (AU : 0 < A * u) by (apply Rmult_lt_0_compat; lra). assert (S0 : 0 < Rabs (sin X)) by lra.
  assert (E' : Rabs (value s - sin X) <= A / 2 * u) by (replace (A / 2) with (Rmin 1 (Rabs X) / 2 + Rabs X / 500000) by (unfold A, sin_unit; field); exact E).
  set (e := A / Rabs (sin X) / 2 * u). assert (Ee : e * Rabs (sin X) = A / 2 * u) by (unfold e; field; lra).
  assert (e0 : 0 <= e <= / 200).
  { split; [unfold e; apply Rmult_le_pos; [|lra]; apply Rmult_le_pos; [|lra]; apply Rmult_le_pos; [lra|left; apply Rinv_0_lt_compat; lra]|].
    apply (Rmult_le_reg_r (Rabs (sin X))); [lra|]. rewrite Ee. lra. }
  assert (R : rel e (value s) (sin X)) by (unfold rel; rewrite Ee; exact E'). pose proof (rel_bound _ _ _ R) as Bd.
  assert (eb : e * Rabs (sin X) <= / 200 * Rabs (sin X)) by (apply Rmult_le_compat_r; lra).
  split; [|split; [|split; [exact R|exact e0]]].
  2:{ intro Z. rewrite Z, Rabs_R0 in Bd. lra. }
  apply (ok_of_bounds d); [exact F|exact P|]. split.
  - destruct O as (_ & _ & [Z|[O1 _]]); [contradiction|]. fold X in O1. assert (Q : p10 (- (310000)) <= p10 (- (300000)) * u * / 10000).
    { replace (/ 10000) with (p10 (- (4))) by (p10num H4 4%nat; rewrite H4; lra). rewrite <- !p10_add. apply p10_le. destruct Hd. lia. }
    assert (p10 (- (300000)) * u <= Rabs X * u) by (apply Rmult_le_compat_r; lra). assert (Rabs X / 250000 * u <= A * u) by (apply Rmult_le_compat_r; lra). lra.
  - pose proof (SIN_bound X). assert (Rabs (sin X) <= 1) by (apply Rabs_le; lra). pose proof (p10_le 1 310000 ltac:(lia)) as Q. rewrite p10_1 in Q. lra.
Qed.

Lemma cos_rel x : ok d 300000 x -> Rabs (value x) <= 300000000 -> 100 * cos_unit (value x) * u <= Rabs (cos (value x)) ->
  let s := ModelElem.cos d env x in ok d 310000 s /\ value s <> 0 /\ rel (cos_unit (value x) / Rabs (cos (value x)) / 2 * u) (value s) (cos (value x)) /\
  0 <= cos_unit (value x) / Rabs (cos (value x)) / 2 * u <= / 200.
Proof.
  intros O B H s. pose proof (u_tiny d Hd) as U. destruct (cos_accurate d Hd Hd' env Hpi x O B) as (F & P & E). fold s in F, P, E.
  set (X := value x) in *. set (A := cos_unit X) in *. pose proof (Rabs_pos X) as X0.
  assert (A0 : 1 <= A) by (unfold A, cos_unit; lra).
  assert (AU : u <= A * u) by (rewrite <- (Rmult_1_l u) at 1; apply Rmult_le_compat_r; lra). assert (S0 : 0 < Rabs (cos X)) by lra.
  assert (E' : Rabs (value s - cos X) <= A / 2 * u) by (replace (A / 2) with (2 / 3 + Rabs X / 500000) by (unfold A, cos_unit; field); exact E).
  set (e := A / Rabs (cos X) / 2 * u). assert (Ee : e * Rabs (cos X) = A / 2 * u) by (unfold e; field; lra).
  assert (e0 : 0 <= e <= / 200).
  { split; [unfold e; apply Rmult_le_pos; [|lra]; apply Rmult_le_pos; [|lra]; apply Rmult_le_pos; [lra|left; apply Rinv_0_lt_compat; lra]|].
    apply (Rmult_le_reg_r (Rabs (cos X))); [lra|]. rewrite Ee. lra. }
  assert (R : rel e (value s) (cos X)) by (unfold rel; rewrite Ee; exact E'). pose proof (rel_bound _ _ _ R) as Bd.
  assert (eb : e * Rabs (cos X) <= / 200 * Rabs (cos X)) by (apply Rmult_le_compat_r; lra).
  split; [|split; [|split; [exact R|exact e0]]].
  2:{ intro Z. rewrite Z, Rabs_R0 in Bd. lra. }
  apply (ok_of_bounds d); [exact F|exact P|]. split.
  - apply Rle_trans with u; [apply p10_le; lia|]. lra.
  - pose proof (COS_bound X). assert (Rabs (cos X) <= 1) by (apply Rabs_le; lra). pose proof (p10_le 1 310000 ltac:(lia)) as Q. rewrite p10_1 in Q. lra.
Qed.

(** A quotient of two accurate numbers *)
Lemma quot_rel a b A B e f : ok d 310000 a -> ok d 310000 b -> value a <> 0 -> value b <> 0 -> A <> 0 -> B <> 0 -> Rabs (value a) <> Rabs (value b) \/ 0 < value a ->
  rel e (value a) A -> rel f (value b) B -> 0 <= e <= / 200 -> 0 <= f <= / 200 ->
  let r := div d a b in finite d r /\ full d r /\ rel (2 * e + 2 * f + u) (value r) (A / B).
Proof.
  intros Oa Ob Na Nb NA NB Hc Ra Rb He Hf r. pose proof (u_tiny d Hd) as U.
  destruct (ok_div d Hd Hd' 310000 310000 a b ltac:(lia) ltac:(lia) ltac:(lia) Oa Ob Na Nb Hc) as (Or & _ & Rr). fold r in Or, Rr. split; [apply Or|]. split; [apply Or|].
  pose proof (rel_div e f _ _ _ _ Nb NB (proj1 He) ltac:(lra) Ra Rb) as R1. assert (U0 : 0 <= u / 10) by lra. pose proof (rel_trans _ _ _ _ _ U0 Rr R1) as R2.
  eapply rel_le; [|exact R2]. assert (X : e * (102 / 100 * f) <= / 200 * (102 / 100 * f)) by (apply Rmult_le_compat_r; lra).
  assert (u / 10 * (e + 102 / 100 * f + e * (102 / 100 * f)) <= u / 10 * 1) by (apply Rmult_le_compat_l; lra). lra.
Qed.

Lemma rel_of_close e a b f a' b' : rel e a a' -> rel f b b' -> e * Rabs a' + f * Rabs b' < Rabs (Rabs a' - Rabs b') -> Rabs a <> Rabs b.
Proof.
  intros R1 R2 H E. unfold rel in *. pose proof (Rabs_triang_inv2 a a') as T1. pose proof (Rabs_triang_inv2 b b') as T2. rewrite E in T1.
  assert (Rabs (Rabs a' - Rabs b') <= Rabs (Rabs b - Rabs a') + Rabs (Rabs b - Rabs b')).
  { replace (Rabs a' - Rabs b') with (- (Rabs b - Rabs a') + (Rabs b - Rabs b')) by ring. eapply Rle_trans; [apply Rabs_triang|]. rewrite Rabs_Ropp. lra. }
  lra.
Qed.

Definition distinguishable (x : R) (s : R) : Prop := (sin_unit x + cos_unit x) * u < Rabs (Rabs (sin x) - Rabs (cos x)) \/ 0 < s.

Lemma distinct x : ok d 300000 x -> Rabs (value x) <= 300000000 -> value x <> 0 ->
  100 * sin_unit (value x) * u <= Rabs (sin (value x)) -> 100 * cos_unit (value x) * u <= Rabs (cos (value x)) ->
  (sin_unit (value x) + cos_unit (value x)) * u < Rabs (Rabs (sin (value x)) - Rabs (cos (value x))) ->
  Rabs (value (ModelElem.sin d env x)) <> Rabs (value (ModelElem.cos d env x)).
Proof.
  intros O B N H1 H2 H. destruct (sin_rel x O B N H1) as (_ & _ & R1 & _). destruct (cos_rel x O B H2) as (_ & _ & R2 & _). pose proof (u_tiny d Hd) as U.
  apply (rel_of_close _ _ _ _ _ _ R1 R2). eapply Rle_lt_trans; [|exact H].
  pose proof (Rabs_pos_lt (value x) N) as X0.
  assert (A0 : 0 < sin_unit (value x)). { unfold sin_unit. assert (0 <= Rmin 1 (Rabs (value x))) by (apply Rmin_glb; lra). lra. }
  assert (B0 : 0 < cos_unit (value x)) by (unfold cos_unit; lra).
  assert (0 < sin_unit (value x) * u) by (apply Rmult_lt_0_compat; lra). assert (0 < cos_unit (value x) * u) by (apply Rmult_lt_0_compat; lra).
  replace (sin_unit (value x) / Rabs (sin (value x)) / 2 * u * Rabs (sin (value x))) with (sin_unit (value x) * u / 2) by (field; lra).
  replace (cos_unit (value x) / Rabs (cos (value x)) / 2 * u * Rabs (cos (value x))) with (cos_unit (value x) * u / 2) by (field; lra). lra.
Qed.

Lemma sign_kept e a b : 0 <= e <= / 200 -> rel e a b -> 0 < b -> 0 < a.
Proof. intros He R B. unfold rel in R. rewrite (Rabs_pos_eq b) in R by lra. apply Rabs_le_inv in R. assert (e * b <= / 200 * b) by (apply Rmult_le_compat_r; lra). lra. Qed.

Lemma trig_quotients x : ok d 300000 x -> Rabs (value x) <= 300000000 -> value x <> 0 ->
  100 * sin_unit (value x) * u <= Rabs (sin (value x)) -> 100 * cos_unit (value x) * u <= Rabs (cos (value x)) ->
  let E := (sin_unit (value x) / Rabs (sin (value x)) + cos_unit (value x) / Rabs (cos (value x)) + 1) * u in
  let D := (sin_unit (value x) + cos_unit (value x)) * u < Rabs (Rabs (sin (value x)) - Rabs (cos (value x))) in
  (D \/ 0 < sin (value x) -> let r := ModelElem.tan d env x in finite d r /\ full d r /\ rel E (value r) (sin (value x) / cos (value x))) /\
  (D \/ 0 < cos (value x) -> let r := cot d env x in finite d r /\ full d r /\ rel E (value r) (cos (value x) / sin (value x))).
Proof.
  intros O B N H1 H2 E D. pose proof (u_tiny d Hd) as U. destruct (sin_rel x O B N H1) as (O1 & N1 & R1 & e1). destruct (cos_rel x O B H2) as (O2 & N2 & R2 & e2).
  assert (NS : sin (value x) <> 0). { intro Z. apply N1. unfold rel in R1. rewrite Z, Rabs_R0, Rmult_0_r, Rminus_0_r in R1. pose proof (Rabs_pos (value (ModelElem.sin d env x))).
    destruct (Req_dec (value (ModelElem.sin d env x)) 0) as [Q|Q]; [exact Q|]. pose proof (Rabs_pos_lt _ Q). lra. }
  assert (NC : cos (value x) <> 0). { intro Z. apply N2. unfold rel in R2. rewrite Z, Rabs_R0, Rmult_0_r, Rminus_0_r in R2.
    destruct (Req_dec (value (ModelElem.cos d env x)) 0) as [Q|Q]; [exact Q|]. pose proof (Rabs_pos_lt _ Q). lra. }
  set (f1 := sin_unit (value x) / Rabs (sin (value x)) / 2 * u) in *. set (f2 := cos_unit (value x) / Rabs (cos (value x)) / 2 * u) in *.
  assert (EE : E = 2 * f1 + 2 * f2 + u) by (unfold E, f1, f2; field; split; apply Rabs_no_R0; assumption). rewrite EE.
  split; intro H.
  - apply (quot_rel _ _ _ _ f1 f2); try assumption. destruct H as [H|H]; [left; apply distinct; assumption|right; apply (sign_kept f1 _ _ e1 R1 H)].
  - replace (2 * f1 + 2 * f2 + u) with (2 * f2 + 2 * f1 + u) by ring. apply (quot_rel _ _ _ _ f2 f1); try assumption.
    destruct H as [H|H]; [left; apply not_eq_sym, distinct; assumption|right; apply (sign_kept f2 _ _ e2 R2 H)].
Qed.

Lemma one_rel : ok d 310000 (one d) /\ rel 0 (value (one d)) 1.
Proof. destruct (one_facts d Hd) as [O V]. split; [apply (ok_le d 1); [lia|exact O]|]. rewrite V. apply rel_refl. Qed.

Lemma csc_accurate x : ok d 300000 x -> Rabs (value x) <= 300000000 -> value x <> 0 -> 100 * sin_unit (value x) * u <= Rabs (sin (value x)) ->
  let r := csc d env x in finite d r /\ full d r /\ rel ((sin_unit (value x) / Rabs (sin (value x)) + 1) * u) (value r) (1 / sin (value x)).
Proof.
  intros O B N H1. pose proof (u_tiny d Hd) as U. destruct (sin_rel x O B N H1) as (O1 & N1 & R1 & e1). destruct one_rel as [Oo Ro]. destruct (one_facts d Hd) as [_ V].
  assert (NS : sin (value x) <> 0). { intro Z. apply N1. unfold rel in R1. rewrite Z, Rabs_R0, Rmult_0_r, Rminus_0_r in R1.
    destruct (Req_dec (value (ModelElem.sin d env x)) 0) as [Q|Q]; [exact Q|]. pose proof (Rabs_pos_lt _ Q). lra. }
  set (f1 := sin_unit (value x) / Rabs (sin (value x)) / 2 * u) in *. replace ((sin_unit (value x) / Rabs (sin (value x)) + 1) * u) with (2 * 0 + 2 * f1 + u) by (unfold f1; field; apply Rabs_no_R0; assumption).
  apply quot_rel; try assumption; lra.
Qed.

Lemma sec_accurate x : ok d 300000 x -> Rabs (value x) <= 300000000 -> 100 * cos_unit (value x) * u <= Rabs (cos (value x)) ->
  let r := sec d env x in finite d r /\ full d r /\ rel ((cos_unit (value x) / Rabs (cos (value x)) + 1) * u) (value r) (1 / cos (value x)).
Proof.
  intros O B H1. pose proof (u_tiny d Hd) as U. destruct (cos_rel x O B H1) as (O1 & N1 & R1 & e1). destruct one_rel as [Oo Ro]. destruct (one_facts d Hd) as [_ V].
  assert (NS : cos (value x) <> 0). { intro Z. apply N1. unfold rel in R1. rewrite Z, Rabs_R0, Rmult_0_r, Rminus_0_r in R1.
    destruct (Req_dec (value (ModelElem.cos d env x)) 0) as [Q|Q]; [exact Q|]. pose proof (Rabs_pos_lt _ Q). lra. }
  set (f1 := cos_unit (value x) / Rabs (cos (value x)) / 2 * u) in *. replace ((cos_unit (value x) / Rabs (cos (value x)) + 1) * u) with (2 * 0 + 2 * f1 + u) by (unfold f1; field; apply Rabs_no_R0; assumption).
  apply quot_rel; try assumption; lra.
Qed.

End FixedDigits.
