(** * Symmetry of the elementary functions (proofs only). *)

From Coq Require Import ZArith List Bool Reals Lra Lia.
From Flocq Require Import Core Relative BinarySingleNaN.
From Verif Require Import SpecObj LdexpProofs Model Spec Limbs Value CmpProofs AddProofs Decide OrderProofs AddExtra MulProofs MulValue MulExtra MulCor IntProofs IntPartProofs IntConv
  MixedProofs IntCor ModelDiv DoubleProofs NewtonProofs InvProofs ModelPow PowProofs ModelGen ModelElem WfProofs.
Import ListNotations.
Open Scope R_scope.
Local Notation exp := Model.exp.
Local Notation sqrt := ModelDiv.sqrt.
Local Notation sin := ModelElem.sin.
Local Notation cos := ModelElem.cos.
Local Notation tan := ModelElem.tan.
Local Notation asin := ModelElem.asin.
Local Notation atan := ModelElem.atan.

Lemma mul_digits_set_neg_l d loop u v b : mul_digits d loop (set_neg u b) v =
  set_neg (mul_digits d loop u v) (negb (Bool.eqb b (neg v))).
Proof.
  unfold mul_digits. cbn [set_neg data exp cls prec neg].
  destruct (Z.min (prec u) (prec v) * 8 <? 5000)%Z.
  - destruct (loop _) as [r c]. destruct (c =? 0)%Z; reflexivity.
  - destruct (limb _ 0 =? 0)%Z; reflexivity.
Qed.

Lemma iszero_negate x : iszero (negate x) = iszero x.
Proof. unfold negate. destruct (iszero x) eqn:E; [exact E|]. cbn [negb]. rewrite iszero_set_neg. exact E. Qed.

Lemma cls_negate x : cls (negate x) = cls x.
Proof. unfold negate. destruct (negb (iszero x)); reflexivity. Qed.

Lemma order_negate x : order (negate x) = order x.
Proof. unfold order, isfinite. rewrite cls_negate, negate_data, negate_exp. reflexivity. Qed.

Lemma small_arg_negate d x : small_arg d (negate x) = small_arg d x.
Proof. unfold small_arg. rewrite order_negate. reflexivity. Qed.

Lemma large_arg_negate d x : large_arg d (negate x) = large_arg d x.
Proof. unfold large_arg. rewrite order_negate. reflexivity. Qed.

Lemma isfinite_negate x : isfinite (negate x) = isfinite x.
Proof. unfold isfinite. rewrite cls_negate. reflexivity. Qed.

Lemma mul_negate_l d u v : valid_digits d -> finite d u -> finite d v -> mul d (negate u) v = negate (mul d u v).
Proof.
  intros Hd Fu Fv. pose proof (negate_finite d u Fu) as Fn.
  destruct (mul_finite_cases d u v Hd Fu Fv) as [[Hz E]|(Zu & Zv & H)].
  - destruct (mul_finite_cases d (negate u) v Hd Fn Fv) as [[_ E']|(Zu' & Zv' & _)].
    + rewrite E, E', negate_zero. reflexivity.
    + exfalso. rewrite negate_data in Zu'. destruct Hz as [Hz|Hz]; apply (finite_zero_iff d) in Hz; auto.
  - destruct (mul_finite_cases d (negate u) v Hd Fn Fv) as [[Hz _]|(_ & _ & H')].
    { exfalso. rewrite (negate_value d) in Hz by auto. destruct Hz as [Hz|Hz].
      - assert (value u = 0) by lra. apply (finite_zero_iff d) in H0; auto.
      - apply (finite_zero_iff d) in Hz; auto. }
    rewrite negate_exp in H'.
    assert (Zf : iszero u = false) by (apply iszero_false; auto; apply Fu).
    assert (Hnn : neg (negate u) = negb (neg u)) by (rewrite negate_nonzero by auto; reflexivity).
    rewrite Hnn, negate_data in H'.
    assert (Hb : negb (Bool.eqb (negb (neg u)) (neg v)) = negb (negb (Bool.eqb (neg u) (neg v)))) by (destruct (neg u), (neg v); reflexivity).
    destruct H as [[Ho E]|[[Hun E]|(Ho & Hun & E)]];
    destruct H' as [[Ho' E']|[[Hun' E']|(Ho' & Hun' & E')]]; try contradiction; try (unfold exp_over, exp_under in *; lia).
    + rewrite E, E', negate_signed_inf. f_equal. exact Hb.
    + rewrite E, E', negate_zero. reflexivity.
    + rewrite E, E'. rewrite negate_nonzero, mul_digits_set_neg_l by auto.
      destruct (mul_digits_finite d u v Hd Fu Fv Zu Zv) as (Fr & Zr & _). rewrite negate_nonzero by (apply iszero_false; [apply Fr|exact Zr]).
      rewrite mul_digits_neg. f_equal. exact Hb.
Qed.

Lemma mul_negate_both d u v : valid_digits d -> finite d u -> finite d v -> mul d (negate u) (negate v) = mul d u v.
Proof.
  intros. rewrite mul_negate_l, mul_negate_r, negate_involutive by auto using negate_finite. reflexivity.
Qed.

(** "Opposite results", with NaN on both sides counted as opposite. *)
Definition opposite (r s : ef) : Prop := r = negate s \/ (isnan r = true /\ isnan s = true).

Lemma mul_opposite d u v : valid_digits d -> finite d u -> wfz d v -> opposite (mul d (negate u) v) (mul d u v).
Proof.
  intros Hd Fu Wv. destruct (iszero v) eqn:Zv.
  { left. assert (E : forall w, finite d w -> mul d w v = zero d).
    { intros w Fw. destruct (iszero_cls v Zv) as (_ & N & I). destruct (finite_flags d w Fw) as [I' N'].
      unfold mul, mul_gen. rewrite N, I, N', I', Zv. cbn [orb andb]. rewrite orb_true_r. reflexivity. }
    rewrite !E, negate_zero by auto using negate_finite. reflexivity. }
  apply wfz_nonzero in Wv; [|exact Zv]. destruct (cls v) eqn:C.
  - left. apply mul_negate_l; auto. split; auto.
  - destruct (finite_flags d u Fu) as [I N]. destruct (finite_flags d (negate u) (negate_finite d u Fu)) as [I' N'].
    unfold opposite, mul, mul_gen. rewrite iszero_negate, I, N, I', N'.
    unfold isnan, isinf. rewrite C. cbn [orb andb].
    destruct (iszero u) eqn:Z; cbn [orb andb].
    + right. split; reflexivity.
    + left. rewrite negate_signed_inf, negate_nonzero by exact Z. f_equal. destruct u as [? ? [|] ? ?], v as [? ? [|] ? ?]; reflexivity.
  - right. unfold mul, mul_gen. replace (isnan v) with true by (unfold isnan; rewrite C; reflexivity). rewrite !orb_true_r. split; reflexivity.
Qed.

(** ** The series stay well-formed *)
Section Closed.
Variable d : Z.
Hypothesis Hd : valid_digits d.
Local Notation P := (wfz d).

Lemma P_div_int x n : P x -> (-9223372036854775808 < n < 9223372036854775808)%Z -> P (div_int d x n).
Proof.
  intros H Hn. unfold div_int. destruct (div_sll d x n) eqn:E.
  - left. eapply div_sll_wf; eauto.
  - exfalso. unfold div_sll in E. replace (n =? sll_min)%Z with false in E; [discriminate|]. symmetry. apply Z.eqb_neq. unfold sll_min. lia.
Qed.

Lemma P_or_nan o : (forall s, o = Some s -> P s) -> P (or_nan d o).
Proof.
  intro H. destruct o as [s|]; [apply H; reflexivity|]. left. apply value_nan_wf. exact Hd.
Qed.

Lemma P_series {S : Type} (Q : S -> Prop) next (term : S -> ef) small :
  (forall n st, (2 <= n < 10000)%Z -> Q st -> Q (next n st)) -> (forall st, Q st -> P (term st)) ->
  forall fuel n st sum r, (2 <= n)%Z -> (n + Z.of_nat fuel <= 10000)%Z -> Q st -> P sum ->
  series (add d) small next term fuel n st sum = Some r -> P r.
Proof.
  intros Hn Ht. induction fuel as [|f IH]; intros n st sum r N1 N2 Hq Hs; cbn [series]; [discriminate|].
  assert (Q (next n st)) by (apply Hn; auto; lia).
  destruct (_ && _); [intros [= <-]; exact Hs|]. intro E. apply IH in E; auto; try lia. apply add_wfz; auto.
Qed.

Lemma P_series_from {S : Type} (Q : S -> Prop) next (term : S -> ef) small st :
  (forall n st, (2 <= n < 10000)%Z -> Q st -> Q (next n st)) -> (forall st, Q st -> P (term st)) -> Q st ->
  P (or_nan d (series_from (one d) (add d) small next term st)).
Proof.
  intros H1 H2 H3. unfold series_from.
  assert (F : exists f, f = Z.to_nat (max_iteration - 2) /\ (2 + Z.of_nat f <= 10000)%Z).
  { eexists. split; [reflexivity|]. rewrite Z2Nat.id; unfold max_iteration; lia. }
  destruct F as (f & <- & F). apply P_or_nan. intros s E.
  refine (P_series Q next term small H1 H2 f 2 st _ s _ F H3 _ E); [lia|].
  apply add_wfz; auto. left. apply one_wf. exact Hd.
Qed.

Lemma P_next_x x n y : P x -> P y -> (2 <= n < 10000)%Z -> P (next_x (mul d) (div_int d) x n y).
Proof. intros. unfold next_x. apply P_div_int; [|lia]. left. apply mul_wfz; auto. Qed.

Definition P2 (p : ef * ef) := P (fst p) /\ P (snd p).

Lemma P_next_p p : P2 p -> P2 (next_p (mul d) (pre_inc d) p).
Proof.
  intros [A B]. assert (P (pre_inc d (snd p))) by (unfold pre_inc; apply add_wfz; auto; left; apply one_wf; auto).
  unfold next_p. split; cbn [fst snd]; auto. left. apply mul_wfz; auto.
Qed.

Lemma P_h0f0 x : P x -> P (h0f0 d x).
Proof.
  intro H. unfold h0f0, hyper_0f0. apply (P_series_from (wfz d)); auto. intros. apply P_next_x; auto.
Qed.

Lemma P_h0f1 b x : P b -> P x -> P (h0f1 d b x).
Proof.
  intros. unfold h0f1, hyper_0f1. apply (P_series_from (fun '(xp, pb) => P xp /\ P2 pb)); auto.
  - intros n [xp pb] Hn [A B]. split; [apply P_next_x|apply P_next_p]; auto.
  - intros [xp pb] [A B]. left. apply div_wfz; auto. apply B.
  - split; [|split]; auto.
Qed.

Lemma P_h1f0 a x : P a -> P x -> P (h1f0 d a x).
Proof.
  intros. unfold h1f0, hyper_1f0. apply (P_series_from (fun '(xp, pb) => P xp /\ P2 pb)); auto.
  - intros n [xp pb] Hn [A B]. split; [apply P_next_x|apply P_next_p]; auto.
  - intros [xp pb] [A B]. left. apply mul_wfz; auto. apply B.
  - split; [|split]; auto.
Qed.

Lemma P_h2f1 a b c x : P a -> P b -> P c -> P x -> P (h2f1 d a b c x).
Proof.
  intros. unfold h2f1, hyper_2f1. apply (P_series_from (fun '(xp, pa, pb, pc) => P xp /\ P2 pa /\ P2 pb /\ P2 pc)); auto.
  - intros n [[[xp pa] pb] pc] Hn (A & B & C & D). repeat apply conj; try apply P_next_x; try apply P_next_p; auto.
  - intros [[[xp pa] pb] pc] (A & B & C & D). left. apply mul_wfz; auto. left. apply div_wfz; auto; [|apply D]. left. apply mul_wfz; auto; [apply B|apply C].
  - unfold P2. cbn [fst snd]. tauto.
Qed.

Lemma P_one : P (one d). Proof. left. apply one_wf. exact Hd. Qed.
Lemma P_half : P (half d).
Proof. left. unfold half. apply of_limbs1; auto; lia. Qed.
Lemma P_three_half : P (three_half d).
Proof. unfold three_half. apply add_wfz; auto using P_one, P_half. Qed.
End Closed.

(** ** Sine and cosine *)

(** What is needed of the constant pi: a number between 3 and 4. *)
Definition pi_sane d env := finite d (c_pi env) /\ full d (c_pi env) /\ 3 < value (c_pi env) < 4.

Section Fixed.
Variable d : Z.
Variable env : env.
Hypothesis Hd : valid_digits d.

Definition magnitude (x : ef) : ef := if isneg x then negate x else x.

Lemma isneg_negate x : iszero x = false -> isneg (negate x) = negb (isneg x).
Proof. intro Z. unfold isneg. rewrite negate_nonzero by exact Z. reflexivity. Qed.

Lemma magnitude_negate x : iszero x = false -> magnitude (negate x) = magnitude x.
Proof.
  intro Z. unfold magnitude. rewrite isneg_negate by exact Z. destruct (isneg x); cbn [negb]; [reflexivity|apply negate_involutive].
Qed.

Lemma sin_odd_nonzero x : cls x = Finite -> iszero x = false -> sin d env (negate x) = negate (sin d env x).
Proof.
  intros C Z. unfold sin. rewrite isfinite_negate. replace (isfinite x) with true by (unfold isfinite; rewrite C; reflexivity). cbn [negb].
  fold (magnitude (negate x)) (magnitude x). rewrite magnitude_negate, isneg_negate by exact Z.
  destruct (reduce d env (magnitude x)) as [[xx odd] r]. destruct (isneg x), odd; cbn [xorb negb]; rewrite ?negate_involutive; reflexivity.
Qed.

Lemma cos_even_nonzero x : cls x = Finite -> iszero x = false -> cos d env (negate x) = cos d env x.
Proof.
  intros C Z. unfold cos. rewrite isfinite_negate. replace (isfinite x) with true by (unfold isfinite; rewrite C; reflexivity). cbn [negb].
  fold (magnitude (negate x)) (magnitude x). rewrite magnitude_negate by exact Z. reflexivity.
Qed.

Lemma cos_even x : cls x = Finite -> cos d env (negate x) = cos d env x.
Proof.
  intros C. destruct (iszero x) eqn:Z; [|apply cos_even_nonzero; auto]. unfold negate. rewrite Z. reflexivity.
Qed.

Lemma div_int_small x n : finite d x -> full d x -> value x <> 0 -> (1 <= n < 100000000)%Z ->
  finite d (div_int d x n) /\ full d (div_int d x n) /\ 0 < value (div_int d x n) * value x /\
  Rabs (value (div_int d x n) - value x / IZR n) <= powerRZ 10 (- (d + 1)) * Rabs (value x / IZR n).
Proof.
  intros F Fu V Hn. unfold div_int, div_sll. replace (n =? sll_min)%Z with false by (symmetry; apply Z.eqb_neq; unfold sll_min; lia).
  replace (n <? 0)%Z with false by (symmetry; apply Z.ltb_ge; lia). cbn [negb]. rewrite u64_small by lia.
  destruct (div_ull_small d x n Hd F Fu V Hn) as (A & B & C & D & _). auto.
Qed.

Lemma pi_half_sane : pi_sane d env -> finite d (pi_half d env) /\ full d (pi_half d env) /\ 1 < value (pi_half d env).
Proof.
  intros (F & Fu & V). destruct (div_int_small (c_pi env) 2 F Fu ltac:(lra) ltac:(lia)) as (A & B & C & D). fold (pi_half d env) in *.
  split; [exact A|]. split; [exact B|]. rewrite (Rabs_pos_eq (_ / 2)) in D by lra.
  assert (P : powerRZ 10 (- (d + 1)) <= / 10).
  { apply Rle_trans with (powerRZ 10 (- (1))); [apply p10_le; destruct Hd; lia|]. rewrite (p10_inv 1), p10_1. lra. }
  pose proof (p10_pos (- (d + 1))). apply Rabs_le_inv in D. nra.
Qed.

Lemma zero_not_greater x y : iszero x = true -> finite d y -> 0 < value y -> op_gt x y = false.
Proof.
  intros Z F V. unfold op_gt, cmp. destruct (iszero_cls x Z) as (C & _ & _). unfold isfinite. rewrite C, (proj2 F), Z. cbn [negb orb].
  rewrite (finite_nonzero_flag d y Hd F) by lra. destruct (neg y) eqn:N; [|reflexivity].
  exfalso. rewrite (sign_abs d y Hd F) in V. rewrite N in V. unfold sign in V. pose proof (Rabs_pos (value y)). lra.
Qed.

Lemma reduce_zero x : pi_sane d env -> iszero x = true -> reduce d env x = (x, false, false).
Proof.
  intros Hp Z. destruct (pi_half_sane Hp) as (F & _ & V). unfold reduce. destruct Hp as (Fp & _ & Vp).
  rewrite !zero_not_greater by (auto; lra). reflexivity.
Qed.

Lemma zero_positive x : wf d x -> iszero x = true -> isneg x = false.
Proof. intros W Z. destruct (iszero_cls x Z) as (C & _). apply (wf_zero d x W C). unfold iszero in Z. apply andb_true_iff in Z. apply Z.eqb_eq. apply Z. Qed.

Lemma sin_zero x : pi_sane d env -> wf d x -> iszero x = true -> sin d env x = zero d.
Proof.
  intros Hp W Z. unfold sin. rewrite (zero_positive x W Z). destruct (iszero_cls x Z) as (C & _). unfold isfinite. rewrite C. cbn [negb].
  rewrite reduce_zero by auto. unfold sin_reduced. rewrite Z. reflexivity.
Qed.

Lemma cos_zero x : pi_sane d env -> wf d x -> iszero x = true -> cos d env x = one d.
Proof.
  intros Hp W Z. unfold cos. rewrite (zero_positive x W Z). destruct (iszero_cls x Z) as (C & _). unfold isfinite. rewrite C. cbn [negb].
  rewrite reduce_zero by auto. unfold cos_reduced. rewrite Z. reflexivity.
Qed.

Lemma sin_odd x : pi_sane d env -> finite d x -> sin d env (negate x) = negate (sin d env x).
Proof.
  intros Hp [W C]. destruct (iszero x) eqn:Z; [|apply sin_odd_nonzero; auto].
  replace (negate x) with x by (unfold negate; rewrite Z; reflexivity). rewrite (sin_zero x Hp W Z). symmetry. apply negate_zero.
Qed.

Lemma isnan_negate x : isnan (negate x) = isnan x.
Proof. unfold isnan. rewrite cls_negate. reflexivity. Qed.

(** The quotient changes sign with its numerator, unless both have the same
    magnitude. *)
Lemma div_opposite u v : finite d u -> wfz d v -> same_magnitude u v = false -> opposite (div d (negate u) v) (div d u v).
Proof.
  intros Fu Wv S. unfold div. replace (same_magnitude (negate u) v) with (same_magnitude u v).
  2: { unfold same_magnitude, isfinite. rewrite cls_negate, negate_exp, negate_data. reflexivity. }
  rewrite S. apply mul_opposite; auto. apply inv_wfz; auto.
Qed.

(** ** Inverse sine *)

Lemma asin_odd_not_small x : wf d x -> cls x = Finite -> small_arg d x = false ->
  opposite (asin d env (negate x)) (asin d env x).
Proof.
  intros W C S. destruct (iszero x) eqn:Z.
  { left. replace (negate x) with x by (unfold negate; rewrite Z; reflexivity). unfold asin. rewrite Z, (zero_positive x W Z). unfold isfinite. rewrite C. cbn [negb].
    rewrite zero_not_greater; auto. - symmetry. apply negate_zero. - split; [apply one_wf; auto|reflexivity]. - rewrite one_is_1 by auto. lra. }
  assert (T : opposite (value_nan d) (value_nan d)) by (right; split; reflexivity).
  unfold asin. rewrite isfinite_negate, iszero_negate, Z. replace (isfinite x) with true by (unfold isfinite; rewrite C; reflexivity). cbn [negb].
  assert (M : (if negb (isneg (negate x)) then negate x else negate (negate x)) = (if negb (isneg x) then x else negate x)).
  { rewrite isneg_negate, negb_involutive, negate_involutive by exact Z. destruct (isneg x); reflexivity. }
  rewrite M. clear M. set (xx := if negb (isneg x) then x else negate x).
  assert (S' : small_arg d xx = false) by (unfold xx; destruct (negb (isneg x)); rewrite ?small_arg_negate; exact S).
  rewrite S', isneg_negate, negb_involutive by exact Z.
  destruct (op_gt xx (one d)); [exact T|].
  assert (O : forall v, opposite (if isneg x then v else negate v) (if negb (isneg x) then v else negate v)).
  { intro v. left. destruct (isneg x); cbn [negb]; rewrite ?negate_involutive; reflexivity. }
  destruct (isone xx); [apply O|]. destruct (near_one d xx); apply O.
Qed.

(** For small arguments the result has the wrong sign on the negative side. *)
Lemma asin_even_small x : finite d x -> iszero x = false -> small_arg d x = true ->
  asin d env (negate x) = asin d env x \/ (isnan (asin d env (negate x)) = true /\ isnan (asin d env x) = true).
Proof.
  intros [W C] Z S. unfold asin. rewrite isfinite_negate, iszero_negate, Z. replace (isfinite x) with true by (unfold isfinite; rewrite C; reflexivity). cbn [negb].
  assert (M : (if negb (isneg (negate x)) then negate x else negate (negate x)) = (if negb (isneg x) then x else negate x)).
  { rewrite isneg_negate, negb_involutive, negate_involutive by exact Z. destruct (isneg x); reflexivity. }
  rewrite M. clear M. set (xx := if negb (isneg x) then x else negate x).
  assert (S' : small_arg d xx = true) by (unfold xx; destruct (negb (isneg x)); rewrite ?small_arg_negate; exact S).
  rewrite S', isneg_negate, negb_involutive by exact Z.
  destruct (op_gt xx (one d)); [left; reflexivity|].
  replace (isone xx) with false.
  2: { symmetry. unfold isone. destruct (negb (neg xx) && isfinite xx) eqn:F; [|reflexivity].
       apply andb_true_iff in F. destruct F as [_ F]. assert (L : (arg_limit d >= 6)%Z) by (unfold arg_limit; lia).
       unfold small_arg, order in S'. rewrite F in S'. cbn [negb orb] in S'.
       assert (D : forall f t, (0 <= digits_minus_one f t)%Z).
       { induction f as [|f IH]; intro t; cbn [digits_minus_one]; [lia|]. destruct (t / 10 =? 0)%Z; [lia|]. specialize (IH (t / 10)%Z). clear - IH. lia. }
       destruct (limb (data xx) 0 =? 0)%Z; [apply Z.ltb_lt in S'; lia|]. apply Z.ltb_lt in S'. specialize (D 10%nat (limb (data xx) 0)).
       destruct ((limb (data xx) 0 =? 1)%Z && (Model.exp xx =? 0)%Z) eqn:E1; [apply andb_true_iff in E1; destruct E1 as [_ E1]; apply Z.eqb_eq in E1; lia|].
       destruct ((limb (data xx) 0 =? mask - 1)%Z && (Model.exp xx =? -8)%Z) eqn:E2; [|reflexivity].
       apply andb_true_iff in E2. destruct E2 as [E2 E3]. apply Z.eqb_eq in E2, E3. rewrite E2, E3 in S'. change (digits_minus_one 10 (mask - 1)) with 7%Z in S'. lia. }
  rewrite (mul_negate_both d x x Hd (conj W C) (conj W C)).
  set (h := h2f1 d (half d) (half d) (three_half d) (mul d x x)).
  assert (Wh : wfz d h). { apply P_h2f1; auto using P_half, P_three_half. left. apply mul_wfz; auto; left; exact W. }
  destruct (mul_opposite d x h Hd (conj W C) Wh) as [E|[E1 E2]].
  - rewrite E. left. destruct (isneg x); cbn [negb]; rewrite ?negate_involutive; reflexivity.
  - right. destruct (isneg x); cbn [negb]; rewrite ?isnan_negate; auto.
Qed.

(** ** Inverse tangent *)

Lemma atan_odd x : finite d x -> large_arg d x = false \/ (order x > tolerance d)%Z -> opposite (atan d env (negate x)) (atan d env x).
Proof.
  intros [W C] L. destruct (iszero x) eqn:Z.
  { left. replace (negate x) with x by (unfold negate; rewrite Z; reflexivity). unfold atan. rewrite Z. unfold isfinite. rewrite C. cbn [negb].
    replace (order x) with 0%Z. 2: { unfold order, isfinite. rewrite C. cbn [negb orb]. unfold iszero in Z. apply andb_true_iff in Z. destruct Z as [_ ->]. reflexivity. }
    replace (0 >? tolerance d)%Z with false; [symmetry; apply negate_zero|]. symmetry. unfold tolerance, max_digits10. destruct Hd. rewrite Z.gtb_ltb. apply Z.ltb_ge. apply Z.add_nonneg_nonneg; [lia|]. apply Z.div_pos; lia. }
  unfold atan. rewrite isfinite_negate, iszero_negate, order_negate, small_arg_negate, large_arg_negate, Z. replace (isfinite x) with true by (unfold isfinite; rewrite C; reflexivity). cbn [negb].
  rewrite isneg_negate, negb_involutive by exact Z.
  assert (O : forall v, opposite (if isneg x then v else negate v) (if negb (isneg x) then v else negate v)).
  { intro v. left. destruct (isneg x); cbn [negb]; rewrite ?negate_involutive; reflexivity. }
  destruct (Z.gtb_spec (order x) (tolerance d)); [apply O|]. destruct L as [-> |L]; [|lia].
  destruct (small_arg d x).
  - unfold atan_at_zero. rewrite (mul_negate_both d x x Hd (conj W C) (conj W C)). apply mul_opposite; auto; [split; auto|].
    apply P_h2f1; auto using P_half, P_three_half, P_one. apply negate_wfz. left. apply mul_wfz; auto; left; exact W.
  - assert (M : (if isneg x then negate x else negate (negate x)) = (if negb (isneg x) then x else negate x)) by (rewrite negate_involutive; destruct (isneg x); reflexivity).
    rewrite M. apply O.
Qed.

(** ** The results are well-formed numbers *)

Definition env_ok := wfz d (c_pi env) /\ wfz d (c_e env) /\ wfz d (c_ln2 env) /\ wfz d (c_ln10 env) /\ wfz d (c_sqrt2 env) /\
  (forall x, wfz d x -> wfz d (est_asin env x)) /\ (forall x, wfz d x -> wfz d (est_atan env x)) /\
  (forall x, wfz d x -> wfz d (est_log env x)) /\ (forall x p, wfz d x -> wfz d (est_rootn_inv env x p)).

Local Notation P := (wfz d).
Lemma Z_nan : P (value_nan d). Proof. left. apply value_nan_wf. exact Hd. Qed.
Lemma Z_zero : P (zero d). Proof. left. apply zero_finite. exact Hd. Qed.
Lemma Z_mul x y : P x -> P y -> P (mul d x y). Proof. intros. left. apply mul_wfz; auto. Qed.
Lemma Z_div x y : P x -> P y -> P (div d x y). Proof. intros. left. apply div_wfz; auto. Qed.
Lemma Z_add x y : P x -> P y -> P (add d x y). Proof. intros. apply add_wfz; auto. Qed.
Lemma Z_sub x y : P x -> P y -> P (sub d x y). Proof. intros. apply sub_wfz; auto. Qed.
Lemma Z_neg x : P x -> P (negate x). Proof. apply negate_wfz. Qed.
Lemma Z_ip x : P x -> P (integer_part d x). Proof. intros. apply integer_part_wfz; auto. Qed.
Lemma Z_if (b : bool) x y : P x -> P y -> P (if b then x else y). Proof. destruct b; auto. Qed.
Lemma Z_mul_int x n : P x -> (-9223372036854775808 < n < 9223372036854775808)%Z -> P (mul_int d x n).
Proof.
  intros H Hn. unfold mul_int. destruct (mul_sll d x n) eqn:E; [|apply Z_nan]. left. eapply mul_sll_wf; eauto.
Qed.
Lemma Z_sqrt x : P x -> P (sqrt d x).
Proof.
  apply (P_sqrt d P Hd); auto using wf_wfz, Z_neg, Z_add, Z_ip.
  - intros. apply precision_wfz; auto.
  - intros. apply set_prec_wfz; auto.
Qed.
Hint Resolve Z_nan Z_zero Z_mul Z_div Z_add Z_sub Z_neg Z_ip Z_if Z_sqrt P_one P_half P_three_half P_h0f0 P_h0f1 P_h1f0 P_h2f1 : clo.
Hint Extern 2 (wfz d (div_int d _ _)) => apply P_div_int; [exact Hd| |lia] : clo.
Hint Extern 2 (wfz d (mul_int d _ _)) => apply Z_mul_int; [|lia] : clo.

Hypothesis Henv : env_ok.

Lemma Z_pi : P (c_pi env). Proof. apply Henv. Qed.
Lemma Z_pi_half : P (pi_half d env). Proof. unfold pi_half. auto using Z_pi with clo. Qed.
Hint Resolve Z_pi Z_pi_half : clo.

Lemma Z_reduce x : P x -> P (fst (fst (reduce d env x))).
Proof.
  intro H. unfold reduce. destruct (op_gt x (c_pi env)).
  - match goal with |- context[op_gt ?a _] => assert (P a) by auto with clo; destruct (op_gt a (pi_half d env)) end; cbn [fst]; auto with clo.
  - destruct (op_gt x (pi_half d env)); cbn [fst]; auto with clo.
Qed.

Lemma times_closed f : (forall s, P s -> P (f s)) -> forall k s, P s -> P (times f k s).
Proof. intros Hf. induction k; intros s H; cbn [times]; auto. Qed.

Lemma Z_sin_triple : forall k s, P s -> P (sin_triple d k s).
Proof.
  apply times_closed. intros s H. unfold sin_step.
  apply Z_add; [apply Z_neg|]; (apply Z_mul_int; [|lia]); auto with clo.
Qed.
Lemma Z_cos_triple : forall k s, P s -> P (cos_triple d k s).
Proof.
  apply times_closed. intros s H. unfold cos_step.
  apply Z_sub; (apply Z_mul_int; [|lia]); auto with clo.
Qed.
Hint Resolve Z_sin_triple Z_cos_triple : clo.

Lemma Z_sin x : P x -> P (sin d env x).
Proof.
  intro H. unfold sin. destruct (negb (isfinite x)); [auto with clo|].
  assert (R : P (fst (fst (reduce d env (if isneg x then negate x else x))))) by (apply Z_reduce; auto with clo).
  destruct (reduce d env _) as [[xx odd] r]. cbn [fst] in R.
  assert (S : P (sin_reduced d env xx)).
  { unfold sin_reduced. repeat match goal with |- context[if ?b then _ else _] => destruct b end; auto 12 with clo. }
  auto with clo.
Qed.

Lemma Z_cos x : P x -> P (cos d env x).
Proof.
  intro H. unfold cos. destruct (negb (isfinite x)); [auto with clo|].
  assert (R : P (fst (fst (reduce d env (if isneg x then negate x else x))))) by (apply Z_reduce; auto with clo).
  destruct (reduce d env _) as [[xx odd] r]. cbn [fst] in R.
  assert (S : P (cos_reduced d env xx)).
  { unfold cos_reduced. repeat match goal with |- context[if ?b then _ else _] => destruct b end; auto 12 with clo. }
  auto with clo.
Qed.
Hint Resolve Z_sin Z_cos : clo.

Lemma Z_tan x : P x -> P (tan d env x). Proof. unfold tan. auto with clo. Qed.

Lemma Z_asin_loop : forall f x v dg, P x -> P v -> P (asin_loop d env f x v dg).
Proof. induction f; intros x v dg Hx Hv; cbn [asin_loop]; auto. destruct (_ <=? _)%Z; auto. apply IHf; auto 8 with clo. Qed.
Lemma Z_atan_loop : forall f x v dg, P x -> P v -> P (atan_loop d env f x v dg).
Proof. induction f; intros x v dg Hx Hv; cbn [atan_loop]; auto. destruct (_ <=? _)%Z; auto. apply IHf; auto 8 with clo. Qed.

Lemma Z_asin x : P x -> P (asin d env x).
Proof.
  intro H. unfold asin.
  assert (Q : P (if negb (isneg x) then x else negate x)) by auto with clo.
  set (xx := if negb (isneg x) then x else negate x) in *. clearbody xx.
  assert (P (asin_loop d env 40 xx (est_asin env xx) 12)) by (apply Z_asin_loop; auto; apply Henv; auto).
  repeat match goal with |- context[if ?b then _ else _] => destruct b end; auto 12 with clo.
Qed.

Lemma Z_acos x : P x -> P (acos d env x).
Proof.
  intro H. pose proof (Z_asin x H). unfold acos.
  repeat match goal with |- context[if ?b then _ else _] => destruct b end; auto 12 with clo.
Qed.

Lemma Z_at_inf x : P x -> P (atan_at_infinity d env x).
Proof. intro H. unfold atan_at_infinity. auto 12 with clo. Qed.

Lemma Z_atan x : P x -> P (atan d env x).
Proof.
  intro H. unfold atan. pose proof (Z_at_inf x H).
  assert (Q : P (if negb (isneg x) then x else negate x)) by auto with clo.
  set (xx := if negb (isneg x) then x else negate x) in *. clearbody xx. pose proof (Z_at_inf xx Q).
  assert (P (est_atan env xx)) by (apply Henv; auto).
  set (v := if (order x <? 2)%Z then est_atan env xx else atan_at_infinity d env xx).
  assert (P v) by (unfold v; auto with clo).
  assert (P (atan_loop d env 40 xx v 12)) by (apply Z_atan_loop; auto).
  assert (P (atan_at_zero d x)) by (unfold atan_at_zero; auto 10 with clo).
  clearbody v. cbv zeta. 
  repeat match goal with |- context[if ?b then _ else _] => destruct b end; auto 12 with clo.
Qed.

Lemma sgn_cases x : sgn x = (-1)%Z \/ sgn x = 0%Z \/ sgn x = 1%Z.
Proof. unfold sgn. destruct (iszero x); auto. destruct (isneg x); auto. Qed.

Lemma Z_atan2 y x : P y -> P x -> P (atan2 d env y x).
Proof.
  intros Hy Hx. unfold atan2. cbv zeta. assert (P (atan d env (div d y x))) by (apply Z_atan; auto with clo).
  assert (P (mul_int d (pi_half d env) (sgn y))) by (apply Z_mul_int; auto with clo; destruct (sgn_cases y) as [-> |[-> | ->]]; lia).
  repeat match goal with |- context[if ?b then _ else _] => destruct b end; auto 12 with clo.
Qed.

(** ** Tangent *)

Lemma mul_opposite' u v : wfz d u -> wfz d v -> opposite (mul d (negate u) v) (mul d u v).
Proof.
  intros Wu Wv. destruct (iszero u) eqn:Z.
  { replace (negate u) with u by (unfold negate; rewrite Z; reflexivity).
    destruct (mul_zero_any d u v (or_introl Z)) as [-> | ->]; [right; split; reflexivity|left; symmetry; apply negate_zero]. }
  pose proof (wfz_nonzero d u Wu Z) as W. destruct (cls u) eqn:C.
  - apply mul_opposite; auto. split; auto.
  - assert (I : isinf u = true /\ isnan u = false) by (unfold isinf, isnan; rewrite C; auto). destruct I as [I N].
    assert (I' : isinf (negate u) = true) by (unfold isinf in *; rewrite cls_negate; exact I).
    assert (N' : isnan (negate u) = false) by (rewrite isnan_negate; exact N).
    unfold mul, mul_gen. rewrite I, N, I', N', iszero_negate, Z. cbn [orb andb].
    destruct (isnan v) eqn:Nv; cbn [orb andb]; [right; split; reflexivity|].
    rewrite ?orb_false_r, ?andb_true_r, ?andb_true_l.
    destruct (iszero v) eqn:Zv; cbn [orb andb]; [right; rewrite ?orb_true_r; split; reflexivity|].
    rewrite ?andb_false_r. cbn [orb andb]. left. rewrite negate_signed_inf, negate_nonzero by exact Z. f_equal. destruct u as [? ? [|] ? ?], v as [? ? [|] ? ?]; reflexivity.
  - right. split; unfold mul, mul_gen.
    + replace (isnan (negate u)) with true by (rewrite isnan_negate; unfold isnan; rewrite C; reflexivity). reflexivity.
    + replace (isnan u) with true by (unfold isnan; rewrite C; reflexivity). reflexivity.
Qed.

Lemma tan_odd x : pi_sane d env -> finite d x -> same_magnitude (sin d env x) (cos d env x) = false -> opposite (tan d env (negate x)) (tan d env x).
Proof.
  intros Hp [W C] S. unfold tan. rewrite sin_odd, cos_even by (auto; split; auto). unfold div.
  replace (same_magnitude (negate (sin d env x)) (cos d env x)) with (same_magnitude (sin d env x) (cos d env x)).
  2: { unfold same_magnitude, isfinite. rewrite cls_negate, negate_exp, negate_data. reflexivity. }
  rewrite S. assert (P x) by (left; exact W). apply mul_opposite'; auto with clo. apply inv_wfz; auto with clo.
Qed.

(** ** Inverse hyperbolic sine *)

Lemma asinh_odd x : finite d x -> asinh d env (negate x) = omap negate (asinh d env x).
Proof.
  intros [W C]. unfold asinh. rewrite isfinite_negate, iszero_negate. replace (isfinite x) with true by (unfold isfinite; rewrite C; reflexivity). cbn [negb].
  destruct (iszero x) eqn:Z; [cbn [omap]; rewrite negate_zero; reflexivity|].
  rewrite (mul_negate_both d x x Hd (conj W C) (conj W C)). change (fabs (negate x)) with (magnitude (negate x)). rewrite magnitude_negate by exact Z.
  change (magnitude x) with (fabs x). destruct (log _ _ _); cbn [omap]; [|reflexivity]. rewrite isneg_negate, negb_involutive by exact Z.
  destruct (isneg x); cbn [negb]; rewrite ?negate_involutive; reflexivity.
Qed.

End Fixed.
