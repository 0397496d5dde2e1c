(** * Every operation keeps the representation invariant. *)

From Coq Require Import ZArith List Bool Reals Lia Lra Arith.
From Flocq Require Import Core Relative BinarySingleNaN.
From Verif Require Import Model Spec Limbs Value CmpProofs AddProofs OrderProofs MulProofs MulValue IntProofs IntPartProofs MixedProofs IntCor
  ModelDiv DivProofs DoubleProofs SeedProofs InvProofs CtorProofs SqrtProofs ModelStr SpecText StrProofs ModelPow PowGen PowProofs PowExtra LdexpProofs.
From Verif Require Import ModelObj SpecObj.
Import ListNotations.
Open Scope R_scope.

Local Ltac Zify.zify_post_hook ::= Z.div_mod_to_equations.

Definition wfz (d : Z) (x : ef) : Prop := wf d x \/ (iszero x = true /\ wf d (set_neg x false)).

Lemma wf_wfz d x : wf d x -> wfz d x. Proof. left; auto. Qed.

Lemma wfz_spec d x : valid_digits d -> wfz d x <-> wf_but_sign d x.
Proof.
  intros Hd. unfold wfz, wf_but_sign. split; (intros [H|H]; [left; auto|right]).
  - destruct H as [Z0 W]. assert (C : cls x = Finite) by (unfold iszero, isfinite in Z0; destruct (cls x); auto; discriminate).
    split; auto. split; [|exact W]. unfold iszero in Z0. apply andb_true_iff in Z0. destruct Z0 as [_ Z0].
    apply Z.eqb_eq in Z0. apply (wf_zero _ _ W); auto.
  - destruct H as (C & Z0 & W). split; [|exact W]. unfold iszero, isfinite. rewrite C. cbn [andb]. apply Z.eqb_eq.
    unfold limb. destruct (data x); auto. inversion Z0; auto.
Qed.

Lemma cls_cases x : isnan x = false -> isinf x = false -> cls x = Finite.
Proof. unfold isnan, isinf. destruct (cls x); congruence. Qed.

Lemma iszero_cls x : iszero x = true -> cls x = Finite /\ isnan x = false /\ isinf x = false.
Proof. unfold iszero, isfinite, isnan, isinf. destruct (cls x); cbn; auto; discriminate. Qed.

Lemma wfz_nonzero d x : wfz d x -> iszero x = false -> wf d x.
Proof. intros [H|[H _]] E; auto. congruence. Qed.

Lemma wfz_set_neg d x b : wfz d x -> cls x = Finite -> wfz d (set_neg x b).
Proof.
  intros [W|[Z0 W]] C.
  - destruct (iszero x) eqn:E.
    + right. split; [rewrite iszero_set_neg; auto|]. rewrite set_neg_twice.
      replace (set_neg x false) with x; auto. rewrite <- (set_neg_id x) at 1. f_equal.
      apply (wf_zero _ _ W); auto. apply andb_true_iff in E. destruct E as [_ E]. apply Z.eqb_eq in E. exact E.
    + left. apply iszero_false in E; auto. constructor; cbn [set_neg data exp neg cls prec]; try apply W.
      intros _ F. exfalso. apply E. exact F.
  - right. rewrite iszero_set_neg, set_neg_twice. auto.
Qed.

Lemma wfz_canon d x : wfz d x -> cls x = Finite -> wf d (if iszero x then set_neg x false else x).
Proof.
  intros H C. destruct (iszero x) eqn:E.
  - destruct H as [W|[_ W]]; auto. destruct (wfz_set_neg d x false (or_introl W) C) as [?|[_ ?]]; auto.
  - apply wfz_nonzero; auto.
Qed.

Lemma wfz_fin_nonneg d x : wfz d x -> cls x = Finite -> wf d (set_neg x false).
Proof.
  intros H C. destruct (wfz_set_neg d x false H C) as [W|[_ W]]; auto.
Qed.

Lemma set_neg_nonfinite d x b : wf d x -> cls x <> Finite -> wf d (set_neg x b).
Proof. intros W C. constructor; cbn [set_neg data exp neg cls prec]; try apply W. intro. contradiction. Qed.

(** ** Negation, sums *)

Lemma negate_wfz d x : wfz d x -> wfz d (negate x).
Proof.
  intro H. destruct (iszero x) eqn:E.
  - unfold negate. rewrite E. auto.
  - left. apply negate_wf. eapply wfz_nonzero; eauto.
Qed.

Lemma fabs_wfz d x : wfz d x -> wfz d (fabs x).
Proof. intro. unfold fabs. destruct (isneg x); auto using negate_wfz. Qed.

Lemma add_wfz d u v : valid_digits d -> wfz d u -> wfz d v -> wfz d (add d u v).
Proof.
  intros Hd Hu Hv. destruct (iszero u) eqn:Eu.
  - unfold add. destruct (iszero_cls u Eu) as (_ & -> & ->). rewrite Eu. auto.
  - pose proof (wfz_nonzero d u Hu Eu) as Wu. destruct (iszero v) eqn:Ev.
    + unfold add. destruct (isnan u); auto. destruct (isinf u).
      * destruct (isinf v && negb (Bool.eqb (neg u) (neg v)))%bool; auto. left. apply value_nan_wf; auto.
      * rewrite Eu, Ev. cbn [orb]. auto.
    + left. apply add_wf; auto. eapply wfz_nonzero; eauto.
Qed.

Lemma sub_wfz d u v : valid_digits d -> wfz d u -> wfz d v -> wfz d (sub d u v).
Proof. intros. unfold sub. auto using negate_wfz, add_wfz. Qed.

Lemma sub_self_wfz d x : valid_digits d -> wfz d x -> wfz d (sub_self d x).
Proof. intros. unfold sub_self. auto using negate_wfz, add_wfz. Qed.

(** ** Products: never a signed zero *)

Lemma mul_zero_any d u v : iszero u = true \/ iszero v = true -> mul d u v = value_nan d \/ mul d u v = zero d.
Proof.
  intros H. unfold mul, mul_gen.
  destruct (isnan u || isnan v)%bool eqn:En; cbn [orb]; [auto|].
  destruct (isinf u && iszero v || isinf v && iszero u)%bool eqn:E; [auto|].
  destruct H as [H|H]; destruct (iszero_cls _ H) as (_ & N1 & I1); rewrite H, I1 in *; cbn [orb andb] in *.
  - rewrite andb_true_r in E. rewrite E. auto.
  - rewrite andb_true_r, orb_false_r in E. rewrite E. cbn [orb]. rewrite orb_true_r. auto.
Qed.

Lemma mul_wfz d u v : valid_digits d -> wfz d u -> wfz d v -> wf d (mul d u v).
Proof.
  intros Hd Hu Hv. destruct (iszero u) eqn:Eu; [|destruct (iszero v) eqn:Ev].
  - destruct (mul_zero_any d u v (or_introl Eu)) as [-> | ->]; [apply value_nan_wf|apply zero_finite]; auto.
  - destruct (mul_zero_any d u v (or_intror Ev)) as [-> | ->]; [apply value_nan_wf|apply zero_finite]; auto.
  - apply mul_wf; eauto using wfz_nonzero.
Qed.

Lemma mul_ull_wf d x n : valid_digits d -> wfz d x -> (0 <= n < 18446744073709551616)%Z -> wf d (mul_ull d x n).
Proof.
  intros Hd Hx Hn. unfold mul_ull.
  destruct (isnan x || isinf x && (n =? 0)%Z)%bool eqn:E1; [apply value_nan_wf; auto|].
  destruct (isinf x) eqn:Ei; [apply signed_inf_wf; auto|].
  destruct (iszero x || (n =? 0)%Z)%bool eqn:Ez; [apply zero_finite; auto|].
  apply orb_false_iff in E1. destruct E1 as [En _]. apply orb_false_iff in Ez. destruct Ez as [Ez Nz].
  apply Z.eqb_neq in Nz. pose proof (wfz_nonzero d x Hx Ez) as W. pose proof (cls_cases x En Ei) as C.
  destruct (Z.geb_spec n mask).
  { apply mul_wf; auto. apply of_ull_spec; auto. }
  destruct (n =? 1)%Z eqn:E1; auto.
  change mask with 100000000%Z in *.
  assert (F : finite d x) by (split; auto).
  pose proof (mul_ull_cases d x n Hd F Hn) as Q. unfold mul_ull in Q. rewrite En, Ei, Ez in Q. cbn [orb andb] in Q.
  rewrite E1 in Q. rewrite (proj2 (Z.eqb_neq n 0) Nz) in Q.
  destruct (Z.geb_spec n mask) in Q; [change mask with 100000000%Z in *; lia|].
  cbn [orb] in Q. rewrite Q. apply iszero_false in Ez; auto. apply mul_small_spec; auto. lia.
Qed.

Lemma mul_sll_wf d x n r : valid_digits d -> wfz d x -> int64 n -> mul_sll d x n = Defined r -> wf d r.
Proof.
  unfold int64. intros Hd Hx Hn. unfold mul_sll. destruct (Z.eqb_spec n sll_min); [discriminate|]. intro E. injection E as <-.
  set (y := mul_ull d x _). assert (Hy : wf d y).
  { apply mul_ull_wf; auto. destruct (negb (n <? 0)%Z); unfold u64; apply Z.mod_pos_bound; lia. }
  set (y' := if (n <? 0)%Z then negate y else y). assert (Hy' : wf d y') by (unfold y'; destruct (n <? 0)%Z; auto using negate_wf).
  destruct (op_gt (fabs y') (value_max d)); auto. apply signed_inf_wf; auto.
Qed.

Lemma add_ull_wfz d x n : valid_digits d -> wfz d x -> uint64 n -> wfz d (add_ull d x n).
Proof. intros. apply add_wfz; auto. left. apply of_ull_spec; auto. Qed.

Lemma sub_ull_wfz d x n : valid_digits d -> wfz d x -> uint64 n -> wfz d (sub_ull d x n).
Proof. intros. apply sub_wfz; auto. left. apply of_ull_spec; auto. Qed.

Lemma u64_range n : uint64 (u64 n).
Proof. unfold uint64, u64. apply Z.mod_pos_bound. lia. Qed.

Lemma add_sll_wfz d x n r : valid_digits d -> wfz d x -> add_sll d x n = Defined r -> wfz d r.
Proof.
  intros Hd Hx. unfold add_sll. destruct (n <? 0)%Z.
  - destruct (n =? sll_min)%Z; [discriminate|]. intro E. injection E as <-. apply negate_wfz, add_ull_wfz; auto using negate_wfz, u64_range.
  - intro E. injection E as <-. apply add_ull_wfz; auto using u64_range.
Qed.

Lemma sub_sll_wfz d x n r : valid_digits d -> wfz d x -> sub_sll d x n = Defined r -> wfz d r.
Proof. intros Hd Hx. unfold sub_sll. destruct (n =? sll_min)%Z; [discriminate|]. apply add_sll_wfz; auto. Qed.

(** ** Reciprocal and division *)

Lemma precision_wfz d x p : valid_digits d -> wfz d x -> wfz d (precision d x p).
Proof.
  intros Hd H. pose proof (elem_number_bounds d Hd) as EN.
  assert (P : forall y, wf d y -> wf d (precision d y p)).
  { intros y W. constructor; try apply W. unfold precision, set_prec, N. cbn [prec]. lia. }
  destruct H as [W|[Z0 W]]; [left; auto|right]. split.
  - unfold iszero, isfinite, precision, set_prec in *. cbn [cls data] in *. exact Z0.
  - specialize (P _ W). exact P.
Qed.

Lemma precision_wf d x p : valid_digits d -> wf d x -> wf d (precision d x p).
Proof.
  intros Hd W. pose proof (elem_number_bounds d Hd) as EN. constructor; try apply W. unfold precision, set_prec, N. cbn [prec]. lia.
Qed.

Lemma set_prec_wf d x p : wf d x -> (2 <= p <= elem_number d)%Z -> wf d (set_prec x p).
Proof. intros W H. constructor; try apply W. exact H. Qed.

Lemma set_prec_wfz d x p : wfz d x -> (2 <= p <= elem_number d)%Z -> wfz d (set_prec x p).
Proof.
  intros [W|[Z0 W]] H; [left; apply set_prec_wf; auto|right].
  split; [exact Z0|]. apply (set_prec_wf d (set_neg x false)); auto.
Qed.

Lemma wfz_prec d x : wfz d x -> (2 <= prec x <= elem_number d)%Z.
Proof. intros [W|[_ W]]; apply (wf_prec _ _ W). Qed.

Lemma two_wf d : valid_digits d -> wf d (two d).
Proof. intro. apply of_ull_spec; auto. lia. Qed.

Lemma inv_loop_wf d : valid_digits d -> forall f x y dg, wf d x -> wf d y -> wf d (inv_loop d f x y dg).
Proof.
  intros Hd. induction f; intros x y dg Wx Wy; cbn [inv_loop]; auto. destruct (dg <=? tolerance d)%Z; auto.
  apply IHf; auto. unfold inv_step. apply mul_wf; auto using precision_wf. apply sub_wf; auto using two_wf.
  apply mul_wf; auto using precision_wf.
Qed.

Lemma finite_wf d x : finite d x -> wf d x. Proof. intros [? _]; auto. Qed.

Lemma inv_wfz d x : valid_digits d -> wfz d x -> wfz d (inv d x).
Proof.
  intros Hd H. unfold inv. destruct (iszero (set_neg x false)) eqn:Ez; [left; apply signed_inf_wf; auto|].
  rewrite iszero_set_neg in Ez. pose proof (wfz_nonzero d x H Ez) as W.
  destruct (isnan (set_neg x false)) eqn:En.
  { left. apply set_neg_nonfinite; auto. intro C. unfold isnan in En. cbn [set_neg cls] in En. rewrite C in En. discriminate. }
  destruct (isinf (set_neg x false)) eqn:Ei; [left; apply zero_finite; auto|].
  destruct (isone (set_neg x false)).
  { left. destruct (negb (neg x)); [|apply negate_wf]; apply one_ok; auto. }
  assert (C : cls x = Finite) by (apply cls_cases; auto).
  assert (F : finite d (set_neg x false)) by (split; auto using wfz_fin_nonneg).
  apply iszero_false in Ez; auto.
  destruct (inv_seed_ok d (set_neg x false) Hd F Ez eq_refl) as [Fs _].
  pose proof (inv_loop_wf d Hd 40 (set_neg x false) (inv_seed d (set_neg x false)) 12 (finite_wf _ _ F) (finite_wf _ _ Fs)) as Wl.
  apply set_prec_wfz; [|exact (wf_prec _ _ W)].
  generalize dependent (inv_loop d 40 (set_neg x false) (inv_seed d (set_neg x false)) 12). intros y Wl.
  destruct (cls y) eqn:Cy.
  - apply wfz_set_neg; auto. left; auto.
  - left. apply set_neg_nonfinite; auto. congruence.
  - left. apply set_neg_nonfinite; auto. congruence.
Qed.

(** without a sign on zero when the reciprocal is accurate *)
Lemma inv_wf d x : valid_digits d -> (d <= 65000)%Z -> wf d x ->
  (cls x = Finite -> value x = 0 \/ in_range (value x)) -> wf d (inv d x).
Proof.
  intros Hd Hd' W H. destruct (cls x) eqn:C.
  - destruct (H eq_refl) as [V|V].
    + assert (Ez : iszero x = true) by (apply (iszero_isneg_spec d x Hd (conj W C)); auto).
      unfold inv; rewrite iszero_set_neg, Ez; apply signed_inf_wf; auto.
    + apply (inv_accurate d x Hd Hd' (conj W C) V).
  - unfold inv. assert (iszero (set_neg x false) = false) as -> by (unfold iszero, isfinite; cbn [set_neg cls]; rewrite C; auto).
    unfold isnan, isinf. cbn [set_neg cls]. rewrite C. apply zero_finite; auto.
  - unfold inv. assert (iszero (set_neg x false) = false) as -> by (unfold iszero, isfinite; cbn [set_neg cls]; rewrite C; auto).
    unfold isnan. cbn [set_neg cls]. rewrite C. apply set_neg_nonfinite; auto. congruence.
Qed.

Lemma one_wf d : valid_digits d -> wf d (one d).
Proof. intro. apply one_ok; auto. Qed.

Lemma div_wfz d u v : valid_digits d -> wfz d u -> wfz d v -> wf d (div d u v).
Proof.
  intros Hd Hu Hv. unfold div. destruct (same_magnitude u v).
  - destruct (negb _); [apply negate_wf|]; apply one_wf; auto.
  - apply mul_wfz; auto using inv_wfz.
Qed.

Lemma div_self_wfz d x : valid_digits d -> wfz d x -> wf d (div_self d x).
Proof. intros Hd H. unfold div_self. destruct (same_magnitude x x); [apply one_wf; auto|]. apply mul_wfz; auto using inv_wfz. Qed.

Lemma div_small_limbs d x n : valid_digits d -> wf d x -> (2 <= n < 100000000)%Z ->
  let r := div_small x n in limbs (data r) /\ length (data r) = Nn d /\ (exp r mod 8 = 0)%Z /\ cls r = cls x /\ prec r = prec x.
Proof.
  intros Hd W Hn. unfold div_small. pose proof (wf_prec _ _ W) as P. pose proof (Nn_len d x Hd W) as L. pose proof (wf_limbs _ _ W) as Lx.
  pose proof (Nn_Z d Hd) as NZ.
  set (p := Z.to_nat (prec x)). assert (Hp : (2 <= p <= Nn d)%nat) by (unfold p; lia).
  destruct (div_loop_n (firstn p (data x)) 0 n) as [q prev] eqn:E.
  destruct (div_loop_n_spec n (firstn p (data x)) (limbs_firstn _ _ Lx) ltac:(unfold mask; lia) 0%Z q prev ltac:(lia) E) as (Hmv & Hq & Hlq & Hpr).
  rewrite firstn_length_le in Hlq by lia.
  set (l := q ++ skipn p (data x)). assert (Ll : length l = Nn d) by (unfold l; rewrite app_length, skipn_length; lia).
  assert (Lb : limbs l) by (unfold l; apply limbs_app; auto using limbs_skipn).
  pose proof (wf_exp _ _ W) as EX. cbv zeta. destruct (limb l 0 =? 0)%Z; cbn [data exp cls prec].
  - split; [|split; [|split; [|auto]]].
    + apply upd_limbs.
      * apply limbs_app; auto using limbs_firstn, limbs_skipn.
      * unfold is_limb, u32, u64, mask. assert (0 <= prev * 100000000 / n < 100000000)%Z.
        { split; [apply Z.div_pos; lia|]. apply Z.div_lt_upper_bound; lia. }
        rewrite (Z.mod_small (prev * 100000000)) by lia. rewrite Z.mod_small by lia. lia.
    + rewrite upd_length, app_length, firstn_length, !skipn_length. lia.
    + lia.
  - auto.
Qed.

Lemma div_ull_wf d x n : valid_digits d -> wfz d x -> uint64 n -> wf d (div_ull d x n).
Proof.
  intros Hd H Hn. unfold uint64 in Hn. unfold div_ull.
  destruct (isnan (set_neg x false)) eqn:En.
  { destruct H as [W|[Z0 W]]; auto. apply set_neg_nonfinite; auto. unfold isnan in En. cbn [set_neg cls] in En. destruct (cls x); congruence. }
  destruct (isinf (set_neg x false)) eqn:Ei; [apply signed_inf_wf; auto|].
  pose proof (cls_cases _ En Ei) as C. cbn [set_neg cls] in C. pose proof (wfz_fin_nonneg d x H C) as W.
  destruct (n =? 0)%Z eqn:E0.
  { destruct (iszero _); [apply value_nan_wf|apply signed_inf_wf]; auto. }
  apply Z.eqb_neq in E0.
  destruct (iszero (set_neg x false)) eqn:Ez; [auto|].
  destruct (Z.geb_spec n mask). { apply div_wfz; auto. left. apply of_ull_spec; auto. }
  change mask with 100000000%Z in *. rewrite iszero_set_neg in Ez. pose proof (wfz_nonzero d x H Ez) as Wx.
  destruct (Z.gtb_spec n 1).
  - destruct (div_small_limbs d (set_neg x false) n Hd W ltac:(lia)) as (A1 & A2 & A3 & A4 & A5).
    set (y := div_small _ n) in *. clearbody y. destruct (iszero y) eqn:Ey; [apply zero_finite; auto|].
    cbn [set_neg cls prec] in A4, A5. rewrite C in A4. apply iszero_false in Ey; auto.
    constructor; cbn [set_neg data exp neg cls prec]; auto.
    + rewrite A2. apply Nn_Z; auto.
    + rewrite A5. apply (wf_prec _ _ W).
    + intros _ F. contradiction.
    + congruence.
  - destruct (iszero (set_neg x false)); [apply zero_finite; auto|]. rewrite set_neg_twice, set_neg_id. auto.
Qed.

Lemma div_sll_wf d x n r : valid_digits d -> wfz d x -> div_sll d x n = Defined r -> wf d r.
Proof.
  intros Hd H. unfold div_sll. destruct (n =? sll_min)%Z; [discriminate|]. intro E. injection E as <-.
  set (y := div_ull d x _). assert (Hy : wf d y).
  { apply div_ull_wf; auto. destruct (negb (n <? 0)%Z); apply u64_range. }
  destruct (n <? 0)%Z; auto using negate_wf.
Qed.

(** ** Integer and decimal part *)

Lemma nonfinite_not x : isfinite x = false -> cls x <> Finite.
Proof. unfold isfinite. destruct (cls x); congruence. Qed.

Lemma isfinite_cls x : isfinite x = true -> cls x = Finite.
Proof. unfold isfinite. destruct (cls x); congruence. Qed.

Lemma integer_part_wfz d x : valid_digits d -> wfz d x -> wfz d (integer_part d x).
Proof.
  intros Hd H. destruct (isfinite x) eqn:F.
  2:{ unfold integer_part. rewrite F. auto. }
  apply isfinite_cls in F as C. pose proof (wfz_fin_nonneg d x H C) as W. set (y := set_neg x false) in *.
  destruct (Z_lt_dec (exp x) (d - 1)) as [L|L].
  - destruct (Z_lt_dec (exp x) 0) as [L0|L0].
    + unfold integer_part. rewrite F. cbn [negb]. apply Z.ltb_lt in L0. rewrite L0. left. apply zero_finite; auto.
    + destruct (integer_part_spec d y Hd (conj W C) L) as [[Fi Ci] _].
      replace (integer_part d x) with (set_neg (integer_part d y) (neg x)).
      * apply wfz_set_neg; auto. left; auto.
      * unfold integer_part. change (isfinite y) with (isfinite x). rewrite F. cbn [negb]. change (exp y) with (exp x).
        destruct (Z.ltb_spec (exp x) 0); [lia|]. destruct (Z.geb_spec (exp x) (d - 1)); [lia|]. reflexivity.
  - unfold integer_part. rewrite F. cbn [negb]. destruct (exp x <? 0)%Z; [left; apply zero_finite; auto|].
    destruct (Z.geb_spec (exp x) (d - 1)); [auto|lia].
Qed.

Lemma integer_part_wf d x : valid_digits d -> wf d x -> wf d (integer_part d x).
Proof.
  intros Hd W. destruct (isfinite x) eqn:F.
  2:{ unfold integer_part. rewrite F. auto. }
  apply isfinite_cls in F as C.
  destruct (Z_lt_dec (exp x) (d - 1)) as [L|L].
  - apply (integer_part_spec d x Hd (conj W C) L).
  - unfold integer_part. rewrite F. cbn [negb]. destruct (exp x <? 0)%Z; [apply zero_finite; auto|].
    destruct (Z.geb_spec (exp x) (d - 1)); [auto|lia].
Qed.

Lemma decimal_part_wfz d x : valid_digits d -> wfz d x -> wf d (decimal_part d x).
Proof.
  intros Hd H. destruct (isfinite x) eqn:F.
  2:{ unfold decimal_part. rewrite F. cbn [negb]. destruct H as [W|[Z0 _]]; auto. destruct (iszero_cls x Z0) as [C _].
      unfold isfinite in F. rewrite C in F. discriminate. }
  apply isfinite_cls in F as C.
  destruct (iszero x) eqn:Ez. { unfold decimal_part. rewrite F, Ez. apply zero_finite; auto. }
  pose proof (wfz_nonzero d x H Ez) as W.
  destruct (Z_lt_dec (exp x) (d - 1)) as [L|L].
  - apply (decimal_part_spec d x Hd (conj W C) L).
  - unfold decimal_part. rewrite F, Ez. cbn [negb]. destruct (Z.ltb_spec (exp x) 0); auto.
    destruct (Z.geb_spec (exp x) (d - 1)); [apply zero_finite; auto|lia].
Qed.

(** ** Constructors *)

Lemma ctor_double_wf d m e r : valid_digits d -> Rabs (B2R m) < 10 -> ctor_double d m e = Defined r -> wf d r.
Proof.
  intros Hd Hm E. unfold ctor_double in E. destruct (is_finite m) eqn:Fm; [|discriminate].
  destruct (Rle_lt_dec (IZR 4503599627370497 * bpow radix2 (-1074)) (Rabs (B2R m))) as [L|L].
  - destruct (ctor_ok d m e Hd Fm L) as (r' & E' & _ & _ & _ & Q). unfold ctor_double in E'. rewrite Fm in E'.
    injection E as <-. injection E' as <-. apply Q; auto.
  - injection E as <-. unfold of_double. destruct min_eps_value as [Fe Ve].
    assert (A : dlt (dabs m) dbl_min_eps = true).
    { apply dlt_ok; auto; unfold dabs. rewrite is_finite_Babs; auto. unfold D in *. rewrite B2R_Babs, Ve. exact L. }
    rewrite A. destruct (e =? 0)%Z; [apply one_wf|apply zero_finite]; auto.
Qed.

Lemma rd_string_wf d x t r : valid_digits d -> literal_text t -> cls x = Finite -> (2 <= prec x <= elem_number d)%Z ->
  rd_string d x t = Ok r -> wf d r.
Proof.
  intros Hd (l & V & -> & HL & HE) C P E. destruct (rd_literal d x l Hd C P V HL HE) as (r' & E' & W & _).
  rewrite E in E'. injection E' as <-. exact (proj1 W).
Qed.

Lemma rd_string_ok d x t : valid_digits d -> literal_text t -> cls x = Finite -> (2 <= prec x <= elem_number d)%Z ->
  exists r, rd_string d x t = Ok r.
Proof.
  intros Hd (l & V & -> & HL & HE) C P. destruct (rd_literal d x l Hd C P V HL HE) as (r' & E' & _). eauto.
Qed.

(** ** Functions built from the operators

    [P] is either "well-formed" or "well-formed except for the sign of zero". *)

Section Closed.
Variables (d : Z) (P : ef -> Prop).
Hypothesis Hd : valid_digits d.
Hypothesis P_wf : forall x, wf d x -> P x.
Hypothesis P_wfz : forall x, P x -> wfz d x.
Hypothesis P_negate : forall x, P x -> P (negate x).
Hypothesis P_add : forall x y, P x -> P y -> P (add d x y).
Hypothesis P_integer_part : forall x, P x -> P (integer_part d x).
Hypothesis P_precision : forall x p, P x -> P (precision d x p).
Hypothesis P_set_prec : forall x p, P x -> (2 <= p <= elem_number d)%Z -> P (set_prec x p).

Hint Resolve P_wf P_wfz P_negate P_add P_integer_part P_precision one_wf : clo.

Lemma P_sub x y : P x -> P y -> P (sub d x y).
Proof. intros. unfold sub. auto with clo. Qed.

Lemma P_mul x y : P x -> P y -> P (mul d x y).
Proof. intros. apply P_wf, mul_wfz; auto. Qed.

Lemma P_fabs x : P x -> P (fabs x).
Proof. intros. unfold fabs. destruct (isneg x); auto. Qed.

Lemma P_one : P (one d). Proof. auto with clo. Qed.

Hint Resolve P_sub P_mul P_one : clo.

Lemma P_sub_self x : P x -> P (sub_self d x).
Proof. intros. unfold sub_self. auto with clo. Qed.

Lemma P_of_ull n : uint64 n -> P (of_ull d n).
Proof. intros. apply P_wf, of_ull_spec; auto. Qed.

Lemma P_add_ull x n : P x -> uint64 n -> P (add_ull d x n).
Proof. intros. unfold add_ull. auto using P_of_ull. Qed.

Lemma P_sub_ull x n : P x -> uint64 n -> P (sub_ull d x n).
Proof. intros. unfold sub_ull. auto using P_of_ull, P_sub. Qed.

Lemma P_add_sll x n : P x -> int64 n -> exists r, add_sll d x n = Defined r /\ P r.
Proof.
  intros Hx Hn. unfold int64 in Hn. unfold add_sll. destruct (n <? 0)%Z.
  - destruct (Z.eqb_spec n sll_min); [unfold sll_min in *; lia|]. eexists; split; [reflexivity|]. apply P_negate, P_add_ull; auto using u64_range.
  - eexists; split; [reflexivity|]. apply P_add_ull; auto using u64_range.
Qed.

Lemma P_sub_sll x n : P x -> int64 n -> exists r, sub_sll d x n = Defined r /\ P r.
Proof.
  intros Hx Hn. unfold int64 in Hn. unfold sub_sll. destruct (Z.eqb_spec n sll_min); [unfold sll_min in *; lia|]. apply P_add_sll; auto. unfold int64; lia.
Qed.

Lemma P_mul_sll x n : P x -> int64 n -> exists r, mul_sll d x n = Defined r /\ P r.
Proof.
  intros Hx Hn. destruct (mul_sll d x n) eqn:E.
  - eexists; split; [reflexivity|]. eapply P_wf, mul_sll_wf; eauto.
  - unfold int64, mul_sll in *. destruct (Z.eqb_spec n sll_min); [unfold sll_min in *; lia|]. discriminate.
Qed.

Lemma P_div_sll x n : P x -> int64 n -> exists r, div_sll d x n = Defined r /\ P r.
Proof.
  intros Hx Hn. destruct (div_sll d x n) eqn:E.
  - eexists; split; [reflexivity|]. eapply P_wf, div_sll_wf; eauto.
  - unfold int64, div_sll in *. destruct (Z.eqb_spec n sll_min); [unfold sll_min in *; lia|]. discriminate.
Qed.

Lemma P_floor x : P x -> P (floor d x).
Proof. intros H. unfold floor. destruct (_ || _)%bool; auto. destruct (isneg x); auto with clo. Qed.

Lemma P_ceil x : P x -> P (ceil d x).
Proof. intros H. unfold ceil. destruct (_ || _)%bool; auto. destruct (isneg x); auto with clo. Qed.

Lemma P_mul_int x n : P x -> int64 n -> P (mul_int d x n).
Proof.
  intros H Hn. unfold mul_int. destruct (P_mul_sll x n H Hn) as (r & -> & ?). auto.
Qed.

Lemma P_sqrt_loop : forall f x s v dg, P x -> P s -> P v -> P (sqrt_loop d f x s v dg).
Proof.
  induction f; intros x s v dg Hx Hs Hv; cbn [sqrt_loop]; auto. destruct (dg <=? tolerance d)%Z; auto.
  unfold sqrt_step. cbv zeta.
  set (s1 := precision d s _). set (v1 := precision d v _).
  assert (H1 : P s1) by (apply P_precision; auto). assert (H2 : P v1) by (apply P_precision; auto).
  set (v2 := add d v1 _). assert (H3 : P v2).
  { apply P_add; auto. apply P_mul; auto. apply P_add; auto with clo.
    apply P_negate, P_mul_int; auto with clo. unfold int64; lia. }
  set (t := mul d v2 _). assert (H4 : P t) by (apply P_mul; auto; apply P_add; auto; apply P_negate, P_mul; auto).
  assert (H5 : P (add d s1 t)) by auto with clo.
  destruct (_ && _)%bool; auto.
Qed.

Lemma P_sqrt x : P x -> P (sqrt d x).
Proof.
  intros H. pose proof (P_wfz x H) as H0. unfold sqrt. destruct (isneg x || negb (isfinite x))%bool eqn:E; [apply P_wf, value_nan_wf; auto|].
  destruct (iszero x || isone x)%bool eqn:E1; auto.
  apply orb_false_iff in E, E1. destruct E as [En Ef], E1 as [Ez _]. apply negb_false_iff in Ef. apply isfinite_cls in Ef.
  pose proof (wfz_nonzero d x H0 Ez) as W. pose proof Ez as Ez'. apply iszero_false in Ez'; auto.
  assert (V : 0 < value x).
  { destruct (iszero_isneg_spec d x Hd (conj W Ef)) as [Q1 Q2].
    assert (value x <> 0) by (intro Q; apply Q1 in Q; congruence).
    assert (~ value x < 0) by (intro Q; apply Q2 in Q; congruence). lra. }
  destruct (sqrt_seed_ok d x (R_sqrt.sqrt (value x)) Hd (conj W Ef) Ez' En (sqrt_lt_R0 _ V) (eq_sym (sqrt_sqrt _ (Rlt_le _ _ V)))) as (Fs & Fv & _).
  destruct (sqrt_parts x) as [dd ne]. cbn [fst snd] in *.
  apply P_set_prec; [|apply (wf_prec _ _ W)].
  apply P_sqrt_loop; auto; apply P_wf; [apply Fs|apply Fv].
Qed.

Lemma P_mul_self x : P x -> P (mul_self d x).
Proof. intros. rewrite mul_self_eq. apply P_mul; auto. Qed.

Lemma P_pow_loop : forall f p r y, P r -> P y -> P (pow_loop (mul d) (mul_self d) f p r y).
Proof.
  induction f; intros p r y Hr Hy; cbn [pow_loop]; auto. destruct (p =? 0)%Z; auto.
  apply IHf; [|apply P_mul_self; auto]. destruct (negb _); auto using P_mul.
Qed.

Lemma P_pow b p : P b -> int64 p -> exists r, pow_int d b p = Defined r /\ P r.
Proof.
  intros Hb Hp. unfold pow_int, pow_gen, int64 in *.
  assert (Q : forall q, P (pow_nonneg (one d) (mul d) (mul_self d) b q)).
  { intro q. unfold pow_nonneg.
    repeat match goal with |- P (if ?c then _ else _) => destruct c end; auto using P_mul_self, P_mul, P_one, P_pow_loop. }
  destruct (p <? 0)%Z.
  - destruct (Z.eqb_spec p sll_min); [unfold sll_min in *; lia|]. eexists; split; [reflexivity|]. apply P_wf, div_wfz; auto.
    left. apply of_sll_spec; auto. lia.
  - eexists; split; [reflexivity|]. apply Q.
Qed.

Lemma P_pow2 p : int64 p -> exists r, pow2 d p = Defined r /\ P r.
Proof.
  intros Hp. unfold pow2.
  assert (A : wf d (of_limbs d [50000000%Z] (-8) false)) by (apply of_limbs1; auto; lia).
  destruct (Z.ltb_spec p (-1)).
  { unfold int64 in *. destruct (Z.eqb_spec p sll_min); [unfold sll_min in *; lia|]. apply P_pow; auto. unfold int64; lia. }
  destruct (p =? -1)%Z. { eexists; split; [reflexivity|]. auto. }
  destruct (p =? 0)%Z. { eexists; split; [reflexivity|]. apply P_wf. apply of_limbs1; auto; lia. }
  destruct (p =? 1)%Z. { eexists; split; [reflexivity|]. apply P_wf. apply of_limbs1; auto; lia. }
  apply P_pow; auto. apply P_wf. apply of_ull_spec; auto. lia.
Qed.

Lemma P_ldexp v e : P v -> int64 e -> exists r, ldexp d v e = Defined r /\ P r.
Proof.
  intros Hv He. unfold ldexp, omap. destruct (P_pow2 e He) as (r & -> & Hr). eexists; split; [reflexivity|]. apply P_mul; auto.
Qed.

Lemma P_div x y : P x -> P y -> P (div d x y).
Proof. intros. apply P_wf, div_wfz; auto. Qed.

Lemma P_fmod u v : P u -> P v -> P (fmod d u v).
Proof.
  intros Hu Hv. unfold fmod. apply P_sub; auto. apply P_mul; auto.
  assert (P (div d u v)) by (apply P_div; auto). destruct (isneg u); auto using P_ceil, P_floor.
Qed.

(** ** One statement *)

Lemma P_default c : P (mkef (repeat 0%Z (Nn d)) 0 false c (N d)).
Proof. apply P_wf, wf_repeat0; auto. unfold N. pose proof (elem_number_bounds d Hd). lia. Qed.

Lemma P_eval st s e : agrees P st s -> forallb (has_value st) (operands e) = true -> expression_ok e ->
  exists r, eval d s e = Defined r /\ P r.
Proof.
  intros A G O.
  assert (U : forall x, has_value st x = true -> exists v, use s x = Defined v /\ P v).
  { intros x H. specialize (A x). unfold has_value in H. destruct (st x) as [[|]|]; try discriminate.
    destruct A as (v & E & D & Q). exists v. unfold use, has_limbs. rewrite E. destruct (data v); [contradiction|auto]. }
  destruct e; cbn [operands forallb] in G; rewrite ?andb_true_r in G; try (apply andb_prop in G; destruct G as [G1 G2]);
    cbn [eval expression_ok] in *;
    repeat match goal with H : has_value st ?x = true |- _ => destruct (U x H) as (? & -> & ?); clear H end;
    cbn [obind]; try (eexists; split; [reflexivity|]);
    auto using P_add, P_sub, P_mul, P_div, P_fabs, P_floor, P_ceil, P_integer_part, P_sqrt, P_fmod, P_pow, P_pow2.
  - apply P_wf, decimal_part_wfz; auto.
  - apply P_ldexp; auto. unfold int32, int64 in *; lia.
Qed.

Lemma P_len x : P x -> length (data x) = Nn d.
Proof. intro H. destruct (P_wfz x H) as [W|[_ W]]; apply (Nn_len d _ Hd W). Qed.

Lemma P_limbs x : P x -> data x <> [].
Proof. intros H E. apply P_len in H. rewrite E in H. pose proof (Nn_Z d Hd). pose proof (elem_number_bounds d Hd). cbn in H. lia. Qed.

Definition entry (b : option bool) (v : option ef) : Prop :=
  match b with
  | None => v = None
  | Some true => exists w, v = Some w /\ P w
  | Some false => exists w, v = Some w /\ data w = []
  end.

Lemma agrees_entry st s : agrees P st s <-> forall x, entry (st x) (s x).
Proof.
  unfold agrees, entry. split; intros H x; specialize (H x); destruct (st x) as [[|]|]; auto.
  - destruct H as (v & ? & _ & ?). eauto.
  - destruct H as (v & ? & ?). exists v. split; [auto|split; auto using P_limbs].
Qed.

Lemma agrees_put st s x b v : agrees P st s -> entry b v -> agrees P (s_put st x b) (put s x v).
Proof.
  rewrite !agrees_entry. intros A E y. unfold s_put, put. specialize (A y).
  destruct (Nat.eq_dec y x); destruct (Nat.eqb_spec y x); auto; congruence.
Qed.

Lemma agrees_same st s x : agrees P st s -> has_value st x = true -> agrees P (s_put st x (Some true)) s.
Proof.
  rewrite !agrees_entry. intros A E y. unfold s_put. specialize (A y).
  destruct (Nat.eq_dec y x); auto. subst. unfold has_value in E. destruct (st x) as [[|]|]; auto; discriminate.
Qed.

Lemma agrees_keep st s x v : agrees P st s -> has_value st x = true -> P v -> agrees P st (put s x (Some v)).
Proof.
  rewrite !agrees_entry. intros A E Q y. unfold put. specialize (A y).
  destruct (Nat.eqb_spec y x); auto. subst. unfold has_value in E. destruct (st x) as [[|]|]; try discriminate.
  exists v; auto.
Qed.

Lemma P_use st s x : agrees P st s -> has_value st x = true -> exists v, s x = Some v /\ use s x = Defined v /\ P v.
Proof.
  intros A H. specialize (A x). unfold has_value in H. destruct (st x) as [[|]|]; try discriminate.
  destruct A as (v & E & D & Q). exists v. unfold use, has_limbs. rewrite E. destruct (data v); [contradiction|auto].
Qed.

Lemma P_live st s x : agrees P st s -> exists_ st x = true -> exists v, live s x = Defined v /\ s x = Some v.
Proof.
  intros A H. specialize (A x). unfold exists_ in H. unfold live. destruct (st x) as [[|]|]; try discriminate;
    destruct A as (v & E & _); exists v; rewrite E; auto.
Qed.

Lemma has_exists st x : has_value st x = true -> exists_ st x = true.
Proof. unfold has_value, exists_. destruct (st x) as [[|]|]; auto. Qed.

Lemma not_exists st s x : agrees P st s -> negb (exists_ st x) = true -> s x = None.
Proof. intros A H. specialize (A x). unfold exists_ in H. destruct (st x); [discriminate|auto]. Qed.

Lemma obj_assign_same v w : P v -> P w -> obj_assign v w = w.
Proof.
  intros H1 H2. apply P_len in H1, H2. unfold obj_assign. rewrite H1, H2, Nat.min_id, firstn_all2, skipn_all2, app_nil_r by lia.
  destruct w; reflexivity.
Qed.

Lemma P_update st s x f : agrees P st s -> has_value st x = true ->
  (forall v, s x = Some v -> P v -> exists r, f v = Defined r /\ P r) ->
  exists s', update s x f = Defined s' /\ agrees P st s'.
Proof.
  intros A H F. destruct (P_use st s x A H) as (v & E & U & Q). destruct (F v E Q) as (r & Er & Qr).
  unfold update. rewrite U. cbn [obind]. rewrite Er. cbn [obind]. eexists; split; [reflexivity|]. apply agrees_keep; auto.
Qed.

Lemma P_compound st s x y f g : agrees P st s -> has_value st x = true -> has_value st y = true ->
  (forall u v, P u -> P v -> P (f u v)) -> (forall v, P v -> P (g v)) ->
  exists s', compound s x y f g = Defined s' /\ agrees P st s'.
Proof.
  intros A H H' F G. unfold compound. destruct (P_use st s y A H') as (w & _ & -> & Q). cbn [obind].
  apply P_update; auto. intros v _ Qv. eexists; split; [reflexivity|]. destruct (Nat.eqb x y); auto.
Qed.

Ltac guards := repeat match goal with
  | H : (if ?b then Some _ else None) = Some _ |- _ => destruct b eqn:?; [injection H as <-|discriminate]
  | H : (_ && _)%bool = true |- _ => apply andb_prop in H; destruct H
  end.

Lemma P_step st s c st' : agrees P st s -> command_ok s c -> (forall x v, c = Invert x -> s x = Some v -> P v -> P (inv d v)) ->
  track false st c = Some st' -> exists s', step d s c = Defined s' /\ agrees P st' s'.
Proof.
  intros A O I T. destruct c as [x src|x|x y|x y|x y|x e|x y|x y|x y|x y|x n|x n|x n|x n|x n|x n|x n|x n|x|x|x|x|x|x n|x t];
    cbn [track step command_ok] in *; guards.
  - (* New *)
    assert (E : negb (exists_ st x) = true -> s x = None) by (apply not_exists; auto).
    destruct src; guards; rewrite E by auto; cbn [construct source_ok] in *.
    + eexists; split; [reflexivity|]. apply agrees_put; auto. eexists; split; [reflexivity|]. apply P_default.
    + eexists; split; [reflexivity|]. apply agrees_put; auto. eexists; split; [reflexivity|]. apply P_of_ull; auto.
    + eexists; split; [reflexivity|]. apply agrees_put; auto. eexists; split; [reflexivity|]. apply P_wf, of_sll_spec; auto.
      unfold int64 in *; lia.
    + destruct O as [Fm Hm]. destruct (ctor_double d m e) as [r|] eqn:Er.
      * cbn [obind]. eexists; split; [reflexivity|]. apply agrees_put; auto. eexists; split; [reflexivity|].
        eapply P_wf, ctor_double_wf; eauto.
      * unfold ctor_double in Er. rewrite Fm in Er. discriminate.
    + unfold of_string. pose proof (elem_number_bounds d Hd) as EN. assert (C : cls (ef_default d) = Finite) by reflexivity.
      assert (Pr : (2 <= prec (ef_default d) <= elem_number d)%Z) by (cbn [ef_default prec]; unfold N; lia).
      destruct (rd_string_ok d _ s0 Hd O C Pr) as [r Er]. rewrite Er. cbn [io_outcome obind].
      eexists; split; [reflexivity|]. apply agrees_put; auto. eexists; split; [reflexivity|]. eapply P_wf, rd_string_wf; eauto.
    + eexists; split; [reflexivity|]. apply agrees_put; auto. eexists; split; [reflexivity|]. apply P_default.
    + destruct (P_live st s y A) as (v & -> & Ev); auto. cbn [obind]. eexists; split; [reflexivity|]. apply agrees_put; auto.
      rewrite agrees_entry in A. specialize (A y). rewrite Ev in A. exact A.
    + destruct (P_live st s y A) as (v & -> & Ev); auto. cbn [obind]. eexists; split; [reflexivity|].
      apply agrees_put; [apply agrees_put|]; auto.
      * rewrite agrees_entry in A. specialize (A y). rewrite Ev in A. exact A.
      * eexists; split; reflexivity.
  - destruct (P_live st s x A) as (v & -> & Ev); auto. cbn [obind]. eexists; split; [reflexivity|]. apply agrees_put; auto. reflexivity.
  - (* Assign *)
    cbn [orb] in *. destruct (P_use st s x A) as (v & Ev & Uv & Pv); auto. destruct (P_use st s y A) as (w & Ew & Uw & Pw); auto.
    unfold live. rewrite Ev, Ew. cbn [obind]. eexists; split; [reflexivity|].
    destruct (Nat.eqb_spec x y).
    + apply agrees_same; auto.
    + rewrite obj_assign_same by auto. apply agrees_put; auto. eexists; split; [reflexivity|auto].
  - destruct (P_live st s x A) as (v & -> & Ev); auto. destruct (P_live st s y A) as (w & -> & Ew); auto. cbn [obind].
    eexists; split; [reflexivity|]. apply agrees_put; [apply agrees_put|]; auto.
    + rewrite agrees_entry in A. specialize (A y). rewrite Ew in A. exact A.
    + eexists; split; reflexivity.
  - (* Swap *)
    destruct (P_use st s x A) as (v & Ev & Uv & Pv); auto. destruct (P_use st s y A) as (w & Ew & Uw & Pw); auto.
    unfold live. rewrite Ev, Ew. cbn [obind]. destruct (Nat.eqb x y); eexists; (split; [reflexivity|]); auto.
    unfold obj_copy. rewrite !obj_assign_same by auto. apply agrees_keep; auto. apply agrees_keep; auto.
  - (* Let *)
    destruct (P_live st s x A) as (v & -> & Ev); auto. cbn [obind]. destruct (P_eval st s e A) as (r & -> & Qr); auto.
    cbn [obind]. eexists; split; [reflexivity|]. apply agrees_put; auto. eexists; split; [reflexivity|auto].
  - apply P_compound; auto.
  - apply P_compound; auto using P_sub, P_sub_self.
  - apply P_compound; auto using P_mul, P_mul_self.
  - apply P_compound; auto using P_div. intros v Q. apply P_wf, div_self_wfz; auto.
  - apply P_update; auto. intros. eexists; split; [reflexivity|]. apply P_add_ull; auto.
  - apply P_update; auto. intros. eexists; split; [reflexivity|]. apply P_sub_ull; auto.
  - apply P_update; auto. intros. eexists; split; [reflexivity|]. apply P_wf, mul_ull_wf; auto.
  - apply P_update; auto. intros. eexists; split; [reflexivity|]. apply P_wf, div_ull_wf; auto.
  - apply P_update; auto. intros. apply P_add_sll; auto.
  - apply P_update; auto. intros. apply P_sub_sll; auto.
  - apply P_update; auto. intros. apply P_mul_sll; auto.
  - apply P_update; auto. intros. apply P_div_sll; auto.
  - apply P_update; auto. intros. eexists; split; [reflexivity|]. auto.
  - apply P_update; auto. intros. eexists; split; [reflexivity|]. apply P_add; auto using P_one.
  - apply P_update; auto. intros. eexists; split; [reflexivity|]. apply P_sub; auto using P_one.
  - apply P_update; auto. intros. eexists; split; [reflexivity|]. eapply I; eauto.
  - apply P_update; auto. intros. eexists; split; [reflexivity|]. apply P_sqrt; auto.
  - (* Precision *)
    destruct (P_live st s x A) as (v & -> & Ev); auto. cbn [obind]. eexists; split; [reflexivity|].
    rewrite agrees_entry in *. intro y. unfold put. specialize (A y). destruct (Nat.eqb_spec y x); auto. subst y. rewrite Ev in A.
    destruct (st x) as [[|]|]; cbn [entry] in *.
    + destruct A as (w & E & Q). injection E as <-. eexists; split; [reflexivity|auto].
    + destruct A as (w & E & Q). injection E as <-. eexists; split; [reflexivity|]. exact Q.
    + discriminate.
  - destruct O as [O1 O2]. apply P_update; auto. intros v Ev Pv.
    assert (Pr : (2 <= prec v <= elem_number d)%Z) by (apply wfz_prec; auto).
    destruct (rd_string_ok d v t Hd O1 (O2 v Ev) Pr) as [r Er]. rewrite Er. exists r. split; [reflexivity|]. eapply P_wf, rd_string_wf; eauto.
Qed.

Lemma P_run (Q : store -> command -> Prop) : (forall s c x v, command_ok s c -> Q s c -> c = Invert x -> s x = Some v -> P v -> P (inv d v)) ->
  forall h st s st', agrees P st s -> each d (fun s c => command_ok s c /\ Q s c) s h -> tracks false st h = Some st' ->
  exists s', run d s h = Defined s' /\ agrees P st' s'.
Proof.
  intros I. induction h as [|c t]; intros st s st' A O T; cbn [run tracks each] in *.
  - injection T as <-. eauto.
  - destruct (track false st c) as [st1|] eqn:E; [|discriminate]. destruct O as [[O OQ] O'].
    destruct (P_step st s c st1 A O) as (s1 & Es & A1); auto.
    { intros; eapply I; eauto. }
    rewrite Es. apply (IHt st1); auto.
Qed.
End Closed.

(** ** Programs *)

Lemma agrees_none P : agrees P no_status no_objects.
Proof. intro x. reflexivity. Qed.

Lemma each_impl d (P Q : store -> command -> Prop) : (forall s c, P s c -> Q s c) -> forall h s, each d P s h -> each d Q s h.
Proof. intros I. induction h; cbn [each]; auto. intros s [H1 H2]. split; auto. Qed.

Lemma invariant_run d h st : valid_digits d -> each d command_ok no_objects h -> tracks false no_status h = Some st ->
  exists s, run d no_objects h = Defined s /\ agrees (wf_but_sign d) st s.
Proof.
  intros Hd O T.
  destruct (P_run d (wfz d) Hd (wf_wfz d) (fun x H => H) (negate_wfz d) (fun x y => add_wfz d x y Hd) (fun x => integer_part_wfz d x Hd)
    (fun x p => precision_wfz d x p Hd) (set_prec_wfz d) (fun _ _ => True)) with (h := h) (st := no_status) (s := no_objects) (st' := st)
    as (s & E & A); auto using agrees_none.
  - intros. apply inv_wfz; auto.
  - eapply each_impl; [|exact O]. auto.
  - exists s. split; auto. intro x. specialize (A x). destruct (st x) as [[|]|]; auto.
    destruct A as (v & ? & ? & ?). exists v. split; auto. split; auto. apply wfz_spec; auto.
Qed.

Lemma canonical_run d h st : valid_digits d -> (d <= 65000)%Z -> each d (fun s c => command_ok s c /\ invert_ok s c) no_objects h ->
  tracks false no_status h = Some st -> exists s, run d no_objects h = Defined s /\ agrees (wf d) st s.
Proof.
  intros Hd Hd' O T.
  apply (P_run d (wf d) Hd (fun x H => H) (wf_wfz d) (negate_wf d) (fun x y => add_wf d x y Hd) (fun x => integer_part_wf d x Hd)
    (fun x p => precision_wf d x p Hd) (set_prec_wf d) invert_ok) with (h := h) (st := no_status) (s := no_objects);
    auto using agrees_none.
  intros s c x v _ H -> Ev W. apply inv_wf; auto.
Qed.

(** ** Reuse of moved-from objects *)

Lemma reuse d h st s x : valid_digits d -> each d command_ok no_objects h -> tracks false no_status h = Some st ->
  run d no_objects h = Defined s -> st x = Some false ->
  (exists s', step d s (Destroy x) = Defined s' /\ s' x = None /\ (forall z, z <> x -> s' z = s z)) /\
  (forall y, has_value st y = true -> exists s' w, step d s (MoveAssign x y) = Defined s' /\ s y = Some w /\ wf_but_sign d w /\ s' x = Some w /\
     (forall z, z <> x -> z <> y -> s' z = s z)) /\
  (forall e, expression_ok e -> forallb (has_value st) (operands e) = true ->
     exists s' r, eval d s e = Defined r /\ step d s (Let x e) = Defined s' /\ wf_but_sign d r /\ s' x = Some r /\
     (forall z, z <> x -> s' z = s z)).
Proof.
  intros Hd O T R X. destruct (invariant_run d h st Hd O T) as (s' & E & A). rewrite R in E. injection E as <-.
  assert (A' : agrees (wfz d) st s).
  { intro y. specialize (A y). destruct (st y) as [[|]|]; auto. destruct A as (v & ? & ? & ?). exists v. split; auto. split; auto. apply wfz_spec; auto. }
  assert (L : exists v, s x = Some v) by (specialize (A x); rewrite X in A; destruct A as (v & ? & _); eauto).
  destruct L as [v L]. unfold step, live. rewrite L. cbn [obind]. split; [|split].
  - eexists; split; [reflexivity|]. unfold put. rewrite Nat.eqb_refl. split; auto. intros z N. apply Nat.eqb_neq in N. rewrite N. auto.
  - intros y H. assert (N : y <> x) by (intros ->; unfold has_value in H; rewrite X in H; discriminate).
    pose proof (A y) as B. unfold has_value in H. destruct (st y) as [[|]|]; try discriminate. destruct B as (w & Ew & _ & W).
    rewrite Ew. cbn [obind]. eexists. exists w. split; [reflexivity|]. split; auto. split; auto. unfold put.
    apply Nat.eqb_neq in N. rewrite Nat.eqb_sym, N, Nat.eqb_refl. split; auto.
    intros z N1 N2. apply Nat.eqb_neq in N1, N2. rewrite N1, N2. auto.
  - intros e He Ho.
    destruct (P_eval d (wfz d) Hd (wf_wfz d) (fun x H => H) (negate_wfz d) (fun x y => add_wfz d x y Hd) (fun x => integer_part_wfz d x Hd)
      (fun x p => precision_wfz d x p Hd) (set_prec_wfz d) st s e A' Ho He) as (r & Er & Wr).
    rewrite Er. cbn [obind]. eexists. exists r. split; auto. split; [reflexivity|]. split; [apply wfz_spec; auto|]. unfold put. rewrite Nat.eqb_refl. split; auto.
    intros z N. apply Nat.eqb_neq in N. rewrite N. auto.
Qed.
