(** * Mixed arithmetic with built-in integers (proofs only). *)

From Coq Require Import ZArith List Bool Reals Lra Lia.
From Verif Require Import Model Spec Limbs Value CmpProofs AddProofs Decide OrderProofs AddExtra MulProofs MulValue MulExtra MulCor IntProofs IntPartProofs IntConv.
Import ListNotations.
Open Scope R_scope.

(** ** (-u) + (-v) = -(u + v), bit for bit *)

Lemma limbs_nonzero_iszero x : cls x = Finite -> limb (data x) 0 <> 0%Z -> iszero x = false.
Proof. intros C H. apply iszero_false; auto. Qed.

Lemma negate_nonzero x : iszero x = false -> negate x = set_neg x (negb (neg x)).
Proof. intro H. unfold negate. rewrite H. reflexivity. Qed.

Lemma iszero_set_neg x b : iszero (set_neg x b) = iszero x.
Proof. reflexivity. Qed.

Lemma set_neg_twice x a b : set_neg (set_neg x a) b = set_neg x b.
Proof. reflexivity. Qed.

Lemma set_neg_id x : set_neg x (neg x) = x.
Proof. destruct x; reflexivity. Qed.

Lemma fabs_set_neg x b : cls x = Finite -> iszero x = false -> fabs (set_neg x b) = set_neg x false.
Proof.
  intros C H. unfold fabs, isneg. cbn [set_neg neg].
  destruct b; cbn [set_neg neg]; [|reflexivity].
  rewrite negate_nonzero by exact H. reflexivity.
Qed.

Lemma add_finish_neg d r b : cls r = Finite -> iszero r = false ->
  add_finish d (set_neg r (negb b)) = negate (add_finish d (set_neg r b)).
Proof.
  intros C Z. unfold add_finish. rewrite !iszero_set_neg, Z. cbn [set_neg exp].
  change (mkef (data r) (exp r) (negb b) (cls r) (prec r)) with (set_neg r (negb b)).
  change (mkef (data r) (exp r) b (cls r) (prec r)) with (set_neg r b).
  rewrite !(fabs_set_neg r) by auto.
  destruct ((exp r >=? max_exp10)%Z && op_gt (set_neg r false) (value_max d)).
  - cbn [set_neg neg]. rewrite !signed_inf_eq. unfold negate, iszero. cbn [cls]. reflexivity.
  - rewrite negate_nonzero by exact Z. reflexivity.
Qed.

Lemma add_finish_zero d r : iszero r = true -> add_finish d r = zero d.
Proof. intro H. unfold add_finish. rewrite H. reflexivity. Qed.

Lemma negate_zero d : negate (zero d) = zero d.
Proof. rewrite zero_eq. unfold negate, iszero, limb. cbn [cls data]. destruct (Nn d); reflexivity. Qed.

(* both branches compute the digits independently of the signs *)
Lemma add_same_neg d u v b c ofs :
  add_same d (set_neg u b) (set_neg v c) ofs = set_neg (add_same d u v ofs) b.
Proof.
  unfold add_same. cbn [set_neg data exp cls prec neg].
  destruct (ofs >=? 0)%Z.
  - destruct (add_loop (data u) (shift_right (Z.to_nat ofs) (data v))) as [r cc]. destruct (cc =? 0)%Z; reflexivity.
  - destruct (add_loop (shift_right (Z.to_nat (- ofs)) (data u)) (data v)) as [r cc]. destruct (cc =? 0)%Z; reflexivity.
Qed.

Lemma justify_neg x b : first_nonzero (data x) <> length (data x) ->
  justify (set_neg x b) = set_neg (justify x) b.
Proof.
  intro H. unfold justify. cbn [set_neg data exp cls prec neg].
  destruct (first_nonzero (data x) =? 0)%nat; [reflexivity|].
  destruct (Nat.eqb_spec (first_nonzero (data x)) (length (data x))); [contradiction|]. reflexivity.
Qed.

Lemma justify_zero_any x : cls x = Finite -> data x <> [] -> first_nonzero (data x) = length (data x) -> iszero (justify x) = true.
Proof.
  intros C Hd H. unfold justify. rewrite H. destruct (Nat.eqb_spec (length (data x)) 0) as [E|E].
  - destruct (data x); [congruence|discriminate].
  - rewrite Nat.eqb_refl. apply iszero_true; auto. apply first_nonzero_all in H. cbn [data].
    destruct (data x); [congruence|]. inversion H. auto.
Qed.

Lemma justify_neg_val x : neg (justify x) = if (first_nonzero (data x) =? 0)%nat then neg x else if (first_nonzero (data x) =? length (data x))%nat then false else neg x.
Proof. unfold justify. destruct (first_nonzero (data x) =? 0)%nat; auto. destruct (first_nonzero (data x) =? length (data x))%nat; auto. Qed.

Lemma justify_lead x : cls x = Finite -> first_nonzero (data x) <> length (data x) -> iszero (justify x) = false /\ neg (justify x) = neg x /\ cls (justify x) = Finite.
Proof.
  intros C H. unfold justify. destruct (Nat.eqb_spec (first_nonzero (data x)) 0) as [E|E].
  - split; auto. apply iszero_false; auto. apply first_nonzero_0; auto. intro Hn. rewrite Hn in H. apply H. reflexivity.
  - destruct (Nat.eqb_spec (first_nonzero (data x)) (length (data x))); [contradiction|]. split; auto.
    apply iszero_false; auto. cbn [data]. pose proof (first_nonzero_le (data x)).
    rewrite limb_shift_left_0 by lia. apply first_nonzero_limb. lia.
Qed.

Lemma finish_justify_neg d x b : cls x = Finite -> data x <> [] ->
  add_finish d (justify (set_neg x (negb b))) = negate (add_finish d (justify (set_neg x b))).
Proof.
  intros C Hn. destruct (Nat.eq_dec (first_nonzero (data x)) (length (data x))) as [E|E].
  - rewrite !add_finish_zero; [symmetry; apply negate_zero| |]; apply justify_zero_any; auto.
  - destruct (justify_lead x C E) as (J1 & J2 & J3). rewrite !justify_neg by auto. apply add_finish_neg; auto.
Qed.

Lemma add_negate d u v : valid_digits d -> finite d u -> finite d v ->
  add d (negate u) (negate v) = negate (add d u v).
Proof.
  intros Hd Fu Fv. pose proof (Nn_len d u Hd (proj1 Fu)) as Nu. pose proof (Nn_len d v Hd (proj1 Fv)) as Nv. pose proof (Nn_ge7 d Hd) as H7.
  destruct (iszero u) eqn:Zu.
  { assert (negate u = u) by (unfold negate; rewrite Zu; reflexivity). rewrite H. unfold add. rewrite Zu.
    destruct (finite_flags d u Fu) as [-> ->]. reflexivity. }
  destruct (iszero v) eqn:Zv.
  { assert (negate v = v) by (unfold negate; rewrite Zv; reflexivity). rewrite H. unfold add.
    rewrite (negate_nonzero u Zu), iszero_set_neg, Zu, Zv. cbn [orb].
    change (isnan (set_neg u (negb (neg u)))) with (isnan u). change (isinf (set_neg u (negb (neg u)))) with (isinf u).
    destruct (finite_flags d u Fu) as [-> ->]. symmetry. apply negate_nonzero. auto. }
  rewrite (negate_nonzero u Zu), (negate_nonzero v Zv). unfold add. rewrite !iszero_set_neg, Zu, Zv. cbn [orb].
  change (isnan (set_neg u (negb (neg u)))) with (isnan u). change (isinf (set_neg u (negb (neg u)))) with (isinf u).
  destruct (finite_flags d u Fu) as [-> ->]. 
  change (exp (set_neg u (negb (neg u)))) with (exp u). change (exp (set_neg v (negb (neg v)))) with (exp v).
  destruct (_ >? _)%Z; [symmetry; apply negate_nonzero; auto|].
  destruct (_ <? _)%Z; [symmetry; apply negate_nonzero; auto|].
  change (neg (set_neg u (negb (neg u)))) with (negb (neg u)). change (neg (set_neg v (negb (neg v)))) with (negb (neg v)).
  set (ofs := Z.quot (exp u - exp v) 8).
  replace (Bool.eqb (negb (neg u)) (negb (neg v))) with (Bool.eqb (neg u) (neg v)) by (destruct (neg u), (neg v); reflexivity).
  destruct (Bool.eqb (neg u) (neg v)).
  - rewrite add_same_neg. rewrite <- (set_neg_id u) at 3. rewrite <- (set_neg_id v) at 2. rewrite add_same_neg.
    set (r := add_same d u v ofs).
    assert (Cr : cls r = Finite).
    { unfold r, add_same. pose proof (proj2 Fu) as Cu. destruct (ofs >=? 0)%Z; [destruct (add_loop (data u) _) as [? cc]|destruct (add_loop _ (data v)) as [? cc]]; destruct (cc =? 0)%Z; exact Cu. }
    destruct (iszero r) eqn:Zr.
    + rewrite !add_finish_zero by exact Zr. symmetry. apply negate_zero.
    + apply add_finish_neg; auto.
  - unfold sub_diff. cbn [set_neg data exp cls prec neg].
    destruct ((ofs >? 0)%Z || (ofs =? 0)%Z && (cmp_data (data u) (data v) >? 0)%Z).
    + set (l := fst (sub_loop (data u) (shift_right (Z.to_nat ofs) (data v)))).
      apply (finish_justify_neg d (mkef l (exp u) (neg u) (cls u) (prec u)) (neg u)); [apply Fu|]. cbn [data].
      intro Hn. destruct (sub_loop_len (data u) (shift_right (Z.to_nat ofs) (data v)) l) as [_ Hl]; auto.
      * apply Fu. * apply shift_right_limbs, Fv. * rewrite shift_right_length. congruence.
      * rewrite Hn in Hl. simpl in Hl. lia.
    + set (l := fst (sub_loop (data v) (shift_right (Z.to_nat (- ofs)) (data u)))).
      apply (finish_justify_neg d (mkef l (exp v) (neg v) (cls u) (prec u)) (neg v)); [apply Fu|]. cbn [data].
      intro Hn. destruct (sub_loop_len (data v) (shift_right (Z.to_nat (- ofs)) (data u)) l) as [_ Hl]; auto.
      * apply Fv. * apply shift_right_limbs, Fu. * rewrite shift_right_length. congruence.
      * rewrite Hn in Hl. simpl in Hl. lia.
Qed.

Lemma sub_as_add d u v : valid_digits d -> finite d u -> finite d v -> sub d u v = add d u (negate v).
Proof.
  intros Hd Fu Fv. unfold sub. rewrite <- (negate_involutive v) at 1. rewrite add_negate, negate_involutive by auto using negate_finite. reflexivity.
Qed.

(** ** Signed constants *)

Lemma u64_neg n : (-9223372036854775808 <= n < 0)%Z -> u64 (- u64 n) = (- n)%Z.
Proof.
  intro Hn. unfold u64. rewrite <- (Z_mod_plus_full n 1), Z.mul_1_l.
  rewrite (Z.mod_small (n + 18446744073709551616)) by lia.
  rewrite <- (Z_mod_plus_full (- (n + _)) 1), Z.mul_1_l. rewrite Z.mod_small by lia. lia.
Qed.

Lemma of_sll_pos d n : valid_digits d -> (0 <= n < 9223372036854775808)%Z -> of_sll d n = of_ull d n.
Proof.
  intros Hd Hn. unfold of_sll. destruct (Z.ltb_spec n 0); [lia|]. cbn [negb]. rewrite u64_small by lia.
  apply set_neg_false. apply (of_ull_spec d n Hd). lia.
Qed.

Lemma of_sll_neg d n : valid_digits d -> (-9223372036854775808 <= n < 0)%Z -> of_sll d n = negate (of_ull d (- n)).
Proof.
  intros Hd Hn. unfold of_sll. destruct (Z.ltb_spec n 0); [|lia]. cbn [negb]. rewrite u64_neg by lia.
  destruct (of_ull_spec d (- n) Hd ltac:(lia)) as (F & _ & V & Ng & _).
  rewrite negate_nonzero, Ng; [reflexivity|]. apply (finite_nonzero_flag d); auto. rewrite V. intro E. apply (eq_IZR _ 0) in E. lia.
Qed.

Lemma of_ull_0 d : valid_digits d -> negate (of_ull d 0) = of_ull d 0.
Proof.
  intro Hd. unfold negate. destruct (of_ull_spec d 0 Hd ltac:(lia)) as (F & _ & V & Ng & _).
  rewrite (finite_zero_flag d); auto.
Qed.

Lemma negate_of_sll d n : valid_digits d -> (-9223372036854775808 < n < 9223372036854775808)%Z -> negate (of_sll d n) = of_sll d (- n).
Proof.
  intros Hd Hn. destruct (Z.lt_trichotomy n 0) as [H|[->|H]].
  - rewrite of_sll_neg, negate_involutive, of_sll_pos by (auto; lia). reflexivity.
  - rewrite !of_sll_pos by (auto; lia). apply of_ull_0; auto.
  - rewrite of_sll_pos, of_sll_neg, Z.opp_involutive by (auto; lia). reflexivity.
Qed.

Lemma add_sll_spec d x n : valid_digits d -> finite d x -> (-9223372036854775808 < n < 9223372036854775808)%Z ->
  add_sll d x n = Defined (add d x (of_sll d n)).
Proof.
  intros Hd Fx Hn. unfold add_sll, add_ull. destruct (Z.ltb_spec n 0) as [H|H].
  - destruct (Z.eqb_spec n sll_min); [unfold sll_min in *; lia|]. f_equal.
    rewrite u64_small by lia. rewrite of_sll_neg by (auto; lia).
    destruct (of_ull_spec d (- n) Hd ltac:(lia)) as (F & _).
    rewrite <- add_negate by auto using negate_finite. rewrite negate_involutive. reflexivity.
  - rewrite u64_small by lia. rewrite of_sll_pos by (auto; lia). reflexivity.
Qed.

Lemma sub_sll_spec d x n : valid_digits d -> finite d x -> (-9223372036854775808 < n < 9223372036854775808)%Z ->
  sub_sll d x n = Defined (sub d x (of_sll d n)).
Proof.
  intros Hd Fx Hn. unfold sub_sll. destruct (Z.eqb_spec n sll_min); [unfold sll_min in *; lia|].
  rewrite add_sll_spec by (auto; lia). f_equal. destruct (of_sll_spec d n Hd ltac:(lia)) as (F & _).
  rewrite sub_as_add, negate_of_sll by (auto; lia). reflexivity.
Qed.

(** ** Multiplication *)

(* two normalised numbers that truncate the same real are equal *)
Lemma trunc_unique d x y s : valid_digits d -> finite d x -> finite d y -> limb (data x) 0 <> 0%Z -> limb (data y) 0 <> 0%Z ->
  mag d (data x) (exp x) <= s < mag d (data x) (exp x) + ulp d (exp x) ->
  mag d (data y) (exp y) <= s < mag d (data y) (exp y) + ulp d (exp y) ->
  exp x = exp y /\ data x = data y.
Proof.
  intros Hd Fx Fy Zx Zy Hx Hy.
  pose proof (elem_number_bounds d Hd) as HN. pose proof (Nn_Z d Hd) as HNn.
  assert (B : forall z, finite d z -> limb (data z) 0 <> 0%Z -> mag d (data z) (exp z) <= s < mag d (data z) (exp z) + ulp d (exp z) -> p10 (exp z) <= s < p10 (exp z + 8)).
  { intros z Fz Zz H. pose proof (finite_abs_bounds d z Hd Fz Zz) as [H1 H2]. rewrite (value_abs_mag d z Fz) in H1, H2.
    split; [lra|]. apply Rlt_le_trans with (mag d (data z) (exp z) + ulp d (exp z)); [lra|].
    pose proof (finite_mv_pos d z Hd Fz Zz) as [_ M2]. unfold mag.
    replace (p10 (exp z + 8)) with (IZR (Bp (Nn d)) * ulp d (exp z)).
    - assert (IZR (mv (data z)) + 1 <= IZR (Bp (Nn d))).
      { rewrite <- plus_IZR. apply IZR_le. pose proof (mv_bound _ (wf_limbs _ _ (proj1 Fz))). rewrite (Nn_len d z Hd (proj1 Fz)) in H0. lia. }
      pose proof (ulp_pos d (exp z)). nra.
    - rewrite <- p10_Bp. unfold ulp. rewrite <- p10_add. f_equal. lia. }
  assert (E : exp x = exp y).
  { pose proof (B x Fx Zx Hx). pose proof (B y Fy Zy Hy).
    pose proof (exp_mult8 d x (proj1 Fx)). pose proof (exp_mult8 d y (proj1 Fy)).
    destruct (Z.lt_trichotomy (exp x) (exp y)) as [L|[L|L]]; auto; exfalso.
    - assert (p10 (exp x + 8) <= p10 (exp y)) by (apply p10_le; lia). lra.
    - assert (p10 (exp y + 8) <= p10 (exp x)) by (apply p10_le; lia). lra. }
  split; auto. rewrite E in Hx. unfold mag in *. pose proof (ulp_pos d (exp y)) as Hu.
  apply mv_inj; try apply Fx; try apply Fy. { rewrite (Nn_len d x Hd (proj1 Fx)), (Nn_len d y Hd (proj1 Fy)). auto. }
  assert (A1 : IZR (mv (data x)) < IZR (mv (data y)) + 1) by nra.
  assert (A2 : IZR (mv (data y)) < IZR (mv (data x)) + 1) by nra.
  rewrite <- plus_IZR in A1, A2. apply lt_IZR in A1, A2. lia.
Qed.

(* the product with a single-limb number is truncated at the last limb *)
Lemma mul_single d x n : valid_digits d -> finite d x -> full d x -> limb (data x) 0 <> 0%Z -> (0 < n < 100000000)%Z ->
  (elem_number d * 8 < 5000)%Z -> 
  let r := mul_digits d (fun p => mul_loop_uv p (data x) (data (of_ull d n)) 0) x (of_ull d n) in
  mag d (data r) (exp r) <= IZR n * mag d (data x) (exp x) < mag d (data r) (exp r) + ulp d (exp r).
Proof.
  intros Hd Fx Px Zx Hn Hsmall.
  destruct (of_ull_spec d n Hd ltac:(lia)) as (Fn & Pn & Vn & Ngn & Exn).
  rewrite of_ull_small in * by (auto; change mask with 100000000%Z; lia).
  set (v := mkef (n :: repeat 0%Z (Nn d - 1)) 0 false Finite (elem_number d)) in *.
  intro r.
  assert (Zn : limb (data v) 0 <> 0%Z) by (unfold v, limb; cbn; lia).
  destruct (mul_full_digits d x v Hd Fx Fn Px Pn Zx Zn) as (k & Hk & He & Hmv). fold r in He, Hmv.
  destruct (Z.ltb_spec (elem_number d * 8) 5000); [|lia].
  pose proof (elem_number_bounds d Hd) as HN. pose proof (Nn_Z d Hd) as HNn.
  pose proof (Nn_len d x Hd (proj1 Fx)) as Nx. pose proof (Nn_len d v Hd (proj1 Fn)) as Nv.
  pose proof (cols_product_exact (data x) (data v) (Nn d) (Nn d) 1 (wf_limbs _ _ (proj1 Fx)) (wf_limbs _ _ (proj1 Fn)) ltac:(lia) ltac:(lia) ltac:(lia)) as X.
  rewrite !firstn_all2 in X by lia.
  assert (X' : (mv (data x) * mv (data v))%Z = (cols (data x) (data v) (Nn d) * Bp (Nn d - 1))%Z).
  { apply X; [intros; lia|]. intros i Hi. unfold v, limb. cbn [data]. destruct i; [lia|]. cbn [nth].
    destruct (Nat.lt_ge_cases i (Nn d - 1)); [apply nth_repeat|apply nth_overflow; rewrite repeat_length; lia]. }
  assert (Mv : mv (data v) = (n * Bp (Nn d - 1))%Z).
  { unfold v. cbn [data]. rewrite mv_cons, mv_repeat0, repeat_length. lia. }
  assert (Hc : cols (data x) (data v) (Nn d) = (n * mv (data x))%Z).
  { rewrite Mv in X'. pose proof (Bp_pos (Nn d - 1)). apply (Z.mul_cancel_r _ _ (Bp (Nn d - 1))); [lia|]. lia. }
  rewrite Hc in Hmv. change (exp v) with 0%Z in He. rewrite Z.add_0_r in He.
  unfold mag. rewrite He, ulp_shift. pose proof (ulp_pos d (exp x)) as Hu. pose proof (Bp_pos k) as Hb.
  pose proof (Z.mod_pos_bound (n * mv (data x)) (Bp k) Hb) as [M1 M2].
  set (m := ((n * mv (data x)) mod Bp k)%Z) in *.
  assert (Hq : (mv (data r) * Bp k <= n * mv (data x) < mv (data r) * Bp k + Bp k)%Z) by lia.
  destruct Hq as [Q1 Q2]. apply IZR_le in Q1. apply IZR_lt in Q2. rewrite plus_IZR, !mult_IZR in *.
  split.
  - replace (IZR (mv (data r)) * (IZR (Bp k) * ulp d (exp x))) with (IZR (mv (data r)) * IZR (Bp k) * ulp d (exp x)) by ring.
    rewrite <- Rmult_assoc. apply Rmult_le_compat_r; lra.
  - replace (IZR (mv (data r)) * (IZR (Bp k) * ulp d (exp x)) + IZR (Bp k) * ulp d (exp x)) with ((IZR (mv (data r)) * IZR (Bp k) + IZR (Bp k)) * ulp d (exp x)) by ring.
    rewrite <- Rmult_assoc. apply Rmult_lt_compat_r; lra.
Qed.

(** x * n with built-in n is x * e_float(n), bit for bit, when the schoolbook
    loop is used and the exponent is not at the upper end *)
Lemma mul_ull_is_mul d x n : valid_digits d -> (elem_number d * 8 < 5000)%Z -> finite d x -> full d x ->
  (0 <= n < 18446744073709551616)%Z -> (exp x < 2147483616)%Z ->
  mul_ull d x n = mul d x (of_ull d n).
Proof.
  intros Hd Hs Fx Px Hn He. rewrite mul_ull_cases by auto.
  destruct (of_ull_spec d n Hd Hn) as (Fn & Pn & Vn & Ngn & Exn).
  destruct (iszero x) eqn:Zx; cbn [orb].
  { destruct (mul_finite_cases d x (of_ull d n) Hd Fx Fn) as [[_ E]|(Z & _)]; auto.
    rewrite iszero_true in Zx by apply Fx. contradiction. }
  destruct (Z.eqb_spec n 0) as [->|H0].
  { destruct (mul_finite_cases d x (of_ull d 0) Hd Fx Fn) as [[_ E]|(_ & Z & _)]; auto.
    exfalso. apply Z. apply (finite_zero_iff d); auto. }
  destruct (Z.geb_spec n mask) as [Hm|Hm]; [reflexivity|]. change mask with 100000000%Z in Hm.
  rewrite iszero_false in Zx by apply Fx.
  assert (Zn : limb (data (of_ull d n)) 0 <> 0%Z).
  { apply (value_nonzero_lead d); auto. rewrite Vn. intro E. apply (eq_IZR _ 0) in E. lia. }
  assert (Ex0 : exp (of_ull d n) = 0%Z). { rewrite of_ull_small by (auto; change mask with 100000000%Z; lia). reflexivity. }
  destruct (mul_finite_cases d x (of_ull d n) Hd Fx Fn) as [[[Z|Z] _]|(_ & _ & [[Ho _]|[[Hu _]|(_ & _ & E)]])].
  - apply (finite_zero_iff d) in Z; auto. contradiction.
  - apply (finite_zero_iff d) in Z; auto. contradiction.
  - unfold exp_over in Ho. exfalso. change max_exp10 with 2147483616%Z in *. lia.
  - unfold exp_under in Hu. lia.
  - rewrite E. destruct (mul_digits_finite d x (of_ull d n) Hd Fx Fn Zx Zn) as (Fr & Zr & Hp & Hsg).
    pose proof (mul_single d x n Hd Fx Px Zx ltac:(lia) Hs) as Hr. cbv zeta in Hr. set (r := mul_digits _ _ _ _) in *.
    assert (Hnr : neg r = neg x).
    { unfold r, mul_digits. rewrite Ngn. destruct (Z.min (prec x) (prec (of_ull d n)) * 8 <? 5000)%Z.
      - destruct (mul_loop_uv _ _ _ _) as [? c]. destruct (c =? 0)%Z; cbn [neg]; destruct (neg x); reflexivity.
      - destruct (limb _ 0 =? 0)%Z; cbn [neg]; destruct (neg x); reflexivity. }
    assert (Hl : forall y, finite d y -> limb (data y) 0 <> 0%Z -> neg y = neg x -> prec y = prec x ->
       mag d (data y) (exp y) <= IZR n * mag d (data x) (exp x) < mag d (data y) (exp y) + ulp d (exp y) -> y = r).
    { intros y Fy Zy Ny Py Hy. destruct (trunc_unique d y r _ Hd Fy Fr Zy Zr Hy Hr) as [E1 E2].
      pose proof (proj2 Fy) as Cy. pose proof (proj2 Fr) as Cr.
      destruct y as [yd ye yn yc yp]. destruct r as [rd re rn rc rp]. cbn in *. congruence. }
    destruct (Z.eqb_spec n 1) as [->|H1].
    + apply Hl; auto. rewrite Rmult_1_l. pose proof (ulp_pos d (exp x)). lra.
    + destruct (mul_small_spec d x n Hd Fx Zx ltac:(lia)) as (Fs & Zs & Ps & Ns & _ & _ & Ts). apply Hl; auto.
Qed.
