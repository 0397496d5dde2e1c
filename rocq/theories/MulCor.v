(** * Multiplication: consequences (proofs only). *)

From Coq Require Import ZArith List Bool Reals Lra Lia.
From Verif Require Import Model Spec Limbs Value CmpProofs AddProofs Decide OrderProofs MulProofs FftProofs MulValue MulExtra.
Import ListNotations.
Open Scope R_scope.

Lemma value_nonzero_lead d x : valid_digits d -> finite d x -> value x <> 0 -> limb (data x) 0 <> 0%Z.
Proof. intros Hd Fx V E. apply V. apply (finite_zero_value d); auto. Qed.

Lemma p10_1 : p10 1 = 10.
Proof. rewrite p10_nonneg by lia. reflexivity. Qed.

Lemma mul_in_range d u v : valid_digits d -> finite d u -> finite d v -> value u <> 0 -> value v <> 0 ->
  ~ exponents_overflow u v -> ~ exponents_underflow u v ->
  let r := mul d u v in
  let p := Z.min (prec u) (prec v) in
  finite d r /\ value r <> 0 /\ prec r = prec u /\ 0 < value r * (value u * value v) /\
  Rabs (value r - value u * value v) <= IZR (E0 p + 2) * p10 (16 - 8 * p) * Rabs (value u * value v) /\
  (p = elem_number d ->
   Rabs (value r) <= Rabs (value u * value v) <= Rabs (value r) + IZR (E0 p) * p10 (16 - 8 * p) * Rabs (value u * value v)) /\
  (exp r = exp u + exp v \/ exp r = exp u + exp v + 8)%Z.
Proof.
  intros Hd Fu Fv Vu Vv Ho Hun r p.
  pose proof (value_nonzero_lead d u Hd Fu Vu) as Zu. pose proof (value_nonzero_lead d v Hd Fv Vv) as Zv.
  destruct (mul_finite_cases d u v Hd Fu Fv) as [[[H|H] _]|(_ & _ & [[H _]|[[H _]|(_ & _ & E)]])]; try contradiction.
  unfold r. rewrite E. destruct (mul_digits_finite d u v Hd Fu Fv Zu Zv) as (Fr & Zr & Hp & _).
  destruct (mul_digits_value d u v Hd Fu Fv Zu Zv) as (H1 & H2 & H3).
  destruct (mul_digits_core d u v Hd Fu Fv Zu Zv) as (k & Hk & He & _).
  split; auto. split. { intro V. rewrite V in H3. lra. }
  split; auto. split; auto. split; [exact H1|]. split; [exact H2|].
  rewrite He. destruct k as [|[|k]]; [left|right|]; lia.
Qed.

Lemma in_range_exps u v : (-2147483616 < exp u + exp v < 2147483616)%Z -> ~ exponents_overflow u v /\ ~ exponents_underflow u v.
Proof. unfold exponents_overflow, exponents_underflow. lia. Qed.

Lemma mul_accuracy d u v : valid_digits d -> (d <= 4967)%Z -> finite d u -> finite d v -> full d u -> full d v ->
  value u <> 0 -> value v <> 0 -> (-2147483616 < exp u + exp v < 2147483616)%Z ->
  finite d (mul d u v) /\ full d (mul d u v) /\ 0 < value (mul d u v) * (value u * value v) /\
  Rabs (value (mul d u v)) <= Rabs (value u * value v) /\
  Rabs (value u * value v) - Rabs (value (mul d u v)) <= p10 (- (d + 6)) * Rabs (value u * value v).
Proof.
  intros Hd Hs Fu Fv Pu Pv Vu Vv He. apply in_range_exps in He. destruct He as [Ho Hun].
  destruct (mul_in_range d u v Hd Fu Fv Vu Vv Ho Hun) as (Fr & _ & Hp & Hsg & _ & H & _).
  unfold full in *. rewrite Pu, Pv, Z.min_id in H. specialize (H eq_refl).
  split; auto. split; [congruence|]. split; auto. split; [lra|].
  pose proof (elem_number_digits d Hd) as HN. pose proof (elem_number_bounds d Hd) as HN'.
  assert (IZR (E0 (elem_number d)) * p10 (16 - 8 * elem_number d) <= p10 (- (d + 6))).
  { unfold E0. destruct (Z.ltb_spec (elem_number d * 8) 5000); [|lia].
    assert (IZR (elem_number d) <= p10 3). { rewrite p10_nonneg by lia. apply IZR_le. lia. }
    assert (p10 (16 - 8 * elem_number d) <= p10 (- (d + 9))) by (apply p10_le; lia).
    replace (- (d + 6))%Z with (3 + - (d + 9))%Z by lia. rewrite p10_add.
    apply Rmult_le_compat; auto. apply IZR_le. lia. apply Rlt_le, p10_pos. }
  pose proof (Rabs_pos (value u * value v)).
  assert (IZR (E0 (elem_number d)) * p10 (16 - 8 * elem_number d) * Rabs (value u * value v) <= p10 (- (d + 6)) * Rabs (value u * value v))
    by (apply Rmult_le_compat_r; auto).
  lra.
Qed.

Lemma mul_accuracy_large d u v : valid_digits d -> finite d u -> finite d v -> full d u -> full d v ->
  value u <> 0 -> value v <> 0 -> (-2147483616 < exp u + exp v < 2147483616)%Z ->
  finite d (mul d u v) /\ full d (mul d u v) /\ 0 < value (mul d u v) * (value u * value v) /\
  Rabs (value (mul d u v)) <= Rabs (value u * value v) /\
  Rabs (value u * value v) - Rabs (value (mul d u v)) <= IZR (2500 * (d + 32)) * p10 (- (d + 9)) * Rabs (value u * value v).
Proof.
  intros Hd Fu Fv Pu Pv Vu Vv He. apply in_range_exps in He. destruct He as [Ho Hun].
  destruct (mul_in_range d u v Hd Fu Fv Vu Vv Ho Hun) as (Fr & _ & Hp & Hsg & _ & H & _).
  unfold full in *. rewrite Pu, Pv, Z.min_id in H. specialize (H eq_refl).
  split; auto. split; [congruence|]. split; auto. split; [lra|].
  pose proof (elem_number_digits d Hd) as HN. pose proof (elem_number_bounds d Hd) as HN'.
  assert (IZR (E0 (elem_number d)) * p10 (16 - 8 * elem_number d) <= IZR (2500 * (d + 32)) * p10 (- (d + 9))).
  { apply Rmult_le_compat.
    - apply IZR_le. pose proof (E0_nonneg (elem_number d) ltac:(lia)). lia.
    - apply Rlt_le, p10_pos.
    - apply IZR_le. unfold E0. destruct (Z.ltb_spec (elem_number d * 8) 5000); lia.
    - apply p10_le; lia. }
  pose proof (Rabs_pos (value u * value v)).
  assert (IZR (E0 (elem_number d)) * p10 (16 - 8 * elem_number d) * Rabs (value u * value v) <= IZR (2500 * (d + 32)) * p10 (- (d + 9)) * Rabs (value u * value v))
    by (apply Rmult_le_compat_r; auto).
  lra.
Qed.

(** ** Exactness *)
Lemma mul_exact' d u v k1 i1 a k2 i2 b : valid_digits d -> finite d u -> finite d v -> full d u -> full d v ->
  (-2147483616 < exp u + exp v < 2147483616)%Z ->
  value u = IZR k1 * powerRZ 10 (8 * i1) -> (Z.abs k1 < 10 ^ (8 * a))%Z ->
  value v = IZR k2 * powerRZ 10 (8 * i2) -> (Z.abs k2 < 10 ^ (8 * b))%Z ->
  (0 <= a)%Z -> (0 <= b)%Z -> (a + b <= elem_number d)%Z ->
  value (mul d u v) = value u * value v.
Proof.
  intros Hd Fu Fv Pu Pv He. apply in_range_exps in He. destruct He as [Ho Hun].
  apply mul_exact; auto.
Qed.

(** ** Special values *)

Lemma is_inf_isinf x b : is_inf x b -> isinf x = true /\ isnan x = false /\ iszero x = false /\ neg x = b.
Proof. intros [C E]. unfold isinf, isnan, iszero, isfinite. rewrite C. auto. Qed.
Lemma is_nan_isnan x : is_nan x -> isnan x = true.
Proof. intro C. unfold isnan. rewrite C. auto. Qed.
Lemma finite_flags d x : finite d x -> isinf x = false /\ isnan x = false.
Proof. intros [_ C]. unfold isinf, isnan. rewrite C. auto. Qed.
Lemma finite_nonzero_flag d x : valid_digits d -> finite d x -> value x <> 0 -> iszero x = false.
Proof. intros Hd F V. apply iszero_false; [apply F|]. apply (value_nonzero_lead d); auto. Qed.
Lemma finite_zero_flag d x : valid_digits d -> finite d x -> value x = 0 -> iszero x = true.
Proof. intros Hd F V. apply iszero_true; [apply F|]. apply (finite_zero_iff d); auto. Qed.
Lemma signed_inf_is_inf d b : is_inf (signed_inf d b) b.
Proof. rewrite signed_inf_eq. split; reflexivity. Qed.

Lemma mul_special d u v : valid_digits d -> wf d u -> wf d v ->
  (is_nan u \/ is_nan v -> is_nan (mul d u v)) /\
  (forall b, is_inf u b -> finite d v -> value v = 0 -> is_nan (mul d u v)) /\
  (forall b, is_inf v b -> finite d u -> value u = 0 -> is_nan (mul d u v)) /\
  (forall b, is_inf u b -> finite d v -> value v <> 0 -> is_inf (mul d u v) (xorb b (neg v))) /\
  (forall b, is_inf v b -> finite d u -> value u <> 0 -> is_inf (mul d u v) (xorb (neg u) b)) /\
  (forall b c, is_inf u b -> is_inf v c -> is_inf (mul d u v) (xorb b c)) /\
  (finite d u -> finite d v -> value u = 0 \/ value v = 0 -> finite d (mul d u v) /\ value (mul d u v) = 0).
Proof.
  intros Hd Wu Wv. unfold mul, mul_gen.
  assert (X : forall a b, negb (Bool.eqb a b) = xorb a b) by (intros [] []; reflexivity). rewrite X.
  split; [|split; [|split; [|split; [|split; [|split]]]]].
  - intros [H|H]; apply is_nan_isnan in H; rewrite H; rewrite ?orb_true_r; reflexivity.
  - intros b H F V. apply is_inf_isinf in H as (-> & -> & -> & _). rewrite (finite_zero_flag d v) by auto.
    destruct (finite_flags d v F) as [-> ->]. reflexivity.
  - intros b H F V. apply is_inf_isinf in H as (-> & -> & -> & _). rewrite (finite_zero_flag d u) by auto.
    destruct (finite_flags d u F) as [-> ->]. reflexivity.
  - intros b H F V. apply is_inf_isinf in H as (-> & -> & -> & ->). rewrite (finite_nonzero_flag d v) by auto.
    destruct (finite_flags d v F) as [-> ->]. apply signed_inf_is_inf.
  - intros b H F V. apply is_inf_isinf in H as (-> & -> & -> & ->). rewrite (finite_nonzero_flag d u) by auto.
    destruct (finite_flags d u F) as [-> ->]. apply signed_inf_is_inf.
  - intros b c H H'. apply is_inf_isinf in H as (-> & -> & -> & ->). apply is_inf_isinf in H' as (-> & -> & -> & ->).
    apply signed_inf_is_inf.
  - intros Fu Fv V. destruct (finite_flags d u Fu) as [-> ->]. destruct (finite_flags d v Fv) as [-> ->].
    assert (E : (iszero u || iszero v)%bool = true).
    { destruct V as [V|V]; [rewrite (finite_zero_flag d u)|rewrite (finite_zero_flag d v)]; auto using orb_true_r. }
    cbn [orb andb]. rewrite E. split; [apply zero_finite|apply value_zero]; auto.
Qed.

Lemma mul_out_of_range d u v : valid_digits d -> finite d u -> finite d v -> value u <> 0 -> value v <> 0 ->
  (exponents_overflow u v -> is_inf (mul d u v) (xorb (neg u) (neg v))) /\
  (exponents_underflow u v -> finite d (mul d u v) /\ value (mul d u v) = 0) /\
  (~ exponents_overflow u v -> ~ exponents_underflow u v -> finite d (mul d u v) /\ value (mul d u v) <> 0).
Proof.
  intros Hd Fu Fv Vu Vv.
  assert (X : forall a b, negb (Bool.eqb a b) = xorb a b) by (intros [] []; reflexivity).
  destruct (mul_finite_cases d u v Hd Fu Fv) as [[[H|H] _]|(_ & _ & [[H E]|[[H E]|(H1 & H2 & E)]])]; try contradiction.
  - split; [|split].
    + intros _. rewrite E, X. apply signed_inf_is_inf.
    + unfold exponents_underflow, exp_over in *. lia.
    + intro C. contradiction.
  - split; [|split].
    + unfold exponents_overflow, exp_under in *. lia.
    + intros _. rewrite E. split; [apply zero_finite|apply value_zero]; auto.
    + intros _ C. contradiction.
  - split; [intro; contradiction|]. split; [intro; contradiction|]. intros A B.
    destruct (mul_in_range d u v Hd Fu Fv Vu Vv A B) as (Fr & Nr & _). auto.
Qed.

(** ** Machine arithmetic *)

Lemma column_col u v j : column u v j = col u v j.
Proof.
  unfold column, col.
  assert (G : forall n, fold_right Z.add 0%Z (map (fun i => nth (j - i) u 0 * nth i v 0)%Z (seq 0 n)) =
                        fsum (fun i => (limb u (j - i) * limb v i)%Z) n).
  { induction n as [|n IH]; [reflexivity|]. rewrite seq_S, map_app, fold_right_app. cbn [plus map fold_right fsum].
    rewrite <- IH. fold (limb u (j - n)) (limb v n). generalize (map (fun i => nth (j - i) u 0 * nth i v 0)%Z (seq 0 n)).
    intro l. rewrite Z.add_0_r. generalize (limb u (j - n) * limb v n)%Z. intro z.
    induction l; cbn [fold_right]; lia. }
  apply G.
Qed.

Lemma upd_split j x l : (j < length l)%nat -> upd j x l = firstn j l ++ x :: skipn (S j) l.
Proof.
  revert j. induction l as [|a l IH]; intros j H; simpl in H; [lia|]. destruct j; [reflexivity|].
  cbn [upd firstn skipn app]. f_equal. apply IH. lia.
Qed.

Lemma mul_loop_exact v : limbs v -> forall j1 u carry, limbs u -> (j1 <= 624)%nat -> (j1 <= length u)%nat ->
  (0 <= carry <= 625 * 99999999)%Z -> (j1 = O -> (carry < 4294967296)%Z) ->
  mul_loop_uv j1 u v carry = exact_school j1 u v carry.
Proof.
  intros Hv j1. induction j1 as [|j IH]; intros u carry Hu Hj Hlen Hc Hc0.
  - cbn. specialize (Hc0 eq_refl). rewrite u32_small by lia. reflexivity.
  - cbn [mul_loop_uv exact_school]. rewrite column_col.
    rewrite col_sum_exact by (auto; lia). fold (col u v j).
    pose proof (col_bound u v j Hu Hv) as Hb. set (s := (carry + col u v j)%Z) in *. change mask with 100000000%Z.
    pose proof (Z.mod_pos_bound s 100000000 ltac:(lia)) as Hm. rewrite (u32_small (s mod 100000000)) by lia.
    rewrite <- upd_split by lia.
    apply IH.
    + apply upd_limbs; auto.
    + lia.
    + rewrite upd_length. lia.
    + split; [apply Z.div_pos; unfold s; lia|]. apply Z.div_le_upper_bound; [lia|]. unfold s. nia.
    + intro Hj0. subst j. apply Z.div_lt_upper_bound; [lia|]. unfold s. lia.
Qed.

(** all sums formed by the loop, largest partial sum included *)
Lemma school_sum_bound u v j carry : limbs u -> limbs v -> (j < 624)%nat -> (0 <= carry <= 625 * 99999999)%Z ->
  (0 <= carry + column u v j < 18446744073709551616)%Z.
Proof.
  intros Hu Hv Hj Hc. rewrite column_col. pose proof (col_bound u v j Hu Hv). nia.
Qed.

Lemma mul_machine_arithmetic d u v : valid_digits d -> wf d u -> wf d v ->
  let p := Z.to_nat (Z.min (prec u) (prec v)) in
  (Z.min (prec u) (prec v) * 8 < 5000)%Z ->
  mul_loop_uv p (data u) (data v) 0 = exact_school p (data u) (data v) 0.
Proof.
  intros Hd Wu Wv p Hs. pose proof (wf_prec _ _ Wu). pose proof (wf_prec _ _ Wv). pose proof (wf_length _ _ Wu).
  apply mul_loop_exact; try apply Wu; try apply Wv; try lia; unfold p; lia.
Qed.

(** ** FFT branch *)
Lemma digits_to_Z_mv l : digits_to_Z l = mv l.
Proof.
  unfold digits_to_Z.
  assert (G : forall l a, fold_left (fun a x => a * 100000000 + x)%Z l a = (a * Bp (length l) + mv l)%Z).
  { clear. induction l as [|x l IH]; intro a; cbn [fold_left length].
    - rewrite Bp_0, mv_nil. lia.
    - rewrite IH, mv_cons, Bp_S. change mask with 100000000%Z. ring. }
  rewrite G. lia.
Qed.

Lemma fft_product d u v : valid_digits d -> wf d u -> wf d v -> full d u -> full d v ->
  let r := mul_loop_fft (data u) (data v) (Nn d) in
  length r = length (data u) /\ Forall is_limb r /\ (0 <= digits_to_Z (data u) * digits_to_Z (data v) - digits_to_Z r * 10 ^ (8 * elem_number d)
     < 20000 * elem_number d * 10 ^ (8 * elem_number d))%Z.
Proof.
  intros Hd Wu Wv Pu Pv r.
  pose proof (elem_number_bounds d Hd) as HN. pose proof (Nn_Z d Hd) as HNn.
  pose proof (wf_limbs _ _ Wu) as Lu. pose proof (wf_limbs _ _ Wv) as Lv.
  pose proof (Nn_len d u Hd Wu) as Nu. pose proof (Nn_len d v Hd Wv) as Nv.
  destruct (mul_loop_fft_spec (data u) (data v) (Nn d) Lu Lv ltac:(lia) ltac:(lia) ltac:(lia) ltac:(lia))
      as (l & E & Hll & Hl & HP & _).
  unfold r. rewrite E, skipn_all2 by lia. rewrite app_nil_r. split; [lia|]. split; auto.
  rewrite !firstn_all2 in HP by lia. rewrite !digits_to_Z_mv.
  replace (10 ^ (8 * elem_number d))%Z with (Bp (Nn d)); [rewrite <- HNn; exact HP|].
  rewrite Z.pow_mul_r by lia. change (10 ^ 8)%Z with mask. Transparent Bp. unfold Bp. Opaque Bp. rewrite HNn. reflexivity.
Qed.
