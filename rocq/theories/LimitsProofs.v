(** * Proofs about numeric_limits. *)

From Coq Require Import ZArith List Bool Ascii String Lia Reals Lra.
From Verif Require Import Model Spec SpecText Limbs Value CmpProofs AddProofs Decide OrderProofs AddExtra ModelStr StrProofs StrOut StrFmt StrAny ModelLimits LdexpProofs.
Import ListNotations.
Open Scope R_scope.
Local Notation length := List.length.

Lemma read_exact d l j k m : valid_digits d -> valid_literal l ->
  (Z.of_nat (length (text l)) < 2147483600)%Z -> (Z.abs (l_exponent l) <= 9000000000000000000)%Z ->
  literal_value l = IZR j * p10 k -> p10 m <= Rabs (literal_value l) < p10 (m + 1) ->
  (-2147483616 <= m < 2147483624)%Z -> (m - 8 * (elem_number d - 1) <= k)%Z ->
  exists r, of_string d (text l) = Ok r /\ finite d r /\ value r = literal_value l /\ full d r.
Proof.
  intros Hd V HL HE EJ [M1 M2] Hm Hk. destruct (literal_cor d l Hd V HL HE) as (r & R1 & R2 & R3). exists r. split; [exact R1|].
  destruct R2 as (W & _ & _ & _ & _ & IN). set (v := literal_value l) in *. clearbody v.
  destruct IN as (Fr & CT & KO).
  { split; [apply Rle_trans with (2 := M1); apply p10_le; lia|]. apply Rlt_le_trans with (1 := M2). apply p10_le. lia. }
  split; [exact Fr|]. split; [|exact R3].
  pose proof (KO m M1) as KR. assert (Rn : limb (data r) 0 <> 0%Z).
  { intro E. rewrite (finite_zero_value d r Fr E), Rabs_R0 in KR. pose proof (p10_pos m). lra. }
  destruct (finite_abs_bounds d r Hd Fr Rn) as [E1 E2]. pose proof CT as ([C1 C2] & C3 & C4).
  assert (EX : (exp r < m + 1)%Z) by (apply p10_lt_inv; lra).
  apply (multiple_cut (ulp d (exp r)) v (value r) (Z.abs j * 10 ^ (k - (exp r - 8 * (elem_number d - 1))))); auto.
  - apply ulp_pos.
  - rewrite EJ, Rabs_mult, <- abs_IZR, (Rabs_pos_eq (p10 k)) by (left; apply p10_pos).
    rewrite mult_IZR, <- (p10_nonneg (k - (exp r - 8 * (elem_number d - 1)))) by lia. unfold ulp. rewrite Rmult_assoc, <- p10_add. do 2 f_equal. lia.
Qed.

Definition max_lit (d : Z) : literal := mkliteral None [9]%Z true (repeat 9%Z (Z.to_nat (d + 1))) (Some (false, Some false, digits 2147483616)).
Definition min_lit : literal := mkliteral None [1]%Z true [0]%Z (Some (false, Some true, digits 2147483616)).
Definition eps_lit (d : Z) : literal := mkliteral None [1]%Z false [] (Some (true, Some true, digits (d - 1))).

Lemma map_rep {A B} (f : A -> B) a n : map f (repeat a n) = repeat (f a) n.
Proof. induction n; cbn; congruence. Qed.

Lemma max_text_lit d : max_text d = text (max_lit d).
Proof.
  unfold max_text, text, max_lit, cast_int. change (max_exp10 <? 0)%Z with false. cbv iota. rewrite lexical_cast_DS.
  cbn [l_sign l_int l_point l_frac l_exp sign_text map app]. rewrite map_rep. reflexivity.
Qed.
Lemma min_text_lit : min_text = text min_lit.
Proof. vm_compute. reflexivity. Qed.
Lemma eps_text_lit d : valid_digits d -> eps_text d = text (eps_lit d).
Proof.
  intro Hd. unfold valid_digits in Hd. unfold eps_text, text, eps_lit, cast_int. destruct (Z.ltb_spec (d - 1) 0); [lia|]. rewrite lexical_cast_DS. reflexivity.
Qed.

Lemma decs_9 n : Forall is_decimal (repeat 9%Z n).
Proof. induction n; cbn; constructor; auto. unfold is_decimal; lia. Qed.

Lemma digits_ok z : (0 <= z < 10 ^ 20)%Z -> Forall is_decimal (digits z) /\ digits z <> [].
Proof. intro H. destruct (digits_spec z H) as (A & _ & B & _). split; [exact A|]. destruct (digits z); [cbn in B; lia|discriminate]. Qed.

Lemma dz_9 n : decimal_Z (9%Z :: repeat 9%Z n) = (10 ^ Z.of_nat (S n) - 1)%Z.
Proof.
  assert (E : forall n, dz (repeat 9%Z n) = (10 ^ Z.of_nat n - 1)%Z).
  { clear. induction n; [reflexivity|]. cbn [repeat]. rewrite dz_cons, repeat_length, IHn, Nat2Z.inj_succ, Z.pow_succ_r by lia. lia. }
  change (9%Z :: repeat 9%Z n) with (repeat 9%Z (S n)). apply E.
Qed.

Lemma digits_len20 z : (0 <= z < 10 ^ 20)%Z -> (length (digits z) <= 20)%nat.
Proof. intro H. apply digits_len; [exact H|lia]. Qed.

Lemma max_exists d : valid_digits d -> exists r, limits_max d = Ok r /\ finite d r /\ value r = max_value d /\ full d r.
Proof.
  intro Hd. pose proof (elem_number_digits d Hd) as ND. pose proof Hd as Hd'. unfold valid_digits in Hd'.
  assert (H20 : (0 <= 2147483616 < 10 ^ 20)%Z) by (change (10 ^ 20)%Z with 100000000000000000000%Z; lia).
  destruct (digits_spec 2147483616 H20) as (D1 & D2 & _).
  assert (LE : l_exponent (max_lit d) = 2147483616%Z) by (unfold l_exponent, max_lit; cbn [l_exp negative]; exact D2).
  assert (LV : literal_value (max_lit d) = IZR (10 ^ (d + 2) - 1) * p10 (2147483616 - (d + 1))).
  { unfold literal_value. rewrite LE. unfold max_lit. cbn [l_sign negative l_int l_frac app]. rewrite dz_9, repeat_length, Rmult_1_l.
    rewrite Nat2Z.inj_succ, !Z2Nat.id by lia. replace (Z.succ (d + 1)) with (d + 2)%Z by lia. reflexivity. }
  assert (MV : literal_value (max_lit d) = max_value d).
  { rewrite LV, minus_IZR. unfold max_value. rewrite <- (p10_nonneg (d + 2)) by lia.
    replace (2147483616 - (d + 1))%Z with (2147483616 + - (d + 1))%Z by lia. rewrite (p10_add 2147483616).
    replace (d + 2)%Z with (1 + (d + 1))%Z by lia. rewrite (p10_add 1), p10_1.
    rewrite (p10_inv (d + 1)). field. apply p10_neq0. }
  destruct (read_exact d (max_lit d) (10 ^ (d + 2) - 1) (2147483616 - (d + 1)) 2147483616 Hd) as (r & R1 & R2 & R3 & R4).
  - unfold valid_literal, max_lit; cbn [l_int l_frac l_point l_exp]. repeat split.
    + constructor; [unfold is_decimal; lia|constructor].
    + apply decs_9.
    + discriminate.
    + discriminate.
    + injection H as _ _ <-. exact D1.
    + injection H as _ _ <-. apply digits_ok. exact H20.
  - unfold text, max_lit. cbn [l_sign l_int l_point l_frac l_exp sign_text map app length]. rewrite app_length, !map_length, repeat_length. cbn [length].
    rewrite map_length. pose proof (digits_len20 _ H20). lia.
  - rewrite LE. lia.
  - exact LV.
  - rewrite MV. unfold max_value. change (2147483616 + 1)%Z with (1 + 2147483616)%Z. rewrite p10_add, p10_1.
    assert (0 < p10 (- (d + 1)) <= 1) by (split; [apply p10_pos|rewrite <- p10_0; apply p10_le; lia]). pose proof (p10_pos 2147483616).
    rewrite Rabs_pos_eq; nra.
  - lia.
  - lia.
  - exists r. unfold limits_max. rewrite max_text_lit, <- MV. auto.
Qed.

(* the closed form used in the model is the parsed number *)
Lemma value_max_is_parsed d : valid_digits d -> limits_max d = Ok (value_max d).
Proof.
  intro Hd. destruct (max_exists d Hd) as (r & R1 & R2 & R3 & R4). rewrite R1. f_equal.
  pose proof (value_max_finite d Hd) as F. pose proof (value_max_value d Hd) as V. pose proof (max_value_ge d Hd) as G. pose proof (p10_pos max_exp10).
  destruct (value_inj d r (value_max d) Hd R2 F) as (A & B & C); [lra|rewrite R3, V; reflexivity|].
  destruct R2 as [_ R2]. destruct F as [_ F]. unfold full in R4. destruct r as [dr er nr cr pr]. cbn in *. subst.
  rewrite value_max_eq in *. reflexivity.
Qed.

Lemma min_exists d : valid_digits d -> exists r, limits_min d = Ok r /\ finite d r /\ value r = powerRZ 10 (-2147483616) /\ full d r.
Proof.
  intro Hd. pose proof (elem_number_digits d Hd) as ND. pose proof Hd as Hd'. unfold valid_digits in Hd'.
  assert (H20 : (0 <= 2147483616 < 10 ^ 20)%Z) by (change (10 ^ 20)%Z with 100000000000000000000%Z; lia). destruct (digits_spec 2147483616 H20) as (D1 & D2 & _).
  assert (LE : l_exponent min_lit = (-2147483616)%Z) by (unfold l_exponent, min_lit; cbn [l_exp negative]; fold dz; rewrite D2; reflexivity).
  assert (LV : literal_value min_lit = IZR 1 * p10 (-2147483616)).
  { unfold literal_value. rewrite LE. unfold min_lit. cbn [l_sign negative l_int l_frac app]. change (decimal_Z [1; 0]%Z) with 10%Z. cbn [length].
    change (-2147483616 - Z.of_nat 1)%Z with (-1 + -2147483616)%Z. rewrite powerRZ_add by lra.
    change (powerRZ 10 (-1)) with (p10 (- (1))). rewrite p10_inv, p10_1. field. }
  destruct (read_exact d min_lit 1 (-2147483616) (-2147483616) Hd) as (r & R1 & R2 & R3 & R4).
  - unfold valid_literal, min_lit; cbn [l_int l_frac l_point l_exp]. repeat split.
    + constructor; [unfold is_decimal; lia|constructor].
    + constructor; [unfold is_decimal; lia|constructor].
    + discriminate.
    + discriminate.
    + injection H as _ _ <-. exact D1.
    + injection H as _ _ <-. apply digits_ok. exact H20.
  - vm_compute. reflexivity.
  - rewrite LE. lia.
  - exact LV.
  - rewrite LV, Rmult_1_l, Rabs_pos_eq by (left; apply p10_pos). split; [lra|]. apply p10_lt. lia.
  - lia.
  - lia.
  - exists r. unfold limits_min. rewrite min_text_lit. rewrite LV, Rmult_1_l in R3. auto.
Qed.

Lemma eps_exists d : valid_digits d -> exists r, limits_epsilon d = Ok r /\ finite d r /\ value r = powerRZ 10 (- (d - 1)) /\ full d r.
Proof.
  intro Hd. pose proof (elem_number_digits d Hd) as ND. pose proof Hd as Hd'. unfold valid_digits in Hd'.
  assert (H20 : (0 <= d - 1 < 10 ^ 20)%Z) by (change (10 ^ 20)%Z with 100000000000000000000%Z; lia). destruct (digits_spec (d - 1) H20) as (D1 & D2 & _).
  assert (LE : l_exponent (eps_lit d) = (- (d - 1))%Z) by (unfold l_exponent, eps_lit; cbn [l_exp negative]; fold dz; rewrite D2; reflexivity).
  assert (LV : literal_value (eps_lit d) = IZR 1 * p10 (- (d - 1))).
  { unfold literal_value. rewrite LE. unfold eps_lit. cbn [l_sign negative l_int l_frac app]. change (decimal_Z [1]%Z) with 1%Z. cbn [length].
    rewrite Rmult_1_l. do 2 f_equal. lia. }
  destruct (read_exact d (eps_lit d) 1 (- (d - 1)) (- (d - 1)) Hd) as (r & R1 & R2 & R3 & R4).
  - unfold valid_literal, eps_lit; cbn [l_int l_frac l_point l_exp]. repeat split.
    + constructor; [unfold is_decimal; lia|constructor].
    + constructor.
    + discriminate.
    + injection H as _ _ <-. exact D1.
    + injection H as _ _ <-. apply digits_ok. exact H20.
  - unfold text, eps_lit. cbn [l_sign l_int l_point l_frac l_exp sign_text map app length]. rewrite map_length. pose proof (digits_len20 _ H20). lia.
  - rewrite LE. lia.
  - exact LV.
  - rewrite LV, Rmult_1_l, Rabs_pos_eq by (left; apply p10_pos). split; [lra|]. apply p10_lt. lia.
  - lia.
  - lia.
  - exists r. unfold limits_epsilon. rewrite eps_text_lit by auto. rewrite LV, Rmult_1_l in R3. auto.
Qed.

Lemma one_plus a k : (0 <= a)%Z -> (k <= - a)%Z -> 1 + p10 (- a) = IZR ((10 ^ a + 1) * 10 ^ (- a - k)) * p10 k.
Proof.
  intros Ha Hk. assert (E : IZR (10 ^ (- a - k)) * p10 k = p10 (- a)).
  { rewrite <- (p10_nonneg (- a - k)) by lia. rewrite <- p10_add. f_equal. lia. }
  rewrite mult_IZR, Rmult_assoc, E, plus_IZR, <- (p10_nonneg a) by lia. rewrite Rmult_plus_distr_r, <- p10_add.
  replace (a + - a)%Z with 0%Z by lia. rewrite p10_0. ring.
Qed.

Lemma eps_add d : valid_digits d -> exists e, limits_epsilon d = Ok e /\ value e = powerRZ 10 (- (d - 1)) /\
  op_gt (add d (one d) e) (one d) = true /\ finite d (add d (one d) e) /\ value (add d (one d) e) = 1 + powerRZ 10 (- (d - 1)).
Proof.
  intro Hd. destruct (eps_exists d Hd) as (e & E1 & E2 & E3 & E4). exists e. split; auto. split; auto.
  pose proof (one_finite d Hd) as F1. pose proof (one_value d Hd) as V1.
  pose proof Hd as Hd'. unfold valid_digits in Hd'. pose proof (elem_number_digits d Hd) as ND.
  assert (B : 0 < p10 (- (d - 1)) <= 1) by (split; [apply p10_pos|rewrite <- p10_0; apply p10_le; lia]).
  pose proof (max_value_ge d Hd) as G. assert (G1 : p10 1 <= p10 max_exp10) by (apply p10_le; unfold max_exp10; lia). rewrite p10_1 in G1.
  destruct (add_overflow d (one d) e Hd F1 E2) as (r & Fr & SR & O1 & O2); [rewrite V1, Rabs_R1; lra|rewrite E3, Rabs_pos_eq; lra|].
  destruct SR as (S1 & S2 & S3). rewrite V1, E3 in S1, S3. specialize (S1 ltac:(lra)).
  assert (VR : value r = 1 + p10 (- (d - 1))).
  { pose proof S1 as ([C1 C2] & C3 & C4). rewrite (Rabs_pos_eq (1 + _)) in C1, C2 by lra.
    assert (Rn : limb (data r) 0 <> 0%Z).
    { intro E. apply (finite_zero_value d r Fr) in E. apply S3 in E. lra. }
    destruct (finite_abs_bounds d r Hd Fr Rn) as [E5 E6].
    assert (EX : (exp r < 1)%Z) by (apply p10_lt_inv; rewrite p10_1; lra).
    apply (multiple_cut (ulp d (exp r)) _ _ ((10 ^ (d - 1) + 1) * 10 ^ (- (d - 1) - (exp r - 8 * (elem_number d - 1))))); auto.
    - apply ulp_pos.
    - rewrite Rabs_pos_eq by lra. unfold ulp. assert (K1 : (0 <= d - 1)%Z) by (clear - Hd'; lia). assert (K2 : (exp r - 8 * (elem_number d - 1) <= - (d - 1))%Z) by (clear - EX ND; lia).
      clear - K1 K2. exact (one_plus (d - 1) (exp r - 8 * (elem_number d - 1)) K1 K2). }
  assert (AR : add d (one d) e = r) by (apply O1; rewrite VR, Rabs_pos_eq; lra). rewrite AR. split; [|auto].
  apply (op_gt_spec d); auto. rewrite VR, V1. lra.
Qed.

Lemma sums_below_max d u v : valid_digits d -> finite d u -> finite d v ->
  Rabs (value u) <= max_value d -> Rabs (value v) <= max_value d -> cls (add d u v) = Finite ->
  Rabs (value (add d u v)) <= max_value d.
Proof.
  intros Hd Fu Fv Bu Bv C. destruct (add_overflow d u v Hd Fu Fv Bu Bv) as (r & Fr & _ & O1 & O2).
  destruct (Rle_lt_dec (Rabs (value r)) (max_value d)) as [L|L]; [rewrite (O1 L); auto|]. destruct (O2 L) as [K _]. congruence.
Qed.

Lemma min_smallest d l r : valid_digits d -> valid_literal l ->
  (Z.of_nat (length (text l)) < 2147483600)%Z -> (Z.abs (l_exponent l) <= 9000000000000000000)%Z ->
  of_string d (text l) = Ok r -> cls r = Finite -> value r <> 0 -> powerRZ 10 (-2147483616) <= Rabs (value r).
Proof.
  intros Hd V HL HE E C NZ. destruct (literal_cor d l Hd V HL HE) as (r' & R1 & R2 & _). rewrite R1 in E. injection E as <-.
  destruct R2 as (_ & Z0 & Z1 & Z2 & Z3 & Z4). set (v := literal_value l) in *. clearbody v.
  destruct (Req_dec v 0) as [H|H]; [destruct (Z0 H); contradiction|]. assert (0 < Rabs v) by (apply Rabs_pos_lt; auto).
  destruct (Rlt_le_dec (Rabs v) (powerRZ 10 (-2147483616))) as [L|L]; [destruct (Z1 ltac:(lra)); contradiction|].
  destruct (Rlt_le_dec (Rabs v) (powerRZ 10 2147483624)) as [L2|L2].
  - destruct (Z4 (conj L L2)) as (_ & _ & K). apply K; auto.
  - unfold Rabs in L2. destruct (Rcase_abs v); [destruct (Z3 ltac:(lra))|destruct (Z2 L2)]; congruence.
Qed.

Lemma limits_wrong :
  (forall d, valid_digits d -> finite d (of_sll d (-1)) /\ op_lt (of_sll d (-1)) (limits_lowest d) = true) /\
  (exists r, of_string 30 (list_ascii_of_string "1e2147483620") = Ok r /\ finite 30 r /\ op_gt r (value_max 30) = true).
Proof.
  split.
  - intros d Hd. destruct (IntProofs.of_sll_spec d (-1) Hd) as (F & _ & V & _); [lia|].
    split; auto. unfold limits_lowest. destruct (wf_zero_ef d Hd) as (Z1 & Z2 & _).
    apply (cmp_all_ops d); auto. rewrite Z2, V. simpl. lra.
  - eexists. split; [vm_compute; reflexivity|]. split; [apply wfb_finite; vm_compute; reflexivity|]. vm_compute. reflexivity.
Qed.

Lemma max_cor d : valid_digits d ->
  (exists r, limits_max d = Ok r /\ finite d r /\ full d r /\ value r = max_value d /\ r = value_max d) /\
  (forall u v, finite d u -> finite d v -> Rabs (value u) <= max_value d -> Rabs (value v) <= max_value d -> cls (add d u v) = Finite ->
   Rabs (value (add d u v)) <= max_value d).
Proof.
  intro Hd. split.
  - destruct (max_exists d Hd) as (r & A & B & C & D). exists r. split; [exact A|]. split; [exact B|]. split; [exact D|]. split; [exact C|].
    rewrite (value_max_is_parsed d Hd) in A. congruence.
  - intros. apply sums_below_max; auto.
Qed.

Lemma min_cor d : valid_digits d ->
  exists m, limits_min d = Ok m /\ finite d m /\ value m = powerRZ 10 (-2147483616) /\
  forall l r, valid_literal l -> (Z.of_nat (length (text l)) < 2147483600)%Z -> (Z.abs (l_exponent l) <= 9000000000000000000)%Z ->
  of_string d (text l) = Ok r -> cls r = Finite -> value r <> 0 -> value m <= Rabs (value r).
Proof.
  intro Hd. destruct (min_exists d Hd) as (m & A & B & C & _). exists m. split; [exact A|]. split; [exact B|]. split; [exact C|].
  intros l r V L E R F N. rewrite C. apply (min_smallest d l r); auto.
Qed.

Lemma limits_special d : valid_digits d ->
  (forall u, finite d u -> op_lt u (limits_infinity d) = true /\ op_gt (limits_infinity d) u = true) /\
  (forall u, wf d u -> op_eq (limits_quiet_nan d) u = false) /\
  finite d (limits_round_error d) /\ value (limits_round_error d) = 1 / 2.
Proof.
  intro Hd. assert (Wi : wf d (limits_infinity d)) by exact (AddProofs.signed_inf_wf d false Hd). assert (Wn : wf d (limits_quiet_nan d)) by exact (value_nan_wf d Hd).
  split; [|split].
  - intros u [W F]. destruct (cmp_special d _ u Hd Wi W) as (H & _). destruct H as (A & B & _); [split; reflexivity|exact F|]. auto.
  - intros u W. destruct (cmp_special d _ u Hd Wn W) as (_ & _ & _ & _ & H & _). apply H. left. reflexivity.
  - destruct (LdexpProofs.of_limbs1 d 50000000 (-8) Hd ltac:(lia) ltac:(reflexivity)) as (F & _ & V). split; [exact F|].
    unfold limits_round_error, half. rewrite V. change (-8)%Z with (- (8))%Z. rewrite p10_inv, (p10_nonneg 8) by lia. change (10 ^ 8)%Z with 100000000%Z. lra.
Qed.
