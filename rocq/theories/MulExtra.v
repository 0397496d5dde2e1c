(** * Multiplication: exactness, commutativity, integer arithmetic (proofs only). *)

From Coq Require Import ZArith List Bool Reals Lra Lia.
From Verif Require Import Model Spec Limbs Value CmpProofs AddProofs MulProofs FftProofs MulValue.
Import ListNotations.
Open Scope Z_scope.

(** ** With all limbs in use *)

Lemma mul_full_digits d u v : valid_digits d -> finite d u -> finite d v -> full d u -> full d v ->
  limb (data u) 0 <> 0 -> limb (data v) 0 <> 0 ->
  let r := mul_digits d (fun n => mul_loop_uv n (data u) (data v) 0) u v in
  exists k, (k <= 1)%nat /\ exp r = exp u + exp v + 8 * Z.of_nat k /\
    mv (data r) * Bp k =
      if elem_number d * 8 <? 5000
      then cols (data u) (data v) (Nn d) - cols (data u) (data v) (Nn d) mod Bp k
      else 100000000 * hcols (half_limbs (data v)) (half_limbs (data u)) (2 * Nn d - 1).
Proof.
  intros Hd [Wu Cu] [Wv Cv] Pu Pv Zu Zv r.
  pose proof (elem_number_bounds d Hd) as HN. pose proof (Nn_Z d Hd) as HNn.
  pose proof (wf_limbs _ _ Wu) as Lu. pose proof (wf_limbs _ _ Wv) as Lv.
  pose proof (Nn_len d u Hd Wu) as Nu. pose proof (Nn_len d v Hd Wv) as Nv.
  unfold r, mul_digits. rewrite Pu, Pv, Z.min_id.
  replace (Z.to_nat (elem_number d)) with (Nn d) by reflexivity.
  destruct (Z.ltb_spec (elem_number d * 8) 5000) as [Hs|Hs].
  - destruct (mul_loop_uv (Nn d) (data u) (data v) 0) as [rr c] eqn:E.
    destruct (mul_loop_uv_spec (data u) (data v) (Nn d) rr c Lu Lv ltac:(lia) ltac:(lia) E) as (Lr & Hr & Hc & _ & Hc0).
    rewrite firstn_all2 in Hc by lia.
    destruct (Z.eqb_spec c 0) as [Ec|Ec].
    + exists O. cbn [exp data]. split; [lia|]. split; [lia|]. rewrite Bp_0, Z.mod_1_r. lia.
    + exists 1%nat. cbn [exp data]. split; [lia|]. split; [lia|]. rewrite Bp_S, Bp_0, Z.mul_1_r.
      replace (Nn d) with (length rr) at 1 by lia. rewrite push_front_full by (auto; lia).
      rewrite Lr, Nu, <- Hc. rewrite (Z.add_comm (mv rr)). pose proof (Z.div_mod (c * Bp (Nn d) + mv rr) mask ltac:(discriminate)).
      lia.
  - destruct (mul_loop_fft_spec (data u) (data v) (Nn d) Lu Lv ltac:(lia) ltac:(lia) ltac:(lia) ltac:(lia))
      as (l & E & Hll & Hl & _ & _ & HH).
    rewrite E. rewrite skipn_all2 by lia. rewrite app_nil_r.
    rewrite firstn_all2 in HH by lia. rewrite firstn_all2 in HH by lia. rewrite <- HH.
    destruct (Z.eqb_spec (limb l 0) 0) as [E0'|E0'].
    + exists O. cbn [exp data]. split; [lia|]. split; [lia|]. rewrite Bp_0, Z.mul_1_r.
      replace (Z.to_nat (Z.min (N d) (elem_number d + 1))) with (Nn d) by (unfold Nn, N; lia).
      rewrite (firstn_all2 l) by lia.
      assert (Hsk : skipn (Nn d - 1) l = [limb l (Nn d - 1)]).
      { assert (length (skipn (Nn d - 1) l) = 1%nat) by (rewrite skipn_length; lia).
        destruct (skipn (Nn d - 1) l) as [|x [|y t]] eqn:Es; simpl in H; try lia.
        replace x with (limb (skipn (Nn d - 1) l) 0) by (rewrite Es; reflexivity). rewrite limb_skipn, Nat.add_0_r. reflexivity. }
      rewrite Hsk. destruct l as [|x l']; [simpl in Hll; lia|]. cbn [skipn]. unfold limb in E0'; simpl in E0'. subst x.
      assert (Hu : forall (a : list Z) z y, upd (length a) z (a ++ [y]) = a ++ [z]).
      { induction a; intros; simpl; auto. f_equal. apply IHa. }
      simpl in Hll. replace (Nn d - 1)%nat with (length l') at 1 by lia. rewrite Hu.
      rewrite mv_app, !mv_cons, mv_nil. cbn [length]. rewrite Bp_S, Bp_0. change mask with 100000000. lia.
    + exists 1%nat. cbn [exp data]. split; [lia|]. split; [lia|]. rewrite Bp_S, Bp_0. change mask with 100000000. lia.
Qed.

Lemma cols_last u v p a b : (1 <= p)%nat -> (a + b <= p)%nat ->
  (forall i, (a <= i < p)%nat -> limb u i = 0) -> (forall i, (b <= i < p)%nat -> limb v i = 0) ->
  cols u v p mod mask = 0.
Proof.
  intros Hp Hab Ha Hb. destruct p as [|p]; [lia|]. cbn [cols].
  replace (col u v p) with 0; [rewrite Z.add_0_r; apply Z.mod_mul; discriminate|].
  symmetry. unfold col. rewrite (fsum_ext _ (fun _ => 0)); [rewrite fsum_const; lia|].
  intros i Hi. destruct (Nat.lt_ge_cases i b).
  - rewrite Ha by lia. lia.
  - rewrite Hb by lia. lia.
Qed.

Lemma mul_digits_exact d u v a b : valid_digits d -> finite d u -> finite d v -> full d u -> full d v ->
  limb (data u) 0 <> 0 -> limb (data v) 0 <> 0 ->
  (a + b <= Nn d)%nat ->
  (forall i, (a <= i < Nn d)%nat -> limb (data u) i = 0) -> (forall i, (b <= i < Nn d)%nat -> limb (data v) i = 0) ->
  value (mul_digits d (fun n => mul_loop_uv n (data u) (data v) 0) u v) = (value u * value v)%R.
Proof.
  intros Hd Fu Fv Pu Pv Zu Zv Hab Ha Hb.
  destruct (mul_full_digits d u v Hd Fu Fv Pu Pv Zu Zv) as (k & Hk & He & Hmv).
  destruct (mul_digits_finite d u v Hd Fu Fv Zu Zv) as (Fr & Zr & _ & Hs).
  set (r := mul_digits _ _ _ _) in *.
  rewrite (value_mag d r Fr), (value_mag d u Fu), (value_mag d v Fv), Hs.
  pose proof (elem_number_bounds d Hd) as HN. pose proof (Nn_Z d Hd) as HNn.
  destruct Fu as [Wu Cu]. destruct Fv as [Wv Cv].
  pose proof (wf_limbs _ _ Wu) as Lu. pose proof (wf_limbs _ _ Wv) as Lv.
  pose proof (Nn_len d u Hd Wu) as Nu. pose proof (Nn_len d v Hd Wv) as Nv.
  assert (E : mv (data r) * Bp k * Bp (Nn d - 1) = mv (data u) * mv (data v)).
  { rewrite Hmv. destruct (Z.ltb_spec (elem_number d * 8) 5000).
    - pose proof (cols_product_exact (data u) (data v) (Nn d) a b Lu Lv ltac:(lia) ltac:(lia) ltac:(lia) Ha Hb) as X.
      rewrite !firstn_all2 in X by lia. rewrite X.
      replace (cols (data u) (data v) (Nn d) mod Bp k) with 0; [f_equal; lia|].
      destruct k as [|[|k]]; [rewrite Bp_0, Z.mod_1_r; auto | | lia].
      rewrite Bp_S, Bp_0, Z.mul_1_r. symmetry. apply (cols_last _ _ _ a b); auto. lia.
    - assert (Hza : forall i, (2 * a <= i < 2 * Nn d)%nat -> limb (half_limbs (data u)) i = 0).
      { intros i Hi. assert (Hz : limb (data u) (i / 2) = 0) by (apply Ha; split; [apply Nat.div_le_lower_bound; lia|apply Nat.div_lt_upper_bound; lia]).
        destruct (limb_half_limbs (data u) (i / 2)) as [X1 X2]. rewrite Hz in X1, X2. change (0 / 10000) with 0 in X1. change (0 mod 10000) with 0 in X2.
        pose proof (Nat.div_mod i 2 ltac:(lia)). pose proof (Nat.mod_upper_bound i 2 ltac:(lia)).
        destruct (i mod 2)%nat as [|[|]]; [| |lia].
        - etransitivity; [|exact X1]. f_equal. lia.
        - etransitivity; [|exact X2]. f_equal. lia. }
      assert (Hzb : forall i, (2 * b <= i < 2 * Nn d)%nat -> limb (half_limbs (data v)) i = 0).
      { intros i Hi. assert (Hz : limb (data v) (i / 2) = 0) by (apply Hb; split; [apply Nat.div_le_lower_bound; lia|apply Nat.div_lt_upper_bound; lia]).
        destruct (limb_half_limbs (data v) (i / 2)) as [X1 X2]. rewrite Hz in X1, X2. change (0 / 10000) with 0 in X1. change (0 mod 10000) with 0 in X2.
        pose proof (Nat.div_mod i 2 ltac:(lia)). pose proof (Nat.mod_upper_bound i 2 ltac:(lia)).
        destruct (i mod 2)%nat as [|[|]]; [| |lia].
        - etransitivity; [|exact X1]. f_equal. lia.
        - etransitivity; [|exact X2]. f_equal. lia. }
      assert (a <> O). { intro; subst. apply Zu. apply Ha. lia. }
      assert (b <> O). { intro; subst. apply Zv. apply Hb. lia. }
      pose proof (half_limbs_length (data u)) as HLu. pose proof (half_limbs_length (data v)) as HLv.
      rewrite Nu in HLu. rewrite Nv in HLv.
      pose proof (hcols_product_exact (half_limbs (data v)) (half_limbs (data u)) (2 * Nn d - 1) (2 * b) (2 * a)
                   (half_limbs_halves _ Lv) (half_limbs_halves _ Lu) ltac:(lia) ltac:(lia) ltac:(lia)
                   ltac:(intros; apply Hzb; lia) ltac:(intros; apply Hza; lia)) as X.
      assert (EU : mv (data u) = hmv (firstn (2 * Nn d - 1) (half_limbs (data u))) * beta).
      { rewrite <- half_limbs_mv. rewrite <- (firstn_all (half_limbs (data u))) at 1. rewrite HLu.
        replace (2 * Nn d)%nat with (S (2 * Nn d - 1)) at 1 by lia. rewrite hmv_firstn_S by lia.
        rewrite Hza by lia. lia. }
      assert (EV : mv (data v) = hmv (firstn (2 * Nn d - 1) (half_limbs (data v))) * beta).
      { rewrite <- half_limbs_mv. rewrite <- (firstn_all (half_limbs (data v))) at 1. rewrite HLv.
        replace (2 * Nn d)%nat with (S (2 * Nn d - 1)) at 1 by lia. rewrite hmv_firstn_S by lia.
        rewrite Hzb by lia. lia. }
      rewrite EU, EV.
      replace (Bp (Nn d - 1)) with (Hp (2 * Nn d - 1 - 1)) by (rewrite <- Hp_double; f_equal; lia).
      set (A := hmv (firstn _ (half_limbs (data u)))) in *. set (B := hmv (firstn _ (half_limbs (data v)))) in *.
      transitivity (100000000 * (hcols (half_limbs (data v)) (half_limbs (data u)) (2 * Nn d - 1) * Hp (2 * Nn d - 1 - 1))); [ring|].
      rewrite <- X. ring. }
  unfold mag. rewrite He, ulp_shift, ulp_mul by auto.
  apply (f_equal IZR) in E. rewrite !mult_IZR in E.
  set (s := sign (neg u)). set (s' := sign (neg v)).
  transitivity (s * s' * (IZR (mv (data r)) * IZR (Bp k) * IZR (Bp (Nn d - 1))) * (ulp d (exp u) * ulp d (exp v)))%R; [ring|].
  rewrite E. ring.
Qed.

(** number of limbs of a scaled integer *)
Lemma trailing_zero d x k i a : valid_digits d -> finite d x -> limb (data x) 0 <> 0 ->
  value x = (IZR k * powerRZ 10 (8 * i))%R -> Z.abs k < 10 ^ (8 * a) -> 0 <= a <= elem_number d ->
  forall j, (Z.to_nat a <= j < Nn d)%nat -> limb (data x) j = 0.
Proof.
  intros Hd Fx Zx V Hk Ha.
  pose proof (elem_number_bounds d Hd) as HN. pose proof (Nn_Z d Hd) as HNn.
  pose proof (value_abs_mag d x Fx) as VA. rewrite V, Rabs_mult, <- abs_IZR in VA.
  rewrite (Rabs_pos_eq (powerRZ 10 (8 * i))) in VA by (apply Rlt_le, p10_pos).
  pose proof (finite_mv_pos d x Hd Fx Zx) as [M1 M2].
  destruct Fx as [Wx Cx]. pose proof (wf_limbs _ _ Wx) as Lx. pose proof (Nn_len d x Hd Wx) as Nx.
  set (q := exp x / 8). assert (Hq : exp x = 8 * q).
  { pose proof (wf_exp _ _ Wx). pose proof (Z.div_mod (exp x) 8 ltac:(lia)). unfold q. lia. }
  set (s := i - q + elem_number d - 1).
  assert (HBa : 10 ^ (8 * a) = Bp (Z.to_nat a)).
  { rewrite Z.pow_mul_r by lia. change (10 ^ 8) with mask. Transparent Bp. unfold Bp. Opaque Bp. rewrite Z2Nat.id by lia. reflexivity. }
  rewrite HBa in Hk.
  unfold mag, ulp in VA. rewrite Hq in VA.
  assert (VA' : (IZR (Z.abs k) * powerRZ 10 (8 * s) = IZR (mv (data x)))%R).
  { apply (Rmult_eq_reg_r (powerRZ 10 (8 * q - 8 * (elem_number d - 1)))); [|apply p10_neq0].
    rewrite <- VA, Rmult_assoc, <- p10_add. do 2 f_equal. unfold s. lia. }
  destruct (Z_lt_le_dec s 0) as [Hs|Hs].
  - exfalso. assert (E : (IZR (mv (data x)) * powerRZ 10 (8 * - s) = IZR (Z.abs k))%R).
    { rewrite <- VA', Rmult_assoc, <- p10_add. replace (8 * s + 8 * - s) with 0 by lia. rewrite p10_0. ring. }
    replace (- s) with (Z.of_nat (Z.to_nat (- s))) in E by lia. rewrite p10_Bp, <- mult_IZR in E. apply eq_IZR in E.
    assert (Bp (Z.to_nat a) <= Bp (Nn d)) by (apply Bp_mono; lia).
    assert (Bp (Nn d) = mask * Bp (Nn d - 1)) by (rewrite <- Bp_S; f_equal; lia).
    assert (mask <= Bp (Z.to_nat (- s))).
    { replace mask with (Bp 1) by (rewrite Bp_S, Bp_0; lia). apply Bp_mono. lia. }
    assert (mask * Bp (Nn d - 1) <= Bp (Z.to_nat (- s)) * mv (data x)).
    { apply Z.mul_le_mono_nonneg; try lia. discriminate. pose proof (Bp_pos (Nn d - 1)). lia. }
    lia.
  - replace s with (Z.of_nat (Z.to_nat s)) in VA' by lia. rewrite p10_Bp, <- mult_IZR in VA'. apply eq_IZR in VA'.
    assert (Hs' : (Nn d <= Z.to_nat a + Z.to_nat s)%nat).
    { destruct (Nat.le_gt_cases (Nn d) (Z.to_nat a + Z.to_nat s)); auto. exfalso.
      assert (Bp (Z.to_nat a + Z.to_nat s) <= Bp (Nn d - 1)) by (apply Bp_mono; lia).
      rewrite Bp_add in H0. pose proof (Bp_pos (Z.to_nat s)). nia. }
    assert (Hz : mv (skipn (Z.to_nat a) (data x)) = 0).
    { rewrite mv_skipn by (auto; lia). rewrite <- VA', Nx.
      replace (Z.to_nat s) with ((Z.to_nat s - (Nn d - Z.to_nat a)) + (Nn d - Z.to_nat a))%nat by lia.
      rewrite Bp_add, Z.mul_assoc. apply Z.mod_mul. pose proof (Bp_pos (Nn d - Z.to_nat a)). lia. }
    apply mv_zero_inv in Hz; [|apply limbs_skipn; auto].
    intros j Hj. rewrite Forall_nth in Hz.
    specialize (Hz (j - Z.to_nat a)%nat 0). rewrite skipn_length in Hz. specialize (Hz ltac:(lia)).
    change (limb (skipn (Z.to_nat a) (data x)) (j - Z.to_nat a) = 0) in Hz. rewrite limb_skipn in Hz.
    replace (Z.to_nat a + (j - Z.to_nat a))%nat with j in Hz by lia. exact Hz.
Qed.

Lemma mul_exact d u v k1 i1 a k2 i2 b : valid_digits d -> finite d u -> finite d v -> full d u -> full d v ->
  ~ exp_over (exp u) (exp v) -> ~ exp_under (exp u) (exp v) ->
  value u = (IZR k1 * powerRZ 10 (8 * i1))%R -> Z.abs k1 < 10 ^ (8 * a) ->
  value v = (IZR k2 * powerRZ 10 (8 * i2))%R -> Z.abs k2 < 10 ^ (8 * b) ->
  0 <= a -> 0 <= b -> a + b <= elem_number d ->
  value (mul d u v) = (value u * value v)%R.
Proof.
  intros Hd Fu Fv Pu Pv Ho Hun Vu Ku Vv Kv Ha Hb Hab. pose proof (Nn_Z d Hd) as HNn.
  destruct (mul_finite_cases d u v Hd Fu Fv) as [[[H|H] ->]|(Zu & Zv & [[H _]|[[H _]|(_ & _ & ->)]])]; try contradiction.
  - rewrite H, value_zero by auto. ring.
  - rewrite H, value_zero by auto. ring.
  - apply (mul_digits_exact d u v (Z.to_nat a) (Z.to_nat b)); auto; try lia.
    + apply (trailing_zero d u k1 i1 a); auto. lia.
    + apply (trailing_zero d v k2 i2 b); auto. lia.
Qed.

(** ** Commutativity *)

Lemma mul_digits_comm d u v : valid_digits d -> finite d u -> finite d v -> full d u -> full d v ->
  mul_digits d (fun n => mul_loop_uv n (data u) (data v) 0) u v =
  mul_digits d (fun n => mul_loop_uv n (data v) (data u) 0) v u.
Proof.
  intros Hd [Wu Cu] [Wv Cv] Pu Pv.
  pose proof (elem_number_bounds d Hd) as HN. pose proof (Nn_Z d Hd) as HNn.
  pose proof (wf_limbs _ _ Wu) as Lu. pose proof (wf_limbs _ _ Wv) as Lv.
  pose proof (Nn_len d u Hd Wu) as Nu. pose proof (Nn_len d v Hd Wv) as Nv.
  unfold full in Pu, Pv. unfold mul_digits. rewrite !Pu, !Pv, !Cu, !Cv, !Z.min_id, (Z.add_comm (exp v)).
  replace (negb (Bool.eqb (neg v) (neg u))) with (negb (Bool.eqb (neg u) (neg v))) by (destruct (neg u), (neg v); auto).
  replace (Z.to_nat (elem_number d)) with (Nn d) by reflexivity.
  destruct (Z.ltb_spec (elem_number d * 8) 5000) as [Hs|Hs].
  - destruct (mul_loop_uv (Nn d) (data u) (data v) 0) as [r c] eqn:E.
    destruct (mul_loop_uv (Nn d) (data v) (data u) 0) as [r' c'] eqn:E'.
    destruct (mul_loop_uv_spec _ _ (Nn d) r c Lu Lv ltac:(lia) ltac:(lia) E) as (Lr & Hr & Hc & _ & Hc0).
    destruct (mul_loop_uv_spec _ _ (Nn d) r' c' Lv Lu ltac:(lia) ltac:(lia) E') as (Lr' & Hr' & Hc' & _ & Hc0').
    rewrite firstn_all2 in Hc, Hc' by lia. rewrite cols_comm in Hc'.
    pose proof (mv_bound r Hr) as B. pose proof (mv_bound r' Hr') as B'. rewrite Lr, Nu in B. rewrite Lr', Nv in B'.
    assert (c = c').
    { assert (c * Bp (Nn d) < (c' + 1) * Bp (Nn d)) by lia. assert (c' * Bp (Nn d) < (c + 1) * Bp (Nn d)) by lia.
      apply mul_lt_cancel in H, H0; try apply Bp_pos. lia. }
    subst c'. assert (r = r') by (apply mv_inj; auto; lia). subst r'. reflexivity.
  - assert (E : mul_loop_fft (data u) (data v) (Nn d) = mul_loop_fft (data v) (data u) (Nn d)).
    { unfold mul_loop_fft. rewrite !skipn_all2 by lia. f_equal. apply carry_release_ext. intro k.
      unfold fft_convolution. apply conv_at_comm. }
    rewrite E. reflexivity.
Qed.

Lemma mul_comm d u v : valid_digits d -> wf d u -> wf d v -> full d u -> full d v ->
  mul d u v = mul d v u.
Proof.
  intros Hd Wu Wv Pu Pv. unfold mul, mul_gen.
  replace (isnan v || isnan u || isinf v && iszero u || isinf u && iszero v)%bool with
    (isnan u || isnan v || isinf u && iszero v || isinf v && iszero u)%bool by
    (destruct (isnan u), (isnan v), (isinf u), (isinf v), (iszero u), (iszero v); reflexivity).
  destruct (isnan u || isnan v || isinf u && iszero v || isinf v && iszero u)%bool eqn:E1; auto.
  replace (negb (Bool.eqb (neg v) (neg u))) with (negb (Bool.eqb (neg u) (neg v))) by (destruct (neg u), (neg v); auto).
  rewrite (orb_comm (isinf v)), (orb_comm (iszero v)).
  destruct (isinf u || isinf v)%bool eqn:E2; auto.
  destruct (iszero u || iszero v)%bool eqn:E3; auto.
  assert (Fu : cls u = Finite /\ cls v = Finite).
  { unfold isinf, isnan in *. destruct (cls u), (cls v); cbn in *; try discriminate; auto. }
  destruct Fu as [Cu Cv].
  rewrite (mul_digits_comm d u v) by (auto; split; auto).
  change max_exp10 with 2147483616.
  destruct (Z.ltb_spec (exp u) 0), (Z.ltb_spec (exp v) 0); cbn [Bool.eqb andb]; auto; rewrite !Z.geb_leb;
   destruct (Z.leb_spec (2147483616 - Z.abs (exp u)) (Z.abs (exp v))), (Z.leb_spec (2147483616 - Z.abs (exp v)) (Z.abs (exp u))); auto; lia.
Qed.
