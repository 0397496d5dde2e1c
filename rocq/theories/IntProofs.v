(** * Built-in integers: construction and multiplication (proofs only). *)

From Coq Require Import ZArith List Bool Reals Lra Lia.
From Verif Require Import Model Spec Limbs Value CmpProofs AddProofs Decide OrderProofs MulProofs MulValue MulExtra MulCor.
Import ListNotations.
Open Scope Z_scope.

Lemma ull_limbs_spec f : forall u, 0 <= u < Bp f ->
  limbs (ull_limbs f u) /\ mv (rev (ull_limbs f u)) = u /\ (length (ull_limbs f u) <= f)%nat /\
  (u <> 0 -> Bp (length (ull_limbs f u) - 1) <= u /\ (1 <= length (ull_limbs f u))%nat).
Proof.
  induction f as [|f IH]; intros u Hu.
  - rewrite Bp_0 in Hu. cbn [ull_limbs rev length]. rewrite mv_nil. split; [constructor|]. split; [lia|]. split; [lia|]. lia.
  - cbn [ull_limbs]. destruct (Z.eqb_spec u 0) as [->|Hn].
    + cbn [rev length]. rewrite mv_nil. split; [constructor|]. split; [lia|]. split; [lia|]. lia.
    + rewrite Bp_S in Hu. change mask with 100000000 in *.
      pose proof (Z.div_mod u 100000000 ltac:(lia)) as D. pose proof (Z.mod_pos_bound u 100000000 ltac:(lia)) as M.
      destruct (IH (u / 100000000)) as (H1 & H2 & H3 & H4).
      { split; [apply Z.div_pos; lia|]. apply Z.div_lt_upper_bound; lia. }
      split; [constructor; auto|]. split.
      { cbn [rev]. rewrite mv_app, H2, mv_cons, mv_nil. cbn [length]. rewrite Bp_S, !Bp_0. change mask with 100000000. lia. }
      split; [cbn [length]; lia|]. intros _. cbn [length]. split; [|lia].
      destruct (Z.eq_dec (u / 100000000) 0) as [E|E].
      * rewrite E. assert (El : length (ull_limbs f 0) = O) by (destruct f; reflexivity). rewrite El. cbn [Nat.sub]. rewrite Bp_0. lia.
      * destruct (H4 E) as [H5 H6]. replace (S (length (ull_limbs f (u / 100000000))) - 1)%nat with
          (S (length (ull_limbs f (u / 100000000)) - 1))%nat by lia. rewrite Bp_S. change mask with 100000000. lia.
Qed.

Lemma of_ull_spec d n : valid_digits d -> 0 <= n < 18446744073709551616 ->
  finite d (of_ull d n) /\ full d (of_ull d n) /\ value (of_ull d n) = IZR n /\ neg (of_ull d n) = false /\
  0 <= exp (of_ull d n) <= 16.
Proof.
  intros Hd Hn. pose proof (Nn_ge7 d Hd) as H7. pose proof (Nn_Z d Hd) as HNn. pose proof (elem_number_bounds d Hd) as HN.
  destruct (ull_limbs_spec 9 n) as (H1 & H2 & H3 & H4).
  { rewrite !Bp_S, Bp_0. change mask with 100000000. lia. }
  set (l := ull_limbs 9 n) in *.
  assert (Hlen : (length l <= 3)%nat).
  { destruct (Z.eq_dec n 0) as [->|E]; [cbn in l; unfold l; cbn; lia|].
    destruct (H4 E) as [H5 H6]. destruct (Nat.le_gt_cases (length l) 3); auto. exfalso.
    assert (Bp 3 <= Bp (length l - 1)) by (apply Bp_mono; lia). rewrite !Bp_S, Bp_0 in H0. change mask with 100000000 in H0. lia. }
  assert (E : of_ull d n = mkef (rev l ++ repeat 0 (Nn d - length l))
             (if (1 <? length l)%nat then Z.of_nat (length l - 1) * 8 else 0) false Finite (elem_number d)).
  { unfold of_ull. fold l. rewrite rev_length, Nat.min_l by lia. rewrite firstn_all2 by (rewrite rev_length; lia). reflexivity. }
  rewrite E.
  assert (Hex : (if (1 <? length l)%nat then Z.of_nat (length l - 1) * 8 else 0) = 8 * (Z.of_nat (length l - 1))).
  { destruct (Nat.ltb_spec 1 (length l)); lia. }
  rewrite Hex.
  assert (Hlr : limbs (rev l)) by (apply Forall_rev; auto).
  assert (F : finite d (mkef (rev l ++ repeat 0 (Nn d - length l)) (8 * Z.of_nat (length l - 1)) false Finite (elem_number d))).
  { split; [|reflexivity]. constructor; cbn [data exp neg cls prec].
    - rewrite app_length, rev_length, repeat_length. lia.
    - apply limbs_app; auto using limbs_repeat0.
    - rewrite Z.mul_comm. apply Z.mod_mul. lia.
    - lia.
    - intros _ H0. split; auto. destruct (Z.eq_dec n 0) as [->|En].
      + unfold l. cbn. apply Forall_forall. intros x Hx. apply repeat_spec in Hx. auto.
      + exfalso. destruct (H4 En) as [H5 H6].
        assert (Hz : limb (rev l) 0 = 0). { unfold limb. rewrite app_nth1 in H0 by (rewrite rev_length; lia). exact H0. }
        apply mv_lead_small in Hz; auto. rewrite rev_length in Hz. lia.
    - congruence. }
  split; [exact F|]. split; [reflexivity|]. split.
  - unfold value, sign. cbn [data exp neg]. rewrite limbs_value_app, limbs_value_repeat0, limbs_value_mv, H2, rev_length.
    destruct (Nat.eq_dec (length l) 0) as [L0|L0].
    + assert (n = 0). { rewrite <- H2. destruct l; [reflexivity|discriminate]. }
      rewrite H. ring.
    + replace (8 * Z.of_nat (length l - 1) - 8 * (Z.of_nat (length l) - 1)) with 0 by lia. rewrite p10_0. ring.
  - cbn [neg exp]. split; [reflexivity|]. clear - Hlen. lia.
Qed.

Lemma set_neg_false x : neg x = false -> set_neg x false = x.
Proof. intro H. destruct x; unfold set_neg; simpl in *; subst; auto. Qed.

Lemma of_sll_spec d n : valid_digits d -> -9223372036854775808 <= n < 9223372036854775808 ->
  finite d (of_sll d n) /\ full d (of_sll d n) /\ value (of_sll d n) = IZR n /\ neg (of_sll d n) = (n <? 0) /\
  0 <= exp (of_sll d n) <= 16.
Proof.
  intros Hd Hn. unfold of_sll. destruct (Z.ltb_spec n 0) as [Hneg|Hpos]; cbn [negb].
  - assert (E : u64 (- u64 n) = - n).
    { unfold u64. rewrite <- (Z_mod_plus_full n 1), Z.mul_1_l.
      rewrite (Z.mod_small (n + 18446744073709551616)) by lia.
      rewrite <- (Z_mod_plus_full (- (n + _)) 1), Z.mul_1_l. rewrite Z.mod_small by lia. lia. }
    rewrite E. destruct (of_ull_spec d (- n) Hd ltac:(lia)) as (F & P & V & Ng & Ex).
    assert (Z0 : limb (data (of_ull d (- n))) 0 <> 0).
    { intro Z0. apply (finite_zero_value d) in Z0; auto. rewrite V in Z0. apply (eq_IZR _ 0) in Z0. lia. }
    split; [|split; [exact P|split; [|split; [reflexivity|exact Ex]]]].
    + destruct F as [W C]. split; [|exact C]. destruct W. constructor; simpl; auto.
      intros _ H0. exfalso. apply Z0. exact H0.
    + unfold value in *. cbn [set_neg data exp neg]. rewrite Ng in V. unfold sign in *.
      replace (IZR n) with (- IZR (- n))%R by (rewrite opp_IZR; ring). rewrite <- V. ring.
  - rewrite u64_small by lia. destruct (of_ull_spec d n Hd ltac:(lia)) as (F & P & V & Ng & Ex).
    rewrite set_neg_false by auto. auto.
Qed.

(** ** Multiplication by an unsigned integer *)

Lemma skipn_len_app (a b : list Z) : skipn (length a) (a ++ b) = b.
Proof. rewrite skipn_app, skipn_all, Nat.sub_diag. reflexivity. Qed.

Definition mul_small (x : ef) (n : Z) : ef :=
  let p := Z.to_nat (prec x) in
  let '(r, c) := mul_loop_n (firstn p (data x)) (u32 n) in
  let r' := r ++ skipn p (data x) in
  if u32 c =? 0 then mkef r' (exp x) (neg x) (cls x) (prec x)
  else mkef (push_front p (u32 c) r') (exp x + 8) (neg x) (cls x) (prec x).

Lemma mul_small_spec d x n : valid_digits d -> finite d x -> limb (data x) 0 <> 0 -> 1 <= n < 100000000 ->
  let r := mul_small x n in
  finite d r /\ limb (data r) 0 <> 0 /\ prec r = prec x /\ neg r = neg x /\
  (exp r = exp x \/ exp r = exp x + 8) /\
  (Rabs (mag d (data r) (exp r) - IZR n * mag d (data x) (exp x)) <= 2 * powerRZ 10 (8 - 8 * prec x) * (IZR n * mag d (data x) (exp x)))%R /\
  (full d x -> (mag d (data r) (exp r) <= IZR n * mag d (data x) (exp x) < mag d (data r) (exp r) + ulp d (exp r))%R).
Proof.
  intros Hd [Wx Cx] Zx Hn.
  pose proof (elem_number_bounds d Hd) as HN. pose proof (Nn_Z d Hd) as HNn.
  pose proof (wf_prec _ _ Wx) as Px. pose proof (wf_limbs _ _ Wx) as Lx. pose proof (Nn_len d x Hd Wx) as Nx.
  set (p := Z.to_nat (prec x)) in *.
  assert (Hp : (2 <= p <= Nn d)%nat) by (unfold p; lia).
  unfold mul_small. fold p. rewrite (u32_small n) by lia.
  destruct (mul_loop_n (firstn p (data x)) n) as [r c] eqn:E.
  destruct (mul_loop_n_spec n (firstn p (data x)) (limbs_firstn _ _ Lx) ltac:(lia) r c E) as (Hmv & Hr & Hlr & Hc).
  rewrite firstn_length, Nat.min_l in Hmv, Hlr by lia.
  rewrite (u32_small c) by lia.
  set (U := mv (firstn p (data x))) in *. set (t := Bp (Nn d - p)). assert (Ht : 0 < t) by apply Bp_pos.
  assert (Hlead : Bp (p - 1) <= U).
  { unfold U. assert (Hl0 : limb (firstn p (data x)) 0 <> 0) by (rewrite firstn_limb0; auto; lia).
    apply mv_ge_lead in Hl0. rewrite firstn_length, Nat.min_l in Hl0 by lia. exact Hl0. apply limbs_firstn; auto.
    destruct (data x); [simpl in Nx; lia|]. destruct p; [lia|]. discriminate. }
  assert (HUb : U < Bp p).
  { unfold U. pose proof (mv_bound _ (limbs_firstn p _ Lx)) as B. rewrite firstn_length, Nat.min_l in B by lia. lia. }
  assert (HBp : Bp p = 100000000 * Bp (p - 1)) by (change 100000000 with mask; rewrite <- Bp_S; f_equal; lia).
  set (lx := mv (skipn p (data x))).
  assert (Hlx : 0 <= lx < t).
  { unfold lx, t. pose proof (mv_bound _ (limbs_skipn p _ Lx)) as B. rewrite skipn_length, Nx in B. exact B. }
  assert (Emx : mv (data x) = U * t + lx) by (rewrite (mv_split p (data x)) by lia; rewrite Nx; reflexivity).
  assert (Hlrr : limbs (r ++ skipn p (data x))) by (apply limbs_app; auto using limbs_skipn).
  assert (Hlenr : length (r ++ skipn p (data x)) = Nn d) by (rewrite app_length, skipn_length; lia).
  pose proof (mv_bound r Hr) as Br. rewrite Hlr in Br. pose proof (Bp_pos (p - 1)) as HB1.
  set (e := exp x). pose proof (ulp_pos d e) as Hulp.
  assert (Htx : (IZR (Bp (p - 1) * t) * p10 (8 - 8 * prec x) = IZR t)%R).
  { unfold t. rewrite mult_IZR, <- !p10_Bp, <- !p10_add. f_equal. lia. }
  assert (Hfull : full d x -> t = 1 /\ lx = 0).
  { intro Fx. assert (p = Nn d) by (unfold p, full in *; lia). unfold t. rewrite H, Nat.sub_diag. split; auto.
    unfold t in Hlx. rewrite H, Nat.sub_diag, Bp_0 in Hlx. lia. }
  assert (HM : (IZR n * mag d (data x) e = IZR (n * (U * t + lx)) * ulp d e)%R) by (unfold mag; rewrite Emx, (mult_IZR n); ring).
  fold e. rewrite HM.
  assert (HMlow : (IZR (n * (Bp (p - 1) * t)) * p10 (8 - 8 * prec x) = IZR (n * t))%R).
  { rewrite mult_IZR, Rmult_assoc, Htx, <- mult_IZR. reflexivity. }
  pose proof (p10_pos (8 - 8 * prec x)) as Hpp.
  destruct (Z.eqb_spec c 0) as [Ec|Ec]; cbn [data exp neg cls prec].
  - subst c. rewrite Z.mul_0_l, Z.add_0_r in Hmv.
    assert (Z0 : limb (r ++ skipn p (data x)) 0 <> 0).
    { unfold limb. rewrite app_nth1 by lia. apply lead_nonzero; auto. rewrite Hlr. nia. }
    assert (Emr : mv (r ++ skipn p (data x)) = n * U * t + lx).
    { rewrite mv_app, Hmv, skipn_length, Nx. fold t lx. ring. }
    split.
    { split; [|exact Cx]. constructor; cbn [data exp neg cls prec]; auto; try apply Wx.
      - rewrite Hlenr. exact HNn.
      - intros _ H. exfalso. apply Z0. exact H.
      - congruence. }
    split; [exact Z0|]. split; [reflexivity|]. split; [reflexivity|]. split; [left; reflexivity|].
    fold e. unfold mag. rewrite Emr. split.
    + rewrite <- Rmult_minus_distr_r, <- minus_IZR, Rabs_mult, (Rabs_pos_eq (ulp d e)) by lra.
      rewrite <- abs_IZR.
      assert (HA : (Z.abs (n * U * t + lx - n * (U * t + lx)) <= n * t)%Z) by nia.
      apply IZR_le in HA. rewrite <- HMlow in HA.
      assert ((IZR (n * (Bp (p - 1) * t)) <= IZR (n * (U * t + lx)))%R) by (apply IZR_le; nia).
      assert ((0 <= IZR (n * (Bp (p - 1) * t)))%R) by (apply IZR_le; nia).
      replace (2 * p10 (8 - 8 * prec x) * (IZR (n * (U * t + lx)) * ulp d e))%R with
        ((2 * p10 (8 - 8 * prec x) * IZR (n * (U * t + lx))) * ulp d e)%R by ring.
      apply Rmult_le_compat_r; [lra|]. nra.
    + intro Fx. destruct (Hfull Fx) as [-> ->]. replace (n * U * 1 + 0) with (n * (U * 1 + 0)) by ring. lra.
  - assert (Hcb : 0 < c < 100000000) by lia.
    assert (Hl2 : limbs (push_front p c (r ++ skipn p (data x)))) by (apply push_front_limbs; auto; unfold is_limb; lia).
    assert (Hlast : exists last, 0 <= last < 100000000 /\ mv r = mv (firstn (p - 1) r) * 100000000 + last).
    { exists (limb r (p - 1)). split; [apply (limb_bound r (p - 1) Hr)|].
      rewrite <- (firstn_all r) at 1. rewrite Hlr. replace p with (S (p - 1)) at 1 by lia. apply mv_firstn_S. lia. }
    destruct Hlast as (last & Hla & Hmr).
    assert (Emr : mv (push_front p c (r ++ skipn p (data x))) = (c * Bp (p - 1) + mv (firstn (p - 1) r)) * t + lx).
    { unfold push_front. rewrite mv_cons, mv_app. rewrite firstn_app, Hlr.
      replace (p - 1 - p)%nat with O by lia. cbn [firstn]. rewrite app_nil_r.
      assert (Es : skipn p (r ++ skipn p (data x)) = skipn p (data x)) by (rewrite <- Hlr at 1; apply skipn_len_app).
      rewrite Es. rewrite app_length, firstn_length, skipn_length, Nx, Hlr, Nat.min_l by lia.
      rewrite Bp_add. fold t lx. ring. }
    assert (EK : 100000000 * (c * Bp (p - 1) + mv (firstn (p - 1) r)) = n * U - last).
    { rewrite HBp in Hmv. lia. }
    set (K := c * Bp (p - 1) + mv (firstn (p - 1) r)) in *.
    split.
    { split; [|exact Cx]. constructor; cbn [data exp neg cls prec]; auto; try apply Wx.
      - rewrite push_front_length by lia. rewrite Hlenr. exact HNn.
      - pose proof (wf_exp _ _ Wx). fold e in H. rewrite Z.add_mod, H by lia. reflexivity.
      - intros _ H. exfalso. unfold push_front in H. simpl in H. lia.
      - congruence. }
    split; [unfold push_front, limb; simpl; lia|]. split; [reflexivity|]. split; [reflexivity|]. split; [right; reflexivity|].
    fold e. unfold mag. rewrite Emr, ulp_shift8. change mask with 100000000.
    replace (IZR (K * t + lx) * (IZR 100000000 * ulp d e))%R with (IZR ((n * U - last) * t + 100000000 * lx) * ulp d e)%R.
    2: { rewrite <- EK. rewrite !plus_IZR, !mult_IZR. ring. }
    split.
    + rewrite <- Rmult_minus_distr_r, <- minus_IZR, Rabs_mult, (Rabs_pos_eq (ulp d e)) by lra.
      rewrite <- abs_IZR.
      assert (HA : Z.abs ((n * U - last) * t + 100000000 * lx - n * (U * t + lx)) <= 2 * (100000000 * t)).
      { clear - Hla Hlx Hn Ht. replace ((n * U - last) * t + 100000000 * lx - n * (U * t + lx)) with ((100000000 - n) * lx - last * t) by ring.
        assert (0 <= (100000000 - n) * lx <= 100000000 * t) by nia. assert (0 <= last * t <= 100000000 * t) by nia. lia. }
      assert (HM2 : 100000000 * Bp (p - 1) * t <= n * (U * t + lx)).
      { assert (Bp p <= n * U) by (clear - Hmv Br Hcb; nia). rewrite <- HBp. clear - H Hlx Hn Ht. nia. }
      apply IZR_le in HA, HM2.
      replace (2 * p10 (8 - 8 * prec x) * (IZR (n * (U * t + lx)) * ulp d e))%R with
        ((2 * p10 (8 - 8 * prec x) * IZR (n * (U * t + lx))) * ulp d e)%R by ring.
      apply Rmult_le_compat_r; [lra|].
      assert (X : (IZR (100000000 * Bp (p - 1) * t) * p10 (8 - 8 * prec x) = IZR (100000000 * t))%R).
      { rewrite <- Z.mul_assoc, mult_IZR, Rmult_assoc, Htx, <- mult_IZR. reflexivity. }
      rewrite mult_IZR, <- X in HA. nra.
    + intro Fx. destruct (Hfull Fx) as [Et El]. rewrite Et, El.
      replace (IZR 100000000 * ulp d e)%R with (IZR 100000000 * ulp d e)%R by ring.
      replace ((n * U - last) * 1 + 100000000 * 0) with (n * U - last) by ring.
      replace (n * (U * 1 + 0)) with (n * U) by ring. rewrite minus_IZR.
      destruct Hla as [Hla1 Hla2]. apply IZR_le in Hla1. apply IZR_lt in Hla2. nra.
Qed.

Lemma mul_ull_cases d x n : valid_digits d -> finite d x -> 0 <= n < 18446744073709551616 ->
  mul_ull d x n =
    if (iszero x || (n =? 0))%bool then zero d
    else if n >=? mask then mul d x (of_ull d n)
    else if n =? 1 then x else mul_small x n.
Proof.
  intros Hd Fx Hn. unfold mul_ull. destruct (finite_flags d x Fx) as [-> ->]. reflexivity.
Qed.
