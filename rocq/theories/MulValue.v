(** * Multiplication: from digits to values (proofs only). *)

From Coq Require Import ZArith List Bool Reals Lra Lia.
From Verif Require Import Model Spec Limbs Value CmpProofs AddProofs MulProofs FftProofs.
Import ListNotations.
Open Scope Z_scope.

(** error units of the two loops *)
Definition E0 (p : Z) : Z := if p * 8 <? 5000 then p else 20000 * p.

Lemma E0_nonneg p : 0 <= p -> p <= E0 p.
Proof. unfold E0. destruct (Z.ltb_spec (p * 8) 5000); lia. Qed.

Lemma cols_lead u v p : limbs u -> limbs v -> (1 <= p)%nat -> limb u 0 * limb v 0 * Bp (p - 1) <= cols u v p.
Proof.
  intros Hu Hv Hp. destruct p as [|p]; [lia|]. clear Hp. replace (S p - 1)%nat with p by lia.
  induction p as [|p IH].
  - cbn [cols]. unfold col. cbn. rewrite Bp_0. lia.
  - cbn [cols] in *. rewrite Bp_S. pose proof (col_bound u v (S p) Hu Hv). change mask with 100000000 in *. lia.
Qed.

Lemma cols_nonneg u v p : limbs u -> limbs v -> 0 <= cols u v p.
Proof.
  intros Hu Hv. induction p; cbn [cols]; [lia|]. pose proof (col_bound u v p Hu Hv).
  change mask with 100000000 in *. lia.
Qed.

Lemma firstn_limb0 p l : (1 <= p)%nat -> limb (firstn p l) 0 = limb l 0.
Proof. intro H. destruct p; [lia|]. destruct l; reflexivity. Qed.

Lemma limb_firstn p l i : (i < p)%nat -> limb (firstn p l) i = limb l i.
Proof.
  unfold limb. revert p i. induction l; intros p i H; destruct p; simpl; try lia; destruct i; auto.
  apply IHl. lia.
Qed.

Lemma firstn_push_front p P c l : (1 <= p <= P)%nat -> (P <= length l)%nat ->
  firstn p (push_front P c l) = c :: firstn (p - 1) l.
Proof.
  intros H1 H2. unfold push_front. destruct p; [lia|]. cbn [firstn]. f_equal.
  replace (S p - 1)%nat with p by lia.
  rewrite firstn_app, firstn_firstn, firstn_length. replace (p - Nat.min (P - 1) (length l))%nat with O by lia.
  cbn [firstn]. rewrite app_nil_r. f_equal. lia.
Qed.

Lemma mul_ge1 a b c : 1 <= a -> 1 <= b -> 0 <= c -> c <= a * b * c.
Proof. intros. assert (1 <= a * b) by nia. nia. Qed.

Lemma mul_lt_cancel a b c : 0 < c -> a * c < b * c -> a < b.
Proof. intros. nia. Qed.

Lemma lt_square a b c : 0 <= a < c -> 0 <= b < c -> a * b < c * c.
Proof. intros. nia. Qed.

(** the digits produced, whatever the branch *)
Lemma mul_digits_core d u v : valid_digits d -> finite d u -> finite d v ->
  limb (data u) 0 <> 0 -> limb (data v) 0 <> 0 ->
  let p := Z.min (prec u) (prec v) in
  let q := Z.to_nat p in
  let r := mul_digits d (fun n => mul_loop_uv n (data u) (data v) 0) u v in
  let UV := mv (firstn q (data u)) * mv (firstn q (data v)) in
  exists k, (k <= 1)%nat /\ exp r = exp u + exp v + 8 * Z.of_nat k /\
    neg r = negb (Bool.eqb (neg u) (neg v)) /\ cls r = Finite /\ prec r = prec u /\
    limbs (data r) /\ length (data r) = Nn d /\ limb (data r) 0 <> 0 /\
    let D := UV - mv (firstn q (data r)) * Bp k * Bp (q - 1) in
    - Bp q < D <= E0 p * Bp q /\ (p = elem_number d -> 0 <= D).
Proof.
  intros Hd Fu Fv Zu Zv p q r UV.
  pose proof (elem_number_bounds d Hd) as HN. pose proof (Nn_Z d Hd) as HNn.
  destruct Fu as [Wu Cu]. destruct Fv as [Wv Cv].
  pose proof (wf_prec _ _ Wu) as Pu. pose proof (wf_prec _ _ Wv) as Pv.
  pose proof (wf_limbs _ _ Wu) as Lu. pose proof (wf_limbs _ _ Wv) as Lv.
  pose proof (Nn_len d u Hd Wu) as Nu. pose proof (Nn_len d v Hd Wv) as Nv.
  assert (Hp : 2 <= p <= elem_number d) by lia.
  assert (Hq : Z.of_nat q = p) by (unfold q; lia).
  pose proof (mv_bound _ (limbs_firstn q _ Lu)) as BU. pose proof (mv_bound _ (limbs_firstn q _ Lv)) as BV.
  rewrite firstn_length, Nat.min_l in BU, BV by lia.
  assert (HBq : Bp q = mask * Bp (q - 1)).
  { rewrite <- Bp_S. f_equal. lia. }
  pose proof (Bp_pos (q - 1)) as B1. change mask with 100000000 in HBq.
  unfold r, mul_digits. fold p. fold q.
  pose proof (limb_bound (data u) 0 Lu) as L0u. pose proof (limb_bound (data v) 0 Lv) as L0v. unfold is_limb in L0u, L0v.
  destruct (Z.ltb_spec (p * 8) 5000) as [Hs|Hs].
  - (* school *)
    destruct (mul_loop_uv q (data u) (data v) 0) as [rr c] eqn:E.
    destruct (mul_loop_uv_spec (data u) (data v) q rr c Lu Lv ltac:(lia) ltac:(lia) E) as (Lr & Hr & Hc & Hst & Hc0).
    pose proof (cols_product (data u) (data v) q Lu Lv ltac:(lia) ltac:(lia)) as HP. fold UV in HP.
    pose proof (cols_lead (data u) (data v) q Lu Lv ltac:(lia)) as Hlead.
    pose proof (mv_bound _ (limbs_firstn q _ Hr)) as Br. rewrite firstn_length, Nat.min_l in Br by lia.
    set (C := cols (data u) (data v) q) in *.
    assert (HC1 : Bp (q - 1) <= C).
    { eapply Z.le_trans; [|exact Hlead]. apply mul_ge1; lia. }
    assert (HC2 : C < 100000000 * Bp q).
    { apply (mul_lt_cancel _ _ (Bp (q - 1))); [exact B1|].
      replace (100000000 * Bp q * Bp (q - 1)) with (Bp q * Bp q) by (rewrite HBq at 1; ring).
      pose proof (lt_square _ _ _ BU BV) as X. fold UV in X. clear - X HP. lia. }
    replace (Z.of_nat (q - 1)) with (p - 1) in HP by lia.
    unfold E0. destruct (Z.ltb_spec (p * 8) 5000) as [_|]; [|lia].
    destruct (Z.eqb_spec c 0) as [Ec|Ec].
    + exists O. cbn [exp neg cls prec data]. subst c. rewrite Bp_0, Z.mul_1_r.
      split; [lia|]. split; [lia|]. split; [reflexivity|]. split; [exact Cu|]. split; [reflexivity|].
      split; [exact Hr|]. split; [lia|]. split.
      { rewrite <- (firstn_limb0 q) by lia. apply lead_nonzero; [apply limbs_firstn; auto|].
        rewrite firstn_length, Nat.min_l by lia. lia. }
      rewrite Z.mul_0_l, Z.add_0_r in Hc. rewrite Hc. cbv zeta. rewrite HBq. clear - HP B1 Hp. split; [nia|lia].
    + assert (Hcb : 0 < c < 100000000).
      { split; [lia|]. apply (mul_lt_cancel _ _ (Bp q)); [rewrite HBq; lia|]. clear - Hc HC2 Br. lia. }
      exists 1%nat. cbn [exp neg cls prec data].
      split; [lia|]. split; [lia|]. split; [reflexivity|]. split; [exact Cu|]. split; [reflexivity|].
      split; [apply push_front_limbs; auto; unfold is_limb; lia|].
      split; [rewrite push_front_length; lia|].
      split; [unfold push_front, limb; simpl; lia|].
      rewrite firstn_push_front by lia. rewrite mv_cons, firstn_length, Nat.min_l by lia.
      rewrite Bp_S, Bp_0, Z.mul_1_r.
      assert (Hr1 : mv (firstn q rr) = mv (firstn (q - 1) rr) * mask + limb rr (q - 1)).
      { replace q with (S (q - 1)) at 1 by lia. apply mv_firstn_S. lia. }
      pose proof (limb_bound rr (q - 1) Hr) as Lb. unfold is_limb in Lb. change mask with 100000000 in *.
      assert (HK : (c * Bp (q - 1) + mv (firstn (q - 1) rr)) * 100000000 = C - limb rr (q - 1)) by (rewrite HBq in Hc; clear - Hc Hr1; lia).
      rewrite HK. cbv zeta. rewrite HBq. set (x := limb rr (q - 1)) in *. clearbody x UV C. set (b := Bp (q - 1)) in *. clearbody b. clear - HP B1 Hp Lb. split; nia.
  - (* FFT *)
    destruct (mul_loop_fft_spec (data u) (data v) q Lu Lv ltac:(lia) ltac:(lia) ltac:(lia) ltac:(lia))
      as (l & E & Hll & Hl & HP & Hlead & _). fold UV in HP.
    rewrite E. pose proof (mv_bound l Hl) as Bl. rewrite Hll in Bl.
    assert (Lrr : limbs (l ++ skipn q (data u))) by (apply limbs_app; auto using limbs_skipn).
    assert (Hlen : length (l ++ skipn q (data u)) = Nn d) by (rewrite app_length, skipn_length; lia).
    assert (Hl0 : limb (l ++ skipn q (data u)) 0 = limb l 0).
    { unfold limb. apply app_nth1. lia. }
    rewrite Hl0.
    assert (Hlead' : Bp (q - 2) <= mv l) by (eapply Z.le_trans; [|exact Hlead]; apply mul_ge1; pose proof (Bp_pos (q - 2)); lia).
    unfold E0. destruct (Z.ltb_spec (p * 8) 5000) as [|_]; [lia|].
    destruct (Z.eqb_spec (limb l 0) 0) as [E0'|E0'].
    + exists O. cbn [exp neg cls prec data]. rewrite Bp_0, Z.mul_1_r.
      set (lim := Z.to_nat (Z.min (N d) (prec u + 1))).
      assert (Hlim : (q <= lim <= Nn d)%nat /\ ((q + 1 <= lim)%nat \/ (lim = Nn d /\ q = Nn d))).
      { unfold lim, N. lia. }
      destruct Hlim as [Hlim1 Hlim2].
      set (rr := l ++ skipn q (data u)) in *.
      set (sh := skipn 1 (firstn lim rr) ++ skipn (lim - 1) rr).
      assert (Lsh : limbs sh) by (apply limbs_app; auto using limbs_skipn, limbs_firstn).
      assert (Nsh : length sh = Nn d).
      { unfold sh. rewrite app_length, !skipn_length, firstn_length. lia. }
      destruct l as [|x l']; [simpl in Hll; lia|]. unfold limb in E0'; simpl in E0'. subst x.
      assert (Hfirst : firstn (q - 1) (upd (Nn d - 1) 0 sh) = l').
      { assert (Hrr : rr = 0 :: (l' ++ skipn q (data u))) by reflexivity.
        assert (F1 : firstn (q - 1) sh = l').
        { unfold sh. rewrite firstn_app, skipn_length, firstn_length, Hlen.
          replace (q - 1 - (Nat.min lim (Nn d) - 1))%nat with O by lia. cbn [firstn]. rewrite app_nil_r.
          rewrite Hrr. destruct lim as [|lim']; [lia|]. cbn [firstn skipn]. rewrite firstn_firstn, Nat.min_l by lia.
          rewrite firstn_app. simpl in Hll. replace (q - 1 - length l')%nat with O by lia. cbn [firstn].
          rewrite app_nil_r. apply firstn_all2. lia. }
        rewrite <- F1. apply nth_ext with (d := 0) (d' := 0); rewrite !firstn_length, ?upd_length; [lia|].
        intros i Hi. change (limb (firstn (q - 1) (upd (Nn d - 1) 0 sh)) i = limb (firstn (q - 1) sh) i).
        rewrite !limb_firstn by lia. apply limb_upd_other. lia. }
      rewrite mv_cons in *. rewrite Z.mul_0_l, Z.add_0_l in *.
      assert (Hmvq : mv (firstn q (upd (Nn d - 1) 0 sh)) = mv l' * 100000000 + limb (upd (Nn d - 1) 0 sh) (q - 1)).
      { replace q with (S (q - 1)) at 1 by lia. rewrite mv_firstn_S by (rewrite upd_length; lia).
        rewrite Hfirst. reflexivity. }
      assert (Lup : limbs (upd (Nn d - 1) 0 sh)) by (apply upd_limbs; auto; unfold is_limb; lia).
      pose proof (limb_bound _ (q - 1) Lup) as Lb. unfold is_limb in Lb.
      split; [lia|]. split; [lia|]. split; [reflexivity|]. split; [exact Cu|]. split; [reflexivity|].
      split; [exact Lup|]. split; [rewrite upd_length; lia|]. split.
      { rewrite <- (firstn_limb0 (q - 1)) by lia. rewrite Hfirst. simpl in Hll.
        apply lead_nonzero. inversion Hl; auto. replace (length l' - 1)%nat with (q - 2)%nat by lia. exact Hlead'. }
      rewrite Hmvq. rewrite HBq in *. cbv zeta.
      set (y := limb (upd (Nn d - 1) 0 sh) (q - 1)) in *. 
      split; [clearbody y UV; clear - HP B1 Hp Lb; nia|].
      intro HpN. assert (Hz : y = 0).
      { unfold y. replace (q - 1)%nat with (Nn d - 1)%nat by lia. apply limb_upd_same. lia. }
      rewrite Hz. clear - HP. lia.
    + exists 1%nat. cbn [exp neg cls prec data].
      split; [lia|]. split; [lia|]. split; [reflexivity|]. split; [exact Cu|]. split; [reflexivity|].
      split; [exact Lrr|]. split; [exact Hlen|]. split; [rewrite Hl0; exact E0'|].
      assert (F1 : firstn q (l ++ skipn q (data u)) = l).
      { rewrite firstn_app, Hll, Nat.sub_diag. cbn [firstn]. rewrite app_nil_r. apply firstn_all2. lia. }
      rewrite F1, Bp_S, Bp_0, Z.mul_1_r. change mask with 100000000. rewrite HBq in *. cbv zeta. clear - HP B1. split; lia.
Qed.

(** ** Values *)

Open Scope R_scope.

Lemma ulp_mul d a b : valid_digits d -> ulp d (a + b) = ulp d a * ulp d b * IZR (Bp (Nn d - 1)).
Proof.
  intro Hd. unfold ulp. rewrite <- p10_Bp, <- !p10_add. f_equal.
  pose proof (Nn_Z d Hd). pose proof (elem_number_bounds d Hd). lia.
Qed.

Lemma mul_mag d u v : valid_digits d -> finite d u -> finite d v ->
  limb (data u) 0 <> 0%Z -> limb (data v) 0 <> 0%Z ->
  let p := Z.min (prec u) (prec v) in
  let r := mul_digits d (fun n => mul_loop_uv n (data u) (data v) 0) u v in
  let e := (exp u + exp v)%Z in
  let M := mag d (data u) (exp u) * mag d (data v) (exp v) in
  let R := mag d (data r) (exp r) in
  - 2 * p10 (e + 16 - 8 * p) < M - R < IZR (E0 p + 2) * p10 (e + 16 - 8 * p) /\
  (p = elem_number d -> 0 <= M - R <= IZR (E0 p) * p10 (e + 16 - 8 * p)).
Proof.
  intros Hd Fu Fv Zu Zv p r e M R.
  pose proof (elem_number_bounds d Hd) as HN. pose proof (Nn_Z d Hd) as HNn.
  destruct (mul_digits_core d u v Hd Fu Fv Zu Zv) as (k & Hk & He & _ & _ & _ & Lr & Nr & _ & HD).
  fold p in HD. fold r in He, Lr, Nr, HD. cbv zeta in HD. set (q := Z.to_nat p) in *.
  destruct Fu as [Wu Cu]. destruct Fv as [Wv Cv].
  pose proof (wf_prec _ _ Wu) as Pu. pose proof (wf_prec _ _ Wv) as Pv.
  pose proof (wf_limbs _ _ Wu) as Lu. pose proof (wf_limbs _ _ Wv) as Lv.
  pose proof (Nn_len d u Hd Wu) as Nu. pose proof (Nn_len d v Hd Wv) as Nv.
  assert (Hp : (2 <= p <= elem_number d)%Z) by (unfold p; lia).
  assert (Hq : Z.of_nat q = p) by (unfold q; lia).
  assert (Hqn : (2 <= q <= Nn d)%nat) by lia.
  set (t := Bp (Nn d - q)) in *.
  assert (Ht : (0 < t)%Z) by apply Bp_pos.
  assert (Hsplit : forall l, limbs l -> length l = Nn d -> exists lo, mv l = (mv (firstn q l) * t + lo)%Z /\ (0 <= lo < t)%Z).
  { intros l Hl Hlen. exists (mv (skipn q l)). rewrite (mv_split q l) by lia. rewrite Hlen. split; [reflexivity|].
    pose proof (mv_bound _ (limbs_skipn q l Hl)) as B. rewrite skipn_length, Hlen in B. exact B. }
  destruct (Hsplit (data u) Lu Nu) as (lu & Eu & Bu).
  destruct (Hsplit (data v) Lv Nv) as (lv & Ev & Bv).
  destruct (Hsplit (data r) Lr Nr) as (lr & Er & Br).
  set (a := ulp d (exp u)). set (b := ulp d (exp v)).
  assert (Hab : 0 < a * b) by (apply Rmult_lt_0_compat; apply ulp_pos).
  set (MZ := (mv (data u) * mv (data v))%Z).
  set (RZ := (mv (data r) * Bp k * Bp (Nn d - 1))%Z).
  assert (EM : M = IZR MZ * (a * b)) by (unfold M, mag, MZ; fold a b; rewrite mult_IZR; ring).
  assert (ER : R = IZR RZ * (a * b)).
  { unfold R, mag, RZ. rewrite He, ulp_shift, ulp_mul by auto. fold a b. rewrite !mult_IZR. ring. }
  assert (HW : p10 (e + 16 - 8 * p) = IZR (Bp q * (t * t)) * (a * b)).
  { unfold a, b, t, ulp. rewrite !mult_IZR, <- !p10_Bp, <- !p10_add. f_equal. unfold e.
    pose proof Hq. rewrite Nat2Z.inj_sub by lia. lia. }
  rewrite HW, EM, ER.
  pose proof (mv_bound _ (limbs_firstn q _ Lu)) as BU. pose proof (mv_bound _ (limbs_firstn q _ Lv)) as BV.
  rewrite firstn_length, Nat.min_l in BU, BV by lia.
  assert (Bk : (1 <= Bp k <= 100000000)%Z).
  { destruct k as [|[|k]]; [rewrite Bp_0; lia | rewrite Bp_S, Bp_0; change mask with 100000000%Z; lia | lia]. }
  assert (HB1 : Bp q = (100000000 * Bp (q - 1))%Z).
  { change 100000000%Z with mask. rewrite <- Bp_S. f_equal. lia. }
  assert (HBn : Bp (Nn d - 1) = (t * Bp (q - 1))%Z).
  { unfold t. rewrite <- Bp_add. f_equal. lia. }
  pose proof (Bp_pos (q - 1)) as HB0. set (b1 := Bp (q - 1)) in *.
  set (U := mv (firstn q (data u))) in *. set (V := mv (firstn q (data v))) in *. set (K := mv (firstn q (data r))) in *.
  set (D := (U * V - K * Bp k * b1)%Z) in *.
  set (X := ((U * lv + V * lu) * t + lu * lv)%Z). set (Y := (lr * Bp k * (t * b1))%Z).
  assert (Ediff : (MZ - RZ = t * t * D + X - Y)%Z).
  { unfold MZ, RZ, D, X, Y. rewrite Eu, Ev, Er, HBn. ring. }
  assert (HX : (0 <= X <= t * t * (2 * Bp q - 1))%Z).
  { unfold X. rewrite HB1 in *. clear - BU BV Bu Bv Ht HB0.
    assert (0 <= U * lv <= (100000000 * b1 - 1) * (t - 1))%Z.
    { split; [apply Z.mul_nonneg_nonneg; lia|]. apply Z.mul_le_mono_nonneg; lia. }
    assert (0 <= V * lu <= (100000000 * b1 - 1) * (t - 1))%Z.
    { split; [apply Z.mul_nonneg_nonneg; lia|]. apply Z.mul_le_mono_nonneg; lia. }
    assert (0 <= lu * lv <= (t - 1) * (t - 1))%Z.
    { split; [apply Z.mul_nonneg_nonneg; lia|]. apply Z.mul_le_mono_nonneg; lia. }
    assert (0 <= (U * lv + V * lu) * t <= 2 * ((100000000 * b1 - 1) * (t - 1)) * t)%Z.
    { split; [apply Z.mul_nonneg_nonneg; lia|]. apply Z.mul_le_mono_nonneg_r; lia. }
    split; [lia|]. assert ((2 * ((100000000 * b1 - 1) * (t - 1)) * t + (t - 1) * (t - 1) <= t * t * (2 * (100000000 * b1) - 1))%Z); [|lia].
    clear - Ht HB0. assert (0 < b1 * t)%Z by (apply Z.mul_pos_pos; lia). nia. }
  assert (HY : (0 <= Y <= t * t * Bp q - 1)%Z).
  { unfold Y. rewrite HB1. clear - Br Bk Ht HB0.
    assert (0 <= lr * Bp k <= (t - 1) * 100000000)%Z.
    { split; [apply Z.mul_nonneg_nonneg; lia|]. apply Z.mul_le_mono_nonneg; lia. }
    assert (0 < t * b1)%Z by (apply Z.mul_pos_pos; lia).
    assert (0 <= lr * Bp k * (t * b1) <= (t - 1) * 100000000 * (t * b1))%Z.
    { split; [apply Z.mul_nonneg_nonneg; lia|]. apply Z.mul_le_mono_nonneg_r; lia. }
    split; [lia|]. clear - H0 H1. lia. }
  assert (HZ : (- (2 * (Bp q * (t * t))) < MZ - RZ < (E0 p + 2) * (Bp q * (t * t)))%Z).
  { rewrite Ediff. destruct HD as [[D1 D2] _]. assert (0 < t * t)%Z by (apply Z.mul_pos_pos; lia).
    assert (t * t * (- Bp q + 1) <= t * t * D <= t * t * (E0 p * Bp q))%Z.
    { split; apply Z.mul_le_mono_nonneg_l; lia. }
    clear - HX HY H H0. lia. }
  split.
  - rewrite <- Rmult_minus_distr_r, <- minus_IZR. destruct HZ as [HZ1 HZ2]. apply IZR_lt in HZ1, HZ2.
    split.
    + replace (-2 * (IZR (Bp q * (t * t)) * (a * b))) with (IZR (- (2 * (Bp q * (t * t)))) * (a * b)).
      2: { rewrite opp_IZR, (mult_IZR 2). ring. }
      apply Rmult_lt_compat_r; auto.
    + replace (IZR (E0 p + 2) * (IZR (Bp q * (t * t)) * (a * b))) with (IZR ((E0 p + 2) * (Bp q * (t * t))) * (a * b)) by (rewrite (mult_IZR (E0 p + 2)); ring).
      apply Rmult_lt_compat_r; auto.
  - intro HpN. destruct HD as [[D1 D2] D3]. specialize (D3 HpN).
    assert (Eq : q = Nn d) by lia.
    assert (Et : t = 1%Z) by (unfold t; rewrite Eq, Nat.sub_diag; apply Bp_0).
    assert (lu = 0 /\ lv = 0 /\ lr = 0)%Z as (-> & -> & ->) by lia.
    assert (HZ' : (0 <= MZ - RZ <= E0 p * (Bp q * (t * t)))%Z).
    { rewrite Ediff. unfold X, Y. rewrite Et. clear - D1 D2 D3. lia. }
    destruct HZ' as [HZ1 HZ2]. apply IZR_le in HZ1, HZ2.
    rewrite <- Rmult_minus_distr_r, <- minus_IZR. split.
    + apply Rmult_le_pos; lra.
    + replace (IZR (E0 p) * (IZR (Bp q * (t * t)) * (a * b))) with (IZR (E0 p * (Bp q * (t * t))) * (a * b)) by (rewrite (mult_IZR (E0 p)); ring).
      apply Rmult_le_compat_r; lra.
Qed.

Lemma mul_digits_finite d u v : valid_digits d -> finite d u -> finite d v ->
  limb (data u) 0 <> 0%Z -> limb (data v) 0 <> 0%Z ->
  let r := mul_digits d (fun n => mul_loop_uv n (data u) (data v) 0) u v in
  finite d r /\ limb (data r) 0 <> 0%Z /\ prec r = prec u /\ sign (neg r) = sign (neg u) * sign (neg v).
Proof.
  intros Hd Fu Fv Zu Zv r.
  destruct (mul_digits_core d u v Hd Fu Fv Zu Zv) as (k & Hk & He & Hn & Hc & Hp & Lr & Nr & Zr & _). fold r in He, Hn, Hc, Hp, Lr, Nr, Zr.
  destruct Fu as [Wu Cu]. destruct Fv as [Wv Cv].
  split; [|split; [exact Zr|split; [exact Hp|]]].
  - split; [|exact Hc]. constructor.
    + rewrite Nr. apply Nn_Z; auto.
    + exact Lr.
    + rewrite He. pose proof (wf_exp _ _ Wu). pose proof (wf_exp _ _ Wv). clear - H H0 Hk.
      rewrite Z.add_mod, (Z.add_mod (exp u)), H, H0 by lia. rewrite (Z.mul_comm 8), Z.mod_mul by lia. reflexivity.
    + rewrite Hp. apply Wu.
    + intros _ E. exfalso. apply Zr. exact E.
    + congruence.
  - rewrite Hn. destruct (neg u), (neg v); unfold sign; simpl; lra.
Qed.

(** The product digits, as values. *)
Lemma mul_digits_value d u v : valid_digits d -> finite d u -> finite d v ->
  limb (data u) 0 <> 0%Z -> limb (data v) 0 <> 0%Z ->
  let p := Z.min (prec u) (prec v) in
  let r := mul_digits d (fun n => mul_loop_uv n (data u) (data v) 0) u v in
  Rabs (value r - value u * value v) <= IZR (E0 p + 2) * p10 (16 - 8 * p) * Rabs (value u * value v) /\
  (p = elem_number d ->
   Rabs (value r) <= Rabs (value u * value v) <= Rabs (value r) + IZR (E0 p) * p10 (16 - 8 * p) * Rabs (value u * value v)) /\
  0 < value r * (value u * value v).
Proof.
  intros Hd Fu Fv Zu Zv p r.
  destruct (mul_mag d u v Hd Fu Fv Zu Zv) as [H1 H2]. fold p r in H1, H2.
  destruct (mul_digits_finite d u v Hd Fu Fv Zu Zv) as (Fr & Zr & _ & Hs). fold r in Fr, Zr, Hs.
  rewrite (value_mag d u Fu), (value_mag d v Fv), (value_mag d r Fr), Hs.
  pose proof (finite_abs_bounds d u Hd Fu Zu) as Bu. pose proof (finite_abs_bounds d v Hd Fv Zv) as Bv.
  pose proof (finite_abs_bounds d r Hd Fr Zr) as Br.
  rewrite (value_abs_mag d _ Fu) in Bu. rewrite (value_abs_mag d _ Fv) in Bv. rewrite (value_abs_mag d _ Fr) in Br.
  set (mu := mag d (data u) (exp u)) in *. set (mw := mag d (data v) (exp v)) in *. set (mr := mag d (data r) (exp r)) in *.
  set (s := sign (neg u)) in *. set (s' := sign (neg v)) in *.
  pose proof (p10_pos (exp u)). pose proof (p10_pos (exp v)). pose proof (p10_pos (exp r)).
  assert (HM : p10 (exp u + exp v) <= mu * mw) by (rewrite p10_add; apply Rmult_le_compat; lra).
  assert (HM0 : 0 < mu * mw) by (pose proof (p10_pos (exp u + exp v)); lra).
  assert (Hp : (2 <= p)%Z). { pose proof (wf_prec _ _ (proj1 Fu)). pose proof (wf_prec _ _ (proj1 Fv)). unfold p. lia. }
  assert (HE : 0 <= IZR (E0 p)) by (apply IZR_le; pose proof (E0_nonneg p ltac:(lia)); lia).
  assert (Hw : p10 (exp u + exp v + 16 - 8 * p) <= p10 (16 - 8 * p) * (mu * mw)).
  { replace (exp u + exp v + 16 - 8 * p)%Z with ((16 - 8 * p) + (exp u + exp v))%Z by lia. rewrite p10_add.
    apply Rmult_le_compat_l; auto. apply Rlt_le, p10_pos. }
  assert (S1 : Rabs (s * s') = 1) by (rewrite Rabs_mult; unfold s, s'; rewrite !sign_abs; ring).
  assert (S2 : (s * s') * (s * s') = 1).
  { replace (s * s' * (s * s')) with ((s * s) * (s' * s')) by ring. unfold s, s'. rewrite !sign_sq. ring. }
  replace (s * mu * (s' * mw)) with (s * s' * (mu * mw)) by ring.
  assert (A1 : Rabs (s * s' * (mu * mw)) = mu * mw) by (rewrite Rabs_mult, S1, Rabs_pos_eq; lra).
  assert (A2 : Rabs (s * s' * mr) = mr) by (rewrite Rabs_mult, S1, Rabs_pos_eq; lra).
  rewrite A1, A2. pose proof (p10_pos (exp u + exp v + 16 - 8 * p)).
  split; [|split].
  - rewrite <- Rmult_minus_distr_l, Rabs_mult, S1, Rmult_1_l. rewrite plus_IZR in *.
    apply Rle_trans with ((IZR (E0 p) + 2) * p10 (exp u + exp v + 16 - 8 * p)).
    + apply Rabs_le. nra.
    + rewrite Rmult_assoc. apply Rmult_le_compat_l; lra.
  - intro HpN. specialize (H2 HpN). split; [lra|].
    assert (IZR (E0 p) * p10 (exp u + exp v + 16 - 8 * p) <= IZR (E0 p) * p10 (16 - 8 * p) * (mu * mw)).
    { rewrite Rmult_assoc. apply Rmult_le_compat_l; lra. }
    lra.
  - replace (s * s' * mr * (s * s' * (mu * mw))) with ((s * s' * (s * s')) * (mr * (mu * mw))) by ring.
    rewrite S2, Rmult_1_l. apply Rmult_lt_0_compat; lra.
Qed.

(** ** The whole operation *)

Lemma mul_gen_ext d l1 l2 u v : (forall n, l1 n = l2 n) -> mul_gen d l1 u v = mul_gen d l2 u v.
Proof.
  intro H. unfold mul_gen. repeat match goal with |- (if ?b then _ else _) = _ => destruct b; auto end.
  unfold mul_digits. rewrite H. reflexivity.
Qed.

Lemma mul_self_eq d x : mul_self d x = mul d x x.
Proof. unfold mul_self, mul. apply mul_gen_ext. intro n. apply mul_loop_uu_eq. auto. Qed.

(** exponents leave the representable range *)
Definition exp_over (eu ev : Z) : Prop := (0 <= eu /\ 0 <= ev /\ 2147483616 <= eu + ev)%Z.
Definition exp_under (eu ev : Z) : Prop := (eu < 0 /\ ev < 0 /\ eu + ev <= -2147483616)%Z.

Lemma mul_finite_cases d u v : valid_digits d -> finite d u -> finite d v ->
  ((value u = 0 \/ value v = 0) /\ mul d u v = zero d) \/
  (limb (data u) 0 <> 0%Z /\ limb (data v) 0 <> 0%Z /\
   ((exp_over (exp u) (exp v) /\ mul d u v = signed_inf d (negb (Bool.eqb (neg u) (neg v)))) \/
    (exp_under (exp u) (exp v) /\ mul d u v = zero d) \/
    (~ exp_over (exp u) (exp v) /\ ~ exp_under (exp u) (exp v) /\
     mul d u v = mul_digits d (fun n => mul_loop_uv n (data u) (data v) 0) u v))).
Proof.
  intros Hd Fu Fv. unfold mul, mul_gen.
  assert (En : forall x, finite d x -> isnan x = false /\ isinf x = false).
  { intros x [_ C]. unfold isnan, isinf. rewrite C. auto. }
  destruct (En u Fu) as [-> ->]. destruct (En v Fv) as [-> ->]. cbn [orb andb].
  destruct (iszero u) eqn:Eu.
  { left. split; auto. left. apply (finite_zero_value d); auto. apply iszero_true; auto. apply Fu. }
  destruct (iszero v) eqn:Ev.
  { left. split; auto. right. apply (finite_zero_value d); auto. apply iszero_true; auto. apply Fv. }
  right. rewrite iszero_false in Eu by apply Fu. rewrite iszero_false in Ev by apply Fv.
  split; auto. split; auto. cbn [orb]. change max_exp10 with 2147483616%Z.
  unfold exp_over, exp_under.
  destruct (Z.ltb_spec (exp u) 0), (Z.ltb_spec (exp v) 0); cbn [Bool.eqb andb];
    rewrite ?Z.geb_leb; try (destruct (Z.leb_spec (2147483616 - Z.abs (exp u)) (Z.abs (exp v))));
    cbn [andb]; ((left; split; [lia|reflexivity]) || (right; left; split; [lia|reflexivity]) || (right; right; split; [lia|split; [lia|reflexivity]])).
Qed.

Lemma mul_wf d u v : valid_digits d -> wf d u -> wf d v -> wf d (mul d u v).
Proof.
  intros Hd Wu Wv.
  destruct (isfinite u) eqn:Fu; [destruct (isfinite v) eqn:Fv|].
  - assert (Cu : cls u = Finite) by (unfold isfinite in Fu; destruct (cls u); congruence).
    assert (Cv : cls v = Finite) by (unfold isfinite in Fv; destruct (cls v); congruence).
    destruct (mul_finite_cases d u v Hd (conj Wu Cu) (conj Wv Cv)) as [[_ ->]|(Zu & Zv & [[_ ->]|[[_ ->]|(_ & _ & ->)]])].
    + apply zero_finite; auto.
    + apply signed_inf_wf; auto.
    + apply zero_finite; auto.
    + apply mul_digits_finite; auto; split; auto.
  - unfold mul, mul_gen. destruct (isnan u || isnan v)%bool eqn:E0; cbn [orb]; [apply value_nan_wf; auto|].
    destruct (isinf u && iszero v || isinf v && iszero u)%bool; [apply value_nan_wf; auto|].
    destruct (isinf u || isinf v)%bool eqn:E; [apply signed_inf_wf; auto|]. exfalso.
    apply orb_false_iff in E0, E. unfold isfinite, isinf, isnan in *. destruct (cls v), E0, E; discriminate.
  - unfold mul, mul_gen. destruct (isnan u || isnan v)%bool eqn:E0; cbn [orb]; [apply value_nan_wf; auto|].
    destruct (isinf u && iszero v || isinf v && iszero u)%bool; [apply value_nan_wf; auto|].
    destruct (isinf u || isinf v)%bool eqn:E; [apply signed_inf_wf; auto|]. exfalso.
    apply orb_false_iff in E0, E. unfold isfinite, isinf, isnan in *. destruct (cls u), E0, E; discriminate.
Qed.
