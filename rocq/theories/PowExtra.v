(** * Exact powers, special bases, overflow; ldexp and frexp (proofs only). *)

From Coq Require Import ZArith List Bool Reals Lra Lia Psatz.
From Verif Require Import Model Spec Limbs Value CmpProofs AddProofs Decide OrderProofs MulProofs MulValue MulExtra MulCor
  IntProofs ModelDiv NewtonProofs InvProofs ModelPow PowGen PowProofs.
Import ListNotations.
Open Scope R_scope.
Ltac Zify.zify_post_hook ::= Z.div_mod_to_equations.
Local Notation p10 := (powerRZ 10).
Local Notation exp := Model.exp.

(** ** Exact products and powers *)

Lemma limb_count_nat m : forall M, (1 <= M < 10 ^ (8 * Z.of_nat m))%Z ->
  exists a, (1 <= a)%Z /\ (10 ^ (8 * (a - 1)) <= M < 10 ^ (8 * a))%Z.
Proof.
  induction m as [|m IH]; intros M HM; [simpl in HM; lia|].
  destruct (Z.lt_ge_cases M (10 ^ 8)) as [L|G].
  - exists 1%Z. split; [lia|]. replace (8 * (1 - 1))%Z with 0%Z by lia. replace (8 * 1)%Z with 8%Z by lia. lia.
  - assert (E : (10 ^ (8 * Z.of_nat (S m)) = 10 ^ 8 * 10 ^ (8 * Z.of_nat m))%Z).
    { rewrite <- Z.pow_add_r by lia. f_equal. lia. }
    change (10 ^ 8)%Z with 100000000%Z in *.
    destruct (IH (M / 100000000)%Z) as (a & Ha & Hb).
    { split; [lia|]. apply Z.div_lt_upper_bound; lia. }
    exists (a + 1)%Z. split; [lia|].
    replace (8 * (a + 1 - 1))%Z with (8 + 8 * (a - 1))%Z by lia. replace (8 * (a + 1))%Z with (8 + 8 * a)%Z by lia.
    rewrite !Z.pow_add_r by lia. change (10 ^ 8)%Z with 100000000%Z.
    set (p := (10 ^ (8 * (a - 1)))%Z) in *. set (q := (10 ^ (8 * a))%Z) in *. clearbody p q. lia.
Qed.

Lemma limb_count M : (1 <= M)%Z -> exists a, (1 <= a)%Z /\ (10 ^ (8 * (a - 1)) <= M < 10 ^ (8 * a))%Z.
Proof.
  intro H. apply (limb_count_nat (Z.to_nat M)). split; [lia|]. rewrite Z2Nat.id by lia.
  apply Z.lt_le_trans with (10 ^ M)%Z; [apply Z.pow_gt_lin_r; lia|apply Z.pow_le_mono_r; lia].
Qed.

Lemma elem_lower d : valid_digits d -> (d + 25 <= 8 * elem_number d)%Z.
Proof.
  intros [H1 H2]. unfold elem_number, max_digits10. destruct (Z.eqb_spec ((d + 1) mod 8) 0); lia.
Qed.

(* a decimal number K * 10^i written with base 10^8 digits *)
Lemma align_limbs K i : exists q r, (0 <= r <= 7)%Z /\ (i = 8 * q + r)%Z /\
  IZR K * p10 i = IZR (K * 10 ^ r) * p10 (8 * q).
Proof.
  exists (i / 8)%Z, (i mod 8)%Z. pose proof (Z.div_mod i 8 ltac:(lia)) as E. pose proof (Z.mod_pos_bound i 8 ltac:(lia)) as B.
  split; [lia|]. split; [lia|]. rewrite mult_IZR. rewrite E at 1. rewrite p10_add.
  rewrite <- (p10_nonneg (i mod 8)) by lia. ring.
Qed.

Lemma pow10_lt_inv a b : (0 <= a)%Z -> (0 <= b)%Z -> (10 ^ a < 10 ^ b)%Z -> (a < b)%Z.
Proof. intros Ha Hb H. apply (Z.pow_lt_mono_r_iff 10); lia. Qed.

Lemma mul_zero_l d u v : valid_digits d -> finite d u -> finite d v -> value u = 0 \/ value v = 0 -> mul d u v = zero d.
Proof.
  intros Hd Fu Fv H. destruct (mul_finite_cases d u v Hd Fu Fv) as [[_ E]|(N1 & N2 & _)]; auto. exfalso.
  pose proof (finite_abs_bounds d u Hd Fu N1) as [B1 _]. pose proof (finite_abs_bounds d v Hd Fv N2) as [B2 _].
  pose proof (p10_pos (exp u)). pose proof (p10_pos (exp v)).
  destruct H as [H|H]; rewrite H, Rabs_R0 in *; lra.
Qed.

Lemma zero_ok d : valid_digits d -> finite d (zero d) /\ full d (zero d) /\ value (zero d) = 0.
Proof. intro Hd. destruct (of_ull_spec d 0 Hd ltac:(lia)) as (F & P & V & _). auto. Qed.

(** Products whose exact value has at most digits10 + 3 digits are exact. *)
Lemma mul_exact_digits d u v K1 i1 K2 i2 : valid_digits d -> finite d u -> finite d v -> full d u -> full d v ->
  (-2147483616 < exp u + exp v < 2147483616)%Z ->
  value u = IZR K1 * p10 i1 -> value v = IZR K2 * p10 i2 -> (Z.abs (K1 * K2) < 10 ^ (d + 3))%Z ->
  value (mul d u v) = value u * value v.
Proof.
  intros Hd Fu Fv Pu Pv He Eu Ev HK.
  destruct (Z.eq_dec K1 0) as [Z1|N1].
  { rewrite mul_zero_l; auto; [|left; rewrite Eu, Z1; ring]. rewrite (proj2 (proj2 (zero_ok d Hd))), Eu, Z1. ring. }
  destruct (Z.eq_dec K2 0) as [Z2|N2].
  { rewrite mul_zero_l; auto; [|right; rewrite Ev, Z2; ring]. rewrite (proj2 (proj2 (zero_ok d Hd))), Ev, Z2. ring. }
  destruct (align_limbs K1 i1) as (q1 & r1 & R1 & _ & A1). destruct (align_limbs K2 i2) as (q2 & r2 & R2 & _ & A2).
  assert (T : forall r, (0 <= r <= 7)%Z -> (1 <= 10 ^ r <= 10 ^ 7)%Z).
  { intros r Hr. split; [|apply Z.pow_le_mono_r; lia]. change 1%Z with (10 ^ 0)%Z. apply Z.pow_le_mono_r; lia. }
  assert (G : forall K r, K <> 0%Z -> (0 <= r <= 7)%Z -> exists a, (1 <= a)%Z /\
    (10 ^ (8 * (a - 1)) <= Z.abs (K * 10 ^ r) < 10 ^ (8 * a))%Z /\ (Z.abs (K * 10 ^ r) <= Z.abs K * 10 ^ 7)%Z).
  { intros K r HK0 Hr. specialize (T r Hr).
    assert (E : (Z.abs (K * 10 ^ r) = Z.abs K * 10 ^ r)%Z) by (rewrite Z.abs_mul; f_equal; apply Z.abs_eq; lia).
    destruct (limb_count (Z.abs (K * 10 ^ r))) as (a & Ha & Hb); [rewrite E; nia|].
    exists a. split; [exact Ha|]. split; [exact Hb|]. rewrite E. apply Z.mul_le_mono_nonneg_l; lia. }
  destruct (G K1 r1 N1 R1) as (a & Ha & [Ba Ca] & Da). destruct (G K2 r2 N2 R2) as (b & Hb & [Bb Cb] & Db).
  rewrite A1 in Eu. rewrite A2 in Ev.
  apply (mul_exact' d u v (K1 * 10 ^ r1) q1 a (K2 * 10 ^ r2) q2 b); auto; try (clear - Ha Hb; lia).
  pose proof (elem_lower d Hd) as EL.
  assert (L : (10 ^ (8 * (a - 1) + 8 * (b - 1)) < 10 ^ (d + 3 + 14))%Z).
  { rewrite (Z.pow_add_r 10 (8 * (a - 1))) by (clear - Ha Hb; lia). rewrite (Z.pow_add_r 10 (d + 3)) by (clear - Hd; destruct Hd; lia).
    rewrite Z.abs_mul in HK.
    apply Z.le_lt_trans with ((Z.abs K1 * 10 ^ 7) * (Z.abs K2 * 10 ^ 7))%Z.
    - apply Z.mul_le_mono_nonneg; [apply Z.pow_nonneg; clear; lia|eapply Z.le_trans; eassumption|apply Z.pow_nonneg; clear; lia|eapply Z.le_trans; eassumption].
    - replace (Z.abs K1 * 10 ^ 7 * (Z.abs K2 * 10 ^ 7))%Z with (Z.abs K1 * Z.abs K2 * 10 ^ 14)%Z by ring.
      apply Z.mul_lt_mono_pos_r; [clear; lia|exact HK]. }
  clear - L Hd Ha Hb EL. apply pow10_lt_inv in L; destruct Hd; lia.
Qed.

(** Powers whose exact value has at most digits10 + 3 digits are exact. *)
Lemma powerRZ_mult_base K i k : (0 <= k)%Z -> powerRZ (IZR K * p10 i) k = IZR (K ^ k) * p10 (i * k).
Proof.
  intros Hk. rewrite powerRZ_mult. f_equal.
  - rewrite powerRZ_pow by exact Hk. rewrite <- (Z2Nat.id k) at 2 by exact Hk. apply pow_IZR.
  - rewrite powerRZ_pow by exact Hk. rewrite <- (Z2Nat.id k) at 2 by exact Hk. clear.
    induction (Z.to_nat k) as [|m IH]; [cbn; rewrite Z.mul_0_r; reflexivity|].
    cbn [pow]. rewrite IH, <- p10_add. f_equal. lia.
Qed.

Lemma pow_exact d b n K i : valid_digits d -> finite d b -> full d b -> value b <> 0 -> (0 <= n < 9223372036854775808)%Z ->
  in_range (powerRZ (value b) n) -> value b = IZR K * p10 i -> (Z.abs K ^ n < 10 ^ (d + 3))%Z ->
  forall r, pow_int d b n = Defined r \/ pown d b n = Defined r -> value r = powerRZ (value b) n.
Proof.
  intros Hd F P V Hn Rn Eb HK r E.
  destruct (mul_eps_small d Hd) as [[E0 E1] _].
  assert (NK : (1 <= Z.abs K)%Z).
  { destruct (Z.eq_dec K 0) as [->|N]; [|lia]. exfalso. apply V. rewrite Eb. ring. }
  pose (A := fun m k x => approx d (product_error d) b m k x).
  assert (Ne : IZR (Z.max 1 n) * product_error d <= 1 / 4).
  { pose proof (mul_eps_n d n Hd ltac:(lia)). pose proof p10_m16. lra. }
  assert (AM : forall m m' j k x y, (0 <= m <= n)%Z -> (0 <= m' <= n)%Z -> (0 <= j)%Z -> (0 <= k)%Z -> (j + k <= n)%Z ->
    A m j x -> A m' k y -> A (m + m' + 1)%Z (j + k)%Z (mul d x y)).
  { intros. unfold A. apply (approx_mul d (product_error d) b n); auto; [lra|intros; apply mul_eps_acc; auto]. }
  assert (EX : forall m m' j k x y, (0 <= m <= n)%Z -> (0 <= m' <= n)%Z -> (0 <= j)%Z -> (0 <= k)%Z -> (j + k <= n)%Z ->
    A m j x -> A m' k y -> value x = powerRZ (value b) j -> value y = powerRZ (value b) k ->
    value (mul d x y) = powerRZ (value b) (j + k)).
  { intros m m' j k x y H1 H2 H3 H4 H5 Ax Ay Vx Vy.
    assert (He : (-2147483616 < exp x + exp y < 2147483616)%Z).
    { apply (exps_ok d (product_error d) b n) with (m := m) (m' := m') (j := j) (k := k); auto. lra. }
    destruct Ax as (Fx & Px & _). destruct Ay as (Fy & Py & _).
    rewrite (mul_exact_digits d x y (K ^ j) (i * j) (K ^ k) (i * k)); auto.
    - rewrite Vx, Vy. symmetry. apply powerRZ_add. exact V.
    - rewrite Vx, Eb. apply powerRZ_mult_base. lia.
    - rewrite Vy, Eb. apply powerRZ_mult_base. lia.
    - rewrite <- Z.pow_add_r by lia. rewrite Z.abs_pow. apply Z.le_lt_trans with (2 := HK).
      apply Z.pow_le_mono_r; lia. }
  pose (PP := fun k x => A (k - 1)%Z k x /\ value x = powerRZ (value b) k).
  pose (QQ := fun k x => A k k x /\ value x = powerRZ (value b) k).
  assert (O : QQ 0%Z (one d)).
  { split; [apply approx_one; auto|]. cbn [powerRZ]. apply (of_ull_spec d 1 Hd); lia. }
  assert (P1 : PP 1%Z b).
  { split; [apply approx_base; auto|]. symmetry. apply powerRZ_1. }
  assert (PQ : forall k x, (1 <= k <= n)%Z -> PP k x -> QQ k x).
  { intros k x _ [H1 H2]. split; auto. eapply approx_le; [left; exact E0| |exact H1]. lia. }
  assert (Psq : forall k x, (1 <= k)%Z -> (2 * k <= n)%Z -> PP k x -> PP (2 * k)%Z (mul d x x)).
  { intros k x H1 H2 [H3 H4]. replace (2 * k)%Z with (k + k)%Z by lia. split.
    - replace (k + k - 1)%Z with ((k - 1) + (k - 1) + 1)%Z by lia. apply AM; auto; lia.
    - apply (EX (k - 1)%Z (k - 1)%Z); auto; lia. }
  assert (Qm : forall j k x y, (0 <= j)%Z -> (1 <= k)%Z -> (j + k <= n)%Z -> QQ j x -> PP k y -> QQ (j + k)%Z (mul d x y)).
  { intros j k x y H1 H2 H3 [H4 H5] [H6 H7]. split.
    - replace (j + k)%Z with (j + (k - 1) + 1)%Z at 1 by lia. apply AM; auto; lia.
    - apply (EX j (k - 1)%Z); auto; lia. }
  assert (R1 : QQ n (pow_nonneg (one d) (mul d) (mul_self d) b n)).
  { apply (pow_nonneg_ind (one d) (mul d) (mul_self d) (mul_self_eq d) PP QQ b n); auto. lia. }
  assert (R2 : QQ n (pown_nonneg (one d) (of_sll d 1) (mul d) (mul_self d) b n)).
  { apply (pown_nonneg_ind (one d) (of_sll d 1) (mul d) (mul_self d) (mul_self_eq d) PP QQ b n); auto. lia. }
  destruct E as [E|E]; unfold pow_int, pown, pow_gen, pown_gen in E; destruct (Z.ltb_spec n 0); try lia; injection E as <-.
  - apply R1.
  - apply R2.
Qed.

(** ** Special bases *)

Lemma pow_result d b n r : (0 <= n)%Z -> pow_int d b n = Defined r \/ pown d b n = Defined r ->
  r = pow_nonneg (one d) (mul d) (mul_self d) b n \/ r = pown_nonneg (one d) (of_sll d 1) (mul d) (mul_self d) b n.
Proof.
  intros Hn E.
  destruct E as [E|E]; unfold pow_int, pown, pow_gen, pown_gen in E; destruct (Z.ltb_spec n 0); try lia; injection E as <-; auto.
Qed.

Lemma neg_result d b n r : (0 < n < 9223372036854775808)%Z -> pow_int d b (- n) = Defined r \/ pown d b (- n) = Defined r ->
  exists q, r = div d (of_sll d 1) q /\ (pow_int d b n = Defined q \/ pown d b n = Defined q).
Proof.
  intros Hn E.
  destruct E as [E|E]; unfold pow_int, pown, pow_gen, pown_gen in *; change sll_min with (-9223372036854775808)%Z in *;
      destruct (Z.ltb_spec (- n) 0); try lia; destruct (Z.eqb_spec (- n) (-9223372036854775808)); try lia;
      rewrite Z.opp_involutive in E; injection E as <-; destruct (Z.ltb_spec n 0); try lia; eauto.
Qed.

(* induction with one family, restricted to positive exponents, for the result *)
Lemma pow_family d b n (P : Z -> ef -> Prop) r : valid_digits d -> (1 <= n < 9223372036854775808)%Z ->
  P 1%Z b ->
  (forall j k x y, (1 <= j)%Z -> (1 <= k)%Z -> (j + k <= n)%Z -> P j x -> P k y -> P (j + k)%Z (mul d x y)) ->
  (forall k y, (1 <= k <= n)%Z -> P k y -> P k (mul d (one d) y)) ->
  pow_int d b n = Defined r \/ pown d b n = Defined r -> P n r.
Proof.
  intros Hd Hn P1 Pm Po E. apply pow_result in E; [|lia].
  pose (Q := fun k x => (k = 0%Z /\ x = one d) \/ ((1 <= k)%Z /\ P k x)).
  assert (O : Q 0%Z (one d)) by (left; auto).
  assert (PQ : forall k x, (1 <= k <= n)%Z -> P k x -> Q k x) by (intros; right; split; auto; lia).
  assert (Ps : forall k x, (1 <= k)%Z -> (2 * k <= n)%Z -> P k x -> P (2 * k)%Z (mul d x x)).
  { intros k x H1 H2 H3. replace (2 * k)%Z with (k + k)%Z by lia. apply Pm; auto. lia. }
  assert (Qm : forall j k x y, (0 <= j)%Z -> (1 <= k)%Z -> (j + k <= n)%Z -> Q j x -> P k y -> Q (j + k)%Z (mul d x y)).
  { intros j k x y H1 H2 H3 [[-> ->]|[H4 H5]] H6; right; (split; [lia|]).
    - apply Po; auto; lia.
    - apply Pm; auto. }
  assert (R : Q n r).
  { destruct E as [->| ->].
    - apply (pow_nonneg_ind (one d) (mul d) (mul_self d) (mul_self_eq d) P Q b n); auto. lia.
    - apply (pown_nonneg_ind (one d) (of_sll d 1) (mul d) (mul_self d) (mul_self_eq d) P Q b n); auto. lia. }
  destruct R as [[R _]|[_ R]]; [lia|exact R].
Qed.

Lemma one_ok d : valid_digits d -> finite d (one d) /\ full d (one d) /\ value (one d) = 1.
Proof. intro Hd. destruct (of_ull_spec d 1 Hd ltac:(lia)) as (F & P & V & _). auto. Qed.

Lemma pow_special d b n : valid_digits d -> wf d b -> (0 < n < 9223372036854775808)%Z ->
  (forall r, pow_int d b n = Defined r \/ pown d b n = Defined r ->
     (is_nan b -> is_nan r) /\
     (forall s, is_inf b s -> is_inf r (s && Z.odd n)) /\
     (finite d b -> value b = 0 -> finite d r /\ value r = 0)) /\
  (forall r, pow_int d b (- n) = Defined r \/ pown d b (- n) = Defined r ->
     (is_nan b -> is_nan r) /\
     (forall s, is_inf b s -> finite d r /\ value r = 0) /\
     (finite d b -> value b = 0 -> is_inf r false)).
Proof.
  intros Hd W Hn. destruct (one_ok d Hd) as (O1 & O2 & O3). destruct (one_s_ok d Hd) as (S1 & S2 & S3).
  assert (PS : forall r, pow_int d b n = Defined r \/ pown d b n = Defined r ->
     wf d r /\ (is_nan b -> is_nan r) /\
     (forall s, is_inf b s -> is_inf r (s && Z.odd n)) /\
     (finite d b -> value b = 0 -> finite d r /\ value r = 0)).
  { intros r E. split; [|split; [|split]].
    - apply (pow_family d b n (fun _ x => wf d x) r); auto; try lia; intros; apply mul_wf; auto; apply O1.
    - intros N. apply (pow_family d b n (fun _ x => wf d x /\ is_nan x) r); auto; try lia.
      + intros j k x y _ _ _ [W1 N1] [W2 N2]. split; [apply mul_wf; auto|]. apply (mul_special d x y Hd W1 W2). auto.
      + intros k y _ [W1 N1]. split; [apply mul_wf; auto; apply O1|]. apply (mul_special d (one d) y Hd (proj1 O1) W1). auto.
    - intros s I. apply (pow_family d b n (fun k x => wf d x /\ is_inf x (s && Z.odd k)) r); auto; try lia.
      + rewrite Z.odd_1, andb_true_r. auto.
      + intros j k x y _ _ _ [W1 N1] [W2 N2]. split; [apply mul_wf; auto|].
        destruct (mul_special d x y Hd W1 W2) as (_ & _ & _ & _ & _ & H & _). specialize (H _ _ N1 N2).
        rewrite Z.odd_add. destruct s; [exact H|]. exact H.
      + intros k y _ [W1 N1]. split; [apply mul_wf; auto; apply O1|].
        destruct (mul_special d (one d) y Hd (proj1 O1) W1) as (_ & _ & _ & _ & H & _).
        specialize (H _ N1 O1 ltac:(rewrite O3; lra)).
        change (neg (one d)) with false in H. rewrite xorb_false_l in H. exact H.
    - intros F V. apply (pow_family d b n (fun k x => finite d x /\ value x = 0) r); auto; try lia.
      + intros j k x y _ _ _ [W1 N1] [W2 N2]. rewrite mul_zero_l; auto. destruct (zero_ok d Hd) as (? & _ & ?); auto.
      + intros k y _ [W1 N1]. rewrite mul_zero_l; auto. destruct (zero_ok d Hd) as (? & _ & ?); auto. }
  split; intros r E.
  - apply PS in E. apply E.
  - apply neg_result in E; [|exact Hn]. destruct E as (q & -> & E). apply PS in E. destruct E as (Wq & E1 & E2 & E3).
    destruct (div_special d (of_sll d 1) q Hd (proj1 S1) Wq) as (D1 & D2 & D3 & D4 & D5 & D6).
    split; [|split].
    + intros N. apply D1. right. auto.
    + intros s I. apply (D3 (s && Z.odd n)%bool); auto.
    + intros F V. destruct (E3 F V) as [Fq Vq]. apply (D5 S1 Fq); auto. rewrite S3. lra.
Qed.

Lemma pow_zero_exponent d b : pow_int d b 0 = Defined (one d) /\ pown d b 0 = Defined (of_sll d 1).
Proof. split; reflexivity. Qed.

(** ** Powers leaving the exponent range *)

Lemma pow_family2 d b n (P Q : Z -> ef -> Prop) r : (1 <= n < 9223372036854775808)%Z ->
  P 1%Z b -> Q 0%Z (one d) -> (forall k x, (1 <= k <= n)%Z -> P k x -> Q k x) ->
  (forall k x, (1 <= k)%Z -> (2 * k <= n)%Z -> P k x -> P (k + k)%Z (mul d x x)) ->
  (forall j k x y, (0 <= j)%Z -> (1 <= k)%Z -> (j + k <= n)%Z -> Q j x -> P k y -> Q (j + k)%Z (mul d x y)) ->
  pow_int d b n = Defined r \/ pown d b n = Defined r -> Q n r.
Proof.
  intros Hn P1 O PQ Ps Qm E. apply pow_result in E; [|lia].
  assert (Ps' : forall k x, (1 <= k)%Z -> (2 * k <= n)%Z -> P k x -> P (2 * k)%Z (mul d x x)).
  { intros k x. replace (2 * k)%Z with (k + k)%Z by lia. intros; apply Ps; auto; lia. }
  destruct E as [->| ->].
  - apply (pow_nonneg_ind (one d) (mul d) (mul_self d) (mul_self_eq d) P Q b n); auto. lia.
  - apply (pown_nonneg_ind (one d) (of_sll d 1) (mul d) (mul_self d) (mul_self_eq d) P Q b n); auto. lia.
Qed.

Lemma approx_bounds d b n m k x : valid_digits d -> value b <> 0 -> (0 <= m <= n)%Z -> (n < 9223372036854775808)%Z ->
  approx d (product_error d) b m k x ->
  value x <> 0 /\ p10 (exp x) <= Rabs (powerRZ (value b) k) < 2 * p10 (exp x + 8).
Proof.
  intros Hd V Hm Hn (F & P & S & U & L). pose proof (nz_of_mul _ _ S) as N.
  pose proof (finite_abs_bounds d x Hd F (value_nonzero_lead d x Hd F N)) as [B1 B2].
  split; [exact N|]. split; [lra|].
  destruct (mul_eps_small d Hd) as [[E0 E1] _].
  pose proof (mul_eps_n d n Hd ltac:(lia)) as En. pose proof p10_m16 as M16.
  assert (IZR m * product_error d <= 1 / 2).
  { apply Rle_trans with (IZR (Z.max 1 n) * product_error d); [|lra]. apply Rmult_le_compat_r; [lra|]. apply IZR_le. lia. }
  pose proof (Rabs_pos (powerRZ (value b) k)).
  assert (1 / 2 * Rabs (powerRZ (value b) k) <= Rabs (value x)).
  { apply Rle_trans with (2 := L). apply Rmult_le_compat_r; lra. }
  lra.
Qed.

Lemma sign_of_power d b k x eps m : valid_digits d -> finite d b -> value b <> 0 -> (0 <= k)%Z -> approx d eps b m k x ->
  neg x = (neg b && Z.odd k)%bool.
Proof.
  intros Hd Fb V Hk (F & P & S & U & L). pose proof (nz_of_mul _ _ S) as N.
  assert (PS : if (neg b && Z.odd k)%bool then powerRZ (value b) k < 0 else 0 < powerRZ (value b) k).
  { pose proof (finite_value_sign d b Hd Fb (value_nonzero_lead d b Hd Fb V)) as Sb.
    rewrite (powerRZ_pow (value b) k Hk).
    replace (Z.odd k) with (Z.odd (Z.of_nat (Z.to_nat k))) by (rewrite Z2Nat.id by exact Hk; reflexivity). clear - Sb.
    induction (Z.to_nat k) as [|i IH].
    - rewrite andb_false_r. cbn. lra.
    - rewrite Nat2Z.inj_succ, Z.odd_succ, <- Z.negb_odd. cbn [pow]. destruct (neg b); cbn [andb] in *; [|nra].
      destruct (Z.odd (Z.of_nat i)); cbn [negb]; nra. }
  pose proof (finite_value_sign d x Hd F (value_nonzero_lead d x Hd F N)) as Sx.
  destruct (neg b && Z.odd k)%bool; destruct (neg x); auto; exfalso.
  - assert (0 < - (value x * powerRZ (value b) k)); [|lra]. replace (- (value x * powerRZ (value b) k)) with (value x * - powerRZ (value b) k) by ring.
    apply Rmult_lt_0_compat; lra.
  - assert (0 < - (value x * powerRZ (value b) k)); [|lra]. replace (- (value x * powerRZ (value b) k)) with (- value x * powerRZ (value b) k) by ring.
    apply Rmult_lt_0_compat; lra.
Qed.

Lemma pow_ge1 v k : 1 <= Rabs v -> (0 <= k)%Z -> 1 <= Rabs (powerRZ v k).
Proof. intros H Hk. rewrite (abs_powerRZ v k Hk). apply pow_R1_Rle. exact H. Qed.

Lemma xorb_andb s a c : xorb (s && a) (s && c) = (s && xorb a c)%bool.
Proof. destruct s, a, c; reflexivity. Qed.

Lemma pow_overflow d b n : valid_digits d -> finite d b -> full d b -> 1 <= Rabs (value b) -> (exp b <= 2147483616)%Z ->
  (1 <= n < 9223372036854775808)%Z ->
  forall r, pow_int d b n = Defined r \/ pown d b n = Defined r ->
  (approx d (product_error d) b n n r /\ (exp r <= 2147483616)%Z) \/
  (is_inf r (neg b && Z.odd n) /\ p10 2147483616 <= Rabs (powerRZ (value b) n)).
Proof.
  intros Hd Fb Pb Vb He Hn r E.
  assert (V : value b <> 0). { intro V. rewrite V, Rabs_R0 in Vb. lra. }
  destruct (mul_eps_small d Hd) as [[E0 E1] _].
  assert (Ne : IZR (Z.max 1 n) * product_error d <= 1 / 4).
  { pose proof (mul_eps_n d n Hd ltac:(lia)). pose proof p10_m16. lra. }
  pose (S := fun k x m => wf d x /\ ((approx d (product_error d) b m k x /\ (exp x <= 2147483616)%Z) \/
    (is_inf x (neg b && Z.odd k) /\ p10 2147483616 <= Rabs (powerRZ (value b) k)))).
  assert (M : forall m m' j k x y, (0 <= m <= n)%Z -> (0 <= m' <= n)%Z -> (0 <= j)%Z -> (0 <= k)%Z -> (j + k <= n)%Z ->
    S j x m -> S k y m' -> S (j + k)%Z (mul d x y) (m + m' + 1)%Z).
  { intros m m' j k x y Hm Hm' Hj Hk Hjk [Wx Hx] [Wy Hy]. split; [apply mul_wf; auto|].
    assert (PJ : 1 <= Rabs (powerRZ (value b) j)) by (apply pow_ge1; auto).
    assert (PK : 1 <= Rabs (powerRZ (value b) k)) by (apply pow_ge1; auto).
    assert (PM : Rabs (powerRZ (value b) (j + k)) = Rabs (powerRZ (value b) j) * Rabs (powerRZ (value b) k)).
    { rewrite powerRZ_add by exact V. apply Rabs_mult. }
    destruct (mul_special d x y Hd Wx Wy) as (_ & _ & _ & I1 & I2 & I3 & _).
    pose proof (p10_pos 2147483616) as PP.
    assert (T : forall a c, 1 <= a -> p10 2147483616 <= c -> p10 2147483616 <= a * c /\ p10 2147483616 <= c * a).
    { intros a c Ha Hc. set (q := p10 2147483616) in *. clearbody q. split; nra. }
    rewrite Z.odd_add, <- xorb_andb.
    destruct Hx as [[Ax Ex]|[Ix Bx]]; destruct Hy as [[Ay Ey]|[Iy By]].
    - destruct (approx_bounds d b n m j x Hd V Hm ltac:(lia) Ax) as (Nx & X1 & X2).
      destruct (approx_bounds d b n m' k y Hd V Hm' ltac:(lia) Ay) as (Ny & Y1 & Y2).
      pose proof (sign_of_power d b j x _ m Hd Fb V Hj Ax) as Sx. pose proof (sign_of_power d b k y _ m' Hd Fb V Hk Ay) as Sy.
      assert (LX : (-9 < exp x)%Z).
      { assert (p10 0 < p10 (exp x + 9)); [|apply p10_lt_inv in H; lia].
        replace (exp x + 9)%Z with (exp x + 8 + 1)%Z by lia. rewrite p10_add, p10_1, p10_0. pose proof (p10_pos (exp x + 8)). lra. }
      assert (LY : (-9 < exp y)%Z).
      { assert (p10 0 < p10 (exp y + 9)); [|apply p10_lt_inv in H; lia].
        replace (exp y + 9)%Z with (exp y + 8 + 1)%Z by lia. rewrite p10_add, p10_1, p10_0. pose proof (p10_pos (exp y + 8)). lra. }
      destruct Ax as (Fx & Px & Rx). destruct Ay as (Fy & Py & Ry).
      pose proof (wf_exp _ _ Wx) as X8. pose proof (wf_exp _ _ Wy) as Y8.
      destruct (mul_out_of_range d x y Hd Fx Fy Nx Ny) as (O1 & O2 & O3).
      assert (DEC : exponents_overflow x y \/ (-2147483616 < exp x + exp y < 2147483616)%Z).
      { unfold exponents_overflow. clear - LX LY X8 Y8 Ex Ey. lia. }
      destruct DEC as [OV|OK].
      + right. rewrite <- Sx, <- Sy. split; [apply O1; exact OV|]. rewrite PM.
        apply Rle_trans with (p10 (exp x + exp y)); [apply p10_le; apply OV|]. rewrite p10_add.
        pose proof (p10_pos (exp x)). pose proof (p10_pos (exp y)). apply Rmult_le_compat; lra.
      + left. split.
        * apply (approx_mul_exps d (product_error d) b n); auto; [lra|intros; apply mul_eps_acc; auto| |];
            (split; [assumption|split; assumption]).
        * destruct (mul_finite_cases d x y Hd Fx Fy) as [[[Z0|Z0] _]|(L1 & L2 & [[OV _]|[[UN _]|(_ & _ & EQ)]])];
            try contradiction; [exfalso; clear - OV OK; unfold exp_over in OV; lia|exfalso; clear - UN OK; unfold exp_under in UN; lia|].
          rewrite EQ. destruct (mul_digits_core d x y Hd Fx Fy L1 L2) as (kk & Hkk & Ek & _). rewrite Ek.
          clear - Hkk OK X8 Y8. lia.
    - right. destruct (approx_bounds d b n m j x Hd V Hm ltac:(lia) Ax) as (Nx & _).
      pose proof (sign_of_power d b j x _ m Hd Fb V Hj Ax) as Sx. split; [rewrite <- Sx; apply I2; auto; apply Ax|].
      rewrite PM. apply (proj1 (T _ _ PJ By)).
    - right. destruct (approx_bounds d b n m' k y Hd V Hm' ltac:(lia) Ay) as (Ny & _).
      pose proof (sign_of_power d b k y _ m' Hd Fb V Hk Ay) as Sy. split; [rewrite <- Sy; apply I1; auto; apply Ay|].
      rewrite PM. apply (proj2 (T _ _ PK Bx)).
    - right. split; [apply I3; auto|]. rewrite PM. apply (proj1 (T _ _ PJ By)). }
  assert (LE : forall k x m m', (m <= m')%Z -> S k x m -> S k x m').
  { intros k x m m' Hm [W [[A B]|H]]; split; auto. left. split; auto. apply (approx_le d _ b (Rlt_le _ _ E0) m); auto. }
  assert (R : S n r n).
  { apply (pow_family2 d b n (fun k x => S k x (k - 1)%Z) (fun k x => S k x k) r); auto.
    - split; [apply Fb|]. left. split; [apply approx_base; auto|exact He].
    - split; [apply (proj1 (proj1 (one_ok d Hd)))|]. left. split; [apply approx_one; auto|]. apply Z.leb_le. reflexivity.
    - intros k x Hk. apply LE. lia.
    - intros k x H1 H2 H3. replace (k + k - 1)%Z with (k - 1 + (k - 1) + 1)%Z by lia. apply M; auto; lia.
    - intros j k x y H1 H2 H3 H4 H5. apply LE with (j + (k - 1) + 1)%Z; [lia|]. apply M; auto; lia. }
  apply R.
Qed.

Lemma pow_le1 v k : Rabs v <= 1 -> (0 <= k)%Z -> Rabs (powerRZ v k) <= 1.
Proof.
  intros H Hk. rewrite (abs_powerRZ v k Hk). pose proof (Rabs_pos v). induction (Z.to_nat k) as [|i IH]; cbn [pow]; [lra|].
  assert (0 <= Rabs v ^ i) by (apply pow_le; auto). nra.
Qed.

Lemma pow_underflow d b n : valid_digits d -> finite d b -> full d b -> value b <> 0 -> Rabs (value b) <= 1 -> (-2147483616 < exp b)%Z ->
  (1 <= n < 9223372036854775808)%Z ->
  forall r, pow_int d b n = Defined r \/ pown d b n = Defined r ->
  (approx d (product_error d) b n n r /\ (-2147483616 < exp r)%Z) \/
  (finite d r /\ value r = 0 /\ Rabs (powerRZ (value b) n) <= p10 (-2147483599)).
Proof.
  intros Hd Fb Pb V Vb He Hn r E.
  destruct (mul_eps_small d Hd) as [[E0 E1] _].
  assert (Ne : IZR (Z.max 1 n) * product_error d <= 1 / 4).
  { pose proof (mul_eps_n d n Hd ltac:(lia)). pose proof p10_m16. lra. }
  pose (S := fun k x m => ((approx d (product_error d) b m k x /\ (-2147483616 < exp x)%Z) \/
    (finite d x /\ value x = 0 /\ Rabs (powerRZ (value b) k) <= p10 (-2147483599)))).
  assert (M : forall m m' j k x y, (0 <= m <= n)%Z -> (0 <= m' <= n)%Z -> (0 <= j)%Z -> (0 <= k)%Z -> (j + k <= n)%Z ->
    S j x m -> S k y m' -> S (j + k)%Z (mul d x y) (m + m' + 1)%Z).
  { intros m m' j k x y Hm Hm' Hj Hk Hjk Hx Hy.
    assert (PJ : Rabs (powerRZ (value b) j) <= 1) by (apply pow_le1; auto).
    assert (PK : Rabs (powerRZ (value b) k) <= 1) by (apply pow_le1; auto).
    assert (PM : Rabs (powerRZ (value b) (j + k)) = Rabs (powerRZ (value b) j) * Rabs (powerRZ (value b) k)).
    { rewrite powerRZ_add by exact V. apply Rabs_mult. }
    pose proof (p10_pos (-2147483599)) as PP.
    pose proof (Rabs_pos (powerRZ (value b) j)) as J0. pose proof (Rabs_pos (powerRZ (value b) k)) as K0.
    assert (T : forall a c, 0 <= a <= 1 -> 0 <= c <= p10 (-2147483599) -> a * c <= p10 (-2147483599) /\ c * a <= p10 (-2147483599)).
    { intros a c Ha Hc. set (q := p10 (-2147483599)) in *. clearbody q. split; nra. }
    destruct (zero_ok d Hd) as (Z1 & _ & Z2).
    assert (FF : forall k z m, S k z m -> finite d z) by (intros k0 z m0 [[(F & _) _]|[F _]]; exact F).
    pose proof (FF _ _ _ Hx) as Fx. pose proof (FF _ _ _ Hy) as Fy.
    destruct Hx as [[Ax Ex]|[_ [Ix Bx]]]; destruct Hy as [[Ay Ey]|[_ [Iy By]]].
    - destruct (approx_bounds d b n m j x Hd V Hm ltac:(lia) Ax) as (Nx & X1 & X2).
      destruct (approx_bounds d b n m' k y Hd V Hm' ltac:(lia) Ay) as (Ny & Y1 & Y2).
      assert (LX : (exp x < 1)%Z).
      { apply p10_lt_inv. rewrite p10_1. lra. }
      assert (LY : (exp y < 1)%Z).
      { apply p10_lt_inv. rewrite p10_1. lra. }
      destruct Ax as (_ & Px & Rx). destruct Ay as (_ & Py & Ry).
      pose proof (wf_exp _ _ (proj1 Fx)) as X8. pose proof (wf_exp _ _ (proj1 Fy)) as Y8.
      destruct (mul_out_of_range d x y Hd Fx Fy Nx Ny) as (O1 & O2 & O3).
      assert (DEC : exponents_underflow x y \/ (-2147483616 < exp x + exp y < 2147483616)%Z).
      { unfold exponents_underflow. clear - LX LY X8 Y8 Ex Ey. lia. }
      destruct DEC as [UN|OK].
      + right. destruct (O2 UN) as [F0 V0]. split; [exact F0|]. split; [exact V0|]. rewrite PM.
        apply Rle_trans with (2 * p10 (exp x + 8) * (2 * p10 (exp y + 8))); [apply Rmult_le_compat; lra|].
        replace (2 * p10 (exp x + 8) * (2 * p10 (exp y + 8))) with (4 * p10 (exp x + exp y + 16)).
        2:{ replace (exp x + exp y + 16)%Z with (exp x + 8 + (exp y + 8))%Z by lia. rewrite p10_add. ring. }
        apply Rle_trans with (p10 (exp x + exp y + 16 + 1)); [rewrite (p10_add (exp x + exp y + 16) 1), p10_1; pose proof (p10_pos (exp x + exp y + 16)); lra|].
        apply p10_le. destruct UN as (_ & _ & UN). clear - UN. lia.
      + left. split.
        * apply (approx_mul_exps d (product_error d) b n); auto; [lra|intros; apply mul_eps_acc; auto| |];
            (split; [assumption|split; assumption]).
        * destruct (mul_finite_cases d x y Hd Fx Fy) as [[[Z0|Z0] _]|(L1 & L2 & [[OV _]|[[UN _]|(_ & _ & EQ)]])];
            try contradiction; [exfalso; clear - OV OK; unfold exp_over in OV; lia|exfalso; clear - UN OK; unfold exp_under in UN; lia|].
          rewrite EQ. destruct (mul_digits_core d x y Hd Fx Fy L1 L2) as (kk & Hkk & Ek & _). rewrite Ek.
          clear - Hkk OK X8 Y8. lia.
    - right. rewrite mul_zero_l by auto. split; [exact Z1|]. split; [exact Z2|]. rewrite PM. apply (proj1 (T _ _ (conj J0 PJ) (conj K0 By))).
    - right. rewrite mul_zero_l by auto. split; [exact Z1|]. split; [exact Z2|]. rewrite PM. apply (proj2 (T _ _ (conj K0 PK) (conj J0 Bx))).
    - right. rewrite mul_zero_l by auto. split; [exact Z1|]. split; [exact Z2|]. rewrite PM. apply (proj1 (T _ _ (conj J0 PJ) (conj K0 By))). }
  assert (LE : forall k x m m', (m <= m')%Z -> S k x m -> S k x m').
  { intros k x m m' Hm [[A B]|H]; [left|right; exact H]. split; auto. apply (approx_le d _ b (Rlt_le _ _ E0) m); auto. }
  assert (R : S n r n).
  { apply (pow_family2 d b n (fun k x => S k x (k - 1)%Z) (fun k x => S k x k) r); auto.
    - left. split; [apply approx_base; auto|exact He].
    - left. split; [apply approx_one; auto|]. apply Z.ltb_lt. reflexivity.
    - intros k x Hk. apply LE. lia.
    - intros k x H1 H2 H3. replace (k + k - 1)%Z with (k - 1 + (k - 1) + 1)%Z by lia. apply M; auto; lia.
    - intros j k x y H1 H2 H3 H4 H5. apply LE with (j + (k - 1) + 1)%Z; [lia|]. apply M; auto; lia. }
  apply R.
Qed.

(** The two range statements in terms of observable effects. *)
Lemma pow_leaves_range d b n : valid_digits d -> finite d b -> full d b -> value b <> 0 -> (-2147483616 < exp b <= 2147483616)%Z ->
  (1 <= n < 9223372036854775808)%Z ->
  forall r, pow_int d b n = Defined r \/ pown d b n = Defined r ->
  (p10 2147483625 <= Rabs (powerRZ (value b) n) -> is_inf r (neg b && Z.odd n)) /\
  (Rabs (powerRZ (value b) n) < p10 (-2147483608) -> finite d r /\ value r = 0) /\
  (p10 (-2147483599) < Rabs (powerRZ (value b) n) < p10 2147483616 ->
     finite d r /\ full d r /\ 0 < value r * powerRZ (value b) n /\
     Rabs (value r) <= Rabs (powerRZ (value b) n) /\
     Rabs (powerRZ (value b) n) - Rabs (value r) <= IZR n * product_error d * Rabs (powerRZ (value b) n)).
Proof.
  intros Hd Fb Pb V He Hn r E.
  assert (AC : approx d (product_error d) b n n r -> finite d r /\ full d r /\ 0 < value r * powerRZ (value b) n /\
     Rabs (value r) <= Rabs (powerRZ (value b) n) /\
     Rabs (powerRZ (value b) n) - Rabs (value r) <= IZR n * product_error d * Rabs (powerRZ (value b) n)).
  { intros (C1 & C2 & C3 & C4 & C5). split; [exact C1|]. split; [exact C2|]. split; [exact C3|]. split; [exact C4|]. lra. }
  destruct (Rle_dec 1 (Rabs (value b))) as [G|L].
  - pose proof (pow_ge1 (value b) n G ltac:(lia)) as G1.
    destruct (pow_overflow d b n Hd Fb Pb G ltac:(lia) Hn r E) as [[A B]|[I B]].
    + destruct (approx_bounds d b n n n r Hd V ltac:(lia) ltac:(lia) A) as (_ & X1 & X2). split; [|split].
      * intro H. exfalso. assert (p10 2147483625 < p10 (exp r + 9)).
        { replace (exp r + 9)%Z with (exp r + 8 + 1)%Z by lia. rewrite p10_add, p10_1. pose proof (p10_pos (exp r + 8)). lra. }
        apply p10_lt_inv in H0. lia.
      * intro H. exfalso. assert (p10 (-2147483608) <= p10 0) by (apply p10_le; lia). rewrite p10_0 in H0. lra.
      * intros _. auto.
    + split; [auto|]. split.
      * intro H. exfalso. assert (p10 (-2147483608) <= p10 0) by (apply p10_le; lia). rewrite p10_0 in H0. lra.
      * intro H. exfalso. lra.
  - pose proof (pow_le1 (value b) n ltac:(lra) ltac:(lia)) as G1.
    destruct (pow_underflow d b n Hd Fb Pb V ltac:(lra) ltac:(lia) Hn r E) as [[A B]|(F & Z0 & B)].
    + destruct (approx_bounds d b n n n r Hd V ltac:(lia) ltac:(lia) A) as (_ & X1 & X2). split; [|split].
      * intro H. exfalso. assert (p10 0 < p10 2147483625) by (apply p10_lt; lia). rewrite p10_0 in H0. lra.
      * intro H. exfalso. destruct A as ((W & _) & _). pose proof (wf_exp _ _ W) as X8.
        assert (p10 (-2147483608) <= p10 (exp r)) by (apply p10_le; clear - B X8; lia). lra.
      * intros _. auto.
    + split; [|split].
      * intro H. exfalso. assert (p10 0 < p10 2147483625) by (apply p10_lt; lia). rewrite p10_0 in H0. lra.
      * auto.
      * intro H. exfalso. lra.
Qed.
