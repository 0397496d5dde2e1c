(** * Writing numbers (proofs only). *)

From Coq Require Import ZArith List Bool Ascii Reals Lra Lia.
From Verif Require Import Model Spec Limbs Value CmpProofs AddProofs OrderProofs MulCor ModelDiv DoubleProofs SeedProofs SpecText ModelStr StrProofs.
Import ListNotations.
Open Scope Z_scope.
Ltac Zify.zify_post_hook ::= Z.div_mod_to_equations.

(** ** Decimal digits of an integer *)
Fixpoint drev (fuel : nat) (z : Z) : list Z :=
  match fuel with
  | O => []
  | S f => z mod 10 :: (if z / 10 =? 0 then [] else drev f (z / 10))
  end.

Lemma dec_rev_DS f : forall z, dec_rev f z = DS (drev f z).
Proof.
  induction f as [|f IH]; intro z; [reflexivity|]. cbn [dec_rev drev map]. unfold digit_char at 1. f_equal.
  destruct (z / 10 =? 0); [reflexivity|apply IH].
Qed.

Lemma dz_snoc l y : dz (l ++ [y]) = dz l * 10 + y.
Proof. rewrite dz_app. cbn [length]. change (10 ^ Z.of_nat 1) with 10. unfold dz at 2. cbn. lia. Qed.

Lemma drev_spec f : forall z, 0 <= z < 10 ^ Z.of_nat f -> (1 <= f)%nat ->
  decs (drev f z) /\ dz (rev (drev f z)) = z /\ (1 <= length (drev f z) <= f)%nat /\
  (z <> 0 -> 10 ^ (Z.of_nat (length (drev f z)) - 1) <= z) /\ (z = 0 -> drev f z = [0]).
Proof.
  induction f as [|f IH]; intros z Hz Hf; [lia|]. cbn [drev].
  rewrite Nat2Z.inj_succ, Z.pow_succ_r in Hz by lia.
  destruct (Z.eqb_spec (z / 10) 0) as [E|E].
  - split; [constructor; [unfold is_decimal; lia|constructor]|]. cbn [rev app length].
    split; [unfold dz; cbn; lia|]. split; [lia|]. split; [intro; change (10 ^ (Z.of_nat 1 - 1)) with 1; lia|].
    intros ->. reflexivity.
  - assert (Hf' : (1 <= f)%nat).
    { destruct f; [|lia]. change (10 ^ Z.of_nat 0) with 1 in Hz. lia. }
    destruct (IH (z / 10)) as (A & B & C & D & _); auto; [lia|].
    split; [constructor; [unfold is_decimal; lia|auto]|]. cbn [rev length]. rewrite dz_snoc, B.
    split; [lia|]. split; [lia|]. split; [|intros ->; cbn in E; lia].
    intros _. specialize (D E). rewrite Nat2Z.inj_succ. replace (Z.succ (Z.of_nat (length (drev f (z / 10)))) - 1) with (1 + (Z.of_nat (length (drev f (z / 10))) - 1)) by lia.
    rewrite Z.pow_add_r by lia. change (10 ^ 1) with 10. lia.
Qed.

Definition digits (z : Z) : list Z := rev (drev 20 z).

Lemma lexical_cast_DS z : lexical_cast z = DS (digits z).
Proof. unfold lexical_cast, digits. rewrite dec_rev_DS, map_rev. reflexivity. Qed.

Lemma digits_spec z : 0 <= z < 10 ^ 20 ->
  decs (digits z) /\ dz (digits z) = z /\ (1 <= length (digits z))%nat /\
  (z <> 0 -> 10 ^ (Z.of_nat (length (digits z)) - 1) <= z < 10 ^ Z.of_nat (length (digits z))) /\
  (z = 0 -> digits z = [0]).
Proof.
  intro H. destruct (drev_spec 20 z) as (A & B & C & D & E); [exact H|lia|]. unfold digits.
  split; [apply decs_rev; auto|]. split; [auto|]. rewrite rev_length. split; [lia|]. split.
  - intro Z. split; [auto|]. rewrite <- B at 1. rewrite <- rev_length. apply dz_bound. apply decs_rev. auto.
  - intro Z. rewrite (E Z). reflexivity.
Qed.

Lemma pow10_inj_le a b : 10 ^ a < 10 ^ b -> 0 <= b -> a < b.
Proof. intros H Hb. destruct (Z_lt_le_dec a b); auto. pose proof (Z.pow_le_mono_r 10 b a). lia. Qed.

Lemma digits_len z k : 0 <= z < 10 ^ Z.of_nat k -> (1 <= k <= 20)%nat -> (length (digits z) <= k)%nat.
Proof.
  intros H Hk. assert (10 ^ Z.of_nat k <= 10 ^ 20) by (apply Z.pow_le_mono_r; lia).
  destruct (digits_spec z) as (A & B & C & D & E); [lia|]. destruct (Z.eq_dec z 0) as [Z|Z].
  - rewrite (E Z). cbn. lia.
  - destruct (D Z) as [D1 D2]. assert (Z.of_nat (length (digits z)) - 1 < Z.of_nat k) by (apply pow10_inj_le; lia). lia.
Qed.

Lemma limb_text_spec a : is_limb a -> exists l, limb_text a = DS l /\ decs l /\ length l = 8%nat /\ dz l = a.
Proof.
  intro H. unfold is_limb in H. unfold limb_text. rewrite lexical_cast_DS, map_length, DS_zeros, <- map_app.
  assert (P : 100000000 < 10 ^ 20) by reflexivity.
  destruct (digits_spec a) as (A & B & C & D & E); [lia|].
  pose proof (digits_len a 8 ltac:(change (10 ^ Z.of_nat 8) with 100000000; lia) ltac:(lia)) as L.
  eexists. split; [reflexivity|]. split; [apply decs_app; auto using decs_zeros|].
  split; [rewrite app_length, repeat_length; lia|]. rewrite dz_app, dz_zeros, B. lia.
Qed.

Lemma concat_limbs t : Forall is_limb t -> exists l, concat (map limb_text t) = DS l /\ decs l /\ length l = (8 * length t)%nat /\ dz l = mv t.
Proof.
  induction t as [|a t IH]; intro H.
  - exists []. repeat split; constructor.
  - inversion H; subst. destruct (IH H3) as (l & L1 & L2 & L3 & L4). destruct (limb_text_spec a H2) as (g & G1 & G2 & G3 & G4).
    exists (g ++ l). cbn [map concat length]. rewrite L1, G1, map_app. split; [reflexivity|]. split; [apply decs_app; auto|].
    rewrite app_length. split; [lia|]. rewrite dz_app, mv_cons, G4, L4, L3, Bp_pow. f_equal. f_equal. f_equal. lia.
Qed.

(** ** Rounding up *)
Lemma set_at_app {s t : list ascii} {c d} : set_at (length s) d (s ++ c :: t) = s ++ d :: t.
Proof. induction s; [reflexivity|]. cbn. f_equal. auto. Qed.

Lemma nth_app_mid {A} (s t : list A) c x : nth (length s) (s ++ c :: t) x = c.
Proof. rewrite app_nth2, Nat.sub_diag by lia. reflexivity. Qed.

Lemma carry_nines_spec : forall j Q y z, length Q = j -> decs Q -> is_decimal y ->
  exists Q' y' z', carry_nines j (DS (Q ++ y :: repeat 0 z)) = (length Q', DS (Q' ++ y' :: repeat 0 z')) /\
    decs Q' /\ is_decimal y' /\ (length Q' + z' = j + z)%nat /\
    (dz (Q ++ [y]) + 1) * 10 ^ Z.of_nat z = (dz (Q' ++ [y']) + 1) * 10 ^ Z.of_nat z' /\
    (Q' = [] \/ y' <> 9) /\ hd 0 (Q' ++ [y']) = hd 0 (Q ++ [y]).
Proof.
  induction j as [|j IH]; intros Q y z HL HQ Hy.
  - destruct Q; [|discriminate]. exists [], y, z. cbn [carry_nines]. repeat split; auto.
    all: unfold is_decimal in *; lia.
  - cbn [carry_nines]. destruct (exists_last (l := Q)) as (Q0 & y0 & ->); [destruct Q; discriminate|].
    rewrite app_length in HL. cbn [length] in HL.
    assert (LD : length (DS (Q0 ++ [y0])) = S j) by (rewrite map_length, app_length; cbn; lia).
    rewrite map_app. cbn [map].
    assert (NM : nth (S j) (DS (Q0 ++ [y0]) ++ dc y :: DS (repeat 0 z)) "0"%char = dc y) by (rewrite <- LD; apply nth_app_mid).
    rewrite NM.
    change "9"%char with (dc 9). rewrite dc_inj by (auto; unfold is_decimal; lia).
    apply Forall_app in HQ. destruct HQ as [HQ0 Hy0]. inversion Hy0; subst.
    destruct (Z.eqb_spec y 9) as [E|E].
    + assert (SM : set_at (S j) "0" (DS (Q0 ++ [y0]) ++ dc y :: DS (repeat 0 z)) = DS (Q0 ++ [y0]) ++ dc 0 :: DS (repeat 0 z)) by (rewrite <- LD; apply set_at_app).
      rewrite SM.
      replace (DS (Q0 ++ [y0]) ++ dc 0 :: DS (repeat 0 z)) with (DS (Q0 ++ y0 :: repeat 0 (S z)))
        by (rewrite !map_app; cbn [map repeat]; rewrite <- app_assoc; reflexivity).
      destruct (IH Q0 y0 (S z)) as (Q' & y' & z' & A & B & C & D & F & G & K); auto; [lia|].
      exists Q', y', z'. split; [exact A|]. split; [auto|]. split; [auto|]. split; [lia|]. split; [|split; [auto|]].
      * rewrite <- F, dz_snoc, E. rewrite Nat2Z.inj_succ, Z.pow_succ_r by lia. ring.
      * rewrite K. rewrite <- app_assoc. destruct Q0; reflexivity.
    + exists (Q0 ++ [y0]), y, z. split.
      { f_equal. - rewrite app_length. cbn. lia. - rewrite (map_app _ (Q0 ++ [y0])). reflexivity. }
      split; [apply decs_app; auto|]. split; [auto|]. split; [rewrite app_length; cbn; lia|]. auto.
Qed.

Lemma succ_char_dc y : is_decimal y -> y <> 9 -> succ_char (dc y) = dc (y + 1).
Proof. intros H K. dcases H; try reflexivity. Qed.

Lemma round_up_spec H e : decs H -> H <> [] ->
  exists H' e', round_up (DS H) e = Ok (DS H', e') /\ decs H' /\ length H' = length H /\
    ((e' = e /\ dz H' = dz H + 1) \/ (e' = e + 1 /\ dz H' * 10 = dz H + 1)) /\ (hd 0 H <> 0 -> hd 0 H' <> 0).
Proof.
  intros HD Hne. destruct (exists_last Hne) as (Q & y & ->). apply Forall_app in HD. destruct HD as [HQ Hy]. inversion Hy; subst.
  unfold round_up. rewrite map_length, app_length. cbn [length]. replace (length Q + 1)%nat with (S (length Q)) by lia.
  destruct (carry_nines_spec (length Q) Q y 0 eq_refl HQ H1) as (Q' & y' & z' & A & B & C & D & F & G & K).
  cbn [repeat] in A. rewrite A. rewrite Z.mul_1_r in F.
  assert (E1 : nth (length Q') (DS (Q' ++ y' :: repeat 0 z')) "0"%char = dc y').
  { rewrite map_app. cbn [map]. rewrite <- (map_length dc Q'). apply nth_app_mid. }
  rewrite E1.
  assert (E2 : forall c, set_at (length Q') (dc c) (DS (Q' ++ y' :: repeat 0 z')) = DS (Q' ++ c :: repeat 0 z')).
  { intro c. rewrite !map_app. cbn [map]. rewrite <- (map_length dc Q'). apply set_at_app. }
  assert (ZD : dz (Q' ++ (y' + 1) :: repeat 0 z') = dz (Q ++ [y]) + 1).
  { rewrite F. rewrite dz_app, dz_cons, dz_zeros, dz_snoc. cbn [length]. rewrite repeat_length, Nat2Z.inj_succ, Z.pow_succ_r by lia. ring. }
  assert (L1 : forall c, length (Q' ++ c :: repeat 0 z') = S (length Q)) by (intro c; rewrite app_length; cbn [length]; rewrite repeat_length; lia).
  unfold is_decimal in C. destruct Q' as [|q0 Q''].
  - cbn [length app] in *. change "9"%char with (dc 9). rewrite dc_inj by (unfold is_decimal; lia).
    destruct (Z.eqb_spec y' 9) as [Y|Y].
    + change "1"%char with (dc 1). rewrite (E2 1). exists (1 :: repeat 0 z'), (e + 1). split; [reflexivity|].
      split; [constructor; [unfold is_decimal; lia|apply decs_zeros]|]. split; [apply (L1 0)|]. split; [|intros _; cbn; lia].
      right. split; [reflexivity|]. rewrite <- ZD, Y. rewrite !dz_cons, dz_zeros. cbn. lia.
    + rewrite succ_char_dc by (auto; unfold is_decimal; lia). rewrite (E2 (y' + 1)). exists ((y' + 1) :: repeat 0 z'), e. split; [reflexivity|].
      split; [constructor; [unfold is_decimal; lia|apply decs_zeros]|]. split; [apply (L1 0)|]. split; [left; auto|]. intros _. cbn. lia.
  - assert (Y : y' <> 9) by (destruct G; [discriminate|auto]).
    rewrite succ_char_dc by (auto; unfold is_decimal; lia). cbn [length] in E2 |- *. rewrite (E2 (y' + 1)).
    exists ((q0 :: Q'') ++ (y' + 1) :: repeat 0 z'), e. split; [reflexivity|].
    split; [apply decs_app; auto; constructor; [unfold is_decimal; lia|apply decs_zeros]|]. split; [apply L1|]. split; [left; auto|].
    rewrite <- K. cbn. auto.
Qed.

(** ** get_output_string *)
Open Scope R_scope.
Local Notation p10 := (powerRZ 10).

Lemma p10_1 : p10 1 = 10.
Proof. rewrite p10_nonneg by lia. reflexivity. Qed.

Lemma digits_dmo a : (0 < a < 100000000)%Z -> Z.of_nat (length (digits a)) = (digits_minus_one 10 a + 1)%Z.
Proof.
  intro H. assert (P : (100000000 < 10 ^ 20)%Z) by reflexivity.
  destruct (digits_spec a) as (_ & _ & C & D & _); [lia|]. destruct (D ltac:(lia)) as [D1 D2].
  destruct (digits_minus_one_spec 10 a) as (Q & Q1 & Q2); [change (10 ^ Z.of_nat 10)%Z with 10000000000%Z; lia|]. set (k := digits_minus_one 10 a) in *. set (n := Z.of_nat (length (digits a))) in *.
  assert (n - 1 < k + 1)%Z by (apply pow10_inj_le; lia). assert (k < n)%Z by (apply pow10_inj_le; lia). lia.
Qed.

Lemma all_digits_spec d x k : valid_digits d -> finite d x -> (1 <= k <= Nn d)%nat ->
  exists D, all_digits (data x) k = DS D /\ decs D /\ dz D = mv (firstn k (data x)) /\
    length D = (length (digits (limb (data x) 0)) + 8 * (k - 1))%nat /\ hd 0%Z D = hd 0%Z (digits (limb (data x) 0)).
Proof.
  intros Hd F Hk. pose proof (Nn_len d x Hd (proj1 F)) as HL. pose proof (wf_limbs _ _ (proj1 F)) as HW.
  unfold all_digits. destruct (data x) as [|a t]; [cbn in HL; lia|]. change (limb (a :: t) 0) with a. cbn [skipn]. inversion HW; subst.
  rewrite lexical_cast_DS. destruct (concat_limbs (firstn (k - 1) t)) as (l & L1 & L2 & L3 & L4); [apply limbs_firstn; auto|].
  rewrite L1, <- map_app. exists (digits a ++ l). assert (P : (100000000 < 10 ^ 20)%Z) by reflexivity. unfold is_limb in H1.
  destruct (digits_spec a) as (A & B & C & _ & _); [lia|].
  split; [reflexivity|]. split; [apply decs_app; auto|]. cbn [length] in HL.
  assert (FL : length (firstn (k - 1) t) = (k - 1)%nat) by (rewrite firstn_length; lia). rewrite FL in *.
  split.
  - rewrite dz_app, B, L3, L4. destruct k as [|k']; [lia|]. cbn [firstn]. rewrite mv_cons. replace (S k' - 1)%nat with k' in * by lia.
    rewrite FL, Bp_pow. f_equal. f_equal. f_equal. lia.
  - split; [rewrite app_length, L3; lia|]. destruct (digits a); [cbn in C; lia|reflexivity].
Qed.

Lemma hd_digits a : is_limb a -> a <> 0%Z -> hd 0%Z (digits a) <> 0%Z.
Proof.
  intros H Z. unfold is_limb in H. assert (P : (100000000 < 10 ^ 20)%Z) by reflexivity.
  destruct (digits_spec a) as (A & B & C & D & _); [lia|]. destruct (D Z) as [D1 D2].
  destruct (digits a) as [|h t]; [cbn in C; lia|]. cbn [hd]. intros ->. rewrite dz_cons in B. inversion A; subst.
  pose proof (dz_bound t H3). cbn [length] in D1. rewrite Nat2Z.inj_succ in D1. replace (Z.succ (Z.of_nat (length t)) - 1)%Z with (Z.of_nat (length t)) in D1 by lia. lia.
Qed.

Lemma trunc_bounds d x k : valid_digits d -> finite d x -> (1 <= k <= Nn d)%nat ->
  let u := p10 (exp x - 8 * (Z.of_nat k - 1)) in
  IZR (mv (firstn k (data x))) * u <= Rabs (value x) < (IZR (mv (firstn k (data x))) + 1) * u /\
  (k = Nn d -> Rabs (value x) = IZR (mv (firstn k (data x))) * u).
Proof.
  intros Hd F Hk u. pose proof (Nn_len d x Hd (proj1 F)) as HL. pose proof (wf_limbs _ _ (proj1 F)) as HW.
  pose proof (Nn_Z d Hd) as NZ.
  rewrite (value_abs_mv d x) by (auto; apply F).
  pose proof (mv_split k (data x) ltac:(lia)) as S. rewrite HL in S.
  pose proof (mv_bound (skipn k (data x)) (limbs_skipn k _ HW)) as B. rewrite skipn_length, HL in B.
  set (a := mv (firstn k (data x))) in *. set (b := mv (skipn k (data x))) in *. rewrite S.
  assert (U : u = IZR (Bp (Nn d - k)) * ulp d (exp x)).
  { unfold u, ulp. rewrite Bp_pow, <- p10_nonneg by lia. rewrite <- p10_add. f_equal. rewrite <- NZ. lia. }
  pose proof (ulp_pos d (exp x)) as UP. rewrite U, plus_IZR, mult_IZR. destruct B as [B1 B2]. apply IZR_le in B1. apply IZR_lt in B2.
  set (w := ulp d (exp x)) in *. set (c := IZR (Bp (Nn d - k))) in *.
  assert (0 <= IZR b * w) by (apply Rmult_le_pos; lra). assert (IZR b * w < c * w) by (apply Rmult_lt_compat_r; lra).
  split; [split; lra|]. intros E. unfold b, c. rewrite E, Nat.sub_diag, skipn_all2 by lia. rewrite Bp_0. cbn. lra.
Qed.

Lemma rounding_step (h r rest m10 q X t u : R) : 0 < u ->
  (* X lies within the last digit of t = h * m10 * 10 + r * m10 + rest *)
  t * u <= X < (t + 1) * u -> t = h * (10 * m10) + r * m10 + rest -> 0 <= rest -> rest + 1 <= m10 -> q = 10 * m10 * u ->
  0 <= r -> (5 <= r -> r <= 9 -> (h + 1) * q - q / 2 <= X < (h + 1) * q + q / 2) /\ (r <= 4 -> h * q - q / 2 <= X < h * q + q / 2).
Proof.
  intros Hu [X1 X2] -> Hr1 Hr2 -> Hr.
  assert (A : rest * u + u <= m10 * u) by (replace (rest * u + u) with ((rest + 1) * u) by ring; apply Rmult_le_compat_r; lra).
  assert (B : 0 <= rest * u) by (apply Rmult_le_pos; lra).
  assert (M : 0 < m10 * u) by lra.
  replace ((h * (10 * m10) + r * m10 + rest) * u) with (h * (10 * (m10 * u)) + r * (m10 * u) + rest * u) in X1 by ring.
  replace ((h * (10 * m10) + r * m10 + rest + 1) * u) with (h * (10 * (m10 * u)) + r * (m10 * u) + rest * u + u) in X2 by ring.
  set (M10 := m10 * u) in *. split; intros.
  - assert (5 * M10 <= r * M10) by (apply Rmult_le_compat_r; lra). assert (r * M10 <= 9 * M10) by (apply Rmult_le_compat_r; lra).
    replace ((h + 1) * (10 * m10 * u)) with (h * (10 * M10) + 10 * M10) by (unfold M10; ring). replace (10 * m10 * u) with (10 * M10) by (unfold M10; ring). lra.
  - assert (r * M10 <= 4 * M10) by (apply Rmult_le_compat_r; lra). assert (0 <= r * M10) by (apply Rmult_le_pos; lra).
    replace (h * (10 * m10 * u)) with (h * (10 * M10)) by (unfold M10; ring). replace (10 * m10 * u) with (10 * M10) by (unfold M10; ring). lra.
Qed.

Lemma dig_nth D n : decs D -> (n < length D)%nat -> dig (nth n (DS D) "0"%char) = nth n D 0%Z.
Proof.
  intros H L. change "0"%char with (dc 0). rewrite map_nth. apply dc_dig. rewrite Forall_forall in H. apply H. apply nth_In. auto.
Qed.

Lemma order_digits x : cls x = Finite -> limb (data x) 0 <> 0%Z -> is_limb (limb (data x) 0) ->
  order x = (exp x + Z.of_nat (length (digits (limb (data x) 0))) - 1)%Z.
Proof.
  intros C Z L. unfold order, isfinite. rewrite C. apply Z.eqb_neq in Z. rewrite Z. cbn [negb orb]. apply Z.eqb_neq in Z.
  unfold is_limb in L. rewrite digits_dmo by lia. lia.
Qed.

Lemma gos_spec d x n : valid_digits d -> finite d x ->
  let q := p10 (order x + 1 - Z.of_nat n) in
  (n = 0%nat /\ q / 2 <= Rabs (value x) /\ get_output_string d x (order x) n = Throws) \/
  (exists ds e', get_output_string d x (order x) n = Ok (DS ds, e') /\ decs ds /\ (length ds <= n)%nat /\
     (length ds = n \/ (8 * elem_number d - 7 <= Z.of_nat (length ds))%Z) /\
     (e' = order x \/ e' = (order x + 1)%Z /\ value x <> 0) /\
     rounded_to q (Rabs (value x)) (IZR (dz ds) * p10 (e' + 1 - Z.of_nat (length ds))) /\
     (value x <> 0 -> n <> 0%nat -> hd 0%Z ds <> 0%Z) /\ (n = 0%nat -> Rabs (value x) < q / 2 /\ e' = order x)).
Proof.
  intros Hd F q. pose proof (Nn_ge7 d Hd) as N7. pose proof (Nn_Z d Hd) as NZ.
  set (k := Nat.min (n / 8 + 2) (Nn d)). assert (Hk : (1 <= k <= Nn d)%nat) by (unfold k; lia).
  destruct (all_digits_spec d x k Hd F Hk) as (D & D1 & D2 & D3 & D4 & D5).
  destruct (trunc_bounds d x k Hd F Hk) as [TB TE]. cbv zeta in TB, TE. rewrite <- D3 in TB, TE.
  set (u := p10 (exp x - 8 * (Z.of_nat k - 1))) in *. assert (Up : 0 < u) by apply p10_pos.
  assert (Qp : 0 < q) by apply p10_pos.
  pose proof (limb_bound (data x) 0 (wf_limbs _ _ (proj1 F))) as LB. assert (P20 : (100000000 < 10 ^ 20)%Z) by reflexivity.
  destruct (digits_spec (limb (data x) 0)) as (_ & _ & DL & _ & DZ); [unfold is_limb in LB; lia|].
  assert (KN : (length D <= n)%nat -> k = Nn d).
  { intro H. unfold k in *. destruct (Nat.min_spec (n / 8 + 2) (Nn d)) as [[A E]|[A E]]; [|auto]. rewrite E in *. pose proof (Nat.div_mod n 8 ltac:(lia)). pose proof (Nat.mod_upper_bound n 8 ltac:(lia)). set (y := (n / 8)%nat) in *. set (z := (n mod 8)%nat) in *. clearbody y z. lia. }
  unfold get_output_string. fold k. rewrite D1, map_length.
  pose proof (Rabs_pos (value x)) as XP.
  destruct (Z.eq_dec (limb (data x) 0) 0) as [Z0|Z0].
  - (* zero *)
    assert (V0 : value x = 0) by (apply (finite_zero_value d); auto). rewrite V0, Rabs_R0 in *.
    assert (DD : dz D = 0%Z).
    { pose proof (dz_bound D D2) as B. destruct TB as [T1 _]. destruct (Z.eq_dec (dz D) 0); auto. assert (1 <= dz D)%Z by lia. apply IZR_le in H.
      assert (1 * u <= IZR (dz D) * u) by (apply Rmult_le_compat_r; lra). lra. }
    assert (DR : D = repeat 0%Z (length D)).
    { rewrite (lead_split D) at 1. rewrite (lead_zero_all D D2 DD). rewrite skipn_all, app_nil_r. reflexivity. }
    right. destruct (Nat.ltb_spec n (length D)) as [L|L].
    + rewrite dig_nth by auto. rewrite DR, nth_repeat. cbn [Z.leb Z.compare]. rewrite <- DR.
      exists (firstn n D), (order x). rewrite firstn_map. split; [reflexivity|]. split; [apply decs_firstn; auto|]. rewrite firstn_length. split; [lia|]. split; [left; lia|]. split; [auto|].
      split; [|split; [intros; congruence|intros; split; [lra|reflexivity]]].
      assert (dz (firstn n D) = 0%Z) by (pose proof (dz_bound (firstn n D) (decs_firstn n D D2)); rewrite <- (firstn_skipn n D), dz_app in DD; pose proof (dz_bound (skipn n D) (decs_skipn n D D2)); pose proof (pow10_pos (length (skipn n D))); nia).
      exists 0%Z. rewrite H, Rmult_0_l, Rabs_R0. lra.
    + exists D, (order x). split; [reflexivity|]. split; [auto|]. split; [lia|]. split; [right; rewrite KN in D4 by lia; lia|]. split; [auto|].
      split; [|split; [intros; congruence|intros ->; lia]].
      exists 0%Z. rewrite DD, Rmult_0_l, Rabs_R0. lra.
  - assert (OD : order x = (exp x + Z.of_nat (length (digits (limb (data x) 0))) - 1)%Z) by (apply order_digits; auto; apply F).
    assert (HH : hd 0%Z D <> 0%Z) by (rewrite D5; apply hd_digits; auto).
    destruct (Nat.ltb_spec n (length D)) as [L|L].
    + rewrite dig_nth by auto. set (H := firstn n D). set (r := nth n D 0%Z).
      assert (SP : skipn n D = r :: skipn (S n) D).
      { unfold r. clear - L. revert n L. induction D as [|a D IH]; intros n L; [cbn in L; lia|]. destruct n; [reflexivity|]. cbn [skipn nth length] in *. rewrite <- IH by lia. reflexivity. }
      set (rest := skipn (S n) D) in *. assert (HD : decs H) by (apply decs_firstn; auto).
      assert (HR : decs rest) by (apply decs_skipn; auto).
      assert (Hr : is_decimal r) by (rewrite Forall_forall in D2; apply D2; apply nth_In; auto).
      assert (LH : length H = n) by (unfold H; rewrite firstn_length; lia).
      assert (LR : length rest = (length D - S n)%nat) by (unfold rest; apply skipn_length).
      assert (ED : dz D = (dz H * (10 * 10 ^ Z.of_nat (length rest)) + r * 10 ^ Z.of_nat (length rest) + dz rest)%Z).
      { rewrite <- (firstn_skipn n D) at 1. rewrite SP. fold H. rewrite dz_app, dz_cons. cbn [length]. rewrite Nat2Z.inj_succ, Z.pow_succ_r by lia. ring. }
      pose proof (dz_bound rest HR) as BR.
      assert (EQ : q = 10 * IZR (10 ^ Z.of_nat (length rest)) * u).
      { unfold q, u. rewrite <- p10_nonneg by lia. replace (order x + 1 - Z.of_nat n)%Z with (1 + (Z.of_nat (length rest) + (exp x - 8 * (Z.of_nat k - 1))))%Z by lia. rewrite (p10_add 1), (p10_add (Z.of_nat (length rest))), p10_1. ring. }
      unfold is_decimal in Hr.
      destruct (rounding_step (IZR (dz H)) (IZR r) (IZR (dz rest)) (IZR (10 ^ Z.of_nat (length rest))) q (Rabs (value x)) (IZR (dz D)) u) as [RU RD]; auto.
      { rewrite ED, !plus_IZR, !mult_IZR. reflexivity. }
      { apply (IZR_le 0). lia. }
      { rewrite <- plus_IZR. apply IZR_le. lia. }
      { apply (IZR_le 0). lia. }
      assert (HHd : n <> 0%nat -> hd 0%Z H <> 0%Z) by (intro Hn; unfold H; destruct n; [congruence|]; destruct D; [cbn in L; lia|exact HH]).
      destruct (Z.leb_spec 5 r) as [R5|R5].
      * assert (R5' : 5 <= IZR r) by (apply (IZR_le 5); lia). assert (R9' : IZR r <= 9) by (apply (IZR_le _ 9); lia). specialize (RU R5' R9').
        rewrite firstn_map. fold H. destruct n as [|n'].
        { left. split; [reflexivity|]. split; [|reflexivity]. unfold H in RU. cbn [firstn] in RU. rewrite dz_nil in RU. lra. }
        right. destruct (round_up_spec H (order x) HD) as (H' & e' & A & B & C & E & G); [intro N; rewrite N in LH; discriminate|].
        exists H', e'. split; [exact A|]. split; [auto|]. rewrite C, LH. split; [lia|]. split; [auto|]. split; [destruct E as [[-> _]|[-> _]]; [auto|right; split; [reflexivity|rewrite <- (finite_zero_iff d x Hd F); auto]]|].
        split; [|split; [auto|intros; discriminate]].
        assert (EV : IZR (dz H') * p10 (e' + 1 - Z.of_nat (S n')) = IZR (dz H + 1) * q).
        { unfold q. destruct E as [[-> E]|[-> E]]; [rewrite E; reflexivity|]. rewrite <- E, mult_IZR. replace (order x + 1 + 1 - Z.of_nat (S n'))%Z with (1 + (order x + 1 - Z.of_nat (S n')))%Z by lia. rewrite p10_add. rewrite p10_1. ring. }
        rewrite EV. exists (dz H + 1)%Z. pose proof (dz_bound H HD) as BH. assert (0 <= IZR (dz H + 1)) by (apply (IZR_le 0); lia).
        assert (0 <= IZR (dz H + 1) * q) by (apply Rmult_le_pos; lra).
        split; [apply Rabs_pos_eq; auto|]. rewrite Rabs_pos_eq by auto. rewrite plus_IZR at 1 2. split; [exact RU|]. apply Rmult_le_pos; auto.
      * right. assert (R4' : IZR r <= 4) by (apply (IZR_le _ 4); lia). specialize (RD R4').
        exists H, (order x). rewrite firstn_map. fold H. split; [reflexivity|]. split; [auto|]. rewrite LH. split; [lia|]. split; [auto|]. split; [auto|].
        pose proof (dz_bound H HD) as BH. assert (0 <= IZR (dz H)) by (apply (IZR_le 0); lia). assert (0 <= IZR (dz H) * q) by (apply Rmult_le_pos; lra).
        split; [|split; [auto|intros ->; split; [unfold H in RD; cbn [firstn] in RD; rewrite dz_nil in RD; lra|reflexivity]]].
        exists (dz H). fold q. split; [apply Rabs_pos_eq; auto|]. rewrite Rabs_pos_eq by auto. split; [exact RD|]. apply Rmult_le_pos; auto.
    + right. exists D, (order x). split; [reflexivity|]. split; [auto|]. split; [lia|]. assert (KN' := KN L). split; [right; rewrite KN' in D4; lia|]. split; [auto|].
      split; [|split; [auto|intros ->; lia]]. specialize (TE KN').
      assert (EV : IZR (dz D) * p10 (order x + 1 - Z.of_nat (length D)) = Rabs (value x)).
      { rewrite TE. unfold u. f_equal. f_equal. rewrite KN' in *. lia. }
      rewrite EV. exists (dz D * 10 ^ (Z.of_nat n - Z.of_nat (length D)))%Z. rewrite !Rabs_pos_eq by auto.
      assert (EK : IZR (dz D * 10 ^ (Z.of_nat n - Z.of_nat (length D))) * q = Rabs (value x)).
      { rewrite mult_IZR, <- p10_nonneg by lia. rewrite <- EV, Rmult_assoc. f_equal. unfold q. rewrite <- p10_add. f_equal. lia. }
      rewrite EK. split; [reflexivity|]. split; [lra|]. apply Rmult_le_pos; auto.
Qed.
