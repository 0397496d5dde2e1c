(** * The tables of Bernoulli numbers (proofs only) *)

From Coq Require Import ZArith List Bool Arith Reals Lra Lia Psatz.
From Verif Require Import Model Spec SpecText SpecGen Limbs Value AddProofs MulCor IntProofs IntCor ModelDiv InvProofs PowExtra StrAny LimitsProofs
  FloatEval SeriesFloat ExpReal ExpFloat ExpAcc SinFloat ModelStr ModelTables TabProofs ModelFact TabBern ModelBern SpecBern BernReal BernFloat.
Import ListNotations.
Open Scope R_scope.
Local Notation p10 := (powerRZ 10).
Local Notation length := List.length.
Local Notation "x ^ n" := (Rpow_def.pow x n) : R_scope.

(** ** Reading integers with a sign *)

Lemma read_literal_rel d l : valid_digits d -> valid_literal l -> (Z.of_nat (length (text l)) < 2147483600)%Z -> (Z.abs (l_exponent l) <= 1000000)%Z ->
  p10 (-10000) <= Rabs (literal_value l) < p10 2000000 ->
  exists r, of_string d (text l) = Ok r /\ finite d r /\ full d r /\ Rabs (value r - literal_value l) <= p10 (- (d + 17)) * Rabs (literal_value l).
Proof.
  intros Hd VL LT XE [V1 V2]. pose proof (p10_pos (-10000)) as P0. pose proof (p10_pos (- (d + 17))) as P1. pose proof (elem_number_digits d Hd) as EN.
  destruct (literal_cor d l Hd VL LT ltac:(lia)) as (r & R1 & R2 & R3). exists r. split; [exact R1|].
  destruct R2 as (_ & _ & _ & _ & _ & IN). set (v := literal_value l) in *.
  destruct IN as (Fr & (C1 & C2 & C3) & KO).
  { split; [apply Rle_trans with (2 := V1); apply p10_le; lia|]. apply Rlt_le_trans with (1 := V2). apply p10_le. lia. }
  split; [exact Fr|]. split; [exact R3|].
  pose proof (KO _ V1) as KR. assert (Rn : limb (data r) 0 <> 0%Z).
  { intro Z. rewrite (finite_zero_value d r Fr Z), Rabs_R0 in KR. lra. }
  destruct (finite_abs_bounds d r Hd Fr Rn) as [E1 E2].
  assert (U : ulp d (Model.exp r) <= p10 (- (d + 17)) * Rabs v).
  { apply Rle_trans with (p10 (- (d + 17)) * p10 (Model.exp r)); [|apply Rmult_le_compat_l; lra]. unfold ulp. rewrite <- p10_add. apply p10_le. lia. }
  apply Rle_trans with (Rabs v - Rabs (value r)); [|lra]. clear - C1 C2. unfold Rabs in *. destruct (Rcase_abs (value r)), (Rcase_abs v), (Rcase_abs (value r - v)); nra.
Qed.

(* entries that are written with all their digits *)
Definition plain (en : entry) : Z :=
  match en with IntE n => n | StrE s _ gs => if s then (- number gs)%Z else number gs | SciE _ _ _ _ => 0%Z end.
Definition plain_okb (en : entry) : bool :=
  match en with
  | IntE n => negb (n =? 0)%Z && (Z.abs n <? 9223372036854775808)%Z
  | StrE _ k gs => (k <=? 1000)%Z && groups_ok k gs
  | SciE _ _ _ _ => false
  end.

Lemma big_power k : (20 <= k)%Z -> (9223372036854775808 <= 10 ^ k)%Z.
Proof. intro H. assert (10 ^ 20 <= 10 ^ k)%Z by (apply Z.pow_le_mono_r; lia). change (10 ^ 20)%Z with 100000000000000000000%Z in *. lia. Qed.

Lemma read_plain d en : valid_digits d -> plain_okb en = true ->
  exists r, entry_ef d en = Ok r /\ finite d r /\ full d r /\ Rabs (value r - IZR (plain en)) <= p10 (- (d + 17)) * Rabs (IZR (plain en)) /\
  (1 <= Z.abs (plain en) < 10 ^ 1000)%Z /\ ((Z.abs (plain en) < 10 ^ (d + 18))%Z -> value r = IZR (plain en)).
Proof.
  intros Hd H. pose proof (p10_pos (- (d + 17))) as P1. destruct en as [n|s k gs|s k gs e]; cbn [plain_okb plain] in *; [| |discriminate H].
  - apply andb_true_iff in H. destruct H as [H1 H2]. apply negb_true_iff, Z.eqb_neq in H1. apply Z.ltb_lt in H2.
    destruct (of_sll_spec d n Hd ltac:(lia)) as (F & P & V & _). exists (of_sll d n). split; [reflexivity|]. split; [exact F|]. split; [exact P|]. rewrite V. unfold Rminus. rewrite Rplus_opp_r, Rabs_R0.
    split; [apply Rmult_le_pos; [lra|apply Rabs_pos]|]. split; [|reflexivity]. split; [lia|]. exact (Z.lt_le_trans _ _ _ H2 (big_power 1000 ltac:(lia))).
  - apply andb_true_iff in H. destruct H as [H G]. apply Z.leb_le in H. destruct (groups_bound k gs G) as [B K].
    set (l := entry_literal (StrE s k gs)). set (ds := digs (Z.to_nat k) (number gs) []).
    assert (D : Forall is_decimal ds) by (apply digs_dec; constructor). assert (L : length ds = Z.to_nat k) by (unfold ds; rewrite digs_length; cbn; lia).
    pose proof (Z.pow_pos_nonneg 10 (k - 1) ltac:(lia) ltac:(lia)) as PP.
    assert (V : decimal_Z ds = number gs) by (apply digs_value; rewrite Z2Nat.id by lia; lia).
    assert (NE : ds <> []) by (apply digs_nonempty; lia).
    assert (VL : valid_literal l). { split; [exact D|]. split; [constructor|]. split; [cbn [l l_int l_frac entry_literal]; rewrite app_nil_r; exact NE|]. split; [reflexivity|]. cbn [l l_exp entry_literal]. discriminate. }
    assert (LT : (Z.of_nat (length (text l)) < 2147483600)%Z).
    { unfold text, l, entry_literal. cbn [l_sign l_int l_point l_frac l_exp app]. rewrite !app_nil_r, app_length, map_length. fold ds. rewrite L. destruct s; cbn [sign_text List.length]; lia. }
    assert (XE : (Z.abs (l_exponent l) <= 1000000)%Z) by (cbn; lia).
    assert (LV : literal_value l = IZR (if s then (- number gs)%Z else number gs)).
    { unfold literal_value, l_exponent, l, entry_literal. cbn [l_sign l_int l_point l_frac l_exp List.length]. rewrite app_nil_r. fold ds. rewrite V. change (0 - Z.of_nat 0)%Z with 0%Z. change (p10 0) with 1.
      destruct s; cbn [negative]; [rewrite opp_IZR|]; ring. }
    assert (Bn : (1 <= number gs < 10 ^ 1000)%Z). { split; [lia|]. exact (Z.lt_le_trans _ _ _ (proj2 B) (Z.pow_le_mono_r 10 k 1000 ltac:(lia) H)). }
    assert (AB : Z.abs (if s then (- number gs)%Z else number gs) = number gs) by (destruct s; lia).
    destruct (read_literal_rel d l Hd VL LT XE) as (r & R1 & R2 & R3 & R4).
    { rewrite LV, <- abs_IZR, AB. split; [apply Rle_trans with 1; [change 1 with (p10 0); apply p10_le; lia|apply IZR_le; lia]|].
      apply Rlt_le_trans with (p10 k); [rewrite p10_nonneg by lia; apply IZR_lt; lia|apply p10_le; lia]. }
    exists r. split; [exact R1|]. split; [exact R2|]. split; [exact R3|]. rewrite LV in R4. split; [exact R4|]. rewrite AB. split; [exact Bn|]. intro S.
    assert (BV : p10 0 <= Rabs (literal_value l) < p10 1000000).
    { rewrite LV, <- abs_IZR, AB. split; [change (p10 0) with 1; apply IZR_le; lia|]. apply Rlt_le_trans with (p10 k); [rewrite p10_nonneg by lia; apply IZR_lt; lia|apply p10_le; lia]. }
    assert (B0 : 0 < Rabs (literal_value l)) by (pose proof (p10_pos 0); lra).
    destruct (positive_order _ B0 1000000 (proj2 BV) 0 (proj1 BV)) as (m & M1 & M2).
    destruct (read_exact d l (if s then (- number gs)%Z else number gs) 0 m Hd VL LT ltac:(lia)) as (r' & R1' & R2' & R3' & R4').
    + rewrite LV. change (p10 0) with 1. ring.
    + exact M2.
    + lia.
    + pose proof (elem_number_digits d Hd). assert (m < d + 18)%Z; [|lia]. apply p10_lt_inv. apply Rle_lt_trans with (1 := proj1 M2). rewrite LV, <- abs_IZR, AB, p10_nonneg by (destruct Hd; lia). apply IZR_lt. exact S.
    + rewrite R1 in R1'. injection R1' as <-. rewrite R3'. exact LV.
Qed.

(** ** The tangent numbers, with integers *)

Fixpoint zpass (c prev : Z) (l : list Z) : list Z :=
  match l with [] => [] | x :: r => let y := (c * (prev + x) + 2 * x)%Z in y :: zpass (c + 1) y r end.
Fixpoint ztang (n : nat) (l : list Z) : list Z :=
  match n, l with S n, x :: r => x :: ztang n (zpass 0 0 r) | _, _ => [] end.
Fixpoint zfacts (n : nat) (k f : Z) : list Z := match n with O => [] | S n => f :: zfacts n (k + 1) (f * k) end.

(* the list holds tang k j for j = j0, j0+1, ... *)
Definition holds (k j0 : nat) (l : list Z) : Prop := forall i, (i < length l)%nat -> IZR (nth i l 0%Z) = tang k (j0 + i).

Lemma zfacts_ok n : forall k f, (1 <= k)%nat -> f = Z.of_nat (fact (k - 1)) -> length (zfacts n (Z.of_nat k) f) = n /\ holds 1 k (zfacts n (Z.of_nat k) f).
Proof.
  induction n as [|n IH]; intros k f Hk ->; cbn [zfacts]; [split; [reflexivity|]; intros i Hi; cbn in Hi; lia|].
  destruct (IH (S k) (Z.of_nat (fact (k - 1)) * Z.of_nat k)%Z ltac:(lia)) as [L H].
  { destruct k as [|k]; [lia|]. replace (S (S k) - 1)%nat with (S k) by lia. replace (S k - 1)%nat with k by lia. rewrite fact_simpl. lia. }
  replace (Z.of_nat (S k)) with (Z.of_nat k + 1)%Z in * by lia. split; [cbn [List.length]; rewrite L; reflexivity|].
  intros [|i] Hi; cbn [nth List.length] in *.
  - rewrite Nat.add_0_r, tang_first, INR_IZR_INZ by lia. reflexivity.
  - rewrite (H i ltac:(lia)). f_equal. lia.
Qed.

Lemma zpass_ok k l : forall j prev, (2 <= k <= j)%nat -> (j = k \/ IZR prev = tang k (j - 1)) -> holds (k - 1) j l ->
  length (zpass (Z.of_nat (j - k)) prev l) = length l /\ holds k j (zpass (Z.of_nat (j - k)) prev l).
Proof.
  induction l as [|x r IH]; intros j prev Hk Hp H; cbn [zpass]; [split; [reflexivity|]; intros i Hi; cbn in Hi; lia|]. cbv zeta.
  set (y := (Z.of_nat (j - k) * (prev + x) + 2 * x)%Z).
  assert (Y : IZR y = tang k j).
  { pose proof (H 0%nat ltac:(cbn; lia)) as X. cbn [nth] in X. rewrite Nat.add_0_r in X. rewrite tang_step by lia. unfold y. rewrite plus_IZR, !mult_IZR, plus_IZR, X, plus_INR, INR_IZR_INZ. change (INR 2) with 2.
    destruct Hp as [->|Hp]; [rewrite Nat.sub_diag; change (Z.of_nat 0) with 0%Z; ring|rewrite Hp; ring]. }
  replace (Z.of_nat (j - k) + 1)%Z with (Z.of_nat (S j - k)) by lia. destruct (IH (S j) y ltac:(lia)) as [L G].
  - right. replace (S j - 1)%nat with j by lia. exact Y.
  - intros i Hi. pose proof (H (S i) ltac:(cbn; lia)) as X. cbn [nth] in X. rewrite X. f_equal. lia.
  - split; [cbn [List.length]; rewrite L; reflexivity|]. intros [|i] Hi; cbn [nth List.length] in *; [rewrite Nat.add_0_r; exact Y|]. rewrite (G i ltac:(lia)). f_equal. lia.
Qed.

Lemma ztang_ok n : forall k l, (1 <= k)%nat -> length l = n -> holds k k l ->
  length (ztang n l) = n /\ forall i, (i < n)%nat -> IZR (nth i (ztang n l) 0%Z) = tang (k + i) (k + i).
Proof.
  induction n as [|n IH]; intros k l Hk L H; [split; [reflexivity|lia]|]. destruct l as [|x r]; [discriminate L|]. cbn [ztang]. injection L as L.
  destruct (zpass_ok (S k) r (S k) 0 ltac:(lia) (or_introl eq_refl)) as [L' G].
  { replace (S k - 1)%nat with k by lia. intros i Hi. pose proof (H (S i) ltac:(cbn; lia)) as X. cbn [nth] in X. rewrite X. f_equal. lia. }
  rewrite Nat.sub_diag in L', G. change (Z.of_nat 0) with 0%Z in L', G. destruct (IH (S k) (zpass 0 0 r) ltac:(lia) ltac:(lia) G) as [L'' Q].
  split; [cbn [List.length]; rewrite L''; reflexivity|]. intros [|i] Hi; cbn [nth].
  - pose proof (H 0%nat ltac:(cbn; lia)) as X. cbn [nth] in X. rewrite X. f_equal; lia.
  - rewrite (Q i ltac:(lia)). f_equal; lia.
Qed.

(** ** The check of the first entries *)

(* i, 4^i, the tangent numbers from the i-th on, the entries from the i-th on *)
Fixpoint bern_check (i p : Z) (ts : list Z) (ns ds : list entry) : bool :=
  match ts, ns, ds with
  | [], _, _ => true
  | t :: ts, a :: ns, b :: ds =>
      plain_okb a && plain_okb b && (Z.gcd (plain a mod plain b) (plain b) =? 1)%Z && (0 <? plain b)%Z && ((0 <? plain a) || (2 * Z.abs (plain a) <=? plain b) || (2 * plain b <=? Z.abs (plain a)))%Z &&
      (p * (p * plain a - plain a) =? plain b * (if Z.even i then - (2 * i * t) else 2 * i * t))%Z &&
      bern_check (i + 1) (4 * p) ts ns ds
  | _, _, _ => false
  end.

Lemma bern_check_ok ts : forall i p ns ds, bern_check i p ts ns ds = true -> forall k, (k < length ts)%nat ->
  exists a b, nth_error ns k = Some a /\ nth_error ds k = Some b /\ plain_okb a = true /\ plain_okb b = true /\ Z.gcd (plain a) (plain b) = 1%Z /\ (0 < plain b)%Z /\ (0 < plain a \/ 2 * Z.abs (plain a) <= plain b \/ 2 * plain b <= Z.abs (plain a))%Z /\
  ((4 ^ Z.of_nat k * p) * ((4 ^ Z.of_nat k * p) * plain a - plain a) = plain b * (if Z.even (i + Z.of_nat k) then - (2 * (i + Z.of_nat k) * nth k ts 0) else 2 * (i + Z.of_nat k) * nth k ts 0))%Z.
Proof.
  induction ts as [|t ts IH]; intros i p ns ds H k Hk; [cbn in Hk; lia|]. cbn [bern_check] in H. destruct ns as [|a ns]; [discriminate H|]. destruct ds as [|b ds]; [discriminate H|].
  apply andb_true_iff in H. destruct H as [H H4]. apply andb_true_iff in H. destruct H as [H H3]. apply andb_true_iff in H. destruct H as [H H7]. apply andb_true_iff in H. destruct H as [H H6]. apply andb_true_iff in H. destruct H as [H H5]. apply andb_true_iff in H. destruct H as [H1 H2]. apply Z.eqb_eq in H3. apply Z.ltb_lt in H6. apply Z.eqb_eq in H5. assert (H8 : (0 < plain a \/ 2 * Z.abs (plain a) <= plain b \/ 2 * plain b <= Z.abs (plain a))%Z) by lia. rewrite Z.gcd_mod, Z.gcd_comm in H5 by lia.
  destruct k as [|k].
  - exists a, b. cbn [nth_error nth]. change (Z.of_nat 0) with 0%Z. rewrite Z.add_0_r. change (4 ^ 0)%Z with 1%Z. rewrite Z.mul_1_l. repeat (split; [assumption || reflexivity|]). exact H3.
  - destruct (IH _ _ _ _ H4 k ltac:(cbn in Hk; lia)) as (a' & b' & A1 & A2 & A3 & A4 & A5 & A6 & A8 & A7). exists a', b'. cbn [nth_error nth].
    replace (i + Z.of_nat (S k))%Z with (i + 1 + Z.of_nat k)%Z by lia. replace (4 ^ Z.of_nat (S k) * p)%Z with (4 ^ Z.of_nat k * (4 * p))%Z by (rewrite Nat2Z.inj_succ, Z.pow_succ_r by lia; ring). repeat (split; [assumption|]). exact A7.
Qed.

Definition table_checkb (n : nat) (num den : list entry) : bool :=
  match num, den with
  | IntE a :: num, IntE b :: den => (a =? 1)%Z && (b =? 1)%Z && bern_check 1 4 (ztang n (zfacts n 1 1)) num den
  | _, _ => false
  end.

Lemma table_check_ok b n num den i : is_bernoulli b -> table_checkb n num den = true -> (i <= n)%nat ->
  exists x y, nth_error num i = Some x /\ nth_error den i = Some y /\ plain_okb x = true /\ plain_okb y = true /\ Z.gcd (plain x) (plain y) = 1%Z /\ (0 < plain y)%Z /\
  (0 < plain x \/ 2 * Z.abs (plain x) <= plain y \/ 2 * plain y <= Z.abs (plain x))%Z /\ b (2 * i)%nat = IZR (plain x) / IZR (plain y).
Proof.
  intros Hb H Hi. destruct num as [|[a| |] num]; try discriminate H. destruct den as [|[c| |] den]; try discriminate H. cbn [table_checkb] in H.
  apply andb_true_iff in H. destruct H as [H C]. apply andb_true_iff in H. destruct H as [Ha Hc]. apply Z.eqb_eq in Ha, Hc. subst a c.
  destruct i as [|i].
  - exists (IntE 1), (IntE 1). repeat (split; [reflexivity|]). split; [left; reflexivity|]. change (2 * 0)%nat with 0%nat. rewrite (proj1 Hb). cbn [plain]. field.
  - destruct (zfacts_ok n 1 1 (Nat.le_refl 1) eq_refl) as [L0 H0]. change (Z.of_nat 1) with 1%Z in L0, H0. destruct (ztang_ok n 1 _ (Nat.le_refl 1) L0 H0) as [L1 H1].
    destruct (bern_check_ok _ _ _ _ _ C i ltac:(lia)) as (x & y & X1 & X2 & X3 & X4 & X6 & X7 & X8 & X5). exists x, y. cbn [nth_error]. repeat (split; [assumption|]).
    specialize (H1 i ltac:(lia)). set (T := nth i (ztang n (zfacts n 1 1)) 0%Z) in *. replace (1 + i)%nat with (S i) in H1 by lia. replace (1 + Z.of_nat i)%Z with (Z.of_nat (S i)) in X5 by lia.
    replace (4 ^ Z.of_nat i * 4)%Z with (4 ^ Z.of_nat (S i))%Z in X5 by (rewrite Nat2Z.inj_succ, Z.pow_succ_r by lia; ring).
    assert (Y0 : plain y <> 0%Z) by lia.
    apply (f_equal IZR) in X5. rewrite !mult_IZR, minus_IZR, mult_IZR in X5.
    assert (P4 : IZR (4 ^ Z.of_nat (S i)) = 4 ^ S i) by (rewrite pow_IZR; f_equal). rewrite P4 in X5. clear P4.
    rewrite (bernoulli_tang b (S i) Hb ltac:(lia)), <- H1.
    assert (Q : 4 <= 4 ^ S i) by (replace 4 with (4 ^ 1) at 1 by (cbn; ring); apply Rle_pow; [lra|lia]). set (w := 4 ^ S i) in *. apply IZR_neq in Y0.
    assert (N1 : w * (w - 1) <> 0) by nra. assert (N2 : w * w - w <> 0) by nra.
    assert (Sg : IZR (if Z.even (Z.of_nat (S i)) then (- (2 * Z.of_nat (S i) * T))%Z else (2 * Z.of_nat (S i) * T)%Z) = (-1) ^ (S i - 1) * (INR (2 * S i) * IZR T)).
    { replace (S i - 1)%nat with i by lia. assert (EN : INR (2 * S i) * IZR T = IZR (2 * Z.of_nat (S i) * T)) by (rewrite INR_IZR_INZ, Nat2Z.inj_mul, <- mult_IZR; reflexivity). rewrite EN.
      destruct (Nat.Even_or_Odd i) as [[j ->]|[j ->]].
      - replace (Z.even (Z.of_nat (S (2 * j)))) with false; [rewrite pow_1_even; ring|]. symmetry. rewrite <- Z.negb_odd. apply negb_false_iff, Z.odd_spec. exists (Z.of_nat j). lia.
      - replace (Z.even (Z.of_nat (S (2 * j + 1)))) with true; [rewrite Nat.add_1_r, pow_1_odd, opp_IZR; ring|]. symmetry. apply Z.even_spec. exists (Z.of_nat j + 1)%Z. lia. }
    rewrite Sg in X5. set (v := (-1) ^ (S i - 1)) in *. set (m := INR (2 * S i)) in *.
    apply (Rmult_eq_reg_r (w * (w - 1) * IZR (plain y))); [|apply Rmult_integral_contrapositive; split; assumption].
    transitivity (IZR (plain y) * (v * (m * IZR T))); [field; exact N2|]. rewrite <- X5. field. exact Y0.
Qed.

Lemma tables_checked : table_checkb 100 A000367 A002445 = true.
Proof. vm_compute. reflexivity. Qed.

(** ** The quotients of the tables *)

Lemma quot_signed d M a c : valid_digits d -> (d <= 4967)%Z -> (0 <= M <= 1000000000)%Z -> ok d M a -> ok d M c -> value a <> 0 -> 0 < value c ->
  Rabs (value a) <> Rabs (value c) \/ 0 < value a ->
  finite d (div d a c) /\ full d (div d a c) /\ rel (p10 (- (d + 1))) (value (div d a c)) (value a / value c).
Proof.
  intros Hd Hd' HM Oa Oc Va Vc HC. pose proof (ok_in_range d M c Oc ltac:(lia) ltac:(lra)) as IR.
  assert (IQ : in_range (value a / value c)).
  { destruct Oc as (_ & _ & [Z|[M1 M2]]); [lra|]. destruct Oa as (_ & _ & [Z|[N1 N2]]); [contradiction|]. unfold in_range, Rdiv. rewrite Rabs_mult, Rabs_inv. set (A := Rabs (value a)) in *. set (C := Rabs (value c)) in *.
    assert (Cp : 0 < C) by (apply Rabs_pos_lt; lra). pose proof (p10_pos (- M)).
    assert (I1 : / p10 M <= / C) by (apply Rinv_le_contravar; assumption). assert (I2 : / C <= / p10 (- M)) by (apply Rinv_le_contravar; assumption).
    rewrite p10_inv, Rinv_inv in I2. rewrite <- p10_inv in I1. split.
    - apply Rle_trans with (p10 (- M) * p10 (- M)); [rewrite <- p10_add; apply p10_le; lia|]. apply Rmult_le_compat; lra.
    - apply Rle_trans with (p10 M * p10 M); [|rewrite <- p10_add; apply p10_le; lia]. pose proof (p10_pos M). apply Rmult_le_compat; lra. }
  destruct (div_accurate d a c Hd ltac:(lia) (proj1 Oa) (proj1 Oc) (proj1 (proj2 Oa)) (proj1 (proj2 Oc)) IR IQ HC) as (Fr & Pr & _ & _ & Er). specialize (Er Hd').
  split; [exact Fr|]. split; [exact Pr|]. exact Er.
Qed.

Lemma plain_ok d z r : valid_digits d -> (1 <= Z.abs z < 10 ^ 1000)%Z -> finite d r -> full d r -> Rabs (value r - IZR z) <= p10 (- (d + 17)) * Rabs (IZR z) ->
  ok d 1001 r /\ 9 / 10 * IZR (Z.abs z) <= Rabs (value r) <= 11 / 10 * IZR (Z.abs z).
Proof.
  intros Hd Hz F P R. rewrite (p_17 d), <- abs_IZR in R. pose proof (u_small d Hd) as U. set (a := IZR (Z.abs z)) in *.
  assert (A1 : 1 <= a) by (apply IZR_le; lia). assert (A2 : a < p10 1000) by (rewrite p10_nonneg by lia; apply IZR_lt, (proj2 Hz)).
  assert (E : p10 (- d) / 100000000000000000 * a <= / 10 * a) by (apply Rmult_le_compat_r; lra).
  assert (AB : Rabs (IZR z) = a) by (unfold a; rewrite abs_IZR; reflexivity).
  assert (B : 9 / 10 * a <= Rabs (value r) <= 11 / 10 * a).
  { pose proof (Rabs_triang_inv (value r) (IZR z)) as T1. pose proof (Rabs_triang_inv (IZR z) (value r)) as T2. rewrite Rabs_minus_sym in T2. lra. }
  split; [|exact B]. apply ok_of_bounds; [exact F|exact P|]. split.
  - apply Rle_trans with (p10 (-1)); [apply p10_le; lia|]. change (p10 (-1)) with (/ 10 ^ 1). cbn. lra.
  - apply Rle_trans with (p10 1 * p10 1000); [change (p10 1) with (10 ^ 1); cbn; pose proof (p10_pos 1000); lra|]. rewrite <- p10_add. apply p10_le. lia.
Qed.

Lemma quot_read d x y : valid_digits d -> (d <= 4967)%Z -> plain_okb x = true -> plain_okb y = true -> (0 < plain y)%Z ->
  (0 < plain x \/ 2 * Z.abs (plain x) <= plain y \/ 2 * plain y <= Z.abs (plain x))%Z ->
  exists a b, entry_ef d x = Ok a /\ entry_ef d y = Ok b /\ finite d (div d a b) /\ full d (div d a b) /\
  Rabs (value (div d a b) - IZR (plain x) / IZR (plain y)) <= p10 (- d) / 5 * Rabs (IZR (plain x) / IZR (plain y)).
Proof.
  intros Hd Hd' Hx Hy Py C. destruct (read_plain d x Hd Hx) as (a & A1 & A2 & A3 & A4 & A5 & _). destruct (read_plain d y Hd Hy) as (b & B1 & B2 & B3 & B4 & B5 & _).
  exists a, b. split; [exact A1|]. split; [exact B1|]. destruct (plain_ok d _ a Hd A5 A2 A3 A4) as [Oa [La Ua]]. destruct (plain_ok d _ b Hd B5 B2 B3 B4) as [Ob [Lb Ub]].
  pose proof (u_small d Hd) as U. rewrite (p_17 d) in A4, B4. set (X := plain x) in *. set (Y := plain y) in *.
  assert (X1 : 1 <= IZR (Z.abs X)) by (apply IZR_le; lia). assert (Y1 : 1 <= IZR (Z.abs Y)) by (apply IZR_le; lia).
  assert (YA : IZR (Z.abs Y) = IZR Y) by (f_equal; lia). rewrite YA in *.
  assert (Vb : 0 < value b).
  { rewrite (Rabs_pos_eq (IZR Y)) in B4 by lra. apply Rabs_le_inv in B4. assert (p10 (- d) / 100000000000000000 * IZR Y <= / 2 * IZR Y) by (apply Rmult_le_compat_r; lra). lra. }
  assert (Va : value a <> 0) by (intro Z; rewrite Z, Rabs_R0 in La; lra).
  assert (HC : Rabs (value a) <> Rabs (value b) \/ 0 < value a).
  { destruct C as [C|[C|C]].
    - right. assert (XA : IZR (Z.abs X) = IZR X) by (f_equal; lia). rewrite XA in *. rewrite (Rabs_pos_eq (IZR X)) in A4 by lra. apply Rabs_le_inv in A4.
      assert (p10 (- d) / 100000000000000000 * IZR X <= / 2 * IZR X) by (apply Rmult_le_compat_r; lra). lra.
    - left. apply IZR_le in C. rewrite mult_IZR in C. lra.
    - left. apply IZR_le in C. rewrite mult_IZR in C. lra. }
  destruct (quot_signed d 1001 a b Hd Hd' ltac:(lia) Oa Ob Va Vb HC) as (Fq & Pq & Rq). split; [exact Fq|]. split; [exact Pq|].
  set (k := p10 (- d) / 100000000000000000) in *. assert (K : 0 < k <= / 10000000000000000000000000000) by (unfold k; lra).
  pose proof (rel_div k k (value a) (IZR X) (value b) (IZR Y) ltac:(lra) ltac:(lra) ltac:(lra) ltac:(lra) A4 B4) as Rd.
  pose proof (rel_trans (p10 (- (d + 1))) _ _ _ _ ltac:(rewrite (p_1 d); lra) Rq Rd) as Rf.
  eapply rel_le; [|exact Rf]. rewrite (p_1 d).
  assert (k * (102 / 100 * k) <= k * 1) by (apply Rmult_le_compat_l; lra). set (h := k + 102 / 100 * k + k * (102 / 100 * k)) in *.
  assert (Hh : 0 <= h <= 4 * k) by (unfold h; split; [assert (0 <= k * (102 / 100 * k)) by (apply Rmult_le_pos; lra); lra|lra]).
  assert (p10 (- d) / 10 * h <= 1 * h) by (apply Rmult_le_compat_r; lra). unfold k in Hh. lra.
Qed.
