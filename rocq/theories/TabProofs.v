(** * The tables of integers (proofs only) *)

From Coq Require Import ZArith List Bool Ascii String Reals Lra Lia Psatz.
From Verif Require Import Model Spec SpecText Limbs Value CmpProofs AddProofs Decide OrderProofs AddExtra MulCor ModelStr StrProofs StrOut StrFmt StrAny LimitsProofs
  IntProofs InvProofs ExpReal SeriesFloat ModelTables.
Import ListNotations.
Open Scope R_scope.
Local Notation length := List.length.
Local Notation p10 := (powerRZ 10).
Ltac Zify.zify_post_hook ::= Z.div_mod_to_equations.

(** ** Digits *)

Lemma digs_app k : forall n acc, digs k n acc = digs k n [] ++ acc.
Proof. induction k as [|k IH]; intros n acc; cbn [digs]; [reflexivity|]. rewrite IH, (IH _ [_]), <- app_assoc. reflexivity. Qed.

Lemma digs_length k : forall n acc, length (digs k n acc) = (k + length acc)%nat.
Proof. induction k as [|k IH]; intros; cbn [digs]; [reflexivity|]. rewrite IH. cbn [List.length]. lia. Qed.

Lemma digs_dec k : forall n acc, Forall is_decimal acc -> Forall is_decimal (digs k n acc).
Proof. induction k as [|k IH]; intros; cbn [digs]; [assumption|]. apply IH. constructor; [unfold is_decimal; lia|assumption]. Qed.

Lemma Forall_split {A} (P : A -> Prop) n l : Forall P l -> Forall P (firstn n l) /\ Forall P (skipn n l).
Proof. intro H. rewrite <- (firstn_skipn n l) in H. apply Forall_app in H. exact H. Qed.

Lemma decimal_app l x : decimal_Z (l ++ [x]) = (decimal_Z l * 10 + x)%Z.
Proof. unfold decimal_Z. rewrite fold_left_app. reflexivity. Qed.

Lemma digs_value k : forall n, (0 <= n < 10 ^ Z.of_nat k)%Z -> decimal_Z (digs k n []) = n.
Proof.
  induction k as [|k IH]; intros n H; [cbn in *; lia|]. cbn [digs]. rewrite digs_app, decimal_app, IH; [lia|].
  rewrite Nat2Z.inj_succ, Z.pow_succ_r in H by lia. lia.
Qed.

(** ** Groups of digits *)

Definition base : Z := (10 ^ 20)%Z.

(* least significant group first *)
Fixpoint vlist (l : list Z) : Z := match l with [] => 0%Z | x :: r => (x + base * vlist r)%Z end.

Lemma vlist_app l x : vlist (l ++ [x]) = (vlist l + base ^ Z.of_nat (length l) * x)%Z.
Proof.
  induction l as [|y l IH]; cbn [vlist app List.length]; [rewrite Z.mul_0_r; cbn; lia|]. rewrite IH, Nat2Z.inj_succ, Z.pow_succ_r by lia. ring.
Qed.

Lemma number_app l x : number (l ++ [x]) = (number l * base + x)%Z.
Proof. unfold number. rewrite fold_left_app. reflexivity. Qed.

Lemma number_vlist gs : number gs = vlist (rev gs).
Proof. induction gs as [|x l IH] using rev_ind; [reflexivity|]. rewrite number_app, rev_unit. cbn [vlist]. rewrite IH. ring. Qed.

Definition groups_ok (k : Z) (gs : list Z) : bool :=
  match gs with
  | [] => false
  | t :: r =>
      let j := (k - 20 * Z.of_nat (length r))%Z in
      (1 <=? j)%Z && (j <=? 20)%Z && (10 ^ (j - 1) <=? t)%Z && (t <? 10 ^ j)%Z && forallb (fun g => (0 <=? g)%Z && (g <? base)%Z) r
  end.

Lemma vlist_bound l : Forall (fun g => (0 <= g < base)%Z) l -> (0 <= vlist l < base ^ Z.of_nat (length l))%Z.
Proof.
  induction 1 as [|x l Hx Hl IH]; [cbn; lia|]. cbn [vlist List.length]. rewrite Nat2Z.inj_succ, Z.pow_succ_r by lia. assert (0 < base)%Z by reflexivity. nia.
Qed.

Lemma groups_bound k gs : groups_ok k gs = true -> (10 ^ (k - 1) <= number gs < 10 ^ k)%Z /\ (1 <= k)%Z.
Proof.
  destruct gs as [|t r]; [discriminate|]. unfold groups_ok. cbv zeta. set (n := Z.of_nat (length r)). intro H.
  apply andb_true_iff in H. destruct H as [H H5]. apply andb_true_iff in H. destruct H as [H H4]. apply andb_true_iff in H. destruct H as [H H3].
  apply andb_true_iff in H. destruct H as [H1 H2]. apply Z.leb_le in H1, H2, H3. apply Z.ltb_lt in H4.
  assert (F : Forall (fun g => (0 <= g < base)%Z) r) by (apply Forall_forall; intros g G; rewrite forallb_forall in H5; specialize (H5 g G); lia).
  rewrite number_vlist. cbn [rev]. rewrite vlist_app, rev_length. fold n.
  pose proof (vlist_bound (rev r) (Forall_rev F)) as B. rewrite rev_length in B. fold n in B.
  assert (E : (base ^ n = 10 ^ (20 * n))%Z) by (unfold base; rewrite <- Z.pow_mul_r by lia; reflexivity). rewrite E in *.
  set (Y := (10 ^ (20 * n))%Z) in *. assert (E1 : (10 ^ (k - 1) = Y * 10 ^ (k - 20 * n - 1))%Z) by (unfold Y; rewrite <- Z.pow_add_r by lia; f_equal; lia).
  assert (E2 : (10 ^ k = Y * 10 ^ (k - 20 * n))%Z) by (unfold Y; rewrite <- Z.pow_add_r by lia; f_equal; lia).
  rewrite E1, E2. clear E1 E2 E. set (P := (10 ^ (k - 20 * n - 1))%Z) in *. set (Q := (10 ^ (k - 20 * n))%Z) in *. clearbody P Q Y. split; [nia|lia].
Qed.

(** ** Reading an entry *)

Definition entry_okb (en : entry) : bool :=
  match en with
  | IntE n => (0 <? n)%Z && (n <? 9223372036854775808)%Z
  | StrE s k gs => negb s && (k <=? 1000)%Z && groups_ok k gs
  | SciE s k gs e => negb s && (k <=? 1000)%Z && groups_ok (k + 1) gs && (0 <=? e)%Z && (e <=? 1000000)%Z
  end.

(* the entry is the integer mant(en) * 10^scale(en) *)
Definition mant (en : entry) : list Z :=
  match en with IntE n => [n] | StrE _ _ gs | SciE _ _ gs _ => rev gs end.
Definition scale (en : entry) : Z := match en with SciE _ k _ e => (e - k)%Z | _ => 0%Z end.
Definition entry_value (en : entry) : R := IZR (vlist (mant en)) * p10 (scale en).

Lemma mant_pos en : entry_okb en = true -> (0 < vlist (mant en))%Z.
Proof.
  destruct en as [n|s k gs|s k gs e]; cbn [entry_okb mant]; intro H.
  - cbn [vlist]. lia.
  - apply andb_true_iff in H. destruct H as [_ H]. rewrite <- number_vlist. destruct (groups_bound k gs H) as [[B _] K]. pose proof (Z.pow_pos_nonneg 10 (k - 1) ltac:(lia) ltac:(lia)). lia.
  - apply andb_true_iff in H. destruct H as [H _]. apply andb_true_iff in H. destruct H as [H _]. apply andb_true_iff in H. destruct H as [_ H].
    rewrite <- number_vlist. destruct (groups_bound _ gs H) as [[B _] K]. pose proof (Z.pow_pos_nonneg 10 (k + 1 - 1) ltac:(lia) ltac:(lia)). lia.
Qed.

Lemma digs_nonempty k n : (0 < k)%nat -> digs k n [] <> [].
Proof. intros H E. apply (f_equal (@List.length Z)) in E. rewrite digs_length in E. cbn in E. lia. Qed.

Lemma entry_literal_facts en : entry_okb en = true -> (forall n, en <> IntE n) ->
  valid_literal (entry_literal en) /\ (Z.of_nat (length (text (entry_literal en))) < 2147483600)%Z /\ (Z.abs (l_exponent (entry_literal en)) <= 1000000)%Z /\
  literal_value (entry_literal en) = entry_value en.
Proof.
  intros H N. destruct en as [n|s k gs|s k gs e]; [destruct (N n eq_refl)| |]; cbn [entry_okb] in H.
  - apply andb_true_iff in H. destruct H as [H G]. destruct s; [discriminate H|]. cbn [negb andb] in H. apply Z.leb_le in H.
    destruct (groups_bound k gs G) as [B K]. unfold entry_literal. set (ds := digs (Z.to_nat k) (number gs) []).
    assert (D : Forall is_decimal ds) by (apply digs_dec; constructor). assert (L : length ds = Z.to_nat k) by (unfold ds; rewrite digs_length; cbn; lia).
    assert (V : decimal_Z ds = number gs) by (apply digs_value; rewrite Z2Nat.id by lia; pose proof (Z.pow_pos_nonneg 10 (k - 1) ltac:(lia) ltac:(lia)); lia).
    assert (NE : ds <> []) by (apply digs_nonempty; lia).
    split; [|split; [|split]].
    + split; [exact D|]. split; [constructor|]. split; [cbn [l_int l_frac]; rewrite app_nil_r; exact NE|]. split; [reflexivity|]. cbn [l_exp]. discriminate.
    + unfold text. cbn [l_sign l_int l_point l_frac l_exp sign_text app]. rewrite !app_nil_r, map_length, L. lia.
    + cbn. lia.
    + unfold literal_value, l_exponent. cbn [l_sign l_int l_point l_frac l_exp negative List.length]. rewrite app_nil_r, V, number_vlist.
      unfold entry_value. cbn [mant scale]. change (0 - Z.of_nat 0)%Z with 0%Z. ring.
  - apply andb_true_iff in H. destruct H as [H He2]. apply andb_true_iff in H. destruct H as [H He1]. apply andb_true_iff in H. destruct H as [H G].
    destruct s; [discriminate H|]. cbn [negb andb] in H. apply Z.leb_le in H, He1, He2.
    destruct (groups_bound (k + 1) gs G) as [B K]. unfold entry_literal. cbv zeta. set (ds := digs (Z.to_nat (k + 1)) (number gs) []).
    assert (D : Forall is_decimal ds) by (apply digs_dec; constructor). assert (L : length ds = Z.to_nat (k + 1)) by (unfold ds; rewrite digs_length; cbn; lia).
    assert (V : decimal_Z ds = number gs) by (apply digs_value; rewrite Z2Nat.id by lia; pose proof (Z.pow_pos_nonneg 10 (k + 1 - 1) ltac:(lia) ltac:(lia)); lia).
    assert (NE : ds <> []) by (apply digs_nonempty; lia). clearbody ds.
    set (es := digs 18 e []). assert (De : Forall is_decimal es) by (apply digs_dec; constructor). assert (Le : length es = 18%nat) by (unfold es; rewrite digs_length; reflexivity).
    assert (Ve : decimal_Z es = e) by (apply digs_value; change (10 ^ Z.of_nat 18)%Z with 1000000000000000000%Z; lia). clearbody es.
    assert (Lf : length (skipn 1 ds) = Z.to_nat k) by (rewrite skipn_length, L; lia).
    split; [|split; [|split]].
    + split; [apply (Forall_split is_decimal 1 ds D)|]. split; [apply (Forall_split is_decimal 1 ds D)|]. split; [cbn [l_int l_frac]; rewrite firstn_skipn; exact NE|]. split; [cbn [l_point]; discriminate|].
      cbn [l_exp]. intros u0 s0 ds0 E. injection E as <- <- <-. split; [exact De|]. intro Z. rewrite Z in Le. discriminate Le.
    + unfold text. cbn [l_sign l_int l_point l_frac l_exp sign_text]. rewrite !app_length. cbn [List.length]. rewrite !app_length, !map_length, Le, Lf. rewrite firstn_length, L. cbn [List.length]. lia.
    + unfold l_exponent. cbn [l_exp negative]. rewrite Ve. lia.
    + unfold literal_value, l_exponent. cbn [l_sign l_int l_point l_frac l_exp negative]. rewrite firstn_skipn, V, Ve, Lf, number_vlist.
      unfold entry_value. cbn [mant scale]. rewrite Z2Nat.id by lia. ring.
Qed.

Lemma entry_range en : entry_okb en = true -> p10 (-10000) <= entry_value en < p10 2000000.
Proof.
  intro H. assert (G : exists Y, Y = 1001%Z) by (eexists; reflexivity). destruct G as (Y & HY).
  assert (M : (1 <= vlist (mant en) < 10 ^ Y)%Z /\ (-1000 <= scale en <= 1000000)%Z).
  { pose proof (mant_pos en H). destruct en as [n|s k gs|s k gs e]; cbn [entry_okb mant scale] in *.
    - cbn [vlist] in *. rewrite Z.mul_0_r, Z.add_0_r in *. assert (9223372036854775808 < 10 ^ Y)%Z by (apply Z.lt_le_trans with (10 ^ 20)%Z; [reflexivity|apply Z.pow_le_mono_r; lia]). lia.
    - rewrite <- number_vlist in *. apply andb_true_iff in H. destruct H as [H G]. destruct (groups_bound k gs G) as [B K].
      assert (10 ^ k <= 10 ^ Y)%Z by (apply Z.pow_le_mono_r; [lia|]; destruct s; [discriminate H|]; cbn [negb andb] in H; apply Z.leb_le in H; lia). lia.
    - rewrite <- number_vlist in *. apply andb_true_iff in H. destruct H as [H He2]. apply andb_true_iff in H. destruct H as [H He1]. apply andb_true_iff in H. destruct H as [H G].
      destruct s; [discriminate H|]. cbn [negb andb] in H. apply Z.leb_le in H, He1, He2. destruct (groups_bound _ gs G) as [B K].
      assert (10 ^ (k + 1) <= 10 ^ Y)%Z by (apply Z.pow_le_mono_r; lia). lia. }
  destruct M as [M S]. unfold entry_value. set (v := vlist (mant en)) in *. set (s := scale en) in *. clearbody v s.
  assert (M1 : 1 <= IZR v < p10 Y). { rewrite (p10_nonneg Y) by lia. split; [apply IZR_le; lia|apply IZR_lt; apply M]. }
  pose proof (p10_pos s) as Ps. split.
  - apply Rle_trans with (p10 s); [apply p10_le; lia|]. nra.
  - apply Rlt_le_trans with (p10 Y * p10 s); [nra|]. rewrite <- p10_add. apply p10_le. lia.
Qed.

Lemma positive_order v : 0 < v -> forall b, v < p10 b -> forall a, p10 a <= v -> exists m, (a <= m < b)%Z /\ p10 m <= v < p10 (m + 1).
Proof.
  intros Hv b Hb a Ha. assert (AB : (a < b)%Z) by (apply p10_lt_inv; lra).
  assert (G : forall n : nat, p10 (a + Z.of_nat n) <= v \/ exists m, (a <= m < a + Z.of_nat n)%Z /\ p10 m <= v < p10 (m + 1)).
  { induction n as [|n [IH|(m & A & B)]].
    - left. rewrite Z.add_0_r. exact Ha.
    - destruct (Rle_lt_dec (p10 (a + Z.of_nat (S n))) v) as [L|L]; [left; exact L|]. right. exists (a + Z.of_nat n)%Z. split; [lia|]. split; [exact IH|].
      replace (a + Z.of_nat n + 1)%Z with (a + Z.of_nat (S n))%Z by lia. exact L.
    - right. exists m. split; [lia|exact B]. }
  destruct (G (Z.to_nat (b - a))) as [L|(m & A & B)].
  - rewrite Z2Nat.id in L by lia. replace (a + (b - a))%Z with b in L by lia. lra.
  - exists m. split; [lia|exact B].
Qed.

Lemma read_entry d en : valid_digits d -> entry_okb en = true ->
  exists r, entry_ef d en = Ok r /\ finite d r /\ full d r /\
  Rabs (value r - entry_value en) <= p10 (- (d + 17)) * entry_value en /\
  (forall j k, entry_value en = IZR j * p10 k -> (Z.abs j < 10 ^ (d + 18))%Z -> value r = entry_value en).
Proof.
  intros Hd H. pose proof (entry_range en H) as [V1 V2]. pose proof (p10_pos (-10000)) as P0. pose proof (p10_pos (- (d + 17))) as P1.
  pose proof (elem_number_digits d Hd) as EN. pose proof (mant_pos en H) as MP.
  assert (C : (exists n, en = IntE n) \/ forall n, en <> IntE n) by (destruct en; [left; eexists; reflexivity| |]; right; discriminate).
  destruct C as [(n & ->)|C].
  - cbn [entry_okb] in H. destruct (of_sll_spec d n Hd ltac:(lia)) as (F & P & V & _). exists (of_sll d n). split; [reflexivity|]. split; [exact F|]. split; [exact P|].
    assert (E : value (of_sll d n) = entry_value (IntE n)). { rewrite V. unfold entry_value. cbn [mant scale vlist]. rewrite Z.mul_0_r, Z.add_0_r. change (p10 0) with 1. ring. }
    split; [|intros _ _ _ _; exact E]. rewrite E. unfold Rminus. rewrite Rplus_opp_r, Rabs_R0. nra.
  - destruct (entry_literal_facts en H C) as (VL & LT & XE & VE).
    assert (EE : entry_ef d en = of_string d (text (entry_literal en))) by (destruct en as [n| |]; [destruct (C n eq_refl)| |]; reflexivity). rewrite EE.
    destruct (literal_cor d (entry_literal en) Hd VL LT ltac:(lia)) as (r & R1 & R2 & R3). exists r. split; [exact R1|].
    destruct R2 as (_ & _ & _ & _ & _ & IN). rewrite VE in IN. set (v := entry_value en) in *.
    assert (AV : Rabs v = v) by (apply Rabs_pos_eq; lra). rewrite AV in IN.
    destruct IN as (Fr & (C1 & C2 & C3) & KO).
    { split; [apply Rle_trans with (2 := V1); apply p10_le; lia|]. apply Rlt_le_trans with (1 := V2). apply p10_le. lia. }
    split; [exact Fr|]. split; [exact R3|].
    pose proof (KO _ V1) as KR. assert (Rn : limb (data r) 0 <> 0%Z).
    { intro Z. rewrite (finite_zero_value d r Fr Z), Rabs_R0 in KR. lra. }
    destruct (finite_abs_bounds d r Hd Fr Rn) as [E1 E2]. rewrite AV in C1.
    assert (Cp : 0 <= value r). { apply Rnot_lt_le. intro N. assert (0 < v) by lra. nra. } rewrite (Rabs_pos_eq _ Cp) in *.
    assert (U : ulp d (Model.exp r) <= p10 (- (d + 17)) * v).
    { apply Rle_trans with (p10 (- (d + 17)) * p10 (Model.exp r)); [|apply Rmult_le_compat_l; lra]. unfold ulp. rewrite <- p10_add. apply p10_le. lia. }
    split; [rewrite Rabs_left1; lra|].
    intros j k Ej S. destruct (positive_order v ltac:(lra) 2000000 V2 (-10000) V1) as (m & M1 & M2 & M3).
    destruct (read_exact d (entry_literal en) j k m Hd VL LT ltac:(lia) ltac:(rewrite VE; exact Ej) ltac:(rewrite VE; fold v; rewrite AV; lra) ltac:(lia)) as (r' & R1' & R2' & R3' & R4').
    { assert (v < p10 (d + 18 + k)).
      { rewrite Ej, p10_add. apply Rmult_lt_compat_r; [apply p10_pos|]. rewrite (p10_nonneg (d + 18)) by (destruct Hd; lia). apply Rle_lt_trans with (Rabs (IZR j)); [apply Rle_abs|]. rewrite <- abs_IZR. apply IZR_lt. exact S. }
      assert (m < d + 18 + k)%Z by (apply p10_lt_inv; lra). lia. }
    rewrite R1 in R1'. injection R1' as ->. rewrite R3', VE. reflexivity.
Qed.

(** ** A table checked step by step *)

(* P times the first number minus Q times the second, least significant group
   first; the partial results are small if the numbers are close *)
Fixpoint diff (P Q : Z) (l1 l2 : list Z) : Z :=
  match l1 with
  | [] => (- (Q * vlist l2))%Z
  | x :: r => ((P * x - Q * hd 0%Z l2) + base * diff P Q r (tl l2))%Z
  end.

Lemma diff_ok P Q : forall l1 l2, diff P Q l1 l2 = (P * vlist l1 - Q * vlist l2)%Z.
Proof.
  induction l1 as [|x r IH]; intro l2; cbn [diff vlist]; [lia|]. rewrite IH. destruct l2 as [|y l2]; cbn [hd tl vlist]; ring.
Qed.

(* the entry is (close to) n times the earlier entry *)
Definition close (K T n : Z) (prev en : list Z * Z) (k : Z) : bool :=
  let j := (snd en - snd prev)%Z in
  let P := if (0 <=? j)%Z then (10 ^ j)%Z else 1%Z in
  let Q := if (0 <=? j)%Z then 1%Z else (10 ^ (- j))%Z in
  let D := diff P (n * Q) (fst en) (fst prev) in
  (D =? 0)%Z || ((K <=? k)%Z && (Z.abs D <=? T * P)%Z).

Definition decimals (en : entry) : Z := match en with SciE _ k _ _ => k | _ => (-1)%Z end.

Fixpoint chain (K T : Z) (lag : nat) (n : Z) (prev : list (list Z * Z)) (l : list entry) : bool :=
  match l with
  | [] => true
  | en :: r =>
      let c := (mant en, scale en) in
      entry_okb en && close K T n (nth lag prev ([], 0%Z)) c (decimals en) && chain K T lag (n + 1) (c :: prev) r
  end.

Definition pair_value (c : list Z * Z) : R := IZR (vlist (fst c)) * p10 (snd c).

Lemma close_ok K T n prev en : (0 <= T)%Z -> IZR T * p10 418 <= p10 K -> (0 <= K)%Z -> entry_okb en = true -> close K T n prev (mant en, scale en) (decimals en) = true ->
  Rabs (entry_value en - IZR n * pair_value prev) <= p10 (-418) * entry_value en.
Proof.
  intros HT TK HK Ho H. unfold close in H. cbn [fst snd] in H. set (j := (scale en - snd prev)%Z) in *. cbv zeta in H. rewrite diff_ok in H.
  pose proof (entry_range en Ho) as [V1 _]. pose proof (p10_pos (-10000)) as P0. pose proof (p10_pos (-418)) as P418.
  set (P := if (0 <=? j)%Z then (10 ^ j)%Z else 1%Z) in *. set (Q := if (0 <=? j)%Z then 1%Z else (10 ^ (- j))%Z) in *.
  assert (PQ : IZR P * p10 (snd prev) = IZR Q * p10 (scale en) /\ 0 < IZR P /\ 0 < IZR Q).
  { unfold P, Q. destruct (Z.leb_spec 0 j) as [L|L].
    - rewrite <- (p10_nonneg j) by lia. pose proof (p10_pos j). split; [|split; lra]. rewrite <- p10_add, Rmult_1_l. f_equal. lia.
    - rewrite <- (p10_nonneg (- j)) by lia. pose proof (p10_pos (- j)). split; [|split; lra]. rewrite <- p10_add, Rmult_1_l. f_equal. lia. }
  destruct PQ as (PQ & PP & QP). set (D := (P * vlist (mant en) - n * Q * vlist (fst prev))%Z) in *.
  assert (E : entry_value en - IZR n * pair_value prev = IZR D * (p10 (scale en) / IZR P)).
  { unfold entry_value, pair_value, D. rewrite minus_IZR, !mult_IZR. replace (p10 (snd prev)) with (IZR Q * p10 (scale en) / IZR P) by (rewrite <- PQ; field; lra). field. lra. }
  rewrite E. pose proof (p10_pos (scale en)) as Ps. rewrite Rabs_mult, (Rabs_pos_eq (p10 (scale en) / IZR P)) by (apply Rlt_le, Rdiv_lt_0_compat; assumption).
  apply orb_true_iff in H. destruct H as [H|H].
  - apply Z.eqb_eq in H. rewrite H, Rabs_R0, Rmult_0_l. nra.
  - apply andb_true_iff in H. destruct H as [H1 H2]. apply Z.leb_le in H1, H2. apply IZR_le in H2. rewrite abs_IZR, mult_IZR in H2.
    assert (M : p10 K <= IZR (vlist (mant en))).
    { destruct en as [m|s k gs|s k gs e]; cbn [decimals] in H1; [lia|lia|]. cbn [entry_okb] in Ho. apply andb_true_iff in Ho. destruct Ho as [Ho _]. apply andb_true_iff in Ho. destruct Ho as [Ho _].
      apply andb_true_iff in Ho. destruct Ho as [_ G]. destruct (groups_bound (k + 1) gs G) as [[B _] _]. cbn [mant]. rewrite <- number_vlist. rewrite (p10_nonneg K) by lia. apply IZR_le.
      apply Z.le_trans with (2 := B). apply Z.pow_le_mono_r; lia. }
    apply Rle_trans with (IZR T * IZR P * (p10 (scale en) / IZR P)).
    + apply Rmult_le_compat_r; [|exact H2]. apply Rlt_le, Rdiv_lt_0_compat; assumption.
    + replace (IZR T * IZR P * (p10 (scale en) / IZR P)) with (IZR T * p10 (scale en)) by (field; lra). unfold entry_value. rewrite <- Rmult_assoc. apply Rmult_le_compat_r; [lra|].
      assert (T2 : IZR T * p10 418 <= IZR (vlist (mant en))) by lra. apply Rmult_le_reg_r with (p10 418); [apply p10_pos|]. 
      replace (p10 (-418) * IZR (vlist (mant en)) * p10 418) with (IZR (vlist (mant en)) * (p10 (-418) * p10 418)) by ring. rewrite <- p10_add. change (-418 + 418)%Z with 0%Z. change (p10 0) with 1. lra.
Qed.

Section Chain.
Variable f : nat -> R.
Variable K T : Z.
Variable lag : nat.
Hypothesis HT : (0 <= T)%Z.
Hypothesis TK : IZR T * p10 418 <= p10 K.
Hypothesis HK : (0 <= K)%Z.
Hypothesis f_pos : forall n, 0 < f n.
Hypothesis f_step : forall n, f (S (lag + n)) = INR (S (lag + n)) * f n.

Definition near (n : nat) (v : R) : Prop := Rabs (v - f n) <= 2 * INR n * p10 (-418) * f n.

Lemma near_step n v v' : (S (lag + n) <= 2000)%nat -> near n v' -> 0 <= v -> Rabs (v - INR (S (lag + n)) * v') <= p10 (-418) * v -> near (S (lag + n)) v.
Proof.
  intros Hn Hv' Hv H. unfold near in *. rewrite f_step. set (N := INR (S (lag + n))) in *.
  assert (N1 : INR n + 1 <= N) by (unfold N; rewrite S_INR, plus_INR; pose proof (pos_INR lag); lra). assert (N0 : 0 <= INR n) by apply pos_INR.
  assert (N2 : N <= 10000). { unfold N. apply Rle_trans with (INR 2000); [apply le_INR; exact Hn|]. rewrite INR_IZR_INZ. apply (IZR_le _ 10000); vm_compute; discriminate. }
  pose proof (f_pos n) as Fp. set (w := f n) in *. set (a := INR n) in *. clearbody w a N. assert (E : 0 < p10 (-418) <= / 1000000).
  { split; [apply p10_pos|]. apply Rle_trans with (p10 (- (6))); [apply p10_le; lia|]. rewrite p10_inv, (p10_nonneg 6) by lia. change (10 ^ 6)%Z with 1000000%Z. lra. }
  set (e := p10 (-418)) in *. clearbody e. apply Rabs_le_inv in Hv'. apply Rabs_le_inv in H.
  assert (A1 : N * v' <= N * w + N * (2 * a * e * w)) by nra. assert (A2 : N * w - N * (2 * a * e * w) <= N * v') by nra.
  assert (Q : 2 * a * e <= / 10). { assert (a * e <= 10000 * / 1000000) by (apply Rmult_le_compat; lra). lra. }
  assert (NW : 0 < N * w) by (apply Rmult_lt_0_compat; lra).
  assert (A3 : N * (2 * a * e * w) <= / 10 * (N * w)). { replace (N * (2 * a * e * w)) with (2 * a * e * (N * w)) by ring. apply Rmult_le_compat_r; lra. }
  assert (A4 : v <= 3 / 2 * (N * w)). { assert (e * v <= / 1000000 * v) by (apply Rmult_le_compat_r; lra). lra. }
  assert (A5 : e * v <= e * (3 / 2 * (N * w))) by (apply Rmult_le_compat_l; lra).
  assert (A6 : N * (2 * a * e * w) + e * (3 / 2 * (N * w)) <= 2 * N * e * (N * w)).
  { replace (N * (2 * a * e * w) + e * (3 / 2 * (N * w))) with ((2 * a + 3 / 2) * (e * (N * w))) by field. replace (2 * N * e * (N * w)) with ((2 * N) * (e * (N * w))) by ring.
    apply Rmult_le_compat_r; [apply Rmult_le_pos; lra|lra]. }
  apply Rabs_le. lra.
Qed.

Lemma chain_ok : forall l n prev, (n + length l <= 2000)%nat -> chain K T lag (Z.of_nat n) prev l = true ->
  (forall i, (i <= lag)%nat -> (i < n)%nat -> near (n - 1 - i) (pair_value (nth i prev ([], 0%Z)))) -> (lag < n)%nat ->
  forall k en, nth_error l k = Some en -> entry_okb en = true /\ near (n + k) (entry_value en).
Proof.
  induction l as [|en l IH]; intros n prev Hn H HP Hl k en' Hk; [destruct k; discriminate Hk|].
  cbn [chain] in H. cbv zeta in H. apply andb_true_iff in H. destruct H as [H HR]. apply andb_true_iff in H. destruct H as [Ho HC].
  assert (NE : near n (entry_value en)).
  { pose proof (close_ok K T (Z.of_nat n) _ en HT TK HK Ho HC) as HC'. pose proof (entry_range en Ho) as [V1 _]. pose proof (p10_pos (-10000)).
    pose proof (near_step (n - 1 - lag) (entry_value en) (pair_value (nth lag prev ([], 0%Z)))) as NS. replace (S (lag + (n - 1 - lag))) with n in NS by lia.
    apply NS; [cbn [List.length] in Hn; lia|apply HP; lia|lra|]. rewrite INR_IZR_INZ. exact HC'. }
  destruct k as [|k]; cbn [nth_error] in Hk.
  - injection Hk as <-. rewrite Nat.add_0_r. split; assumption.
  - replace (n + S k)%nat with (S n + k)%nat by lia. apply (IH (S n) ((mant en, scale en) :: prev)); auto.
    + cbn [List.length] in Hn. lia.
    + replace (Z.of_nat (S n)) with (Z.of_nat n + 1)%Z by lia. exact HR.
    + intros i Hi Hi'. destruct i as [|i]; cbn [nth]; [replace (S n - 1 - 0)%nat with n by lia; exact NE|]. replace (S n - 1 - S i)%nat with (n - 1 - i)%nat by lia. apply HP; lia.
Qed.

(* exact entries *)
Fixpoint exact_chain (n : Z) (prev : list (list Z * Z)) (l : list entry) : bool :=
  match l with
  | [] => true
  | en :: r =>
      let c := (mant en, scale en) in
      entry_okb en && close 1 0 n (nth lag prev ([], 0%Z)) c (-1) && exact_chain (n + 1) (c :: prev) r
  end.

Lemma close_exact n prev en : close 1 0 n prev (mant en, scale en) (-1) = true -> entry_value en = IZR n * pair_value prev.
Proof.
  intro H. unfold close in H. cbn [fst snd] in H. set (j := (scale en - snd prev)%Z) in *. cbv zeta in H. rewrite diff_ok in H. change (1 <=? -1)%Z with false in H. cbn [andb] in H. rewrite orb_false_r in H.
  apply Z.eqb_eq in H. unfold entry_value, pair_value. destruct (Z.leb_spec 0 j) as [L|L].
  - replace (scale en) with (j + snd prev)%Z by lia. rewrite p10_add, (p10_nonneg j) by lia. rewrite <- !Rmult_assoc, <- !mult_IZR. do 2 f_equal. lia.
  - replace (snd prev) with (- j + scale en)%Z by lia. rewrite p10_add, (p10_nonneg (- j)) by lia. rewrite <- !Rmult_assoc, <- !mult_IZR. do 2 f_equal. lia.
Qed.

Lemma exact_chain_ok : forall l n prev, exact_chain (Z.of_nat n) prev l = true ->
  (forall i, (i <= lag)%nat -> (i < n)%nat -> pair_value (nth i prev ([], 0%Z)) = f (n - 1 - i)) -> (lag < n)%nat ->
  forall k en, nth_error l k = Some en -> entry_okb en = true /\ entry_value en = f (n + k).
Proof.
  induction l as [|en l IH]; intros n prev H HP Hl k en' Hk; [destruct k; discriminate Hk|].
  cbn [exact_chain] in H. cbv zeta in H. apply andb_true_iff in H. destruct H as [H HR]. apply andb_true_iff in H. destruct H as [Ho HC].
  assert (NE : entry_value en = f n).
  { rewrite (close_exact _ _ _ HC), HP by lia. pose proof (f_step (n - 1 - lag)) as FS. replace (S (lag + (n - 1 - lag))) with n in FS by lia. rewrite FS, INR_IZR_INZ. reflexivity. }
  destruct k as [|k]; cbn [nth_error] in Hk.
  - injection Hk as <-. rewrite Nat.add_0_r. split; assumption.
  - replace (n + S k)%nat with (S n + k)%nat by lia. apply (IH (S n) ((mant en, scale en) :: prev)); auto.
    + replace (Z.of_nat (S n)) with (Z.of_nat n + 1)%Z by lia. exact HR.
    + intros i Hi Hi'. destruct i as [|i]; cbn [nth]; [replace (S n - 1 - 0)%nat with n by lia; exact NE|]. replace (S n - 1 - S i)%nat with (n - 1 - i)%nat by lia. apply HP; lia.
Qed.

End Chain.

(** ** Pascal's triangle *)

(* the first number minus the sum of the others *)
Fixpoint diff3 (l a b : list Z) : Z :=
  match l with
  | [] => (- (vlist a + vlist b))%Z
  | x :: r => ((x - hd 0%Z a - hd 0%Z b) + base * diff3 r (tl a) (tl b))%Z
  end.

Lemma diff3_ok : forall l a b, diff3 l a b = (vlist l - (vlist a + vlist b))%Z.
Proof.
  induction l as [|x r IH]; intros a b; cbn [diff3 vlist]; [lia|]. rewrite IH. destruct a as [|y a], b as [|z b]; cbn [hd tl vlist]; ring.
Qed.

(* an integer of at most 48 digits *)
Definition small_entry (en : entry) : bool :=
  entry_okb en && match en with IntE _ => true | StrE _ k _ => (k <=? 48)%Z | SciE _ _ _ _ => false end.

Fixpoint pascal_row (left : list Z) (prev : list (list Z)) (row : list entry) : bool :=
  match prev, row with
  | [], [en] => small_entry en && (diff3 (mant en) left [] =? 0)%Z
  | p :: ps, en :: r => small_entry en && (diff3 (mant en) left p =? 0)%Z && pascal_row p ps r
  | _, _ => false
  end.

Fixpoint pascal_rows (prev : list (list Z)) (rows : list (list entry)) : bool :=
  match rows with
  | [] => true
  | row :: r => pascal_row [] prev row && pascal_rows (map mant row) r
  end.

Lemma pascal_row_ok : forall prev left row, pascal_row left prev row = true ->
  length row = S (length prev) /\ forallb small_entry row = true /\
  forall i, (i <= length prev)%nat -> vlist (nth i (map mant row) []) = (vlist (nth i (left :: prev) []) + vlist (nth i prev []))%Z.
Proof.
  induction prev as [|p ps IH]; intros left row H.
  - destruct row as [|en [|? ?]]; try discriminate H. cbn [pascal_row] in H. apply andb_true_iff in H. destruct H as [H1 H2]. apply Z.eqb_eq in H2. rewrite diff3_ok in H2.
    split; [reflexivity|]. split; [cbn [forallb]; rewrite H1; reflexivity|]. intros i Hi. cbn [List.length] in Hi. assert (i = 0%nat) by lia. subst i. cbn [nth map]. lia.
  - destruct row as [|en r]; [discriminate H|]. cbn [pascal_row] in H. apply andb_true_iff in H. destruct H as [H H3]. apply andb_true_iff in H. destruct H as [H1 H2]. apply Z.eqb_eq in H2. rewrite diff3_ok in H2.
    destruct (IH p r H3) as (A & B & C). split; [cbn [List.length]; lia|]. split; [cbn [forallb]; rewrite H1; exact B|].
    intros [|i] Hi; cbn [nth map]; [lia|]. cbn [List.length] in Hi. apply C. lia.
Qed.

Definition is_row (n : nat) (row : list (list Z)) : Prop :=
  length row = S n /\ forall i, (i <= n)%nat -> IZR (vlist (nth i row [])) = Binomial.C n i.

Lemma C_edge n : Binomial.C n 0 = 1 /\ Binomial.C n n = 1.
Proof.
  unfold Binomial.C. rewrite Nat.sub_0_r, Nat.sub_diag. change (INR (fact 0)) with 1. pose proof (INR_fact_neq_0 n). split; field; assumption.
Qed.

Lemma pascal_step n prev row : is_row n prev -> pascal_row [] prev row = true -> is_row (S n) (map mant row) /\ forallb small_entry row = true.
Proof.
  intros [L HC] H. destruct (pascal_row_ok prev [] row H) as (A & B & V). split; [|exact B]. split; [rewrite map_length; lia|].
  intros i Hi. rewrite V by lia. rewrite plus_IZR. destruct i as [|i]; cbn [nth].
  - cbn [vlist]. rewrite HC by lia. rewrite (proj1 (C_edge n)), (proj1 (C_edge (S n))). lra.
  - destruct (Nat.eq_dec i n) as [->|N].
    + rewrite HC by lia. rewrite nth_overflow by lia. cbn [vlist]. rewrite (proj2 (C_edge n)), (proj2 (C_edge (S n))). lra.
    + rewrite !HC by lia. apply Binomial.pascal. lia.
Qed.

Lemma pascal_rows_ok : forall rows n prev, is_row n prev -> pascal_rows prev rows = true ->
  forall k row, nth_error rows k = Some row -> is_row (S n + k) (map mant row) /\ forallb small_entry row = true.
Proof.
  induction rows as [|r rows IH]; intros n prev HP H k row Hk; [destruct k; discriminate Hk|].
  cbn [pascal_rows] in H. apply andb_true_iff in H. destruct H as [H1 H2]. destruct (pascal_step n prev r HP H1) as [A B].
  destruct k as [|k]; cbn [nth_error] in Hk.
  - injection Hk as <-. rewrite Nat.add_0_r. auto.
  - replace (S n + S k)%nat with (S (S n) + k)%nat by lia. apply (IH (S n) (map mant r)); auto.
Qed.

Lemma small_entry_exact d en : valid_digits d -> small_entry en = true ->
  exists r, entry_ef d en = Ok r /\ finite d r /\ full d r /\ value r = IZR (vlist (mant en)).
Proof.
  intros Hd H. apply andb_true_iff in H. destruct H as [H1 H2]. destruct (read_entry d en Hd H1) as (r & R1 & R2 & R3 & _ & R5). exists r. split; [exact R1|]. split; [exact R2|]. split; [exact R3|].
  assert (E : entry_value en = IZR (vlist (mant en)) * p10 0) by (unfold entry_value; destruct en; [reflexivity|reflexivity|discriminate H2]).
  rewrite (R5 _ _ E).
  - rewrite E. change (p10 0) with 1. ring.
  - assert (P : (10 ^ 48 <= 10 ^ (d + 18))%Z) by (apply Z.pow_le_mono_r; destruct Hd; lia). pose proof (mant_pos en H1) as MP. rewrite Z.abs_eq by lia.
    apply Z.lt_le_trans with (2 := P). destruct en as [n|s k gs|s k gs e]; [| |discriminate H2]; cbn [entry_okb] in H1.
    + cbn [mant vlist]. rewrite Z.mul_0_r, Z.add_0_r. apply Z.lt_trans with 9223372036854775808%Z; [lia|reflexivity].
    + apply andb_true_iff in H1. destruct H1 as [_ G]. destruct (groups_bound k gs G) as [B K]. cbn [mant]. rewrite <- number_vlist. apply Z.lt_le_trans with (1 := proj2 B). apply Z.pow_le_mono_r; lia.
Qed.
