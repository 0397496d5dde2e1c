(** * Convolution of half limbs and carry release (proofs only). *)

From Coq Require Import ZArith List Bool Lia.
From Verif Require Import Model Spec Limbs MulProofs.
Import ListNotations.
Open Scope Z_scope.

(** ** Positional notation in base 10^4 *)

Notation beta := 10000.
Definition is_half (d : Z) : Prop := 0 <= d < beta.
Notation halves := (Forall is_half).

Definition Hp (n : nat) : Z := beta ^ Z.of_nat n.
Lemma Hp_0 : Hp 0 = 1. Proof. reflexivity. Qed.
Lemma Hp_S n : Hp (S n) = beta * Hp n.
Proof. unfold Hp. rewrite Nat2Z.inj_succ, Z.pow_succ_r by lia. reflexivity. Qed.
Lemma Hp_add n m : Hp (n + m) = Hp n * Hp m.
Proof. unfold Hp. rewrite Nat2Z.inj_add, Z.pow_add_r by lia. reflexivity. Qed.
Lemma Hp_pos n : 0 < Hp n.
Proof. unfold Hp. apply Z.pow_pos_nonneg; lia. Qed.
Lemma Hp_double n : Hp (2 * n) = Bp n.
Proof.
  induction n; [reflexivity|]. replace (2 * S n)%nat with (S (S (2 * n))) by lia.
  rewrite !Hp_S, IHn, Bp_S. change mask with 100000000. lia.
Qed.
Global Opaque Hp.

Fixpoint hmv (l : list Z) : Z :=
  match l with [] => 0 | d :: t => d * Hp (length t) + hmv t end.

Lemma hmv_app a b : hmv (a ++ b) = hmv a * Hp (length b) + hmv b.
Proof.
  induction a as [|x a IH]; simpl app; [cbn; lia|].
  cbn [hmv]. rewrite IH, app_length, Hp_add. ring.
Qed.

Lemma hmv_bound l : halves l -> 0 <= hmv l < Hp (length l).
Proof.
  induction 1 as [|x l Hx Hl IH]; [cbn [hmv length]; rewrite Hp_0; lia|].
  cbn [hmv length]. rewrite Hp_S. unfold is_half in Hx. nia.
Qed.

Lemma half_limb_bound l i : halves l -> is_half (limb l i).
Proof.
  intros Hl. unfold limb. destruct (Nat.lt_ge_cases i (length l)).
  - rewrite Forall_forall in Hl. apply Hl. apply nth_In; auto.
  - rewrite nth_overflow by auto. unfold is_half; lia.
Qed.

Lemma halves_firstn n l : halves l -> halves (firstn n l).
Proof. intro H. revert n. induction H; destruct n; simpl; constructor; auto. Qed.
Lemma halves_skipn n l : halves l -> halves (skipn n l).
Proof. intro H. revert n. induction H; destruct n; simpl; auto. Qed.

Lemma hmv_split k l : (k <= length l)%nat -> hmv l = hmv (firstn k l) * Hp (length l - k) + hmv (skipn k l).
Proof.
  intro H. rewrite <- (firstn_skipn k l) at 1. rewrite hmv_app, skipn_length. reflexivity.
Qed.

Lemma hmv_firstn_S l j : (j < length l)%nat -> hmv (firstn (S j) l) = hmv (firstn j l) * beta + limb l j.
Proof.
  intro H. rewrite firstn_S_limb by auto. rewrite hmv_app. cbn [hmv length]. rewrite Hp_S, Hp_0. ring.
Qed.

Lemma half_limbs_length l : length (half_limbs l) = (2 * length l)%nat.
Proof.
  induction l as [|x l IH]; [reflexivity|].
  change (half_limbs (x :: l)) with (x / beta :: x mod beta :: half_limbs l). cbn [length]. rewrite IH. lia.
Qed.

Lemma half_limbs_halves l : limbs l -> halves (half_limbs l).
Proof.
  induction 1 as [|x l Hx Hl IH]; [constructor|]. unfold is_limb in Hx.
  change (half_limbs (x :: l)) with (x / beta :: x mod beta :: half_limbs l). constructor; [|constructor; auto].
  - unfold is_half. split; [apply Z.div_pos; lia|apply Z.div_lt_upper_bound; lia].
  - unfold is_half. apply Z.mod_pos_bound. lia.
Qed.

Lemma half_limbs_mv l : hmv (half_limbs l) = mv l.
Proof.
  induction l as [|x l IH]; [reflexivity|]. 
  change (half_limbs (x :: l)) with (x / beta :: x mod beta :: half_limbs l).
  cbn [hmv length]. rewrite IH, mv_cons, half_limbs_length, Hp_S, Hp_double.
  rewrite (Z.div_mod x beta) at 3 by lia. ring.
Qed.

Lemma limb_half_limbs l i : limb (half_limbs l) (2 * i) = limb l i / beta /\
  limb (half_limbs l) (S (2 * i)) = limb l i mod beta.
Proof.
  unfold limb. revert i. induction l as [|x l IH]; intro i.
  - simpl. destruct i; simpl; auto.
  - change (half_limbs (x :: l)) with (x / beta :: x mod beta :: half_limbs l).
    destruct i as [|i]; [simpl; auto|].
    replace (2 * S i)%nat with (S (S (2 * i))) by lia. cbn [nth]. apply IH.
Qed.

(** ** Columns in base 10^4 *)

Fixpoint hcols (a b : list Z) (p : nat) : Z :=
  match p with O => 0 | S j => hcols a b j * beta + col a b j end.

Lemma hcols_rows u v p : (p <= length u)%nat ->
  hcols u v p = fsum (fun b => limb v b * hmv (firstn (p - b) u)) p.
Proof.
  induction p as [|j IH]; intro H; auto. cbn [hcols]. rewrite IH by lia.
  cbn [fsum]. rewrite (fsum_ext (fun b => limb v b * hmv (firstn (S j - b) u))
     (fun b => beta * (limb v b * hmv (firstn (j - b) u)) + limb u (j - b) * limb v b)).
  2: { intros i Hi. replace (S j - i)%nat with (S (j - i)) by lia. rewrite hmv_firstn_S by lia. ring. }
  rewrite fsum_plus, fsum_scale. unfold col. cbn [fsum].
  replace (S j - j)%nat with 1%nat by lia. rewrite hmv_firstn_S by lia. cbn [firstn]. 
  replace (j - j)%nat with O by lia. cbn [hmv]. lia.
Qed.

Lemma hmv_as_sum v p : (p <= length v)%nat -> hmv (firstn p v) = fsum (fun b => limb v b * Hp (p - 1 - b)) p.
Proof.
  induction p as [|j IH]; intro H; auto.
  rewrite hmv_firstn_S by lia. rewrite IH by lia. cbn [fsum].
  replace (S j - 1 - j)%nat with O by lia. rewrite Hp_0.
  rewrite (fsum_ext (fun b => limb v b * Hp (S j - 1 - b)) (fun b => beta * (limb v b * Hp (j - 1 - b)))).
  2: { intros i Hi. replace (S j - 1 - i)%nat with (S (j - 1 - i)) by lia. rewrite Hp_S. ring. }
  rewrite fsum_scale. lia.
Qed.

Lemma hcols_product u v p : halves u -> halves v -> (1 <= p <= length u)%nat -> (p <= length v)%nat ->
  0 <= hmv (firstn p u) * hmv (firstn p v) - hcols u v p * Hp (p - 1) <= Z.of_nat (p - 1) * 9999 * Hp (p - 1).
Proof.
  intros Hu Hv Hpp Hpv. rewrite hcols_rows by lia. rewrite (hmv_as_sum v p) by lia.
  rewrite <- (fsum_scale (hmv (firstn p u))). rewrite (Z.mul_comm (fsum _ p) (Hp (p - 1))), <- fsum_scale.
  set (low := fun b => limb v b * Hp (p - 1 - b) * hmv (skipn (p - b) (firstn p u))).
  assert (E : fsum (fun i => hmv (firstn p u) * (limb v i * Hp (p - 1 - i))) p =
              fsum (fun i => Hp (p - 1) * (limb v i * hmv (firstn (p - i) u))) p + fsum low p).
  { rewrite <- fsum_plus. apply fsum_ext. intros i Hi. unfold low.
    rewrite (hmv_split (p - i) (firstn p u)) by (rewrite firstn_length; lia).
    rewrite firstn_length, firstn_firstn, !Nat.min_l by lia.
    replace (p - (p - i))%nat with i by lia.
    replace (Hp (p - 1)) with (Hp i * Hp (p - 1 - i)) by (rewrite <- Hp_add; f_equal; lia). ring. }
  rewrite E.
  assert (Hlow : forall i, (i < p)%nat -> 0 <= low i <= match i with O => 0 | S _ => 9999 * Hp (p - 1) end).
  { intros i Hi. unfold low. pose proof (half_limb_bound v i Hv) as B1. unfold is_half in B1.
    pose proof (hmv_bound (skipn (p - i) (firstn p u)) (halves_skipn _ _ (halves_firstn _ _ Hu))) as B2.
    rewrite skipn_length, firstn_length, Nat.min_l in B2 by lia. replace (p - (p - i))%nat with i in B2 by lia.
    destruct i.
    - rewrite Hp_0 in B2. assert (E0 : hmv (skipn (p - 0) (firstn p u)) = 0) by lia. rewrite E0. lia.
    - replace (Hp (p - 1)) with (Hp (S i) * Hp (p - 1 - S i)) by (rewrite <- Hp_add; f_equal; lia).
      pose proof (Hp_pos (p - 1 - S i)).
      set (b1 := Hp (p - 1 - S i)) in *. set (b2 := Hp (S i)) in *. set (m := hmv _) in *.
      assert (0 <= limb v (S i) * b1 <= 9999 * b1) by nia. nia. }
  assert (Hn : 0 <= fsum low p) by (apply fsum_nonneg; intros; apply Hlow; auto).
  assert (Hub : fsum low p <= Z.of_nat (p - 1) * (9999 * Hp (p - 1))).
  { destruct p as [|q]; [lia|]. rewrite fsum_first. pose proof (Hlow O ltac:(lia)). cbn in H.
    replace (S q - 1)%nat with q in * by lia.
    rewrite <- fsum_const. 
    assert (fsum (fun i => low (S i)) q <= fsum (fun _ => 9999 * Hp q) q).
    { apply fsum_le. intros i Hi. apply (Hlow (S i)). lia. }
    lia. }
  lia.
Qed.

Lemma hcol_bound u v j : halves u -> halves v -> 0 <= col u v j <= Z.of_nat (S j) * (9999 * 9999).
Proof.
  intros Hu Hv. unfold col. rewrite <- fsum_const. split.
  - apply fsum_nonneg. intros i _. pose proof (half_limb_bound u (j - i) Hu). pose proof (half_limb_bound v i Hv). unfold is_half in *. nia.
  - apply fsum_le. intros i _. pose proof (half_limb_bound u (j - i) Hu). pose proof (half_limb_bound v i Hv). unfold is_half in *. nia.
Qed.

Lemma hcols_ge u v n k : halves u -> halves v -> hcols u v n * Hp k <= hcols u v (n + k).
Proof.
  intros Hu Hv. induction k as [|k IH].
  - rewrite Hp_0, Nat.add_0_r. lia.
  - replace (n + S k)%nat with (S (n + k)) by lia. cbn [hcols]. rewrite Hp_S.
    pose proof (hcol_bound u v (n + k) Hu Hv). lia.
Qed.

(** conv_at is the column *)
Lemma conv_at_col a b k : conv_at a b k = col b a k.
Proof.
  unfold conv_at, col.
  assert (G : forall n, fold_right Z.add 0 (map (fun i => limb a i * limb b (k - i)) (seq 0 n)) =
                        fsum (fun i => limb b (k - i) * limb a i) n).
  { induction n as [|n IH]; [reflexivity|]. rewrite seq_S, map_app, fold_right_app. cbn [plus map fold_right fsum].
    rewrite <- IH. clear. generalize (map (fun i => limb a i * limb b (k - i)) (seq 0 n)).
    intro l. rewrite Z.add_0_r. rewrite (Z.mul_comm (limb b (k - n))). generalize (limb a n * limb b (k - n)). intro z.
    induction l; cbn [fold_right]; lia. }
  apply G.
Qed.

(** ** Carry release *)

(** the kept columns 0 .. 2*i-2 combined *)
Definition kept (c : nat -> Z) (i : nat) : Z := fsum (fun k => c k * Hp (2 * i - 2 - k)) (2 * i - 1).

Lemma kept_S c i : kept c (S i) =
  kept c i * mask + (match i with O => 0 | _ => c (2 * i - 1)%nat end) * beta + c (2 * i)%nat.
Proof.
  unfold kept. destruct i as [|i].
  - cbn. rewrite Hp_0. lia.
  - replace (2 * S (S i) - 1)%nat with (S (S (2 * S i - 1))) by lia. cbn [fsum].
    replace (2 * S (S i) - 2 - S (2 * S i - 1))%nat with O by lia.
    replace (2 * S (S i) - 2 - (2 * S i - 1))%nat with 1%nat by lia.
    rewrite Hp_S, Hp_0.
    rewrite (fsum_ext (fun k => c k * Hp (2 * S (S i) - 2 - k)) (fun k => mask * (c k * Hp (2 * S i - 2 - k)))).
    2: { intros k Hk. replace (2 * S (S i) - 2 - k)%nat with (S (S (2 * S i - 2 - k))) by lia. rewrite !Hp_S.
         change mask with 100000000. ring. }
    rewrite fsum_scale. replace (S (2 * S i - 1)) with (2 * S i)%nat by lia. lia.
Qed.

Lemma carry_release_spec c M : 0 <= M <= 1000000000000000000 ->
  forall i1 carry acc, (forall k, (k <= 2 * i1 - 2)%nat -> 0 <= c k <= M) -> 0 <= carry <= M ->
  exists l cout, carry_release c i1 carry acc = l ++ acc /\ length l = i1 /\ limbs l /\ 0 <= cout /\
    mv l + cout * Bp i1 = kept c i1 + carry.
Proof.
  intros HM i1. induction i1 as [|i IH]; intros carry acc Hc Hcarry.
  - exists [], carry. cbn [carry_release]. repeat split; auto; try lia. unfold kept. cbn. rewrite Bp_0. lia.
  - cbn [carry_release].
    pose proof (Hc (2 * i)%nat ltac:(lia)) as C1.
    set (chi := match i with O => 0 | _ => c (2 * i - 1)%nat end).
    assert (C2 : 0 <= chi <= M). { unfold chi. destruct i; [lia|]. apply Hc. lia. }
    rewrite (u64_small (c (2 * i)%nat + carry)) by lia.
    set (xlo := c (2 * i)%nat + carry).
    pose proof (Z.div_mod xlo beta ltac:(lia)) as D1. pose proof (Z.mod_pos_bound xlo beta ltac:(lia)) as D2.
    assert (Q1 : 0 <= xlo / beta <= M).
    { split; [apply Z.div_pos; unfold xlo; lia|]. apply Z.div_le_upper_bound; unfold xlo; lia. }
    rewrite (u64_small (chi + xlo / beta)) by lia.
    set (xhi := chi + xlo / beta).
    pose proof (Z.div_mod xhi beta ltac:(lia)) as D3. pose proof (Z.mod_pos_bound xhi beta ltac:(lia)) as D4.
    assert (Q2 : 0 <= xhi / beta <= M).
    { split; [apply Z.div_pos; unfold xhi; lia|]. apply Z.div_le_upper_bound; unfold xhi; lia. }
    set (nlo := xlo - xlo / beta * beta). set (nhi := xhi - xhi / beta * beta).
    assert (N1 : 0 <= nlo < beta) by (unfold nlo; lia). assert (N2 : 0 <= nhi < beta) by (unfold nhi; lia).
    rewrite u32_small by lia.
    destruct (IH (xhi / beta) (nhi * beta + nlo :: acc)) as (l & cout & E & Hlen & Hl & Hco & Hmv).
    { intros k Hk. apply Hc. lia. }
    { exact Q2. }
    exists (l ++ [nhi * beta + nlo]), cout. split; [rewrite E, <- app_assoc; reflexivity|].
    split; [rewrite app_length; simpl; lia|]. split.
    { apply limbs_app; auto. constructor; [unfold is_limb; lia | constructor]. }
    split; auto. rewrite mv_app, mv_cons, mv_nil. cbn [length]. rewrite !Bp_S, Bp_0. rewrite kept_S. fold chi.
    unfold nhi, nlo, xhi, xlo in *. change mask with 100000000 in *. lia.
Qed.

Lemma kept_hcols a b i : (1 <= i)%nat -> kept (fun k => col a b k) i = hcols a b (2 * i - 1).
Proof.
  intro Hi. induction i as [|i IH]; [lia|]. rewrite kept_S. destruct i as [|i].
  - unfold kept. cbn. lia.
  - rewrite IH by lia. replace (2 * S (S i) - 1)%nat with (S (S (2 * S i - 1))) by lia. cbn [hcols].
    replace (S (2 * S i - 1)) with (2 * S i)%nat by lia. change mask with 100000000. ring.
Qed.

Lemma carry_release_ext c c' : (forall k, c k = c' k) ->
  forall i1 carry acc, carry_release c i1 carry acc = carry_release c' i1 carry acc.
Proof.
  intros Hc i1. induction i1 as [|i IH]; intros carry acc; auto. cbn [carry_release].
  rewrite !Hc. apply IH.
Qed.

(** The limbs produced by the FFT branch (exact convolution). *)
Lemma mul_loop_fft_spec u v p : limbs u -> limbs v -> (2 <= p)%nat -> (p <= length u)%nat -> (p <= length v)%nat ->
  Z.of_nat p <= 134217733 ->
  exists l, mul_loop_fft u v p = l ++ skipn p u /\ length l = p /\ limbs l /\
    0 <= mv (firstn p u) * mv (firstn p v) - mv l * Bp p < 20000 * Z.of_nat p * Bp p /\
    limb u 0 * limb v 0 * Bp (p - 2) <= mv l /\
    mv l = hcols (half_limbs (firstn p v)) (half_limbs (firstn p u)) (2 * p - 1).
Proof.
  intros Hu Hv Hp2 Hpu Hpv Hpb. unfold mul_loop_fft.
  set (a := half_limbs (firstn p u)). set (b := half_limbs (firstn p v)).
  assert (Ha : halves a) by (apply half_limbs_halves, limbs_firstn; auto).
  assert (Hb : halves b) by (apply half_limbs_halves, limbs_firstn; auto).
  assert (La : length a = (2 * p)%nat) by (unfold a; rewrite half_limbs_length, firstn_length; lia).
  assert (Lb : length b = (2 * p)%nat) by (unfold b; rewrite half_limbs_length, firstn_length; lia).
  assert (Hext : forall i1 carry acc, carry_release (fft_convolution (firstn p u) (firstn p v)) i1 carry acc =
                 carry_release (fun k => col b a k) i1 carry acc).
  { intros. apply carry_release_ext. intro k. apply conv_at_col. }
  rewrite Hext.
  destruct (carry_release_spec (fun k => col b a k) (2 * 134217733 * (9999 * 9999)) ltac:(lia) p 0 [])
    as (l & cout & E & Hlen & Hl & Hco & Hmv).
  { intros k Hk. pose proof (hcol_bound b a k Hb Ha). nia. }
  { lia. }
  rewrite app_nil_r in E. rewrite E. exists l.
  rewrite kept_hcols in Hmv by lia. rewrite Z.add_0_r in Hmv.
  set (H := hcols b a (2 * p - 1)) in *.
  pose proof (hcols_product b a (2 * p - 1) Hb Ha ltac:(lia) ltac:(lia)) as Hprod. fold H in Hprod.
  (* full product in terms of the first 2p-1 halves *)
  assert (EU : mv (firstn p u) = hmv (firstn (2 * p - 1) a) * beta + limb a (2 * p - 1)).
  { rewrite <- half_limbs_mv. fold a. rewrite <- (firstn_all a) at 1. rewrite La.
    replace (2 * p)%nat with (S (2 * p - 1)) at 1 by lia. apply hmv_firstn_S. lia. }
  assert (EV : mv (firstn p v) = hmv (firstn (2 * p - 1) b) * beta + limb b (2 * p - 1)).
  { rewrite <- half_limbs_mv. fold b. rewrite <- (firstn_all b) at 1. rewrite Lb.
    replace (2 * p)%nat with (S (2 * p - 1)) at 1 by lia. apply hmv_firstn_S. lia. }
  pose proof (half_limb_bound a (2 * p - 1) Ha) as Ba. pose proof (half_limb_bound b (2 * p - 1) Hb) as Bb.
  unfold is_half in Ba, Bb.
  pose proof (hmv_bound _ (halves_firstn (2 * p - 1) a Ha)) as BA.
  pose proof (hmv_bound _ (halves_firstn (2 * p - 1) b Hb)) as BB.
  rewrite firstn_length, La, Nat.min_l in BA by lia. rewrite firstn_length, Lb, Nat.min_l in BB by lia.
  set (A := hmv (firstn (2 * p - 1) a)) in *. set (B := hmv (firstn (2 * p - 1) b)) in *.
  set (la := limb a (2 * p - 1)) in *. set (lb := limb b (2 * p - 1)) in *.
  assert (HB : Bp p = Hp (2 * p - 1) * beta).
  { rewrite <- Hp_double. replace (Hp (2 * p)) with (Hp (S (2 * p - 1))) by (f_equal; lia). rewrite Hp_S. ring. }
  assert (HQ : Hp (2 * p - 1) = beta * Hp (2 * p - 1 - 1)).
  { rewrite <- Hp_S. f_equal. lia. }
  set (Q := Hp (2 * p - 1 - 1)) in *. assert (HQ0 : 0 < Q) by apply Hp_pos.
  assert (HBQ : Bp p = 100000000 * Q) by lia.
  assert (HQ1 : Hp (2 * p - 1) = 10000 * Q) by lia. rewrite HQ1 in *.
  replace (Z.of_nat (2 * p - 1 - 1)) with (2 * Z.of_nat p - 2) in Hprod by lia.
  assert (Hfull : 0 <= mv (firstn p u) * mv (firstn p v) - H * Bp p < 20000 * Z.of_nat p * Bp p).
  { rewrite EU, EV, HBQ.
    assert (E1 : (A * beta + la) * (B * beta + lb) - H * (100000000 * Q) =
                 100000000 * (A * B - H * Q) + beta * (A * lb + B * la) + la * lb) by ring.
    rewrite E1.
    assert (0 <= A * lb <= 10000 * Q * 9999) by nia.
    assert (0 <= B * la <= 10000 * Q * 9999) by nia.
    assert (0 <= la * lb <= 9999 * 9999) by nia.
    replace (B * A - H * Q) with (A * B - H * Q) in Hprod by ring. nia. }
  pose proof (mv_bound (firstn p u) (limbs_firstn _ _ Hu)) as BU.
  pose proof (mv_bound (firstn p v) (limbs_firstn _ _ Hv)) as BV.
  rewrite firstn_length, Nat.min_l in BU, BV by lia.
  assert (Hcout : cout = 0).
  { assert (H < Bp p).
    { assert (H * Bp p < Bp p * Bp p) by nia. nia. }
    pose proof (mv_bound l Hl). rewrite Hlen in *. nia. }
  subst cout. rewrite Z.mul_0_l, Z.add_0_r in Hmv. rewrite Hmv.
  split; auto. split; auto. split; auto. split; auto. split; [|reflexivity].
  (* leading limbs *)
  pose proof (hcols_ge b a 3 (2 * p - 4) Hb Ha) as Hge.
  replace (3 + (2 * p - 4))%nat with (2 * p - 1)%nat in Hge by lia. fold H in Hge.
  replace (2 * p - 4)%nat with (2 * (p - 2))%nat in Hge by lia. rewrite Hp_double in Hge.
  assert (L0 : limb u 0 = limb (firstn p u) 0).
  { unfold limb. rewrite <- (firstn_skipn p u) at 1. rewrite app_nth1; auto. rewrite firstn_length. lia. }
  assert (L0v : limb v 0 = limb (firstn p v) 0).
  { unfold limb. rewrite <- (firstn_skipn p v) at 1. rewrite app_nth1; auto. rewrite firstn_length. lia. }
  destruct (limb_half_limbs (firstn p u) 0) as [A0 A1]. destruct (limb_half_limbs (firstn p v) 0) as [B0 B1].
  fold a in A0, A1. fold b in B0, B1. rewrite <- L0 in A0, A1. rewrite <- L0v in B0, B1. cbn in A0, A1, B0, B1.
  assert (H3 : limb u 0 * limb v 0 <= hcols b a 3).
  { cbn [hcols]. unfold col. cbn [fsum Nat.sub]. rewrite A0, A1, B0, B1.
    pose proof (half_limb_bound a 2 Ha) as X1. pose proof (half_limb_bound b 2 Hb) as X2. unfold is_half in *.
    pose proof (half_limb_bound a 0 Ha) as X3. pose proof (half_limb_bound b 0 Hb) as X4. unfold is_half in *.
    rewrite A0 in X3. rewrite B0 in X4.
    rewrite (Z.div_mod (limb u 0) 10000) at 1 by lia. rewrite (Z.div_mod (limb v 0) 10000) at 1 by lia.
    set (x0 := limb u 0 / 10000) in *. set (x1 := limb u 0 mod 10000) in *.
    set (y0 := limb v 0 / 10000) in *. set (y1 := limb v 0 mod 10000) in *.
    assert (0 <= limb b 2 * x0) by nia. assert (0 <= y0 * limb a 2) by nia.
    clear - H0 H1. ring_simplify. ring_simplify in H0. ring_simplify in H1. lia. }
  apply Z.le_trans with (hcols b a 3 * Bp (p - 2)); [|exact Hge].
  apply Z.mul_le_mono_nonneg_r; [|exact H3]. pose proof (Bp_pos (p - 2)). lia.
Qed.

Lemma conv_at_comm a b k : conv_at a b k = conv_at b a k.
Proof. rewrite !conv_at_col. apply col_comm. Qed.

Lemma hmv_zeros l : Forall (fun d => d = 0) l -> hmv l = 0.
Proof. induction 1; cbn [hmv]; subst; lia. Qed.

Lemma hcols_product_exact u v p a b : halves u -> halves v -> (1 <= p <= length u)%nat -> (p <= length v)%nat ->
  (a + b <= p + 1)%nat ->
  (forall i, (a <= i < p)%nat -> limb u i = 0) -> (forall i, (b <= i < p)%nat -> limb v i = 0) ->
  hmv (firstn p u) * hmv (firstn p v) = hcols u v p * Hp (p - 1).
Proof.
  intros Hu Hv Hpp Hpv Hab Ha Hb. rewrite hcols_rows by lia. rewrite (hmv_as_sum v p) by lia.
  rewrite <- (fsum_scale (hmv (firstn p u))). rewrite (Z.mul_comm (fsum _ p) (Hp (p - 1))), <- fsum_scale.
  apply fsum_ext. intros i Hi. destruct (Nat.lt_ge_cases i b) as [Hib|Hib].
  - rewrite (hmv_split (p - i) (firstn p u)) by (rewrite firstn_length; lia).
    rewrite firstn_length, firstn_firstn, !Nat.min_l by lia.
    replace (p - (p - i))%nat with i by lia.
    replace (hmv (skipn (p - i) (firstn p u))) with 0.
    + replace (Hp (p - 1)) with (Hp i * Hp (p - 1 - i)) by (rewrite <- Hp_add; f_equal; lia). ring.
    + symmetry. apply hmv_zeros. apply Forall_nth. intros k dflt Hk.
      rewrite skipn_length, firstn_length, Nat.min_l in Hk by lia.
      rewrite (nth_indep _ dflt 0) by (rewrite skipn_length, firstn_length; lia).
      change (limb (skipn (p - i) (firstn p u)) k = 0). rewrite limb_skipn.
      rewrite <- (Ha (p - i + k)%nat) by lia. unfold limb.
      rewrite <- (firstn_skipn p u) at 2. rewrite app_nth1; auto. rewrite firstn_length. lia.
  - rewrite Hb by lia. ring.
Qed.
