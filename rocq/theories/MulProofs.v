(** * Schoolbook multiplication loop (proofs only). *)

From Coq Require Import ZArith List Bool Lia Reals Lra Psatz.
From Verif Require Import Model Spec Limbs.
Import ListNotations.
Open Scope Z_scope.


(** ** Finite sums *)

Fixpoint fsum (f : nat -> Z) (n : nat) : Z :=
  match n with O => 0 | S k => fsum f k + f k end.

Lemma fsum_ext f g n : (forall i, (i < n)%nat -> f i = g i) -> fsum f n = fsum g n.
Proof. induction n; simpl; intro H; auto. rewrite IHn, H; auto. Qed.

Lemma fsum_plus f g n : fsum (fun i => f i + g i) n = fsum f n + fsum g n.
Proof. induction n; simpl; lia. Qed.

Lemma fsum_scale c f n : fsum (fun i => c * f i) n = c * fsum f n.
Proof. induction n; simpl; lia. Qed.

Lemma fsum_const c n : fsum (fun _ => c) n = Z.of_nat n * c.
Proof. induction n; cbn [fsum]; lia. Qed.

Lemma fsum_le f g n : (forall i, (i < n)%nat -> f i <= g i) -> fsum f n <= fsum g n.
Proof. induction n; cbn [fsum]; intro H; [lia|]. pose proof (H n ltac:(lia)). specialize (IHn ltac:(auto)). lia. Qed.

Lemma fsum_nonneg f n : (forall i, (i < n)%nat -> 0 <= f i) -> 0 <= fsum f n.
Proof. intro H. pose proof (fsum_le (fun _ => 0) f n H). rewrite fsum_const in H0. lia. Qed.

Lemma fsum_first f n : fsum f (S n) = f O + fsum (fun i => f (S i)) n.
Proof. induction n; [cbn; lia|]. change (fsum f (S (S n))) with (fsum f (S n) + f (S n)). rewrite IHn. cbn [fsum]. lia. Qed.


Lemma fsum_rev f n : fsum f n = fsum (fun i => f (n - 1 - i)%nat) n.
Proof.
  revert f. induction n; intro f; auto. rewrite (fsum_first f). cbn [fsum].
  replace (S n - 1 - n)%nat with O by lia. rewrite (IHn (fun i => f (S i))).
  rewrite Z.add_comm. f_equal. apply fsum_ext. intros i Hi. f_equal. lia.
Qed.

(** ** Columns *)

Definition col (u v : list Z) (j : nat) : Z := fsum (fun i => limb u (j - i) * limb v i) (S j).

Lemma col_sum_exact u v j : limbs u -> limbs v ->
  forall i sum, 0 <= sum -> sum + Z.of_nat (S i) * (99999999 * 99999999) < 18446744073709551616 ->
  col_sum u v j i sum = sum + fsum (fun t => limb u (j - t) * limb v t) (S i).
Proof.
  intros Hu Hv i. induction i as [|i IH]; intros sum H0 H1.
  - cbn [col_sum fsum]. pose proof (limb_bound u (j - 0) Hu) as B1. pose proof (limb_bound v 0 Hv) as B2.
    unfold is_limb in *. assert (0 <= limb u (j - 0) * limb v 0 <= 99999999 * 99999999) by nia.
    rewrite (u64_small (limb u (j - 0) * limb v 0)) by lia. rewrite u64_small by lia. lia.
  - cbn [col_sum]. pose proof (limb_bound u (j - S i) Hu) as B1. pose proof (limb_bound v (S i) Hv) as B2.
    unfold is_limb in *. assert (0 <= limb u (j - S i) * limb v (S i) <= 99999999 * 99999999) by nia.
    rewrite (u64_small (limb u (j - S i) * limb v (S i))) by lia. rewrite u64_small by lia.
    rewrite IH by lia. change (fsum (fun t => limb u (j - t) * limb v t) (S (S i))) with
     (fsum (fun t => limb u (j - t) * limb v t) (S i) + limb u (j - S i) * limb v (S i)). lia.
Qed.

Lemma col_bound u v j : limbs u -> limbs v -> 0 <= col u v j <= Z.of_nat (S j) * (99999999 * 99999999).
Proof.
  intros Hu Hv. unfold col. rewrite <- fsum_const. split.
  - apply fsum_nonneg. intros i _. pose proof (limb_bound u (j - i) Hu). pose proof (limb_bound v i Hv). unfold is_limb in *. nia.
  - apply fsum_le. intros i _. pose proof (limb_bound u (j - i) Hu). pose proof (limb_bound v i Hv). unfold is_limb in *. nia.
Qed.

Lemma col_ext u u' v j : (forall i, (i <= j)%nat -> limb u i = limb u' i) -> col u v j = col u' v j.
Proof. intro H. unfold col. apply fsum_ext. intros i Hi. rewrite H by lia. reflexivity. Qed.

Lemma col_comm u v j : col u v j = col v u j.
Proof.
  unfold col. rewrite fsum_rev. apply fsum_ext. intros i Hi.
  replace (j - (S j - 1 - i))%nat with i by lia. replace (S j - 1 - i)%nat with (j - i)%nat by lia. ring.
Qed.

(** Exact columns combined to an integer *)
Fixpoint cols (u v : list Z) (p : nat) : Z :=
  match p with O => 0 | S j => cols u v j * mask + col u v j end.

Lemma cols_ext u u' v p : (forall i, (i < p)%nat -> limb u i = limb u' i) -> cols u v p = cols u' v p.
Proof.
  induction p as [|p IH]; intro H; auto. cbn [cols]. rewrite IH by (intros; apply H; lia).
  rewrite (col_ext u u') by (intros; apply H; lia). reflexivity.
Qed.

Lemma cols_comm u v p : cols u v p = cols v u p.
Proof. induction p; auto. cbn [cols]. rewrite IHp, col_comm. reflexivity. Qed.

Lemma firstn_S_limb l j : (j < length l)%nat -> firstn (S j) l = firstn j l ++ [limb l j].
Proof.
  unfold limb. revert j. induction l as [|a l IH]; intros j H; simpl in H; [lia|].
  destruct j; simpl; auto. f_equal. apply IH. lia.
Qed.

Lemma mv_firstn_S l j : (j < length l)%nat -> mv (firstn (S j) l) = mv (firstn j l) * mask + limb l j.
Proof.
  intro H. rewrite firstn_S_limb by auto. rewrite mv_app, mv_cons, mv_nil. simpl length.
  rewrite Bp_S, Bp_0. ring.
Qed.

(** The exact carry into column j when n columns lie below it. *)
Fixpoint carry_into (u v : list Z) (j n : nat) : Z :=
  match n with O => 0 | S n' => (carry_into u v (S j) n' + col u v (S j)) / mask end.

Lemma carry_into_S u v j n : carry_into u v j (S n) = (carry_into u v (S j) n + col u v (S j)) / mask.
Proof. reflexivity. Qed.

Lemma carry_into_bound u v : limbs u -> limbs v ->
  forall n j, (j + n < 625)%nat -> 0 <= carry_into u v j n <= 625 * 99999999.
Proof.
  intros Hu Hv n. induction n as [|n IH]; intros j H; [cbn; lia|].
  rewrite carry_into_S. specialize (IH (S j) ltac:(lia)). pose proof (col_bound u v (S j) Hu Hv) as Hc.
  assert (Z.of_nat (S (S j)) <= 625) by lia. change mask with 100000000.
  split; [apply Z.div_pos; lia|]. apply Z.div_le_upper_bound; [lia|]. nia.
Qed.

(** The loop, started in the middle: columns j1-1 .. 0 remain, [n] columns have
    been done, u' agrees with u below j1. *)
Lemma mul_loop_uv_digits u v : limbs u -> limbs v ->
  forall j1 n u', (j1 + n <= 624)%nat -> (j1 <= length u')%nat -> limbs u' ->
  (forall i, (i < j1)%nat -> limb u' i = limb u i) ->
  forall carry r c, (j1 <> O -> carry = carry_into u v (j1 - 1) n) -> 0 <= carry <= 625 * 99999999 ->
  (j1 = O -> carry < 4294967296) ->
  mul_loop_uv j1 u' v carry = (r, c) ->
  length r = length u' /\ limbs r /\
  (forall i, (i < j1)%nat -> limb r i = (carry_into u v i (j1 - 1 - i + n) + col u v i) mod mask) /\
  (forall i, (j1 <= i)%nat -> limb r i = limb u' i) /\
  c = (match j1 with O => carry | S _ => (carry_into u v 0 (j1 - 1 + n) + col u v 0) / mask end).
Proof.
  intros Hu Hv j1. induction j1 as [|j IH]; intros n u' Hn Hlen Hl' Hag carry r c Hc Hcb Hc32 H.
  - cbn [mul_loop_uv] in H. injection H as <- <-. specialize (Hc32 eq_refl). rewrite u32_small by lia.
    repeat split; auto. intros; lia.
  - cbn [mul_loop_uv] in H. specialize (Hc ltac:(lia)). rewrite Nat.sub_succ, Nat.sub_0_r in Hc.
    assert (Hcol : col u' v j = col u v j) by (apply col_ext; intros; apply Hag; lia).
    assert (Hs : col_sum u' v j j carry = carry + col u v j).
    { rewrite col_sum_exact; auto; try lia. unfold col in Hcol. rewrite Hcol. reflexivity. }
    rewrite Hs in H. pose proof (col_bound u v j Hu Hv) as Hcb2.
    set (s := carry + col u v j) in *.
    assert (Hsm : 0 <= s mod mask < mask) by (apply Z.mod_pos_bound; reflexivity).
    rewrite (u32_small (s mod mask)) in H by (change mask with 100000000 in *; lia).
    assert (Hsd : s / mask = (carry_into u v j n + col u v j) / mask) by (unfold s; rewrite Hc; reflexivity).
    assert (Hsb : 0 <= s / mask <= 625 * 99999999).
    { change mask with 100000000. split; [apply Z.div_pos; unfold s; lia|]. apply Z.div_le_upper_bound; [lia|]. unfold s. nia. }
    destruct (IH (S n) (upd j (s mod mask) u')) with (carry := s / mask) (r := r) (c := c) as (H1 & H2 & H3 & H4 & H5); auto; try lia.
    + rewrite upd_length. lia.
    + apply upd_limbs; auto. 
    + intros i Hi. rewrite limb_upd_other by lia. apply Hag. lia.
    + intro Hj. destruct j as [|j0]; [lia|]. rewrite Nat.sub_succ, Nat.sub_0_r.
      rewrite carry_into_S. exact Hsd.
    + intro Hj. subst j. change mask with 100000000. apply Z.div_lt_upper_bound; [lia|]. unfold s. lia.
    + rewrite upd_length in H1. split; [auto|]. split; [auto|]. split; [|split].
      * intros i Hi. destruct (Nat.eq_dec i j) as [->|Hne].
        -- rewrite H4 by lia. rewrite limb_upd_same by lia.
           replace (S j - 1 - j + n)%nat with n by lia. unfold s. rewrite Hc. reflexivity.
        -- rewrite H3 by lia. replace (S j - 1 - i + n)%nat with (j - 1 - i + S n)%nat by lia. reflexivity.
      * intros i Hi. rewrite H4 by lia. rewrite limb_upd_other by lia. reflexivity.
      * rewrite H5. destruct j as [|j0].
        -- replace (1 - 1 + n)%nat with n by lia. exact Hsd.
        -- replace (S (S j0) - 1 + n)%nat with (S j0 - 1 + S n)%nat by lia. reflexivity.
Qed.

(** Value of the digits. *)
Lemma digits_cols u v r p c :
  (p <= length r)%nat -> (1 <= p)%nat ->
  (forall i, (i < p)%nat -> limb r i = (carry_into u v i (p - 1 - i) + col u v i) mod mask) ->
  c = (carry_into u v 0 (p - 1) + col u v 0) / mask ->
  mv (firstn p r) + c * Bp p = cols u v p.
Proof.
  intros Hlen Hp Hd Hc.
  (* prefix of k columns: the digits plus the carry out of the top equal the columns plus the carry in *)
  assert (G : forall k, (1 <= k <= p)%nat ->
     mv (firstn k r) + c * Bp k = cols u v k + carry_into u v (k - 1) (p - k)).
  { induction k as [|k IH]; intro Hk; [lia|].
    rewrite mv_firstn_S by lia. rewrite (Hd k) by lia. rewrite Bp_S. cbn [cols].
    replace (S k - 1)%nat with k by lia. replace (p - S k)%nat with (p - 1 - k)%nat by lia.
    set (s := carry_into u v k (p - 1 - k) + col u v k).
    pose proof (Z.div_mod s mask ltac:(discriminate)) as Hdm.
    destruct k as [|k0].
    - assert (Hc' : c = s / mask) by (unfold s; rewrite Hc, Nat.sub_0_r; reflexivity).
      rewrite Hc'. cbn [cols firstn]. rewrite mv_nil, Bp_0. unfold s in Hdm at 1. lia.
    - specialize (IH ltac:(lia)).
      replace (p - S k0)%nat with (S (p - 1 - S k0))%nat in IH by lia.
      replace (S k0 - 1)%nat with k0 in IH by lia.
      rewrite carry_into_S in IH. fold s in IH. nia. }
  specialize (G p ltac:(lia)). rewrite Nat.sub_diag in G. cbn [carry_into] in G. lia.
Qed.

(** Columns as rows: sum over the limbs of v. *)
Lemma cols_rows u v p : (p <= length u)%nat ->
  cols u v p = fsum (fun b => limb v b * mv (firstn (p - b) u)) p.
Proof.
  induction p as [|j IH]; intro H; auto. cbn [cols]. rewrite IH by lia.
  cbn [fsum]. rewrite (fsum_ext (fun b => limb v b * mv (firstn (S j - b) u))
     (fun b => mask * (limb v b * mv (firstn (j - b) u)) + limb u (j - b) * limb v b)).
  2: { intros i Hi. replace (S j - i)%nat with (S (j - i)) by lia. rewrite mv_firstn_S by lia. ring. }
  rewrite fsum_plus, fsum_scale. unfold col. cbn [fsum].
  replace (S j - j)%nat with 1%nat by lia. rewrite mv_firstn_S by lia. cbn [firstn]. rewrite mv_nil.
  replace (j - j)%nat with O by lia. lia.
Qed.

Lemma mv_as_sum v p : (p <= length v)%nat -> mv (firstn p v) = fsum (fun b => limb v b * Bp (p - 1 - b)) p.
Proof.
  induction p as [|j IH]; intro H; auto.
  rewrite mv_firstn_S by lia. rewrite IH by lia. cbn [fsum].
  replace (S j - 1 - j)%nat with O by lia. rewrite Bp_0.
  rewrite (fsum_ext (fun b => limb v b * Bp (S j - 1 - b)) (fun b => mask * (limb v b * Bp (j - 1 - b)))).
  2: { intros i Hi. replace (S j - 1 - i)%nat with (S (j - 1 - i)) by lia. rewrite Bp_S. ring. }
  rewrite fsum_scale. lia.
Qed.

(** The exact product is the kept columns plus the dropped ones. *)
Lemma cols_product u v p : limbs u -> limbs v -> (1 <= p <= length u)%nat -> (p <= length v)%nat ->
  0 <= mv (firstn p u) * mv (firstn p v) - cols u v p * Bp (p - 1) <= Z.of_nat (p - 1) * 99999999 * Bp (p - 1).
Proof.
  intros Hu Hv Hp Hpv. rewrite cols_rows by lia. rewrite (mv_as_sum v p) by lia.
  rewrite <- (fsum_scale (mv (firstn p u))). rewrite (Z.mul_comm (fsum _ p) (Bp (p - 1))), <- fsum_scale.
  set (low := fun b => limb v b * Bp (p - 1 - b) * mv (skipn (p - b) (firstn p u))).
  assert (E : fsum (fun i => mv (firstn p u) * (limb v i * Bp (p - 1 - i))) p =
              fsum (fun i => Bp (p - 1) * (limb v i * mv (firstn (p - i) u))) p + fsum low p).
  { rewrite <- fsum_plus. apply fsum_ext. intros i Hi. unfold low.
    rewrite (mv_split (p - i) (firstn p u)) by (rewrite firstn_length; lia).
    rewrite firstn_length, firstn_firstn, !Nat.min_l by lia.
    replace (p - (p - i))%nat with i by lia.
    replace (Bp (p - 1)) with (Bp i * Bp (p - 1 - i)) by (rewrite <- Bp_add; f_equal; lia). ring. }
  rewrite E.
  assert (Hlow : forall i, (i < p)%nat -> 0 <= low i <= match i with O => 0 | S _ => 99999999 * Bp (p - 1) end).
  { intros i Hi. unfold low. pose proof (limb_bound v i Hv) as B1. unfold is_limb in B1.
    pose proof (mv_bound (skipn (p - i) (firstn p u)) (limbs_skipn _ _ (limbs_firstn _ _ Hu))) as B2.
    rewrite skipn_length, firstn_length, Nat.min_l in B2 by lia. replace (p - (p - i))%nat with i in B2 by lia.
    destruct i.
    - rewrite Bp_0 in B2. assert (E0 : mv (skipn (p - 0) (firstn p u)) = 0) by lia. rewrite E0. lia.
    - replace (Bp (p - 1)) with (Bp (S i) * Bp (p - 1 - S i)) by (rewrite <- Bp_add; f_equal; lia).
      pose proof (Bp_pos (p - 1 - S i)).
      set (b1 := Bp (p - 1 - S i)) in *. set (b2 := Bp (S i)) in *. set (m := mv _) in *.
      assert (0 <= limb v (S i) * b1 <= 99999999 * b1) by nia. nia. }
  assert (Hn : 0 <= fsum low p) by (apply fsum_nonneg; intros; apply Hlow; auto).
  assert (Hub : fsum low p <= Z.of_nat (p - 1) * (99999999 * Bp (p - 1))).
  { destruct p as [|q]; [lia|]. rewrite fsum_first. pose proof (Hlow O ltac:(lia)). cbn in H.
    replace (S q - 1)%nat with q in * by lia.
    rewrite <- fsum_const. 
    assert (fsum (fun i => low (S i)) q <= fsum (fun _ => 99999999 * Bp q) q).
    { apply fsum_le. intros i Hi. apply (Hlow (S i)). lia. }
    lia. }
  lia.
Qed.

(** Exactness when the non-zero limbs are few. *)
Lemma cols_product_exact u v p a b : limbs u -> limbs v -> (1 <= p <= length u)%nat -> (p <= length v)%nat ->
  (a + b <= p + 1)%nat ->
  (forall i, (a <= i < p)%nat -> limb u i = 0) -> (forall i, (b <= i < p)%nat -> limb v i = 0) ->
  mv (firstn p u) * mv (firstn p v) = cols u v p * Bp (p - 1).
Proof.
  intros Hu Hv Hp Hpv Hab Ha Hb. rewrite cols_rows by lia. rewrite (mv_as_sum v p) by lia.
  rewrite <- (fsum_scale (mv (firstn p u))). rewrite (Z.mul_comm (fsum _ p) (Bp (p - 1))), <- fsum_scale.
  apply fsum_ext. intros i Hi. destruct (Nat.lt_ge_cases i b) as [Hib|Hib].
  - rewrite (mv_split (p - i) (firstn p u)) by (rewrite firstn_length; lia).
    rewrite firstn_length, firstn_firstn, !Nat.min_l by lia.
    replace (p - (p - i))%nat with i by lia.
    replace (mv (skipn (p - i) (firstn p u))) with 0.
    + replace (Bp (p - 1)) with (Bp i * Bp (p - 1 - i)) by (rewrite <- Bp_add; f_equal; lia). ring.
    + symmetry. apply mv_zeros. apply Forall_nth. intros k dflt Hk.
      rewrite skipn_length, firstn_length, Nat.min_l in Hk by lia.
      rewrite (nth_indep _ dflt 0) by (rewrite skipn_length, firstn_length; lia).
      change (limb (skipn (p - i) (firstn p u)) k = 0). rewrite limb_skipn.
      rewrite <- (Ha (p - i + k)%nat) by lia. unfold limb.
      rewrite <- (firstn_skipn p u) at 2. rewrite app_nth1; auto. rewrite firstn_length. lia.
  - rewrite Hb by lia. ring.
Qed.

Lemma mul_loop_uv_spec u v p r c : limbs u -> limbs v -> (1 <= p <= 624)%nat -> (p <= length u)%nat ->
  mul_loop_uv p u v 0 = (r, c) ->
  length r = length u /\ limbs r /\ mv (firstn p r) + c * Bp p = cols u v p /\
  (forall i, (p <= i)%nat -> limb r i = limb u i) /\ 0 <= c.
Proof.
  intros Hu Hv Hp Hlen H.
  destruct (mul_loop_uv_digits u v Hu Hv p 0 u ltac:(lia) Hlen Hu ltac:(auto) 0 r c ltac:(auto) ltac:(lia) ltac:(lia) H)
    as (H1 & H2 & H3 & H4 & H5).
  destruct p as [|p0]; [lia|]. rewrite Nat.add_0_r in H5.
  split; auto. split; auto. split; [|split; auto].
  - apply digits_cols; auto; try lia. intros i Hi. rewrite H3 by auto. rewrite Nat.add_0_r. reflexivity.
  - rewrite H5. apply Z.div_pos; [|reflexivity].
    pose proof (carry_into_bound u v Hu Hv (S p0 - 1) 0 ltac:(lia)). pose proof (col_bound u v 0 Hu Hv). lia.
Qed.

(** The aliased loop computes the same. *)
Lemma mul_loop_uu_eq v : forall j1 u carry, (forall i, (i < j1)%nat -> limb u i = limb v i) ->
  mul_loop_uu j1 u carry = mul_loop_uv j1 u v carry.
Proof.
  assert (Hcs : forall u j, (forall i, (i <= j)%nat -> limb u i = limb v i) -> forall i s, (i <= j)%nat ->
    col_sum u u j i s = col_sum u v j i s).
  { intros u j Hag i. induction i as [|i IH]; intros s Hi; cbn [col_sum]; rewrite (Hag _ Hi); auto.
    apply IH. lia. }
  induction j1 as [|j IH]; intros u carry Hag; auto.
  cbn [mul_loop_uu mul_loop_uv]. rewrite Hcs by (auto; intros; apply Hag; lia).
  apply IH. intros i Hi. rewrite limb_upd_other by lia. apply Hag. lia.
Qed.
