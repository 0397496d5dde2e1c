(** * Arithmetic of limb lists (proofs only). *)

From Coq Require Import ZArith List Bool Lia Znumtheory.
From Verif Require Import Model Spec.
Import ListNotations.
Open Scope Z_scope.

Ltac Zify.zify_post_hook ::= Z.div_mod_to_equations.

Global Arguments Z.mul : simpl never.
Global Arguments Z.add : simpl never.
Global Arguments Z.sub : simpl never.
Global Arguments Z.pow : simpl never.
Global Arguments Z.div : simpl never.
Global Arguments Z.modulo : simpl never.

Notation limbs := (Forall is_limb).

(** Integer denoted by a limb list, first limb most significant. *)
Fixpoint mv (l : list Z) : Z :=
  match l with
  | [] => 0
  | d :: t => d * mask ^ Z.of_nat (length t) + mv t
  end.

Definition Bp (n : nat) : Z := mask ^ Z.of_nat n.

Lemma mask_pos : 0 < mask. Proof. reflexivity. Qed.

Lemma Bp_pos n : 0 < Bp n.
Proof. unfold Bp. apply Z.pow_pos_nonneg; [reflexivity | lia]. Qed.

Lemma Bp_0 : Bp 0 = 1. Proof. reflexivity. Qed.

Lemma Bp_S n : Bp (S n) = mask * Bp n.
Proof. unfold Bp. rewrite Nat2Z.inj_succ, Z.pow_succ_r by lia. reflexivity. Qed.

Lemma Bp_add n m : Bp (n + m) = Bp n * Bp m.
Proof. unfold Bp. rewrite Nat2Z.inj_add, Z.pow_add_r by lia. reflexivity. Qed.

Lemma Bp_ge1 n : 1 <= Bp n.
Proof. pose proof (Bp_pos n). lia. Qed.

Lemma Bp_mono n m : (n <= m)%nat -> Bp n <= Bp m.
Proof. intro H. unfold Bp. apply Z.pow_le_mono_r; [reflexivity | lia]. Qed.

Global Opaque Bp.

Lemma mv_cons d t : mv (d :: t) = d * Bp (length t) + mv t.
Proof. reflexivity. Qed.

Lemma mv_nil : mv [] = 0. Proof. reflexivity. Qed.

Lemma mv_app a b : mv (a ++ b) = mv a * Bp (length b) + mv b.
Proof.
  induction a as [|x a IH]; simpl app.
  - rewrite mv_nil. lia.
  - rewrite !mv_cons, IH, app_length, Bp_add. ring.
Qed.

Lemma mv_bound l : limbs l -> 0 <= mv l < Bp (length l).
Proof.
  induction 1 as [|x l Hx Hl IH].
  - rewrite mv_nil. simpl length. rewrite Bp_0. lia.
  - rewrite mv_cons. simpl length. rewrite Bp_S. unfold is_limb in Hx.
    change mask with 100000000. nia.
Qed.

Lemma mv_zeros l : Forall (fun d => d = 0) l -> mv l = 0.
Proof. induction 1; rewrite ?mv_nil, ?mv_cons; subst; lia. Qed.

Lemma mv_repeat0 n : mv (repeat 0 n) = 0.
Proof. apply mv_zeros. induction n; simpl; constructor; auto. Qed.

Lemma mv_zero_inv l : limbs l -> mv l = 0 -> Forall (fun d => d = 0) l.
Proof.
  induction 1 as [|x l Hx Hl IH]; intro H; constructor.
  - rewrite mv_cons in H. pose proof (mv_bound l Hl). pose proof (Bp_pos (length l)).
    unfold is_limb in Hx. nia.
  - apply IH. rewrite mv_cons in H. pose proof (mv_bound l Hl). pose proof (Bp_pos (length l)).
    unfold is_limb in Hx. nia.
Qed.

Lemma mv_ge_lead l : limbs l -> l <> [] -> limb l 0 <> 0 -> Bp (length l - 1) <= mv l.
Proof.
  intros Hl Hn H0. destruct Hl as [|x l Hx Hl]; [congruence|].
  unfold limb in H0; simpl in H0. rewrite mv_cons. replace (length (x :: l) - 1)%nat with (length l) by (simpl; lia).
  pose proof (mv_bound l Hl). pose proof (Bp_pos (length l)). unfold is_limb in Hx. nia.
Qed.

Lemma mv_lead_small l : limbs l -> limb l 0 = 0 -> mv l < Bp (length l - 1).
Proof.
  intros Hl H0. destruct Hl as [|x l Hx Hl].
  - change (length (@nil Z) - 1)%nat with 0%nat. rewrite Bp_0. rewrite mv_nil. lia.
  - unfold limb in H0; simpl in H0. subst. rewrite mv_cons. replace (length (0%Z :: l) - 1)%nat with (length l) by (simpl; lia).
    pose proof (mv_bound l Hl). lia.
Qed.

Lemma mv_inj u v : limbs u -> limbs v -> length u = length v -> mv u = mv v -> u = v.
Proof.
  intro Hu. revert v. induction Hu as [|x u Hx Hu IH]; intros v Hv Hlen Heq.
  - destruct v; [reflexivity | discriminate].
  - destruct Hv as [|y v Hy Hv]; [discriminate|].
    simpl in Hlen. injection Hlen as Hlen. rewrite !mv_cons in Heq. rewrite Hlen in Heq.
    pose proof (mv_bound u Hu). pose proof (mv_bound v Hv). rewrite Hlen in H.
    assert (x = y) by (unfold is_limb in *; nia). subst y.
    f_equal. apply IH; auto. lia.
Qed.

(** *** List helper lemmas *)

Lemma upd_length i x l : length (upd i x l) = length l.
Proof. revert i; induction l; destruct i; simpl; auto. Qed.

Lemma upd_limbs i x l : limbs l -> is_limb x -> limbs (upd i x l).
Proof.
  intros Hl Hx. revert i. induction Hl; destruct i; simpl; constructor; auto.
Qed.

Lemma limb_upd_same i x l : (i < length l)%nat -> limb (upd i x l) i = x.
Proof.
  unfold limb. revert i; induction l; destruct i; simpl; intros; try lia; auto.
  apply IHl. lia.
Qed.

Lemma limb_upd_other i j x l : i <> j -> limb (upd i x l) j = limb l j.
Proof.
  unfold limb. revert i j; induction l; destruct i, j; simpl; intros; try lia; auto.
Qed.

Lemma limb_bound l i : limbs l -> is_limb (limb l i).
Proof.
  intros Hl. unfold limb. destruct (Nat.lt_ge_cases i (length l)).
  - rewrite Forall_forall in Hl. apply Hl. apply nth_In; auto.
  - rewrite nth_overflow by auto. unfold is_limb; lia.
Qed.

Lemma limbs_repeat0 n : limbs (repeat 0 n).
Proof. induction n; simpl; constructor; auto. unfold is_limb; lia. Qed.

Lemma limbs_firstn n l : limbs l -> limbs (firstn n l).
Proof.
  intro H. revert n. induction H; destruct n; simpl; constructor; auto.
Qed.

Lemma limbs_skipn n l : limbs l -> limbs (skipn n l).
Proof.
  intro H. revert n. induction H; destruct n; simpl; auto.
Qed.

Lemma limbs_app a b : limbs a -> limbs b -> limbs (a ++ b).
Proof. intros. apply Forall_app; auto. Qed.

Lemma mv_split k l : (k <= length l)%nat ->
  mv l = mv (firstn k l) * Bp (length l - k) + mv (skipn k l).
Proof.
  intro H. rewrite <- (firstn_skipn k l) at 1. rewrite mv_app.
  rewrite skipn_length. reflexivity.
Qed.

Lemma mv_firstn k l : limbs l -> (k <= length l)%nat ->
  mv (firstn k l) = mv l / Bp (length l - k).
Proof.
  intros Hl Hk. rewrite (mv_split k l Hk).
  pose proof (mv_bound (skipn k l) (limbs_skipn k l Hl)) as Hb.
  rewrite skipn_length in Hb. pose proof (Bp_pos (length l - k)).
  rewrite Z.div_add_l by lia. rewrite (Z.div_small (mv (skipn k l))) by lia. lia.
Qed.

Lemma mv_skipn k l : limbs l -> (k <= length l)%nat ->
  mv (skipn k l) = mv l mod Bp (length l - k).
Proof.
  intros Hl Hk. rewrite (mv_split k l Hk) at 1.
  pose proof (mv_bound (skipn k l) (limbs_skipn k l Hl)) as Hb.
  rewrite skipn_length in Hb. pose proof (Bp_pos (length l - k)).
  rewrite Z.add_comm, Z.mod_add by lia. symmetry. apply Z.mod_small. lia.
Qed.

(** *** Shifts *)

Lemma shift_right_length k l : length (shift_right k l) = length l.
Proof.
  unfold shift_right. rewrite firstn_length, app_length, repeat_length. lia.
Qed.

Lemma shift_right_limbs k l : limbs l -> limbs (shift_right k l).
Proof.
  intro. unfold shift_right. apply limbs_firstn, limbs_app; auto using limbs_repeat0.
Qed.

Lemma shift_right_eq k l : (k <= length l)%nat ->
  shift_right k l = repeat 0 k ++ firstn (length l - k) l.
Proof.
  intro H. unfold shift_right. rewrite firstn_app, repeat_length.
  rewrite firstn_all2 by (rewrite repeat_length; lia). reflexivity.
Qed.

Lemma mv_shift_right k l : limbs l -> (k <= length l)%nat ->
  mv (shift_right k l) = mv l / Bp k.
Proof.
  intros Hl Hk. rewrite shift_right_eq by auto. rewrite mv_app, mv_repeat0.
  rewrite mv_firstn by (auto; lia). replace (length l - (length l - k))%nat with k by lia. lia.
Qed.

Lemma shift_left_length k l : length (shift_left k l) = length l.
Proof.
  unfold shift_left. rewrite app_length, skipn_length, repeat_length. lia.
Qed.

Lemma shift_left_limbs k l : limbs l -> limbs (shift_left k l).
Proof.
  intro. unfold shift_left. apply limbs_app; auto using limbs_repeat0, limbs_skipn.
Qed.

Lemma mv_shift_left k l : (k <= length l)%nat ->
  mv (shift_left k l) = mv (skipn k l) * Bp k.
Proof.
  intro. unfold shift_left. rewrite mv_app, mv_repeat0, repeat_length.
  rewrite Nat.min_l by auto. lia.
Qed.

Lemma first_nonzero_le l : (first_nonzero l <= length l)%nat.
Proof. induction l; simpl; [lia|]. destruct (a =? 0); simpl; lia. Qed.

Lemma first_nonzero_zeros l : firstn (first_nonzero l) l = repeat 0 (first_nonzero l).
Proof.
  induction l as [|a l IH]; simpl; auto.
  destruct (Z.eqb_spec a 0); simpl; auto. subst. f_equal; auto.
Qed.

Lemma first_nonzero_limb l : (first_nonzero l < length l)%nat ->
  limb l (first_nonzero l) <> 0.
Proof.
  unfold limb. induction l as [|a l IH]; simpl; [lia|].
  destruct (Z.eqb_spec a 0); simpl; auto. intro. apply IH. lia.
Qed.

Lemma first_nonzero_all l : first_nonzero l = length l -> Forall (fun d => d = 0) l.
Proof.
  induction l as [|a l IH]; simpl; [constructor|].
  destruct (Z.eqb_spec a 0); simpl; intro H; [|lia]. constructor; auto.
Qed.

Lemma first_nonzero_0 l : l <> [] -> (first_nonzero l = 0)%nat <-> limb l 0 <> 0.
Proof.
  destruct l as [|a l]; [congruence|]. intros _. unfold limb; simpl.
  destruct (Z.eqb_spec a 0); split; intros; try lia; auto.
Qed.

Lemma mv_first_nonzero l : mv (skipn (first_nonzero l) l) = mv l.
Proof.
  rewrite <- (firstn_skipn (first_nonzero l) l) at 3.
  rewrite mv_app, first_nonzero_zeros, mv_repeat0. lia.
Qed.

Lemma limb_skipn k i l : limb (skipn k l) i = limb l (k + i).
Proof.
  unfold limb. revert k; induction l; destruct k; simpl; auto.
  destruct i; auto.
Qed.

Lemma limb_shift_left_0 k l : (k < length l)%nat -> limb (shift_left k l) 0 = limb l k.
Proof.
  intro H. unfold shift_left, limb. rewrite app_nth1 by (rewrite skipn_length; lia).
  change (limb (skipn k l) 0 = limb l k). rewrite limb_skipn. f_equal. lia.
Qed.

Lemma push_front_length p c l : (1 <= p <= length l)%nat -> length (push_front p c l) = length l.
Proof.
  intro. unfold push_front. simpl. rewrite app_length, firstn_length, skipn_length. lia.
Qed.

Lemma push_front_limbs p c l : limbs l -> is_limb c -> limbs (push_front p c l).
Proof.
  intros. unfold push_front. constructor; auto.
  apply limbs_app; auto using limbs_firstn, limbs_skipn.
Qed.

(* dropping the last of the first p limbs *)
Lemma push_front_full c l : limbs l -> (1 <= length l)%nat ->
  mv (push_front (length l) c l) = (c * Bp (length l) + mv l) / mask.
Proof.
  intros Hl H. unfold push_front. rewrite skipn_all, app_nil_r, mv_cons, firstn_length.
  rewrite Nat.min_l by lia. rewrite mv_firstn by (auto; lia).
  replace (length l - (length l - 1))%nat with 1%nat by lia.
  assert (HB : Bp (length l) = mask * Bp (length l - 1)).
  { rewrite <- Bp_S. f_equal. lia. }
  rewrite HB, (Bp_S 0), Bp_0.
  replace (c * (mask * Bp (length l - 1)) + mv l) with (c * Bp (length l - 1) * mask + mv l) by ring.
  rewrite Z.div_add_l by (pose proof mask_pos; lia). rewrite Z.mul_1_r. reflexivity.
Qed.

(** *** Loops *)

Lemma u32_small x : 0 <= x < 4294967296 -> u32 x = x.
Proof. intro. unfold u32. apply Z.mod_small; auto. Qed.

Lemma u64_small x : 0 <= x < 18446744073709551616 -> u64 x = x.
Proof. intro. unfold u64. apply Z.mod_small; auto. Qed.

Lemma add_loop_spec u v : limbs u -> limbs v -> length u = length v ->
  forall r c, add_loop u v = (r, c) ->
  mv r + c * Bp (length u) = mv u + mv v /\ limbs r /\ length r = length u /\ 0 <= c <= 1.
Proof.
  intro Hu. revert v. induction Hu as [|a u Ha Hu IH]; intros v Hv Hlen r c H.
  - destruct v; [|discriminate]. simpl in H. inversion H; subst.
    simpl. repeat split; auto; lia.
  - destruct Hv as [|b v Hb Hv]; [discriminate|]. simpl in Hlen. injection Hlen as Hlen.
    simpl in H. destruct (add_loop u v) as [r' c'] eqn:E.
    destruct (IH v Hv Hlen r' c' E) as (Hv1 & Hl1 & Hlen1 & Hc1).
    unfold is_limb in Ha, Hb.
    rewrite (u32_small (a + b)) in H by lia.
    rewrite (u32_small (a + b + c')) in H by lia.
    set (t := a + b + c') in *.
    assert (Ht : 0 <= t < 2 * mask) by (unfold t; change mask with 100000000; lia).
    assert (Hq : 0 <= t / mask <= 1) by (change mask with 100000000 in *; lia).
    rewrite (u32_small (t / mask * mask)) in H by (change mask with 100000000 in *; lia).
    rewrite u32_small in H by (change mask with 100000000 in *; lia).
    injection H as <- <-.
    rewrite !mv_cons. simpl length. rewrite Bp_S, Hlen1, <- Hlen.
    repeat split.
    + unfold t. replace ((a + b + c' - (a + b + c') / mask * mask) * Bp (length u) + mv r' +
        (a + b + c') / mask * (mask * Bp (length u))) with ((a + b) * Bp (length u) + (mv r' + c' * Bp (length u))) by ring.
      rewrite Hv1. ring.
    + constructor; auto. unfold is_limb. change mask with 100000000 in *. lia.
    + lia.
    + lia.
Qed.

Lemma sub_loop_spec u v : limbs u -> limbs v -> length u = length v ->
  forall r c, sub_loop u v = (r, c) ->
  mv r - c * Bp (length u) = mv u - mv v /\ limbs r /\ length r = length u /\ 0 <= c <= 1.
Proof.
  intro Hu. revert v. induction Hu as [|a u Ha Hu IH]; intros v Hv Hlen r c H.
  - destruct v; [|discriminate]. simpl in H. inversion H; subst.
    simpl. repeat split; auto; lia.
  - destruct Hv as [|b v Hb Hv]; [discriminate|]. simpl in Hlen. injection Hlen as Hlen.
    simpl in H. destruct (sub_loop u v) as [r' c'] eqn:E.
    destruct (IH v Hv Hlen r' c' E) as (Hv1 & Hl1 & Hlen1 & Hc1).
    unfold is_limb in Ha, Hb.
    destruct (Z.ltb_spec (a - b - c') 0) as [Hlt|Hge].
    + rewrite Z.mod_small in H by (change mask with 100000000; lia).
      injection H as <- <-. rewrite !mv_cons. simpl length. rewrite Bp_S, Hlen1, <- Hlen.
      repeat split; try lia.
      constructor; auto. unfold is_limb; change mask with 100000000; lia.
    + rewrite Z.mod_small in H by (change mask with 100000000; lia).
      injection H as <- <-. rewrite !mv_cons. simpl length. rewrite Hlen1, <- Hlen.
      repeat split; try lia.
      constructor; auto. unfold is_limb; lia.
Qed.

Lemma mul_loop_n_spec n u : limbs u -> 0 <= n < 4294967296 ->
  forall r c, mul_loop_n u n = (r, c) ->
  mv r + c * Bp (length u) = mv u * n /\ limbs r /\ length r = length u /\ 0 <= c <= n.
Proof.
  intros Hu Hn. induction Hu as [|a u Ha Hu IH]; intros r c H.
  - simpl in H. inversion H; subst. simpl. repeat split; auto; lia.
  - cbn [mul_loop_n] in H. destruct (mul_loop_n u n) as [r' c'] eqn:E.
    destruct (IH r' c' eq_refl) as (Hv1 & Hl1 & Hlen1 & Hc1).
    unfold is_limb in Ha.
    assert (0 <= a * n <= 99999999 * 4294967295) by nia.
    rewrite (u64_small (a * n)) in H by lia.
    rewrite (u64_small (c' + a * n)) in H by lia.
    assert (Hcn : c' + a * n <= mask * n) by (change mask with 100000000; nia).
    set (t := c' + a * n) in *.
    assert (Hq : 0 <= t / mask <= n).
    { split. apply Z.div_pos; [nia | reflexivity].
      apply Z.div_le_upper_bound; [reflexivity | auto]. }
    rewrite (u64_small (mask * (t / mask))) in H by (change mask with 100000000 in *; lia).
    rewrite u64_small in H by (change mask with 100000000 in *; lia).
    rewrite u32_small in H by (change mask with 100000000 in *; lia).
    injection H as <- <-.
    rewrite !mv_cons. simpl length. rewrite Bp_S, Hlen1.
    repeat split; try lia.
    constructor; auto. unfold is_limb. change mask with 100000000 in *. lia.
Qed.

Lemma div_loop_n_spec n u : limbs u -> 0 < n <= mask ->
  forall prev r pr, 0 <= prev < n -> div_loop_n u prev n = (r, pr) ->
  mv u + prev * Bp (length u) = n * mv r + pr /\ limbs r /\ length r = length u /\ 0 <= pr < n.
Proof.
  intros Hu Hn. induction Hu as [|a u Ha Hu IH]; intros prev r pr Hp H.
  - simpl in H. inversion H; subst. rewrite u32_small by (change mask with 100000000 in *; lia).
    simpl. rewrite Bp_0. repeat split; auto; lia.
  - cbn [div_loop_n] in H. unfold is_limb in Ha. change mask with 100000000 in *.
    rewrite (u64_small (prev * 100000000)) in H by lia.
    rewrite (u64_small (a + prev * 100000000)) in H by lia.
    set (t := a + prev * 100000000) in *.
    assert (Ht : 0 <= t < n * 100000000) by (unfold t; nia).
    assert (Hq : 0 <= t / n < 100000000).
    { split; [apply Z.div_pos; lia | apply Z.div_lt_upper_bound; lia]. }
    rewrite (u32_small (t / n)) in H by lia.
    pose proof (Z.mod_pos_bound t n ltac:(lia)) as Hm.
    assert (Hmod : t - n * (t / n) = t mod n) by (rewrite Z.mod_eq by lia; reflexivity).
    rewrite (u64_small (n * (t / n))) in H by lia.
    rewrite u64_small in H by lia. rewrite Hmod in H.
    destruct (div_loop_n u (t mod n) n) as [r' p'] eqn:E.
    injection H as <- <-.
    destruct (IH (t mod n) r' p' Hm E) as (Hv1 & Hl1 & Hlen1 & Hc1).
    rewrite !mv_cons. simpl length. rewrite Bp_S, Hlen1. change mask with 100000000.
    repeat split; try lia.
    + pose proof (Z.div_mod t n ltac:(lia)) as Hdm. unfold t in Hdm at 1.
      assert (Hr : a * Bp (length u) + mv u + prev * (100000000 * Bp (length u)) = t * Bp (length u) + mv u)
        by (unfold t; ring).
      rewrite Hr. assert (t = n * (t / n) + t mod n) by (apply Z.div_mod; lia). nia.
    + constructor; auto.
Qed.

Lemma cmp_data_spec u v : limbs u -> limbs v -> length u = length v ->
  cmp_data u v = match Z.compare (mv u) (mv v) with Lt => -1 | Eq => 0 | Gt => 1 end.
Proof.
  intro Hu. revert v. induction Hu as [|a u Ha Hu IH]; intros v Hv Hlen.
  - destruct v; [reflexivity | discriminate].
  - destruct Hv as [|b v Hb Hv]; [discriminate|]. simpl in Hlen. injection Hlen as Hlen.
    simpl cmp_data. rewrite !mv_cons, <- Hlen.
    pose proof (mv_bound u Hu). pose proof (mv_bound v Hv). rewrite <- Hlen in *.
    destruct (Z.eqb_spec a b) as [->|Hne].
    + rewrite IH by auto. destruct (Z.compare_spec (mv u) (mv v)) as [E|E|E].
      * rewrite E, Z.compare_refl. reflexivity.
      * assert (H1 : b * Bp (length u) + mv u < b * Bp (length u) + mv v) by lia.
        rewrite <- Z.compare_lt_iff in H1. rewrite H1. reflexivity.
      * assert (H1 : b * Bp (length u) + mv u > b * Bp (length u) + mv v) by lia.
        unfold Z.gt in H1. rewrite H1. reflexivity.
    + unfold is_limb in *. rewrite Z.gtb_ltb. destruct (Z.ltb_spec b a) as [Hlt|Hge].
      * assert (H1 : a * Bp (length u) + mv u > b * Bp (length u) + mv v) by nia.
        unfold Z.gt in H1. rewrite H1. reflexivity.
      * assert (H1 : a * Bp (length u) + mv u < b * Bp (length u) + mv v) by nia.
        rewrite <- Z.compare_lt_iff in H1. rewrite H1. reflexivity.
Qed.

Lemma cmp_data_refl u : cmp_data u u = 0.
Proof. induction u; simpl; auto. rewrite Z.eqb_refl. auto. Qed.
