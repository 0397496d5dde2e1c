(** * Root finding, quadrature, differences, interpolation, series over the
      real numbers (proofs only) *)

From Coq Require Import ZArith List Bool Reals Ranalysis5 Lra Lia Psatz Sorted.
From Coquelicot Require Import Coquelicot.
From Verif Require Import Model ModelPow ModelGen SpecGen.
Import ListNotations.
Open Scope R_scope.


(** ** Bisection *)
Local Notation bl := (bisect_loop 0 Rplus Ropp (fun x => x / 2) rltb rleb rzero).
Local Notation bisect := (find_root_bisect 0 Rplus Rminus Rmult Ropp (fun x => x / 2) rltb rleb rzero).

Lemma between_mid a b x y : between a b x -> between a b y -> between a b (x + (y - x) / 2).
Proof. unfold between. lra. Qed.

Lemma bisect_loop_spec f eps lo hi : forall n rt dx r,
  between lo hi rt -> between lo hi (rt + dx) -> f rt <= 0 -> 0 < f (rt + dx) ->
  bl f eps n rt dx = Some r ->
  between lo hi r /\ (f r = 0 \/ exists y, between lo hi y /\ Rabs (y - r) < eps /\ f r <= 0 < f y).
Proof.
  induction n as [|n IH]; intros rt dx r B1 B2 F1 F2; cbn [bisect_loop]; [discriminate|].
  assert (B3 : between lo hi (rt + dx / 2)). { replace (rt + dx / 2) with (rt + ((rt + dx) - rt) / 2) by lra. apply between_mid; assumption. }
  assert (Ea : (if rltb (dx / 2) 0 then - (dx / 2) else dx / 2) = Rabs (dx / 2)).
  { unfold rltb. destruct (Rlt_dec (dx / 2) 0) as [L|L]; [rewrite (Rabs_left _ L)|rewrite Rabs_right by lra]; reflexivity. }
  rewrite Ea. set (m := rt + dx / 2) in *. change (rleb (f m) 0) with (if Rle_dec (f m) 0 then true else false).
  change (rzero (f m)) with (if Req_EM_T (f m) 0 then true else false).
  change (rltb (Rabs (dx / 2)) eps) with (if Rlt_dec (Rabs (dx / 2)) eps then true else false).
  destruct (Rle_dec (f m) 0) as [L|L].
  - assert (B4 : between lo hi (m + dx / 2)) by (replace (m + dx / 2) with (rt + dx) by (unfold m; lra); exact B2).
    assert (F4 : 0 < f (m + dx / 2)) by (replace (m + dx / 2) with (rt + dx) by (unfold m; lra); exact F2).
    destruct (Rlt_dec (Rabs (dx / 2)) eps) as [E|E]; cbn [orb].
    + intro H; inversion H; subst r. split; [exact B3|]. right. exists (m + dx / 2). split; [exact B4|].
      replace (m + dx / 2 - m) with (dx / 2) by ring. auto.
    + destruct (Req_EM_T (f m) 0) as [Z|Z].
      * intro H; inversion H; subst r. auto.
      * apply IH; auto.
  - assert (L1 : 0 < f m) by lra. destruct (Rlt_dec (Rabs (dx / 2)) eps) as [E|E]; cbn [orb].
    + intro H; inversion H; subst r. split; [exact B1|]. right. exists m. split; [exact B3|]. split; [unfold m; replace (rt + dx / 2 - rt) with (dx / 2) by ring; exact E|auto].
    + destruct (Req_EM_T (f m) 0) as [Z|Z]; [lra|]. apply IH; auto.
Qed.

Lemma bisect_loop_stops f eps : forall n rt dx, Rabs dx < eps * 2 ^ n -> (0 < n)%nat -> bl f eps n rt dx <> None.
Proof.
  induction n as [|n IH]; intros rt dx H Hn; [lia|]. cbn [bisect_loop].
  assert (Ea : (if rltb (dx / 2) 0 then - (dx / 2) else dx / 2) = Rabs (dx / 2)).
  { unfold rltb. destruct (Rlt_dec (dx / 2) 0) as [L|L]; [rewrite (Rabs_left _ L)|rewrite Rabs_right by lra]; reflexivity. }
  rewrite Ea. assert (Hh : Rabs (dx / 2) < eps * 2 ^ n).
  { unfold Rdiv. rewrite Rabs_mult, (Rabs_pos_eq (/ 2)) by lra. cbn [pow] in H. lra. }
  destruct (_ || _)%bool eqn:O; [discriminate|]. apply orb_false_iff in O. destruct O as [O _]. unfold rltb in O.
  destruct (Rlt_dec (Rabs (dx / 2)) eps) as [|G]; [discriminate|]. apply IH; [exact Hh|].
  destruct n; [cbn [pow] in Hh; lra|lia].
Qed.

Lemma bisect_start f lo hi eps : f lo * f hi < 0 ->
  exists rt dx, bisect f lo hi eps = match bl f eps 2048 rt dx with Some r => (r, true) | None => (0, false) end /\
  between lo hi rt /\ between lo hi (rt + dx) /\ f rt <= 0 /\ 0 < f (rt + dx) /\ Rabs dx = Rabs (hi - lo).
Proof.
  intro H. unfold find_root_bisect, rleb. destruct (Rle_dec 0 (f lo * f hi)) as [|_]; [lra|]. unfold rltb at 1.
  assert (Bl : between lo hi lo) by (unfold between; split; [apply Rmin_l|apply Rmax_l]).
  assert (Bh : between lo hi hi) by (unfold between; split; [apply Rmin_r|apply Rmax_r]).
  destruct (Rlt_dec (f lo) 0) as [L|L].
  - exists lo, (hi - lo). replace (lo + (hi - lo)) with hi by ring. repeat split; auto; try apply Bl; try apply Bh; nra.
  - assert (P1 : 0 < f lo) by (destruct (Req_dec (f lo) 0) as [Z|Z]; [rewrite Z in H; lra|lra]).
    assert (P2 : f hi < 0) by nra.
    exists hi, (lo - hi). replace (hi + (lo - hi)) with lo by ring. split; [reflexivity|]. split; [exact Bh|]. split; [exact Bl|].
    split; [lra|split; [exact P1|apply Rabs_minus_sym]].
Qed.

Lemma bisect_correct f lo hi eps : f lo * f hi < 0 ->
  (forall r, bisect f lo hi eps = (r, true) ->
    between lo hi r /\ (f r = 0 \/ exists y, between lo hi y /\ Rabs (y - r) < eps /\ f r <= 0 < f y)) /\
  (Rabs (hi - lo) < eps * 2 ^ 2048 -> snd (bisect f lo hi eps) = true).
Proof.
  intro H. destruct (bisect_start f lo hi eps H) as (rt & dx & E & B1 & B2 & F1 & F2 & A). rewrite E. clear E. split.
  - intros r Hr. destruct (bl f eps 2048 rt dx) as [r'|] eqn:L; [|discriminate]. inversion Hr; subst r'.
    exact (bisect_loop_spec f eps lo hi 2048 rt dx r B1 B2 F1 F2 L).
  - intro Hs. rewrite <- A in Hs. pose proof (bisect_loop_stops f eps 2048 rt dx Hs ltac:(lia)) as N.
    destruct (bl f eps 2048 rt dx); [reflexivity|contradiction].
Qed.

Lemma bisect_root f lo hi eps r : (forall x, between lo hi x -> continuity_pt f x) -> f lo * f hi < 0 -> 0 < eps ->
  bisect f lo hi eps = (r, true) -> exists z, between lo hi z /\ f z = 0 /\ Rabs (z - r) < eps.
Proof.
  intros Hc H He E. destruct (proj1 (bisect_correct f lo hi eps H) r E) as [B [Z|(y & By & D & F)]].
  - exists r. split; [exact B|]. split; [exact Z|]. rewrite Rminus_eq_0, Rabs_R0. exact He.
  - destruct (Req_dec (f r) 0) as [Z|N].
    { exists r. split; [exact B|]. split; [exact Z|]. rewrite Rminus_eq_0, Rabs_R0. exact He. }
    assert (f r < 0) by lra. destruct (Rtotal_order r y) as [L|[->|L]]; [|lra|].
    + destruct (IVT_interv f r y) as (z & Bz & Fz); [|lra|lra|lra|].
      { intros a Ha. apply Hc. unfold between in *. lra. }
      exists z. unfold between in *. split; [lra|]. split; [exact Fz|]. apply Rabs_def2 in D. apply Rabs_def1; lra.
    + destruct (IVT_interv (fun x => - f x) y r) as (z & Bz & Fz); [|lra|lra|lra|].
      { intros a Ha. apply (continuity_pt_opp f). apply Hc. unfold between in *. lra. }
      exists z. unfold between in *. split; [lra|]. split; [lra|]. apply Rabs_def2 in D. apply Rabs_def1; lra.
Qed.

Lemma bisect_no_sign_change f lo hi eps : 0 <= f lo * f hi -> bisect f lo hi eps = (0, true).
Proof. intro H. unfold find_root_bisect, rleb. destruct (Rle_dec 0 (f lo * f hi)); [reflexivity|contradiction]. Qed.

(** ** Newton *)
Local Notation nl := (newton_loop 0 Rminus Rmult Rdiv Ropp rltb).
Local Notation newton := (find_root_newton 0 Rplus Rminus Rmult Rdiv Ropp (fun x => x / 2) rltb).

Lemma iter_r (g : R -> R) n x : Nat.iter (S n) g x = Nat.iter n g (g x).
Proof. induction n as [|n IH]; [reflexivity|]. change (g (Nat.iter (S n) g x) = g (Nat.iter n g (g x))). rewrite IH. reflexivity. Qed.

Lemma newton_loop_spec fd lo hi eps : lo <= hi -> forall n x r, lo <= x <= hi -> nl fd lo hi eps n x = (r, true) ->
  lo <= r <= hi /\
  ((exists m, (m < n)%nat /\ r = Nat.iter (S m) (newton_step fd) x /\
     Rabs (Nat.iter (S m) (newton_step fd) x - Nat.iter m (newton_step fd) x) < eps) \/ r = Nat.iter n (newton_step fd) x).
Proof.
  intro Hlh. induction n as [|n IH]; intros x r Hx; cbn [newton_loop].
  - intro E; inversion E; subst. split; [exact Hx|]. right. reflexivity.
  - destruct (fd x) as [f d] eqn:FD. cbn [fst snd].
    unfold rltb at 1. destruct (Rlt_dec ((lo - (x - f / d)) * (x - f / d - hi)) 0) as [L|L]; [discriminate|].
    assert (B : lo <= x - f / d <= hi) by nra.
    assert (NS : newton_step fd x = x - f / d) by (unfold newton_step; rewrite FD; reflexivity).
    assert (Ea : (if rltb (f / d) 0 then - (f / d) else f / d) = Rabs (f / d)).
    { unfold rltb. destruct (Rlt_dec (f / d) 0) as [Q|Q]; [rewrite (Rabs_left _ Q)|rewrite Rabs_right by lra]; reflexivity. }
    rewrite Ea. unfold rltb at 1. destruct (Rlt_dec (Rabs (f / d)) eps) as [E|E].
    + intro H; inversion H; subst r. split; [exact B|]. left. exists 0%nat. split; [lia|]. cbn [Nat.iter nat_rect]. rewrite NS. split; [reflexivity|].
      replace (x - f / d - x) with (- (f / d)) by ring. rewrite Rabs_Ropp. exact E.
    + intro H. destruct (IH _ r B H) as [Br [(m & Hm & Er & De)|Er]].
      * split; [exact Br|]. left. exists (S m). split; [lia|]. rewrite <- NS in Er, De.
        rewrite (iter_r _ (S m) x). split; [exact Er|]. rewrite (iter_r _ m x). exact De.
      * split; [exact Br|]. right. rewrite <- NS in Er. rewrite <- iter_r in Er. exact Er.
Qed.

Lemma newton_correct fd lo hi eps r : lo <= hi -> newton fd lo hi eps = (r, true) ->
  lo <= r <= hi /\
  ((exists m, (m < 256)%nat /\ r = Nat.iter (S m) (newton_step fd) ((lo + hi) / 2) /\
     Rabs (r - Nat.iter m (newton_step fd) ((lo + hi) / 2)) < eps) \/
   r = Nat.iter 256 (newton_step fd) ((lo + hi) / 2)).
Proof.
  intros H. unfold find_root_newton. destruct (nl fd lo hi eps 256 ((lo + hi) / 2)) as [x ok] eqn:E.
  destruct ok; [|discriminate]. intro Q; inversion Q; subst x. clear Q.
  assert (B : lo <= (lo + hi) / 2 <= hi) by lra.
  destruct (newton_loop_spec fd lo hi eps H 256 _ r B E) as [Br [(m & Hm & Er & D)|Er]]; split; try exact Br; [left|right; exact Er].
  exists m. rewrite <- Er in D. auto.
Qed.

(** sqrt|x| with the sign of x, and its derivative: the root is 0, the steps
    go from 1/2 to -1/2 and back. *)
Definition osc (x : R) : R * R := ((if Rlt_dec x 0 then - sqrt (- x) else sqrt x), / (2 * sqrt (Rabs x))).

Lemma osc_quot x : x <> 0 -> fst (osc x) / snd (osc x) = 2 * x.
Proof.
  intro H. unfold osc; cbn [fst snd]. unfold Rdiv. rewrite Rinv_inv. destruct (Rlt_dec x 0) as [L|L].
  - rewrite (Rabs_left x L). pose proof (sqrt_sqrt (- x) ltac:(lra)) as S. transitivity (-2 * (sqrt (- x) * sqrt (- x))); [ring|]. rewrite S. ring.
  - rewrite (Rabs_pos_eq x) by lra. pose proof (sqrt_sqrt x ltac:(lra)) as S. transitivity (2 * (sqrt x * sqrt x)); [ring|]. rewrite S. ring.
Qed.

Lemma osc_loop : forall n x, (x = 1 / 2 \/ x = - (1 / 2)) -> nl osc (-1) 2 (1 / 4) (2 * n) x = (x, true).
Proof.
  assert (St : forall k x, (x = 1 / 2 \/ x = - (1 / 2)) -> nl osc (-1) 2 (1 / 4) (S k) x = nl osc (-1) 2 (1 / 4) k (- x)).
  { intros k x Hx. cbn [newton_loop]. assert (Q : fst (osc x) / snd (osc x) = 2 * x) by (apply osc_quot; lra).
    destruct (osc x) as [f d]. cbn [fst snd] in Q. rewrite Q. replace (x - 2 * x) with (- x) by ring.
    unfold rltb at 1. destruct (Rlt_dec ((-1 - - x) * (- x - 2)) 0) as [L|L]; [exfalso; destruct Hx; subst; lra|].
    replace (if rltb (2 * x) 0 then - (2 * x) else 2 * x) with 1; [unfold rltb; destruct (Rlt_dec 1 (1 / 4)); [exfalso; lra|reflexivity]|].
    unfold rltb. destruct (Rlt_dec (2 * x) 0); destruct Hx; lra. }
  induction n as [|n IH]; intros x Hx; [reflexivity|].
  replace (2 * S n)%nat with (S (S (2 * n))) by lia. rewrite (St _ x Hx), St by lra. rewrite Ropp_involutive. apply IH; exact Hx.
Qed.

Lemma newton_refuted : newton osc (-1) 2 (1 / 4) = (1 / 2, true) /\ fst (osc (1 / 2)) <> 0 /\
  forall z, Rabs (z - 1 / 2) < 1 / 4 -> fst (osc z) <> 0.
Proof.
  split; [|split].
  - unfold find_root_newton. replace ((-1 + 2) / 2) with (1 / 2) by lra. pose proof (osc_loop 128 (1 / 2) (or_introl eq_refl)) as O. change (2 * 128)%nat with 256%nat in O. rewrite O. reflexivity.
  - unfold osc; cbn [fst]. destruct (Rlt_dec (1 / 2) 0); [lra|]. pose proof (sqrt_lt_R0 (1 / 2)). lra.
  - intros z Hz. apply Rabs_lt_between in Hz. unfold osc; cbn [fst]. destruct (Rlt_dec z 0); [lra|]. pose proof (sqrt_lt_R0 z). lra.
Qed.

(** ** Trapezoidal rule *)
Local Notation ts := (trap_sum 0 Rplus Rmult IZR).
Local Notation tl := (trap_loop 0 1 (1 / 2) Rplus Rminus Rmult Rdiv rltb IZR).
Local Notation trap := (trapezoid 0 1 (1 / 2) Rplus Rminus Rmult Rdiv rltb IZR).

Lemma fold_sum (g : nat -> R) : forall n s, fold_left (fun s j => s + g j) (seq 1 (S n)) s = s + sum_f_R0 (fun j => g (S j)) n.
Proof.
  assert (G : forall l s, fold_left (fun s j => s + g j) l s = s + fold_left (fun s j => s + g j) l 0).
  { induction l as [|a l IH]; intro s; cbn; [ring|]. rewrite IH, (IH (0 + g a)). ring. }
  induction n as [|n IH]; intro s; [cbn; ring|].
  replace (S (S n)) with (S n + 1)%nat by lia. rewrite seq_app, fold_left_app, IH. cbn [seq fold_left Nat.add sum_f_R0].
  replace (n + 1)%nat with (S n) by lia. cbn [sum_f_R0]. ring.
Qed.

(** Halving the panels. *)
Lemma double_panels (f : R -> R) a h : forall n,
  sum_f_R0 (fun j => (f (a + INR j * h) + f (a + INR (S j) * h)) / 2 * h) (2 * n + 1) =
  1 / 2 * sum_f_R0 (fun j => (f (a + INR j * (2 * h)) + f (a + INR (S j) * (2 * h))) / 2 * (2 * h)) n +
  h * sum_f_R0 (fun j => f (a + IZR (2 * Z.of_nat (S j) - 1) * h)) n.
Proof.
  induction n as [|n IH].
  - cbn [Nat.mul Nat.add sum_f_R0]. change (IZR (2 * Z.of_nat 1 - 1)) with 1. cbn [INR].
    replace (a + 0 * (2 * h)) with (a + 0 * h) by ring. replace (a + 1 * (2 * h)) with (a + (1 + 1) * h) by ring. field.
  - replace (2 * S n + 1)%nat with (S (S (2 * n + 1))) by lia. rewrite !tech5, IH.
    assert (E1 : INR (S (2 * n + 1)) = 2 * INR (S n)) by (replace (S (2 * n + 1)) with (2 * S n)%nat by lia; rewrite mult_INR; cbn; ring).
    assert (E2 : INR (S (S (2 * n + 1))) = 2 * INR (S n) + 1) by (rewrite (S_INR (S (2 * n + 1))), E1; ring).
    assert (E3 : INR (S (S (S (2 * n + 1)))) = 2 * INR (S (S n))) by (rewrite (S_INR (S (S (2 * n + 1)))), E2, (S_INR (S n)); ring).
    rewrite E1, E2, E3. replace (2 * INR (S n) + 1) with (IZR (2 * Z.of_nat (S (S n)) - 1)).
    2: { rewrite minus_IZR, mult_IZR, <- INR_IZR_INZ, (S_INR (S n)). ring. }
    replace (a + INR (S n) * (2 * h)) with (a + 2 * INR (S n) * h) by ring.
    replace (a + INR (S (S n)) * (2 * h)) with (a + 2 * INR (S (S n)) * h) by ring. field.
Qed.

Lemma pow2_S n : exists m, (2 ^ n)%nat = S m.
Proof. exists (2 ^ n - 1)%nat. pose proof (Nat.pow_nonzero 2 n). lia. Qed.

Lemma trap_refine f a b k :
  let h := (b - a) / INR (2 ^ k) in
  trapezoids f a b (2 ^ k) * (1 / 2) + h * (1 / 2) * ts f a (h * (1 / 2)) (2 ^ k) = trapezoids f a b (2 ^ S k).
Proof.
  cbv zeta. unfold trapezoids, trap_sum. destruct (pow2_S k) as [m E].
  assert (E2 : (2 ^ S k)%nat = S (2 * m + 1)) by (cbn [Nat.pow]; lia). rewrite E2, !E, !Nat.pred_succ.
  assert (E3 : INR (S (2 * m + 1)) = 2 * INR (S m)) by (replace (S (2 * m + 1)) with (2 * S m)%nat by lia; rewrite mult_INR; cbn; ring).
  rewrite E3. assert (N : INR (S m) <> 0) by (apply not_0_INR; lia).
  set (h := (b - a) / (2 * INR (S m))). replace ((b - a) / INR (S m) * (1 / 2)) with h by (unfold h; field; exact N).
  replace ((b - a) / INR (S m)) with (2 * h) by (unfold h; field; exact N).
  rewrite (fold_sum (fun j => f (a + IZR (2 * Z.of_nat j - 1) * h))), double_panels. ring.
Qed.

Lemma trap_loop_spec f a b eps : forall fuel k,
  (k + fuel = 31)%nat ->
  match tl f a eps fuel k ((b - a) / INR (2 ^ k)) (trapezoids f a b (2 ^ k)) with
  | Defined (i, ok) => (k <= 30)%nat -> ok = true /\ exists j, (k <= j)%nat /\ (4 <= j < 30)%nat /\ i = trapezoids f a b (2 ^ S j) /\ trap_close f a b eps j
  | Undefined => forall j, (k <= j)%nat -> (4 <= j < 30)%nat -> ~ trap_close f a b eps j
  end.
Proof.
  induction fuel as [|fuel IH]; intros k Hk; [cbn [trap_loop]; intros; lia|].
  cbn [trap_loop]. destruct (k =? 30)%nat eqn:E30; [apply Nat.eqb_eq in E30; intros j L1 L2; lia|]. apply Nat.eqb_neq in E30.
  rewrite (Rplus_comm _ _), (Rplus_comm (_ * ts _ _ _ _) _). rewrite trap_refine.
  assert (D : (let ratio := trapezoids f a b (2 ^ k) / trapezoids f a b (2 ^ S k) in if rltb 1 ratio then ratio - 1 else 1 - ratio) =
     Rabs (trapezoids f a b (2 ^ k) / trapezoids f a b (2 ^ S k) - 1)).
  { cbv zeta. unfold rltb. destruct (Rlt_dec 1 _) as [L|L]; [rewrite Rabs_pos_eq by lra; reflexivity|rewrite Rabs_left1 by lra; ring]. }
  cbv zeta in D |- *. rewrite D. clear D.
  assert (Hh : (b - a) / INR (2 ^ k) * (1 / 2) = (b - a) / INR (2 ^ S k)).
  { cbn [Nat.pow]. replace (2 ^ k + (2 ^ k + 0))%nat with (2 * 2 ^ k)%nat by lia. rewrite mult_INR. cbn [INR]. field. apply not_0_INR. apply Nat.pow_nonzero. lia. }
  rewrite Hh.
  assert (Q : ((3 <? k)%nat && rltb (Rabs (trapezoids f a b (2 ^ k) / trapezoids f a b (2 ^ S k) - 1)) eps)%bool = true <->
     (4 <= k)%nat /\ trap_close f a b eps k).
  { rewrite andb_true_iff, Nat.ltb_lt. unfold rltb, trap_close. destruct (Rlt_dec _ eps); intuition (try lia; try discriminate). }
  destruct ((3 <? k)%nat && _)%bool.
  - intros _. split; [reflexivity|]. exists k. destruct (proj1 Q eq_refl). repeat split; auto; lia.
  - specialize (IH (S k) ltac:(lia)). destruct (tl _ _ _ _ _ _ _) as [[i ok]|].
    + intros _. destruct (IH ltac:(lia)) as (O & j & L1 & L2 & J). split; [exact O|]. exists j. repeat split; try apply J; lia.
    + intros j L1 L2. destruct (Nat.eq_dec j k) as [->|]; [intro C; assert (false = true) by (apply Q; split; [lia|exact C]); discriminate|apply IH; lia].
Qed.

Lemma trapezoid_correct f a b eps :
  match trap f a b eps with
  | Defined (i, ok) => ok = true /\ exists j, (4 <= j < 30)%nat /\ i = trapezoids f a b (2 ^ S j) /\ trap_close f a b eps j
  | Undefined => forall j, (4 <= j < 30)%nat -> ~ trap_close f a b eps j
  end.
Proof.
  unfold trapezoid. pose proof (trap_loop_spec f a b eps 31 0 eq_refl) as H.
  replace ((b - a) / INR (2 ^ 0)) with ((b - a) / 1) in H by (cbn; reflexivity).
  replace (trapezoids f a b (2 ^ 0)) with ((f a + f b) * ((b - a) / 1 * (1 / 2))) in H.
  2: { unfold trapezoids. cbn [Nat.pow Nat.pred sum_f_R0 INR]. replace (a + 0 * ((b - a) / 1)) with a by field. replace (a + 1 * ((b - a) / 1)) with b by field. field. }
  destruct (tl _ _ _ _ _ _ _) as [[i ok]|].
  - destruct (H ltac:(lia)) as (O & j & _ & L2 & J). split; [exact O|]. exists j. split; [exact L2|exact J].
  - intros j L. apply H; lia.
Qed.
