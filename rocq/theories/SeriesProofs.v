(** * Central difference, interpolation, expansions and hypergeometric series
      over the real numbers (proofs only) *)

From Coq Require Import ZArith List Bool Reals Lra Lia Psatz Sorted.
From Coquelicot Require Import Coquelicot.
From Verif Require Import Model ModelPow ModelGen SpecGen AnalysisProofs.
Import ListNotations.
Open Scope R_scope.

(** ** Central difference *)
Local Notation diff := (derivative Rplus Rminus Rmult Rdiv IZR).

Lemma taylor_right f x h : 0 < h -> (forall t k, (k <= 7)%nat -> ex_derive_n f k t) ->
  exists z, x < z < x + h /\
  f (x + h) = f x + h * Derive_n f 1 x + h^2/2 * Derive_n f 2 x + h^3/6 * Derive_n f 3 x + h^4/24 * Derive_n f 4 x +
    h^5/120 * Derive_n f 5 x + h^6/720 * Derive_n f 6 x + h^7/5040 * Derive_n f 7 z.
Proof.
  intros Hh D. destruct (Taylor_Lagrange f 6 x (x + h)) as (z & Bz & E); [lra|intros t _ k Hk; apply D; lia|].
  exists z. split; [exact Bz|]. rewrite E. replace (x + h - x) with h by ring. cbn [sum_f_R0]. rewrite !INR_IZR_INZ.
  change (Z.of_nat (fact 0)) with 1%Z. change (Z.of_nat (fact 1)) with 1%Z. change (Z.of_nat (fact 2)) with 2%Z. change (Z.of_nat (fact 3)) with 6%Z.
  change (Z.of_nat (fact 4)) with 24%Z. change (Z.of_nat (fact 5)) with 120%Z. change (Z.of_nat (fact 6)) with 720%Z. change (Z.of_nat (fact 7)) with 5040%Z.
  change (Derive_n f 0 x) with (f x). cbn [pow]. field.
Qed.

Lemma taylor_left f x h : 0 < h -> (forall t k, (k <= 7)%nat -> ex_derive_n f k t) ->
  exists z, x - h < z < x /\
  f (x - h) = f x - h * Derive_n f 1 x + h^2/2 * Derive_n f 2 x - h^3/6 * Derive_n f 3 x + h^4/24 * Derive_n f 4 x -
    h^5/120 * Derive_n f 5 x + h^6/720 * Derive_n f 6 x - h^7/5040 * Derive_n f 7 z.
Proof.
  intros Hh D. set (g := fun y => f (- y)).
  assert (L : forall t n, (n <= 7)%nat -> locally (- t) (fun y => forall k, (k <= n)%nat -> ex_derive_n f k y)).
  { intros t n Hn. exists (mkposreal 1 Rlt_0_1). intros y _ k Hk. apply D. lia. }
  assert (Dg : forall t k, (k <= 7)%nat -> ex_derive_n g k t). { intros t k Hk. apply ex_derive_n_comp_opp. apply L. exact Hk. }
  assert (Eg : forall t k, (k <= 7)%nat -> Derive_n g k t = (-1) ^ k * Derive_n f k (- t)). { intros t k Hk. apply Derive_n_comp_opp. apply L. exact Hk. }
  destruct (taylor_right g (- x) h Hh Dg) as (z & Bz & E). exists (- z). split; [lra|].
  rewrite !Eg in E by lia. unfold g in E. replace (- (- x + h)) with (x - h) in E by ring. rewrite Ropp_involutive in E. rewrite E. ring.
Qed.

Lemma diff_neg f x h : diff f x (- h) = diff f x h.
Proof.
  unfold derivative. replace (x + - h) with (x - h) by ring. replace (x - - h) with (x + h) by ring.
  replace (x + - h * 2) with (x - h * 2) by ring. replace (x - - h * 2) with (x + h * 2) by ring.
  replace (x + - h * 3) with (x - h * 3) by ring. replace (x - - h * 3) with (x + h * 3) by ring.
  destruct (Req_dec h 0) as [->|N]; [rewrite Ropp_0, Rmult_0_r; unfold Rdiv; rewrite Rinv_0; ring|field; exact N].
Qed.

Lemma derivative_pos f x h M : 0 < h -> (forall t k, (k <= 7)%nat -> ex_derive_n f k t) ->
  (forall t, x - 3 * h <= t <= x + 3 * h -> Rabs (Derive_n f 7 t) <= M) ->
  Rabs (diff f x h - Derive f x) <= 47 / 2100 * h ^ 6 * M.
Proof.
  intros Hh D B. unfold derivative.
  destruct (taylor_right f x h Hh D) as (r1 & R1 & E1). destruct (taylor_left f x h Hh D) as (l1 & L1 & F1).
  destruct (taylor_right f x (h * 2) ltac:(lra) D) as (r2 & R2 & E2). destruct (taylor_left f x (h * 2) ltac:(lra) D) as (l2 & L2 & F2).
  destruct (taylor_right f x (h * 3) ltac:(lra) D) as (r3 & R3 & E3). destruct (taylor_left f x (h * 3) ltac:(lra) D) as (l3 & L3 & F3).
  rewrite E1, F1, E2, F2, E3, F3. clear E1 F1 E2 F2 E3 F3.
  pose proof (B r1 ltac:(lra)) as A1. pose proof (B l1 ltac:(lra)) as A2. pose proof (B r2 ltac:(lra)) as A3.
  pose proof (B l2 ltac:(lra)) as A4. pose proof (B r3 ltac:(lra)) as A5. pose proof (B l3 ltac:(lra)) as A6.
  change (Derive f x) with (Derive_n f 1 x).
  generalize dependent (Derive_n f 7 r1). generalize dependent (Derive_n f 7 l1). generalize dependent (Derive_n f 7 r2).
  generalize dependent (Derive_n f 7 l2). generalize dependent (Derive_n f 7 r3). generalize dependent (Derive_n f 7 l3).
  intros d6 A6 d5 A5 d4 A4 d3 A3 d2 A2 d1 A1.
  match goal with |- Rabs ?e <= _ => replace e with (h ^ 6 * (1 / 50400 * (15 / 2 * (d1 + d2) - 6 * 128 / 4 * (d3 + d4) + 2187 / 6 * (d5 + d6)))) by (field; lra) end.
  rewrite Rabs_mult, (Rabs_pos_eq (h ^ 6)) by (apply pow_le; lra).
  replace (47 / 2100 * h ^ 6 * M) with (h ^ 6 * (47 / 2100 * M)) by ring. apply Rmult_le_compat_l; [apply pow_le; lra|].
  apply Rabs_le_between in A1, A2, A3, A4, A5, A6. apply Rabs_le_between. lra.
Qed.

Lemma derivative_correct f x h M : h <> 0 -> (forall t k, (k <= 7)%nat -> ex_derive_n f k t) ->
  (forall t, Rabs (t - x) <= 3 * Rabs h -> Rabs (Derive_n f 7 t) <= M) ->
  Rabs (diff f x h - Derive f x) <= 47 / 2100 * h ^ 6 * M.
Proof.
  intros N D B. destruct (Rlt_dec 0 h) as [P|P].
  - apply derivative_pos; [exact P|exact D|]. intros t Ht. apply B. rewrite (Rabs_pos_eq h) by lra. apply Rabs_le_between. lra.
  - rewrite <- diff_neg. replace (h ^ 6) with ((- h) ^ 6) by ring. apply derivative_pos; [lra|exact D|].
    intros t Ht. apply B. rewrite (Rabs_left h) by lra. apply Rabs_le_between. lra.
Qed.

(** ** Linear interpolation *)
Local Notation interp := (interpolate 0 Rplus Rminus Rmult Rdiv rltb rleb).

Lemma sorted_app_mid l p q r : StronglySorted ordered (l ++ p :: q :: r) ->
  (forall a, In a l -> fst a < fst p) /\ fst p < fst q /\ (forall a, In a (q :: r) -> fst p < fst a).
Proof.
  induction l as [|a l IH]; cbn [app]; intro S; inversion S as [|? ? S' F]; subst.
  - split; [intros ? []|]. rewrite Forall_forall in F. split; [apply (F q (or_introl eq_refl))|]. exact F.
  - destruct (IH S') as (H1 & H2 & H3). split; [|auto]. intros b [->|Hb]; [|apply H1; exact Hb].
    rewrite Forall_forall in F. apply F. apply in_or_app. right. left. reflexivity.
Qed.

Lemma last_default {A} (a : A) : forall l d d', last (a :: l) d = last (a :: l) d'.
Proof. intro l. revert a. induction l as [|b l IH]; intros a d d'; [reflexivity|]. change (last (b :: l) d = last (b :: l) d'). apply IH. Qed.

Lemma last_In {A} (a : A) : forall l d, In (last (a :: l) d) (a :: l).
Proof. intro l. revert a. induction l as [|b l IH]; intros a d; [left; reflexivity|]. right. exact (IH b d). Qed.

Lemma last_app_cons {A} (l : list A) a m d : last (l ++ a :: m) d = last (a :: m) d.
Proof.
  induction l as [|b l IH]; [reflexivity|]. cbn [app]. rewrite <- IH. destruct (l ++ a :: m) eqn:E; [destruct l; discriminate|]. reflexivity.
Qed.

Lemma lower_bound_app x q r : forall l prev, (forall a, In a l -> fst a < x) -> ~ fst q < x ->
  lower_bound rltb x prev (l ++ q :: r) = Some (last l prev, q).
Proof.
  induction l as [|a l IH]; intros prev H Hq; cbn [app lower_bound].
  - unfold rltb. destruct (Rlt_dec (fst q) x); [contradiction|reflexivity].
  - unfold rltb at 1. destruct (Rlt_dec (fst a) x) as [_|N]; [|exfalso; apply N; apply H; left; reflexivity].
    rewrite IH; [|intros; apply H; right; assumption|exact Hq]. f_equal. f_equal. destruct l; [reflexivity|]. rewrite (last_default p l a prev). reflexivity.
Qed.

Lemma sorted_tail l m : StronglySorted ordered (l ++ m) -> StronglySorted ordered m.
Proof. induction l as [|a l IH]; cbn [app]; intro S; [exact S|]. inversion S; auto. Qed.

Lemma interp_right x l p q r : StronglySorted ordered (l ++ p :: q :: r) -> fst p < x <= fst q ->
  interp x (l ++ p :: q :: r) = Defined (snd p + (x - fst p) * (snd q - snd p) / (fst q - fst p)).
Proof.
  intros S Hx. destruct (sorted_app_mid l p q r S) as (H1 & H2 & H3).
  assert (Sq : StronglySorted ordered (q :: r)). { apply (sorted_tail (l ++ [p])). rewrite <- app_assoc. exact S. }
  destruct (l ++ p :: q :: r) as [|h t] eqn:E; [destruct l; discriminate|].
  assert (Hh : fst h < x). { destruct l as [|a l]; cbn in E; inversion E; subst; [lra|]. pose proof (H1 h (or_introl eq_refl)). lra. }
  assert (El : last t h = last (q :: r) h).
  { destruct l as [|a l]; cbn [app] in E; inversion E; subst; [reflexivity|]. change (p :: q :: r) with ([p] ++ q :: r). rewrite app_assoc. apply last_app_cons. }
  assert (LB : (if rltb (fst h) x then lower_bound rltb x h t else None) = Some (p, q)).
  { unfold rltb at 1. destruct (Rlt_dec (fst h) x); [|contradiction].
    destruct l as [|a l]; cbn in E; inversion E; subst.
    - cbn [lower_bound]. unfold rltb. destruct (Rlt_dec (fst q) x); [lra|reflexivity].
    - change (l ++ p :: q :: r) with (l ++ [p] ++ q :: r). rewrite app_assoc, lower_bound_app; [rewrite last_last; reflexivity| |lra].
      intros b Hb. apply in_app_or in Hb. destruct Hb as [Hb|[<-|[]]]; [|lra]. pose proof (H1 b (or_intror Hb)). lra. }
  assert (L : (length (h :: t) =? 1)%nat = false).
  { assert (length (h :: t) = length l + (2 + length r))%nat by (rewrite <- E, app_length; reflexivity). apply Nat.eqb_neq. lia. }
  unfold interpolate. rewrite L, LB. unfold rleb at 1. destruct (Rle_dec x (fst h)); [lra|]. cbn [orb].
  unfold rleb. destruct (Rle_dec (fst (last t h)) x) as [G|G]; [|reflexivity].
  destruct r as [|b r].
  - rewrite El in G |- *. cbn [last] in G |- *. assert (x = fst q) by lra. subst x. f_equal. field. lra.
  - exfalso. rewrite El in G. change (last (q :: b :: r) h) with (last (b :: r) h) in G.
    inversion Sq as [|? ? _ F]; subst. rewrite Forall_forall in F. specialize (F _ (last_In b r h)). unfold ordered in F. lra.
Qed.

Lemma interp_segment x l p q r : StronglySorted ordered (l ++ p :: q :: r) -> fst p <= x <= fst q ->
  interp x (l ++ p :: q :: r) = Defined (snd p + (x - fst p) * (snd q - snd p) / (fst q - fst p)).
Proof.
  intros S Hx. destruct (Req_dec x (fst p)) as [E|N]; [|apply interp_right; [exact S|lra]].
  destruct (sorted_app_mid l p q r S) as (H1 & H2 & H3).
  replace (snd p + (x - fst p) * (snd q - snd p) / (fst q - fst p)) with (snd p) by (rewrite E; field; lra).
  destruct (rev l) as [|o l'] eqn:R.
  - assert (l = []) as -> by (rewrite <- (rev_involutive l), R; reflexivity). cbn [app interpolate].
    unfold rleb. destruct (Rle_dec x (fst p)); [reflexivity|lra].
  - assert (El : l = rev l' ++ [o]) by (rewrite <- (rev_involutive l), R; reflexivity). subst l.
    rewrite <- app_assoc in S |- *. cbn [app] in S |- *.
    assert (Ho : fst o < fst p) by (apply H1; apply in_or_app; right; left; reflexivity).
    rewrite (interp_right x (rev l') o p (q :: r) S) by lra. f_equal. subst x. field. lra.
Qed.

Lemma interp_left x p t : x <= fst p -> interp x (p :: t) = Defined (snd p).
Proof. intro H. cbn [interpolate]. unfold rleb. destruct (Rle_dec x (fst p)); [reflexivity|contradiction]. Qed.

Lemma interp_beyond x l q : StronglySorted ordered (l ++ [q]) -> fst q <= x -> interp x (l ++ [q]) = Defined (snd q).
Proof.
  intros S Hx. destruct l as [|p l]; cbn [app interpolate].
  - cbn [length Nat.eqb]. rewrite orb_true_r. reflexivity.
  - assert (Hp : fst p < fst q). { inversion S as [|? ? _ F]; subst. rewrite Forall_forall in F. apply F. apply in_or_app. right. left. reflexivity. }
    unfold rleb at 1. destruct (Rle_dec x (fst p)); [lra|]. cbn [orb].
    replace (length (p :: l ++ [q]) =? 1)%nat with false by (symmetry; apply Nat.eqb_neq; cbn [length]; rewrite app_length; cbn; lia).
    rewrite last_last. unfold rleb. destruct (Rle_dec (fst q) x); [reflexivity|contradiction].
Qed.

(** ** Expansions *)
Lemma coefficient_sum_correct x init : forall c s0, coefficient_sum Rplus Rmult x init s0 c = s0 + init * poly c x.
Proof.
  intro c. unfold coefficient_sum. revert init. induction c as [|a c IH]; intros init s0; cbn [fold_left poly]; [cbn [fst]; ring|]. rewrite IH. ring.
Qed.

(** c_0 - c_1 + c_2 - ... *)
Lemma alternating_correct b init : forall c s0,
  alternating Rplus Rminus b init s0 c = s0 + (if b then -1 else 1) * poly c (-1) + INR (length c) * init.
Proof.
  intro c. unfold alternating. revert b. induction c as [|a c IH]; intros b s0; cbn [fold_left poly]; [cbn [fst length INR]; destruct b; ring|].
  rewrite IH. cbn [length]. rewrite S_INR. destruct b; cbn [negb]; ring.
Qed.

(** ** Hypergeometric series *)
Section Series.
Variable small : R -> R -> bool.
Variables (a b : list R) (x : R).
Local Notation term := (hyper_term a b x).
Local Notation sum := (hyper_sum a b x).

Local Notation stops := (series_stops small a b x).

Lemma series_spec {S'} (P : nat -> S' -> Prop) (next : Z -> S' -> S') (tm : S' -> R) :
  (forall k st, (1 <= k)%nat -> P k st -> P (S k) (next (Z.of_nat (S k)) st)) ->
  (forall k st, (1 <= k)%nat -> P k st -> tm st = term k) ->
  forall fuel k st, (1 <= k)%nat -> (Z.of_nat (k + fuel) = 9999)%Z -> P k st ->
  (forall m, (20 <= m < k)%nat -> small (term (S m)) (sum m) = false) ->
  stops (series Rplus small next tm fuel (Z.of_nat (S k)) st (sum k)).
Proof.
  intros Hn Ht. induction fuel as [|fuel IH]; intros k st Hk Hf Hp Hb; cbn [series].
  - intros m Hm. apply Hb. lia.
  - pose proof (Hn k st Hk Hp) as Hp'. rewrite (Ht (S k) _ ltac:(lia) Hp').
    replace (20 <? Z.of_nat (S k))%Z with (20 <=? k)%nat.
    2: { destruct (20 <=? k)%nat eqn:E, (20 <? Z.of_nat (S k))%Z eqn:F; auto; [apply Nat.leb_le in E; apply Z.ltb_ge in F|apply Nat.leb_gt in E; apply Z.ltb_lt in F]; lia. }
    destruct ((20 <=? k)%nat && small (term (S k)) (sum k))%bool eqn:E.
    + apply andb_true_iff in E. destruct E as [E1 E2]. apply Nat.leb_le in E1. exists k. split; [lia|]. split; [reflexivity|]. split; [exact E2|exact Hb].
    + replace (Z.of_nat (S k) + 1)%Z with (Z.of_nat (S (S k))) by lia.
      change (sum k + term (S k)) with (sum (S k)). apply IH; [lia|lia|exact Hp'|].
      intros m Hm. destruct (Nat.eq_dec m k) as [->|]; [|apply Hb; lia]. apply andb_false_iff in E. destruct E as [E|E]; [apply Nat.leb_gt in E; lia|exact E].
Qed.

Lemma series_from_spec {S'} (P : nat -> S' -> Prop) (next : Z -> S' -> S') (tm : S' -> R) st :
  (forall k st, (1 <= k)%nat -> P k st -> P (S k) (next (Z.of_nat (S k)) st)) ->
  (forall k st, (1 <= k)%nat -> P k st -> tm st = term k) ->
  P 1%nat st -> prod_list (map (fun c => rising_factorial c 0) a) = 1 -> prod_list (map (fun c => rising_factorial c 0) b) = 1 ->
  stops (series_from 1 Rplus small next tm st).
Proof.
  intros Hn Ht Hp Ea Eb. unfold series_from. rewrite (Ht 1%nat st (le_n _) Hp).
  replace (1 + term 1) with (sum 1). 2: { unfold hyper_sum. cbn [sum_f_R0]. f_equal. unfold hyper_term. rewrite Ea, Eb. cbn. field. }
  apply (series_spec P next tm Hn Ht (Z.to_nat (max_iteration - 2)) 1 st); auto; try (vm_compute; reflexivity); lia.
Qed.
End Series.

Lemma prod_one l : prod_list (map (fun c => rising_factorial c 0) l) = 1.
Proof. induction l as [|c l IH]; [reflexivity|]. cbn [map rising_factorial]. change (1 * prod_list (map (fun _ => 1) l) = 1). cbn [rising_factorial] in IH. rewrite IH. ring. Qed.

Local Notation divn := (fun y n => y / IZR n).
Definition at_x (x : R) (k : nat) (xp : R) : Prop := xp = x ^ k / INR (fact k).
Definition at_p (c : R) (k : nat) (p : R * R) : Prop := fst p = rising_factorial c k /\ snd p = c + INR (k - 1).
Definition at_l (c : list R) (k : nat) (p : R * list R) : Prop :=
  fst p = prod_list (map (fun y => rising_factorial y k) c) /\ snd p = map (fun y => y + INR (k - 1)) c.

Lemma next_x_ok x k xp : at_x x k xp -> at_x x (S k) (next_x Rmult divn x (Z.of_nat (S k)) xp).
Proof.
  unfold at_x, next_x. intros ->. rewrite <- INR_IZR_INZ, fact_simpl, mult_INR. cbn [pow]. field. split; [apply INR_fact_neq_0|apply not_0_INR; lia].
Qed.

Lemma next_p_ok c k p : (1 <= k)%nat -> at_p c k p -> at_p c (S k) (next_p Rmult (fun y => y + 1) p).
Proof.
  unfold at_p, next_p. intros Hk (E1 & E2). cbn [fst snd]. rewrite E1, E2. cbn [rising_factorial]. replace (S k - 1)%nat with k by lia.
  replace (INR k) with (INR (k - 1) + 1) by (rewrite <- S_INR; f_equal; lia). split; ring.
Qed.

Lemma product_prod l : product 1 Rmult l = prod_list l.
Proof.
  unfold product. assert (G : forall m s, fold_left Rmult m s = s * prod_list m).
  { induction m as [|c m IH]; intro s; cbn; [ring|]. rewrite IH. unfold prod_list. ring. }
  rewrite G. ring.
Qed.

Lemma prod_mult {A} (f g : A -> R) l : prod_list (map f l) * prod_list (map g l) = prod_list (map (fun y => f y * g y) l).
Proof. induction l as [|c l IH]; cbn; [ring|]. unfold prod_list in IH. rewrite <- IH. ring. Qed.

Lemma next_l_ok c k p : (1 <= k)%nat -> at_l c k p -> at_l c (S k) (next_l 1 Rplus Rmult p).
Proof.
  unfold at_l, next_l. intros Hk (E1 & E2). cbn [fst snd]. rewrite E1, E2, product_prod, map_map. replace (S k - 1)%nat with k by lia.
  assert (F : map (fun y => 1 + (y + INR (k - 1))) c = map (fun y => y + INR k) c).
  { apply map_ext. intro y. replace (INR k) with (INR (k - 1) + 1) by (rewrite <- S_INR; f_equal; lia). ring. }
  rewrite F. split; [|reflexivity]. rewrite prod_mult. reflexivity.
Qed.

Lemma at_x_1 x : at_x x 1 x. Proof. unfold at_x. cbn. field. Qed.
Lemma at_p_1 c : at_p c 1 (c, c). Proof. unfold at_p. cbn. split; ring. Qed.
Lemma at_l_1 c : at_l c 1 (product 1 Rmult c, c).
Proof.
  unfold at_l. cbn [fst snd]. rewrite product_prod. split.
  - f_equal. rewrite <- (map_id c) at 1. apply map_ext. intro y. cbn. ring.
  - rewrite <- (map_id c) at 1. apply map_ext. intro y. cbn. ring.
Qed.

Local Notation inc := (fun y => y + 1).

Lemma hyper_0f0_ok small x   : series_stops small [] [] x (hyper_0f0 1 Rplus Rmult divn small x).
Proof.
  apply (series_from_spec small [] [] x (at_x x)); auto using prod_one, at_x_1.
  - intros k st _ H. apply next_x_ok. exact H.
  - intros k st _ ->. unfold hyper_term. cbn. field. apply INR_fact_neq_0.
Qed.

Lemma hyper_0f1_ok small b x   : series_stops small [] [b] x (hyper_0f1 1 Rplus Rmult Rdiv divn inc small b x).
Proof.
  apply (series_from_spec small [] [b] x (fun k '(xp, pb) => at_x x k xp /\ at_p b k pb)); auto using prod_one, at_x_1, at_p_1.
  - intros k (xp, pb) Hk (H1 & H2). split; [apply next_x_ok; exact H1|apply next_p_ok; assumption].
  - intros k (xp, pb) _ (-> & H & _). rewrite H. unfold hyper_term, Rdiv. cbn [map prod_list fold_right]. rewrite !Rmult_1_r. ring.
Qed.

Lemma hyper_1f0_ok small a x   : series_stops small [a] [] x (hyper_1f0 1 Rplus Rmult divn inc small a x).
Proof.
  apply (series_from_spec small [a] [] x (fun k '(xp, pb) => at_x x k xp /\ at_p a k pb)); auto using prod_one, at_x_1, at_p_1.
  - intros k (xp, pb) Hk (H1 & H2). split; [apply next_x_ok; exact H1|apply next_p_ok; assumption].
  - intros k (xp, pb) _ (-> & H & _). rewrite H. unfold hyper_term, Rdiv. cbn [map prod_list fold_right]. rewrite Rinv_1, !Rmult_1_r. ring.
Qed.

Lemma hyper_1f1_ok small a b x   : series_stops small [a] [b] x (hyper_1f1 1 Rplus Rmult Rdiv divn inc small a b x).
Proof.
  apply (series_from_spec small [a] [b] x (fun k '(xp, pa, pb) => at_x x k xp /\ at_p a k pa /\ at_p b k pb)); auto using prod_one, at_x_1, at_p_1.
  - intros k ((xp, pa), pb) Hk (H1 & H2 & H3). split; [apply next_x_ok; exact H1|split; apply next_p_ok; assumption].
  - intros k ((xp, pa), pb) _ (-> & (H & _) & H' & _). rewrite H, H'. unfold hyper_term, Rdiv. cbn [map prod_list fold_right]. rewrite !Rmult_1_r. ring.
Qed.

Lemma hyper_2f0_ok small a b x   : series_stops small [a; b] [] x (hyper_2f0 1 Rplus Rmult divn inc small a b x).
Proof.
  apply (series_from_spec small [a; b] [] x (fun k '(xp, pa, pb) => at_x x k xp /\ at_p a k pa /\ at_p b k pb)); auto using prod_one, at_x_1, at_p_1.
  - intros k ((xp, pa), pb) Hk (H1 & H2 & H3). split; [apply next_x_ok; exact H1|split; apply next_p_ok; assumption].
  - intros k ((xp, pa), pb) _ (-> & (H & _) & H' & _). rewrite H, H'. unfold hyper_term, Rdiv. cbn [map prod_list fold_right]. rewrite Rinv_1, !Rmult_1_r. ring.
Qed.

Lemma hyper_2f1_ok small a b c x   : series_stops small [a; b] [c] x (hyper_2f1 1 Rplus Rmult Rdiv divn inc small a b c x).
Proof.
  apply (series_from_spec small [a; b] [c] x (fun k '(xp, pa, pb, pc) => at_x x k xp /\ at_p a k pa /\ at_p b k pb /\ at_p c k pc)); auto 6 using prod_one, at_x_1, at_p_1.
  - intros k (((xp, pa), pb), pc) Hk (H1 & H2 & H3 & H4). split; [apply next_x_ok; exact H1|split; [|split]; apply next_p_ok; assumption].
  - intros k (((xp, pa), pb), pc) _ (-> & (H & _) & (H' & _) & H2 & _). rewrite H, H', H2. unfold hyper_term, Rdiv. cbn [map prod_list fold_right]. rewrite !Rmult_1_r. ring.
Qed.

Lemma hyper_pfq_ok small a b x   : series_stops small a b x (hyper_pfq 1 Rplus Rmult Rdiv divn small a b x).
Proof.
  apply (series_from_spec small a b x (fun k '(xp, pa, pb) => at_x x k xp /\ at_l a k pa /\ at_l b k pb)); auto using prod_one, at_x_1, at_l_1.
  - intros k ((xp, pa), pb) Hk (H1 & H2 & H3). split; [apply next_x_ok; exact H1|split; apply next_l_ok; assumption].
  - intros k ((xp, pa), pb) _ (-> & (H & _) & H' & _). rewrite H, H'. unfold hyper_term. ring.
Qed.

(** ** The trapezoidal rule is exact on affine functions *)
Lemma trapezoids_affine p q a b n : (0 < n)%nat ->
  trapezoids (fun x => p * x + q) a b n = p * (b ^ 2 - a ^ 2) / 2 + q * (b - a).
Proof.
  intro Hn. unfold trapezoids. destruct n as [|m]; [lia|]. rewrite Nat.pred_succ. clear Hn.
  set (h := (b - a) / INR (S m)). assert (N : INR (S m) <> 0) by (apply not_0_INR; lia).
  assert (Hb : b = a + INR (S m) * h) by (unfold h; field; exact N). rewrite Hb. clearbody h. clear Hb N b.
  induction m as [|m IH]; [cbn; field|]. rewrite tech5, IH. rewrite (S_INR (S m)). field.
Qed.

Lemma hyper_all (small : R -> R -> bool) (a b c x : R) (la lb : list R) :
  let divn := fun y n => y / IZR n in let inc := fun y => y + 1 in
  series_stops small [] [] x (hyper_0f0 1 Rplus Rmult divn small x) /\
  series_stops small [] [b] x (hyper_0f1 1 Rplus Rmult Rdiv divn inc small b x) /\
  series_stops small [a] [] x (hyper_1f0 1 Rplus Rmult divn inc small a x) /\
  series_stops small [a] [b] x (hyper_1f1 1 Rplus Rmult Rdiv divn inc small a b x) /\
  series_stops small [a; b] [] x (hyper_2f0 1 Rplus Rmult divn inc small a b x) /\
  series_stops small [a; b] [c] x (hyper_2f1 1 Rplus Rmult Rdiv divn inc small a b c x) /\
  series_stops small la lb x (hyper_pfq 1 Rplus Rmult Rdiv divn small la lb x).
Proof.
  exact (conj (hyper_0f0_ok small x) (conj (hyper_0f1_ok small b x) (conj (hyper_1f0_ok small a x) (conj (hyper_1f1_ok small a b x)
    (conj (hyper_2f0_ok small a b x) (conj (hyper_2f1_ok small a b c x) (hyper_pfq_ok small la lb x))))))).
Qed.

Lemma bisect_refuted : let bisect := find_root_bisect 0 Rplus Rminus Rmult Ropp (fun x => x / 2) rltb rleb rzero in
  (forall f lo hi eps, 0 <= f lo * f hi -> bisect f lo hi eps = (0, true)) /\
  exists f lo hi, f lo = 0 /\ (forall z, f z = 0 -> z = lo) /\ lo < hi /\ fst (bisect f lo hi (1 / 100)) <> lo /\ snd (bisect f lo hi (1 / 100)) = true.
Proof.
  cbv zeta. split; [exact bisect_no_sign_change|]. exists (fun x => x - 1), 1, 2.
  split; [ring|]. split; [intros; lra|]. split; [lra|]. rewrite bisect_no_sign_change by lra. cbn [fst snd]. split; [lra|reflexivity].
Qed.
