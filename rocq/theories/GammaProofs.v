(** * The gamma function: recurrence and reflection (proofs only) *)

From Coq Require Import ZArith List Bool Reals Lra Lia.
From Coquelicot Require Import Complex.
From Verif Require Import Model ModelDiv ModelStr ModelGen ComplexReal ModelCplx SpecCplx SpecGen CplxReal CplxProofs ModelGamma GammaReal.
Open Scope R_scope.
Ltac Zify.zify_post_hook ::= Z.div_mod_to_equations.

Section Generic.
Context {T TR : Type}.
Variable o : gops T TR.
Variables (min_arg_n table_size : Z).
Hypothesis H0 : forall x, g_add_n o x 0 = x.
Hypothesis H1 : forall x k, g_dec o (g_add_n o x (k + 1)) = g_add_n o x k.

Lemma down_snoc k : forall xx G, down o (S k) xx G = (g_dec o (fst (down o k xx G)), g_div o (snd (down o k xx G)) (g_dec o (fst (down o k xx G)))).
Proof. induction k as [|k IH]; intros xx G; [reflexivity|]. change (down o (S (S k)) xx G) with (down o (S k) (g_dec o xx) (g_div o G (g_dec o xx))). rewrite IH. reflexivity. Qed.

Lemma down_end n : forall x G m, fst (down o n (g_add_n o x (Z.of_nat n + m)) G) = g_add_n o x m.
Proof.
  induction n as [|n IH]; intros x G m; [reflexivity|]. cbn [down]. replace (Z.of_nat (S n) + m)%Z with (Z.of_nat n + m + 1)%Z by lia. rewrite H1. apply IH.
Qed.

(* the argument is the original one again at the end *)
Lemma general_form b x : g_small o (if negb b then x else g_opp o x) = false -> forall t, to_int32 o (g_real o (if negb b then x else g_opp o x)) = Ok t -> (t <= min_arg_n)%Z ->
  r_less o (g_real o (if negb b then x else g_opp o x)) min_arg_n = true ->
  let xx := if negb b then x else g_opp o x in let n := (min_arg_n - t + 1)%Z in
  gamma_general o min_arg_n b x = bind (g_stirling o (g_add_n o xx n)) (fun G => Ok (finish o b xx (snd (down o (Z.to_nat n) (g_add_n o xx n) G)))).
Proof.
  intros S t Et Ht L xx n. unfold gamma_general. fold xx in S, Et, L |- *. rewrite S, L. rewrite Et. cbn [bind]. fold n. destruct (g_stirling o (g_add_n o xx n)) as [G| |]; cbn [bind]; try reflexivity.
  pose proof (down_end (Z.to_nat n) xx G 0) as D. rewrite Z2Nat.id, Z.add_0_r, H0 in D by (unfold n; lia). destruct (down o (Z.to_nat n) (g_add_n o xx n) G) as [a g]. cbn [fst] in D. rewrite D. reflexivity.
Qed.

Lemma large_form b x : g_small o (if negb b then x else g_opp o x) = false -> r_less o (g_real o (if negb b then x else g_opp o x)) min_arg_n = false ->
  let xx := if negb b then x else g_opp o x in gamma_general o min_arg_n b x = bind (g_stirling o xx) (fun G => Ok (finish o b xx G)).
Proof. intros S L xx. unfold gamma_general. fold xx in S, L |- *. rewrite S, L. cbn [bind]. rewrite H0. reflexivity. Qed.

(* one step of the recurrence *)
Lemma general_recurrence x y t : g_small o x = false -> g_small o y = false -> to_int32 o (g_real o x) = Ok t -> to_int32 o (g_real o y) = Ok (t + 1)%Z -> (t < min_arg_n)%Z ->
  r_less o (g_real o x) min_arg_n = true -> r_less o (g_real o y) min_arg_n = true -> (forall k, g_add_n o y k = g_add_n o x (k + 1)) ->
  gamma_general o min_arg_n false x = bind (gamma_general o min_arg_n false y) (fun g => Ok (g_div o g x)).
Proof.
  intros S1 S2 T1 T2 Ht L1 L2 A. pose proof (general_form false x S1 t T1 ltac:(lia) L1) as E1. pose proof (general_form false y S2 _ T2 ltac:(lia) L2) as E2. cbn [negb] in E1, E2. rewrite E1, E2. clear E1 E2.
  rewrite A. set (m := (min_arg_n - (t + 1) + 1)%Z). replace (min_arg_n - t + 1)%Z with (m + 1)%Z by (unfold m; lia). set (s := g_add_n o x (m + 1)). destruct (g_stirling o s) as [G| |]; cbn [bind]; try reflexivity.
  unfold finish. cbn [negb]. f_equal. replace (Z.to_nat (m + 1)) with (S (Z.to_nat m)) by (unfold m; lia). rewrite down_snoc. cbn [snd].
  f_equal. unfold s. replace (m + 1)%Z with (Z.of_nat (Z.to_nat m) + 1)%Z by (rewrite Z2Nat.id; unfold m; lia). rewrite down_end. rewrite <- (Z.add_0_l 1) at 1. rewrite H1. apply H0.
Qed.

End Generic.

Lemma lessb_iff x y : lessb x y = true <-> x < y.
Proof. unfold lessb. destruct (Rlt_dec x y); split; intro; try assumption; try reflexivity; try discriminate; contradiction. Qed.
Lemma lessb_false x y : y <= x -> lessb x y = false.
Proof. intro H. unfold lessb. destruct (Rlt_dec x y); [lra|reflexivity]. Qed.
Lemma whole_false x : (forall k, x <> IZR k) -> whole x = false.
Proof. intro H. unfold whole. destruct (Req_EM_T x (IZR (Int_part x))); [exfalso; eapply H; eassumption|reflexivity]. Qed.

Lemma trunc_pos x m : 0 < x -> x < IZR m -> (m < 2147483647)%Z -> (0 <= Int_part x < m)%Z.
Proof.
  intros P L M. destruct (base_Int_part x) as [A B]. split.
  - assert (-1 < IZR (Int_part x)) by lra. apply lt_IZR in H. lia.
  - apply lt_IZR. lra.
Qed.

Lemma trunc64_pos x m : 0 < x -> x < IZR m -> (m < 2147483647)%Z -> trunc64 x = Ok (Int_part x).
Proof.
  intros P L M. pose proof (trunc_pos x m P L M) as B. unfold trunc64. destruct (Rlt_dec x 0); [lra|]. f_equal. lia.
Qed.

Lemma Int_part_succ x : Int_part (x + 1) = (Int_part x + 1)%Z.
Proof.
  destruct (base_Int_part x) as [A B]. destruct (base_Int_part (x + 1)) as [C D]. assert (IZR (Int_part x + 1) - 1 < IZR (Int_part (x + 1)) < IZR (Int_part x + 1) + 1) as [E F] by (rewrite plus_IZR; lra).
  rewrite <- minus_IZR in E. rewrite <- plus_IZR in F. apply lt_IZR in E, F. lia.
Qed.

Lemma Int_part_IZR n : Int_part (IZR n) = n.
Proof.
  destruct (base_Int_part (IZR n)) as [A B]. apply le_IZR in A. assert (C : IZR n < IZR (Int_part (IZR n) + 1)) by (rewrite plus_IZR; lra). apply lt_IZR in C. lia.
Qed.

Lemma sin_shift_n n x : (0 <= n)%Z -> sin (PI * (IZR n - x)) = if (n mod 2 =? 0)%Z then - sin (PI * x) else sin (PI * x).
Proof.
  intro H. assert (E : forall k : nat, sin (INR k * PI) = 0 /\ cos (INR k * PI) = if Nat.even k then 1 else -1).
  { induction k as [|k [I1 I2]]; [cbn [INR Nat.even]; rewrite Rmult_0_l, sin_0, cos_0; auto|]. rewrite S_INR, Rmult_plus_distr_r, Rmult_1_l, neg_sin, neg_cos, I1, I2, Nat.even_succ, <- Nat.negb_even. destruct (Nat.even k); cbn; lra. }
  destruct (E (Z.to_nat n)) as [E1 E2]. replace (PI * (IZR n - x)) with (INR (Z.to_nat n) * PI - PI * x) by (rewrite INR_IZR_INZ, Z2Nat.id by exact H; ring).
  rewrite sin_minus, E1, E2. destruct (Z.eqb_spec (n mod 2) 0) as [M|M].
  - replace (Nat.even (Z.to_nat n)) with true; [ring|]. symmetry. apply Nat.even_spec. exists (Z.to_nat (n / 2)). lia.
  - replace (Nat.even (Z.to_nat n)) with false; [ring|]. symmetry. apply not_true_is_false. intro C. apply Nat.even_spec in C. destruct C as [m C]. lia.
Qed.

Lemma rising_pos x n : 0 < x -> 0 < rising_factorial x n.
Proof. intro P. induction n as [|n IH]; cbn [rising_factorial]; [lra|]. apply Rmult_lt_0_compat; [exact IH|]. pose proof (pos_INR n). lra. Qed.

Lemma rising_shift x n : x * rising_factorial (x + 1) n = rising_factorial x (S n).
Proof. induction n as [|n IH]; [cbn [rising_factorial INR]; ring|]. change (rising_factorial (x + 1) (S n)) with (rising_factorial (x + 1) n * (x + 1 + INR n)). change (rising_factorial x (S (S n))) with (rising_factorial x (S n) * (x + INR (S n))). rewrite <- IH, S_INR. ring. Qed.

Lemma poch_rising x n : poch_loop Rmult (fun t => t + 1) n x x = rising_factorial x (S n).
Proof.
  assert (G : forall k v t, poch_loop Rmult (fun t => t + 1) k v t = v * rising_factorial (t + 1) k).
  { induction k as [|k IH]; intros v t; cbn [poch_loop]; [cbn [rising_factorial]; ring|]. rewrite IH, Rmult_assoc, rising_shift. reflexivity. }
  rewrite G. apply rising_shift.
Qed.

Section Instances.
Variables (nan : R) (fact : Z -> io R) (min_arg_n table_size : Z).
Hypothesis Hmin : (1 <= min_arg_n < 2147483647)%Z.

Section Real.
Variables (small : R -> bool) (series : R -> R) (stirling : R -> io R).
Local Notation o := (real_ops nan fact small series stirling).
Local Notation gamma := (gamma o min_arg_n table_size).

Lemma real_H0 x : g_add_n o x 0 = x. Proof. cbn. ring. Qed.
Lemma real_H1 x k : g_dec o (g_add_n o x (k + 1)) = g_add_n o x k. Proof. cbn. rewrite plus_IZR. ring. Qed.

Lemma real_to32 x : 0 < x -> x < IZR min_arg_n -> to_int32 o x = Ok (Int_part x).
Proof. intros P L. unfold to_int32. cbn [r_to64 real_ops]. rewrite (trunc64_pos x min_arg_n P L) by lia. cbn [bind]. pose proof (trunc_pos x min_arg_n P L ltac:(lia)). f_equal. lia. Qed.

Lemma real_pos x : 0 < x -> (forall k, x <> IZR k) -> gamma x = gamma_general o min_arg_n false x.
Proof. intros P I. unfold ModelGamma.gamma. cbn [g_real r_isfinite r_isneg r_isint real_ops negb]. rewrite (whole_false x I), (lessb_false x 0) by lra. reflexivity. Qed.
Lemma real_neg x : x < 0 -> (forall k, x <> IZR k) -> gamma x = gamma_general o min_arg_n true x.
Proof. intros P I. unfold ModelGamma.gamma. cbn [g_real r_isfinite r_isneg r_isint real_ops negb]. rewrite (whole_false x I), (proj2 (lessb_iff x 0) P). reflexivity. Qed.

Lemma real_recurrence x : 0 < x -> x + 1 < IZR min_arg_n -> (forall k, x <> IZR k) -> small x = false -> small (x + 1) = false ->
  gamma x = bind (gamma (x + 1)) (fun g => Ok (g / x)).
Proof.
  intros P L I S1 S2. assert (I' : forall k, x + 1 <> IZR k) by (intros k E; apply (I (k - 1)%Z); rewrite minus_IZR; lra).
  rewrite (real_pos x P I), (real_pos (x + 1) ltac:(lra) I').
  apply (general_recurrence o min_arg_n real_H0 real_H1 x (x + 1) (Int_part x) S1 S2).
  - apply real_to32; lra.
  - cbn [g_real real_ops]. rewrite <- Int_part_succ. apply real_to32; lra.
  - pose proof (trunc_pos (x + 1) min_arg_n ltac:(lra) L ltac:(lia)) as B. rewrite Int_part_succ in B. lia.
  - apply lessb_iff. cbn. lra.
  - apply lessb_iff. cbn. lra.
  - intro k. cbn. rewrite plus_IZR. ring.
Qed.

Lemma real_reflection x : 0 < x -> (forall k, x <> IZR k) -> gamma (- x) = bind (gamma x) (fun g => Ok (- PI / ((x * g) * sin (PI * x)))).
Proof.
  intros P I. assert (I' : forall k, - x <> IZR k) by (intros k E; apply (I (- k)%Z); rewrite opp_IZR; lra).
  rewrite (real_pos x P I), (real_neg (- x) ltac:(lra) I').
  assert (O : (if negb true then - x else g_opp o (- x)) = x) by (cbn; lra).
  destruct (small x) eqn:S.
  - unfold gamma_general. rewrite O. cbn [negb g_small real_ops]. rewrite S. cbn [bind]. reflexivity.
  - destruct (Rlt_dec x (IZR min_arg_n)) as [L|L].
    + pose proof (general_form o min_arg_n real_H0 real_H1 false x S (Int_part x) (real_to32 x P L) ltac:(pose proof (trunc_pos x min_arg_n P L); lia) ltac:(apply lessb_iff; exact L)) as E1. cbn [negb] in E1. rewrite E1.
      pose proof (general_form o min_arg_n real_H0 real_H1 true (- x)) as E2. rewrite O in E2. rewrite (E2 S (Int_part x) (real_to32 x P L) ltac:(pose proof (trunc_pos x min_arg_n P L); lia) ltac:(apply lessb_iff; exact L)).
      destruct (g_stirling o _) as [G| |]; cbn [bind]; reflexivity.
    + pose proof (large_form o min_arg_n real_H0 false x S ltac:(apply lessb_false; cbn; lra)) as E1. cbn [negb] in E1. rewrite E1.
      pose proof (large_form o min_arg_n real_H0 true (- x)) as E2. rewrite O in E2. rewrite (E2 S ltac:(apply lessb_false; cbn; lra)).
      destruct (g_stirling o _) as [G| |]; cbn [bind]; reflexivity.
Qed.


Lemma real_near_n n x : (-2147483648 < n < 0)%Z -> 0 < - IZR n - x -> - IZR n - x + 1 < IZR min_arg_n -> (forall k, x <> IZR k) -> small (- IZR n - x) = false -> small (- IZR n - x + 1) = false ->
  gamma_near_n o min_arg_n table_size n x = gamma (IZR n + x).
Proof.
  intros N P L I S1 S2. set (y := - IZR n - x) in *. assert (I' : forall k, y <> IZR k) by (intros k E; apply (I (- n - k)%Z); unfold y in E; rewrite minus_IZR, opp_IZR; lra).
  replace (IZR n + x) with (- y) by (unfold y; ring). rewrite (real_reflection y P I'), (real_recurrence y P L I' S1 S2). unfold gamma_near_n.
  destruct (Z.geb_spec n 0); [lia|]. destruct (Z.eqb_spec n (-2147483648)); [lia|]. cbv zeta. cbn [g_inc g_from g_pi_div g_mul g_sin g_pi_mul g_opp real_ops].
  replace (IZR (- n) - x) with y by (unfold y; rewrite opp_IZR; ring). destruct (gamma (y + 1)) as [g| |]; cbn [bind]; try reflexivity. f_equal.
  replace (y * (g / y)) with g by (field; lra). replace y with (IZR (- n) - x) by (unfold y; rewrite opp_IZR; ring). rewrite (sin_shift_n (- n) x) by lia.
  destruct ((- n) mod 2 =? 0)%Z; cbn [negb]; unfold Rdiv.
  - rewrite (Ropp_mult_distr_r_reverse g), Rinv_opp. ring.
  - ring.
Qed.

Lemma real_rising x n g : 0 < x -> x + INR n < IZR min_arg_n -> (forall k, x <> IZR k) -> (forall k : nat, (k <= n)%nat -> small (x + INR k) = false) ->
  gamma x = Ok g -> gamma (x + INR n) = Ok (rising_factorial x n * g).
Proof.
  intros P. induction n as [|n IH]; intros L I S G.
  - cbn [INR rising_factorial]. rewrite Rplus_0_r, Rmult_1_l. exact G.
  - rewrite S_INR in L. pose proof (pos_INR n) as Pn. assert (I' : forall k, x + INR n <> IZR k) by (intros k E; apply (I (k - Z.of_nat n)%Z); rewrite minus_IZR, <- INR_IZR_INZ; lra).
    specialize (IH ltac:(lra) I (fun k H => S k (le_S _ _ H)) G).
    pose proof (real_recurrence (x + INR n) ltac:(lra) ltac:(lra) I' (S n ltac:(lia))) as Q. replace (x + INR n + 1) with (x + INR (Datatypes.S n)) in Q by (rewrite S_INR; ring).
    specialize (Q (S (Datatypes.S n) ltac:(lia))). rewrite IH in Q. destruct (gamma (x + INR (Datatypes.S n))) as [h| |]; try discriminate Q. cbn [bind] in Q. injection Q as Q. f_equal. cbn [rising_factorial].
    transitivity (h / (x + INR n) * (x + INR n)); [field; lra|]. rewrite <- Q. ring.
Qed.

Lemma real_pochhammer x n g : 0 < x -> (0 <= n)%Z -> x + IZR n < IZR min_arg_n -> (forall k, x <> IZR k) -> (forall k : nat, (k <= Z.to_nat n)%nat -> small (x + INR k) = false) ->
  gamma x = Ok g -> g <> 0 -> pochhammer_n o min_arg_n table_size 1 (fun t k => t + IZR k) x n = Ok (rising_factorial x (Z.to_nat n)).
Proof.
  intros P N L I S G Gn. unfold pochhammer_n. destruct (Z.ltb_spec n 50) as [C|C].
  - f_equal. cbn [g_mul real_ops]. destruct (Z.to_nat n) as [|[|m]]; cbn [pochhammer].
    + reflexivity.
    + cbn [rising_factorial INR]. ring.
    + apply poch_rising.
  - replace (IZR n) with (INR (Z.to_nat n)) in * by (rewrite INR_IZR_INZ, Z2Nat.id by exact N; reflexivity). rewrite (real_rising x (Z.to_nat n) g P L I S G), G. cbn [bind g_div real_ops]. f_equal. field. exact Gn.
Qed.

Lemma real_plus_minus x : x <> 0 -> (forall k, x <> IZR k) -> gamma_plus_minus o min_arg_n table_size Rabs x = bind (gamma x) (fun p => bind (gamma (- x)) (fun n => Ok (p, n))).
Proof.
  intros N I. unfold gamma_plus_minus. cbn [g_real r_isneg real_ops]. destruct (Rlt_dec x 0) as [C|C].
  - rewrite (proj2 (lessb_iff x 0) C), Rabs_left by lra. assert (I' : forall k, - x <> IZR k) by (intros k E; apply (I (- k)%Z); rewrite opp_IZR; lra).
    replace (gamma x) with (gamma (- - x)) by (f_equal; lra). rewrite (real_reflection (- x) ltac:(lra) I'). destruct (gamma (- x)) as [g| |]; reflexivity.
  - rewrite (lessb_false x 0), Rabs_pos_eq by lra. rewrite (real_reflection x ltac:(lra) I). destruct (gamma x) as [g| |]; reflexivity.
Qed.

Lemma real_integers x n : x = IZR n -> (n <= 0 -> gamma x = Ok nan)%Z /\ ((1 <= n < table_size)%Z -> (table_size <= 9223372036854775807)%Z -> gamma x = fact (n - 1)%Z).
Proof.
  intros ->. assert (W : whole (IZR n) = true). { unfold whole. destruct (Req_EM_T (IZR n) (IZR (Int_part (IZR n)))) as [|E]; [reflexivity|]. exfalso. apply E. rewrite Int_part_IZR. reflexivity. }
  unfold ModelGamma.gamma. cbn [g_real r_isfinite r_isneg r_isint r_iszero r_to64 g_fact g_of r_nan real_ops negb]. rewrite W. split.
  - intro H. replace (lessb (IZR n) 0 || zerob (IZR n)) with true; [reflexivity|]. symmetry. apply orb_true_iff. destruct (Z.eq_dec n 0) as [->|E].
    + right. unfold zerob. destruct (Req_EM_T 0 0); [reflexivity|lra].
    + left. apply lessb_iff. apply IZR_lt. lia.
  - intros H HS. assert (P : 0 < IZR n) by (apply IZR_lt; lia). rewrite lessb_false by lra. unfold zerob. destruct (Req_EM_T (IZR n) 0); [lra|]. cbn [orb].
    unfold trunc64. destruct (Rlt_dec (IZR n) 0); [lra|]. rewrite Int_part_IZR. cbn [bind]. replace (Z.min (Z.max n (-9223372036854775808)) 9223372036854775807) with n by lia.
    unfold u64. rewrite Z.mod_small by lia. destruct (Z.ltb_spec n table_size); [|lia]. destruct (fact (n - 1)%Z); reflexivity.
Qed.

End Real.

Section Cplx.
Variables (small : cx R -> bool) (series : cx R -> cx R) (stirling : cx R -> io (cx R)).
Local Notation o := (cplx_ops nan fact small series stirling).
Local Notation gamma := (gamma o min_arg_n table_size).

Lemma cplx_H0 x : g_add_n o x 0 = x. Proof. destruct x as [a b]. cbn. f_equal. ring. Qed.
Lemma cplx_H1 x k : g_dec o (g_add_n o x (k + 1)) = g_add_n o x k. Proof. destruct x as [a b]. cbn. rewrite plus_IZR. unfold cr_sub. cbn. f_equal. ring. Qed.
Lemma cplx_to32 z : 0 < re z -> re z < IZR min_arg_n -> to_int32 o (re z) = Ok (Int_part (re z)).
Proof. intros P L. unfold to_int32. cbn [r_to64 cplx_ops]. rewrite (trunc64_pos (re z) min_arg_n P L) by lia. cbn [bind]. pose proof (trunc_pos (re z) min_arg_n P L ltac:(lia)). f_equal. lia. Qed.
Lemma cplx_pos z : 0 < re z -> (forall k, re z <> IZR k) -> gamma z = gamma_general o min_arg_n false z.
Proof. intros P I. unfold ModelGamma.gamma. cbn [g_real r_isfinite r_isneg r_isint cplx_ops negb]. rewrite (whole_false (re z) I), (lessb_false (re z) 0) by lra. reflexivity. Qed.
Lemma cplx_neg z : re z < 0 -> (forall k, re z <> IZR k) -> gamma z = gamma_general o min_arg_n true z.
Proof. intros P I. unfold ModelGamma.gamma. cbn [g_real r_isfinite r_isneg r_isint cplx_ops negb]. rewrite (whole_false (re z) I), (proj2 (lessb_iff (re z) 0) P). reflexivity. Qed.

Lemma cplx_recurrence z : 0 < re z -> re z + 1 < IZR min_arg_n -> (forall k, re z <> IZR k) -> small z = false -> small (mkcx (re z + 1) (im z)) = false ->
  gamma z = bind (gamma (mkcx (re z + 1) (im z))) (fun g => Ok (g_div o g z)).
Proof.
  intros P L I S1 S2. assert (I' : forall k, re (mkcx (re z + 1) (im z)) <> IZR k) by (cbn [re]; intros k E; apply (I (k - 1)%Z); rewrite minus_IZR; lra).
  assert (P' : 0 < re (mkcx (re z + 1) (im z))) by (cbn [re]; lra). rewrite (cplx_pos z P I), (cplx_pos _ P' I').
  apply (general_recurrence o min_arg_n cplx_H0 cplx_H1 z _ (Int_part (re z)) S1 S2).
  - apply cplx_to32; lra.
  - cbn [g_real cplx_ops]. change (re (mkcx (re z + 1) (im z))) with (re z + 1). rewrite <- Int_part_succ. apply (cplx_to32 (mkcx (re z + 1) (im z))); cbn [re]; lra.
  - pose proof (trunc_pos (re z + 1) min_arg_n ltac:(lra) L ltac:(lia)) as B. rewrite Int_part_succ in B. lia.
  - apply lessb_iff. cbn. lra.
  - apply lessb_iff. cbn. lra.
  - intro k. cbn. rewrite plus_IZR. f_equal. ring.
Qed.

Lemma cplx_reflection z : 0 < re z -> (forall k, re z <> IZR k) ->
  gamma (c_neg Ropp z) = bind (gamma z) (fun g => Ok (g_npi_div o (g_mul o (g_mul o z g) (g_sin o (g_pi_mul o z))))).
Proof.
  intros P I. assert (I' : forall k, re (c_neg Ropp z) <> IZR k) by (cbn; intros k E; apply (I (- k)%Z); rewrite opp_IZR; lra).
  rewrite (cplx_pos z P I), (cplx_neg (c_neg Ropp z) ltac:(cbn; lra) I').
  assert (O : (if negb true then c_neg Ropp z else g_opp o (c_neg Ropp z)) = z) by (destruct z as [a b]; cbn; unfold c_neg; cbn; f_equal; lra).
  destruct (small z) eqn:S.
  - unfold gamma_general. rewrite O. cbn [negb]. change (g_small o z) with (small z). rewrite S. cbn [bind]. reflexivity.
  - destruct (Rlt_dec (re z) (IZR min_arg_n)) as [L|L].
    + pose proof (general_form o min_arg_n cplx_H0 cplx_H1 false z S (Int_part (re z)) (cplx_to32 z P L) ltac:(pose proof (trunc_pos (re z) min_arg_n P L); lia) ltac:(apply lessb_iff; exact L)) as E1. cbn [negb] in E1. rewrite E1.
      pose proof (general_form o min_arg_n cplx_H0 cplx_H1 true (c_neg Ropp z)) as E2. rewrite O in E2. rewrite (E2 S (Int_part (re z)) (cplx_to32 z P L) ltac:(pose proof (trunc_pos (re z) min_arg_n P L); lia) ltac:(apply lessb_iff; exact L)).
      destruct (g_stirling o _) as [G| |]; cbn [bind]; reflexivity.
    + pose proof (large_form o min_arg_n cplx_H0 false z S ltac:(apply lessb_false; cbn; lra)) as E1. cbn [negb] in E1. rewrite E1.
      pose proof (large_form o min_arg_n cplx_H0 true (c_neg Ropp z)) as E2. rewrite O in E2. rewrite (E2 S ltac:(apply lessb_false; cbn; lra)).
      destruct (g_stirling o _) as [G| |]; cbn [bind]; reflexivity.
Qed.
End Cplx.
End Instances.
