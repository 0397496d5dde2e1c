(** * C77: the Riemann zeta function *)

From Coq Require Import ZArith Znumtheory List Bool Arith Reals Lra Lia Sorted.
From Flocq Require Import BinarySingleNaN.
From Coquelicot Require Import Coquelicot.
From Verif Require Import Model Spec SpecBern SpecPrime SpecZeta SpecJPow Limbs Value AddProofs Decide AddExtra MulCor ModelDiv ModelElem ModelPow ModelStr ModelTables ModelConst ModelFact ModelBern ModelPrime PrimeProofs PrimeFloat
  ModelJPow JPowProofs ExpFloat BernReal BernTab EulerProduct EulerEven ModelZeta ZetaProofs LdexpProofs PowExtra ZetaInt P_Prime P_JPow P_Bern P_Const.
Import ListNotations.
Open Scope R_scope.
Local Notation sin := Rtrigo_def.sin.

(** ** The product of primes *)

Lemma count_1988 : count_below 1988 = 300%Z. Proof. vm_compute. reflexivity. Qed.
Lemma count_1987 : count_below 1987 = 299%Z. Proof. vm_compute. reflexivity. Qed.

Lemma last_in {A} (l : list A) x : l <> [] -> In (last l x) l.
Proof. induction l as [|a [|b l] IH]; intro N; [contradiction|left; reflexivity|right; apply IH; discriminate]. Qed.

Lemma last_max l x : StronglySorted Z.lt l -> In x l -> (x <= last l 0)%Z.
Proof.
  induction 1 as [|a l S IH F]; intros I; [destruct I|]. destruct l as [|b l]; [destruct I as [<-|[]]; cbn; lia|]. change (last (a :: b :: l) 0%Z) with (last (b :: l) 0%Z). rewrite Forall_forall in F.
  destruct I as [<-|I]; [|apply IH, I]. assert (a < last (b :: l) 0)%Z by (apply F, last_in; discriminate). lia.
Qed.

Lemma last_300 ps : first_primes ps -> Z.of_nat (length ps) = 300%Z -> last ps 0%Z = 1987%Z.
Proof.
  intros (F1 & F2 & F3) L. destruct (primes_below 1988 ltac:(lia)) as (m & S & Q & C). rewrite count_1988 in C. destruct (primes_below 1987 ltac:(lia)) as (m' & S' & Q' & C'). rewrite count_1987 in C'.
  assert (Sub : forall p, In p ps -> (p < 1988)%Z).
  { intros p I. destruct (Z_lt_dec p 1988); auto. exfalso. assert (length (p :: m) <= length ps)%nat; [|cbn in *; lia]. apply NoDup_incl_length.
    - constructor; [|apply sorted_NoDup; auto]. intro Im. apply Q in Im. lia.
    - intros q [<-|Iq]; [exact I|]. apply Q in Iq. apply (F3 q p I (proj1 Iq)). lia. }
  assert (I : In 1987%Z ps).
  { destruct (in_dec Z.eq_dec 1987%Z ps) as [|N]; auto. exfalso. assert (length ps <= length m')%nat; [|lia]. apply NoDup_incl_length; [apply sorted_NoDup; auto|].
    intros p I. apply Q'. split; [apply F2, I|]. pose proof (Sub p I). assert (p <> 1987)%Z by congruence. lia. }
  pose proof (last_max ps 1987 F1 I). pose proof (Sub _ (last_in ps 0%Z ltac:(intro E; rewrite E in I; destruct I))). lia.
Qed.

(** C77, the product of primes: over the real numbers, for s > 1 (and, as in the test
    of the code, 1987^s not below 10^tolerance), the loop over the first 300 primes ends
    with a number at most zeta(s), and short of it by a relative error of at most
    1987/(s - 1) * 10^-tolerance.  The table of logarithms may hold any true entries before.  order is any
    function with 10^order(v) <= v; integer_of any function that finds the int64
    exponents of integers.  Missing: rounding, and the accelerated series for other arguments. *)
Theorem C77_product_partial :
  forall log fuel, usable_log log -> (sieve_limit log 6550 <= Z.of_nat fuel)%Z ->
  exists data primes, prime_data log fuel = Some data /\ prime_list log fuel 300 = Some primes /\
  forall integer_of order tol s z lm,
  (forall x k, integer_of x = Some k -> x = IZR k /\ (-9223372036854775808 < k < 9223372036854775808)%Z) ->
  (forall v, 1 <= v -> powerRZ 10 (order v) <= v) ->
  (forall n l, find_key lm n = Some l -> l = ln (IZR n)) ->
  1 < s -> is_zeta s z -> powerRZ 10 tol <= Rpower 1987 s ->
  exists r lm',
    product_loop 1 Rmult Rdiv Rminus order tol (fun x => x * x) IZR r_pown (fun x => Some (Rtrigo_def.exp x)) Rmult (fun n => Some (ln (IZR n))) integer_of (prime_factors data) s primes 1 lm [] = Some (r, lm') /\
    (forall n l, find_key lm' n = Some l -> l = ln (IZR n)) /\
    0 <= z - r <= 1987 * powerRZ 10 (- tol) / (s - 1) * z.
Proof.
  intros log fuel U L. destruct (C75_value log fuel U L) as (data & D & V). destruct (prime_table log fuel U L) as (data' & D' & Ld & Fp & Gt). rewrite D in D'. injection D' as <-.
  exists data, (firstn (Z.to_nat 300) data). split; [exact D|]. assert (PL : prime_list log fuel 300 = Some (firstn (Z.to_nat 300) data)) by (unfold prime_list; change (300 <? 6550)%Z with true; cbv iota; rewrite D; reflexivity). split; [exact PL|].
  assert (F : first_primes (firstn (Z.to_nat 300) data)) by (apply first_primes_first, Fp). assert (Len : Z.of_nat (length (firstn (Z.to_nat 300) data)) = 300%Z) by (rewrite firstn_length_le by lia; lia).
  set (ps := firstn (Z.to_nat 300) data) in *. assert (B : forall p, In p ps -> (p < 4294967296)%Z). { intros p I. assert (I' : In p data) by (rewrite <- (firstn_skipn (Z.to_nat 300) data); apply in_or_app; left; exact I). apply (proj2 Gt) in I'. lia. }
  intros integer_of order tol s z lm Hi Ho Hl Hs Hz Ht. pose proof (last_300 ps F Len) as La.
  destruct (product_accuracy integer_of (prime_factors data) order tol s Hs (fun j J => V integer_of Hi j s J) ps lm z) as (r & lm' & E & L' & Bd); auto.
  - intros n l Q. f_equal. symmetry. apply Hl, Q.
  - intro E. rewrite E in Len. discriminate.
  - rewrite La. exact Ht.
  - exists r, lm'. split; [exact E|]. split; [|rewrite La in Bd; exact Bd]. intros n l Q. apply L' in Q. injection Q as <-. reflexivity.
Qed.
Print Assumptions C77_product_partial.

Example C77_product_hypotheses_met :
  exists log fuel integer_of order tol s z, usable_log log /\ (sieve_limit log 6550 <= Z.of_nat fuel)%Z /\
  (forall x k, integer_of x = Some k -> x = IZR k /\ (-9223372036854775808 < k < 9223372036854775808)%Z) /\ integer_of 41 = Some 41%Z /\
  (forall v, 1 <= v -> powerRZ 10 (order v) <= v) /\ s = 41 / 2 /\ 1 < s /\ is_zeta s z /\ powerRZ 10 tol <= Rpower 1987 s /\ (34 <= tol)%Z /\
  (forall n l, find_key [(2%Z, ln 2)] n = Some l -> l = ln (IZR n)).
Proof.
  destruct C43_hypotheses_met as (log & fuel & U & L). assert (S1 : 1 < 41 / 2) by lra. destruct (zeta_exists (41 / 2) S1) as [z Hz].
  exists log, fuel, (fun x => if Req_EM_T x 41 then Some 41%Z else None), (fun _ => 0%Z), 34%Z, (41 / 2), z. repeat (split; [assumption|]). split; [|split; [|split; [|split; [reflexivity|split; [exact S1|split; [exact Hz|split; [|split; [lia|]]]]]]]].
  - intros x k. destruct (Req_EM_T x 41) as [->|]; [intro E; injection E as <-; split; [reflexivity|lia]|discriminate].
  - destruct (Req_EM_T 41 41); [reflexivity|lra].
  - intros v Hv. change (1 <= v). exact Hv.
  - apply Rle_trans with (Rpower 100 17).
    + replace 17 with (INR 17) by (cbn; ring). rewrite Rpower_pow by lra. change 34%Z with (Z.of_nat (2 * 17)). rewrite <- pow_powerRZ, pow_mult. right. f_equal. ring.
    + apply Rle_trans with (Rpower 1987 17); [apply Rle_Rpower_l; lra|apply Rle_Rpower; lra].
  - intros n l. cbn [find_key]. destruct (Z.eqb_spec 2 n) as [<-|]; [intro E; injection E as <-; reflexivity|discriminate].
Qed.

(** ** The reflection *)

(** C77, negative arguments: over the real numbers, for s < 0 that is not an integer,
    zeta(s) = 2^s pi^(s-1) sin(pi s / 2) gamma(1 - s) zeta(1 - s), with the results for 1 - s on the right. *)
Theorem C77_reflection :
  forall isneg isint gamma to_int32 zeta_n order tol (sq : R -> R) of_n pown exp (scale : R -> R -> R) log_n integer_of factors_of primes use_product series table_max fuel s lm g z lm',
  s < 0 -> isneg s = true -> isint s = false -> gamma (1 - s) = Some g ->
  let zeta := zeta 1 Rmult Rdiv Rminus isneg isint PI (2 * PI) (PI / 2) sin (fun x a => Some (Rpower x a)) gamma to_int32 zeta_n order tol sq of_n pown exp scale log_n integer_of factors_of primes use_product series table_max in
  zeta fuel (1 - s) lm = Some (z, lm') ->
  zeta (S fuel) s lm = Some (Rpower 2 s * Rpower PI (s - 1) * sin (PI * s / 2) * g * z, lm').
Proof.
  intros isneg isint gamma to_int32 zeta_n order tol sq of_n pown exp scale log_n integer_of factors_of primes use_product series table_max fuel s lm g z lm' S0 N I G Z H. subst Z. cbn [ModelZeta.zeta]. rewrite N, I, G. cbn [andb obnd]. rewrite H. cbn [obnd]. unfold reflection. cbn [obnd].
  do 2 f_equal. pose proof PI_RGT_0. rewrite <- (Rpower_mult_distr 2 PI s) by lra. unfold Rminus at 1. rewrite Rpower_plus, Rpower_Ropp, Rpower_1 by lra. replace (PI / 2 * s) with (PI * s / 2) by field. field. lra.
Qed.
Print Assumptions C77_reflection.

Example C77_reflection_hypotheses_met :
  exists s g z, s = - (/ 2) /\ s < 0 /\ is_zeta (1 - s) z /\ (fun _ : R => Some g) (1 - s) = Some g /\
  zeta 1 Rmult Rdiv Rminus (fun x => if Rlt_dec x 0 then true else false) (fun _ => false) PI (2 * PI) (PI / 2) sin (fun x a => Some (Rpower x a)) (fun _ => Some g) (fun _ => 0%Z) (fun _ => None) (fun _ => 0%Z) 0
    (fun x => x) IZR (fun x _ => Some x) (fun x => Some x) Rmult (fun n => Some (IZR n)) (fun _ => None) (fun _ => None) [] (fun _ => false) (fun _ lm => Some (z, lm)) 2002 1 (1 - s) [] = Some (z, []).
Proof.
  assert (S1 : 1 < 1 - - (/ 2)) by lra. destruct (zeta_exists _ S1) as [z Hz]. exists (- (/ 2)), 1, z. split; [reflexivity|]. split; [lra|]. split; [exact Hz|]. split; [reflexivity|].
  cbn [zeta andb]. destruct (Rlt_dec (1 - - (/ 2)) 0); [lra|reflexivity].
Qed.

(** ** Integers *)

(** C77, integers n >= 2: the result is zeta(n) up to a relative error of 10^-digits10 + 10^-413,
    for the even n up to 200 and for every n that passes the test for large n.  The second hypothesis about n says that this
    test (a comparison of doubles, n log10(2) > tolerance) is right up to one unit.
    Missing: odd n that are not large, and even n above 200 that are not large. *)
Theorem C77_integer_partial :
  forall d pi fact_series bern_series zeta_general large n z, valid_digits d -> (d <= 1009)%Z -> const_pi d = Ok pi ->
  (2 <= n)%Z -> (large n = true -> powerRZ 10 (tolerance d) <= 2 * powerRZ 2 n) ->
  large n = true \/ ((n <= 200)%Z /\ Z.even n = true) ->
  is_zeta (IZR n) z ->
  exists r, zeta_int d fact_series bern_series zeta_general large pi n = Ok r /\ finite d r /\ full d r /\
  Rabs (value r - z) <= (powerRZ 10 (- d) + powerRZ 10 (-413)) * z.
Proof.
  intros d pi fs bs zg large n z Hd D Hp Hn Hl C Hz. pose proof (p10_pos (-413)) as T0. pose proof (zeta_bounds (IZR n) z ltac:(apply IZR_le; lia) Hz) as Zb.
  unfold zeta_int. replace (n >? 1)%Z with true by (symmetry; apply Z.gtb_lt; lia). cbn [andb]. destruct (large n) eqn:Lg.
  - eexists. split; [reflexivity|]. destruct (PowExtra.one_ok d Hd) as (F & P & V). split; [exact F|]. split; [exact P|]. pose proof (large_near d Hd n z Hn Hz (Hl eq_refl)) as R. unfold rel in R. rewrite (Rabs_pos_eq z) in R by lra. rewrite V. nra.
  - destruct C as [C|[C E]]; [discriminate|]. rewrite (simple_even n ltac:(lia) E). cbn [negb]. replace (n =? 0)%Z with false by (symmetry; apply Z.eqb_neq; lia). replace (n =? 1)%Z with false by (symmetry; apply Z.eqb_neq; lia).
    destruct bernoulli_exists as [b Hb]. pose proof E as E'. apply Z.even_spec in E'. destruct E' as [h Eh]. set (k := (Z.to_nat h - 1)%nat). assert (Ek : (2 * S k)%nat = Z.to_nat n) by lia.
    pose proof (euler_formula b Hb k) as Ef. rewrite INR_IZR_INZ, Ek, Z2Nat.id in Ef by lia.
    assert (Ez : z = (2 * PI) ^ Z.to_nat n * Rabs (b (Z.to_nat n)) / (2 * INR (fact (Z.to_nat n)))) by (transitivity (Series (fun k => Rpower (INR (S k)) (- IZR n))); [symmetry; apply is_series_unique; exact Hz|apply is_series_unique; exact Ef]).
    assert (Fin : forall r, rel (powerRZ 10 (- d)) r z -> Rabs (r - z) <= (powerRZ 10 (- d) + powerRZ 10 (-413)) * z) by (intros r R; unfold rel in R; rewrite (Rabs_pos_eq z) in R by lra; nra).
    destruct (Z.eqb_spec n 2) as [->|N2]; [|destruct (Z.eqb_spec n 4) as [->|N4]; [|]].
    + eexists. split; [reflexivity|]. destruct (zeta_2_near d Hd D pi Hp) as (F & P & R). split; [exact F|]. split; [exact P|]. apply Fin. replace z with (PI ^ 2 / 6); [exact R|].
      rewrite Ez. change (Z.to_nat 2) with 2%nat. rewrite (bern_2 b Hb), (Rabs_pos_eq (/ 6)) by lra. change (INR (fact 2)) with 2. field.
    + eexists. split; [reflexivity|]. destruct (zeta_4_near d Hd D pi Hp) as (F & P & R). split; [exact F|]. split; [exact P|]. apply Fin. replace z with (PI ^ 4 / 90); [exact R|].
      rewrite Ez. change (Z.to_nat 4) with 4%nat. rewrite (bern_4 b Hb), Rabs_Ropp, (Rabs_pos_eq (/ 30)) by lra. replace (INR (fact 4)) with 24 by (cbn; ring). field.
    + replace (n <? 0)%Z with false by (symmetry; apply Z.ltb_ge; lia). destruct (closed_form d Hd D pi Hp fs bs b (S k) Hb ltac:(lia)) as (p & B & f & P1 & B1 & F1 & F & P & R).
      replace (2 * Z.of_nat (S k))%Z with n in P1, B1, F1 by lia. rewrite P1, B1, F1. cbn [bind]. eexists. split; [reflexivity|]. split; [exact F|]. split; [exact P|]. rewrite Ek, <- Ez in R. unfold rel in R. rewrite (Rabs_pos_eq z) in R by lra. exact R.
Qed.
Print Assumptions C77_integer_partial.

Example C77_integer_hypotheses_met :
  exists pi z z', const_pi 101 = Ok pi /\ let large := (fun n => (400 <? n)%Z) in
  is_zeta 100 z /\ is_zeta 401 z' /\ large 401%Z = true /\ (large 401%Z = true -> powerRZ 10 (tolerance 101) <= 2 * powerRZ 2 401).
Proof.
  destruct (zeta_exists 100 ltac:(lra)) as [z Hz]. destruct (zeta_exists 401 ltac:(lra)) as [z' Hz']. assert (V : valid_digits 101) by (split; lia).
  destruct (C60_constants_partial 101 _ _ V ltac:(lia) (is_pi 101 ltac:(lia))) as (pi & P & _). exists pi, z, z'. split; [exact P|]. cbv zeta. split; [exact Hz|]. split; [exact Hz'|]. split; [reflexivity|]. intros _.
  change (tolerance 101) with (Z.of_nat 112). change 401%Z with (Z.of_nat 401). rewrite <- !pow_powerRZ. rewrite !pow_IZR, <- mult_IZR. apply IZR_le. apply Z.leb_le. vm_compute. reflexivity.
Qed.

(** C77, the integers up to 0: zeta(0) = -1/2 and zeta(-2m) = 0 exactly, and zeta(-(2m-1)) = -B(2m)/(2m) with a relative
    error of at most 10^-digits10 for 2m <= 200.  Missing: odd n below -199. *)
Theorem C77_negative_partial :
  forall d pi fact_series bern_series zeta_general large n b, valid_digits d -> (d <= 1009)%Z -> const_pi d = Ok pi -> is_bernoulli b ->
  (-2147483647 < n <= 0)%Z -> (-199 <= n)%Z \/ Z.even n = true ->
  exists r, zeta_int d fact_series bern_series zeta_general large pi n = Ok r /\ finite d r /\ full d r /\
  (n = 0%Z -> value r = - / 2) /\
  ((n < 0)%Z -> Z.even n = true -> value r = 0) /\
  (Z.even n = false -> Rabs (value r - - b (Z.to_nat (1 - n)) / IZR (1 - n)) <= powerRZ 10 (- d) * Rabs (- b (Z.to_nat (1 - n)) / IZR (1 - n))).
Proof.
  intros d pi fs bs zg large n b Hd D Hp Hb Hn C. unfold zeta_int. replace (n >? 1)%Z with false by (symmetry; rewrite Z.gtb_ltb; apply Z.ltb_ge; lia). cbn [andb].
  destruct (Z.eq_dec n 0) as [->|N0].
  - rewrite (simple_even 0 ltac:(lia) eq_refl). cbn [negb]. change (0 =? 0)%Z with true. cbv iota. eexists. split; [reflexivity|].
    destruct (of_limbs1 d 50000000 (-8) Hd ltac:(lia) ltac:(reflexivity)) as (H1 & H2 & H3). fold (half d) in H1, H2, H3. split; [apply negate_finite; exact H1|]. split; [unfold full in *; rewrite negate_prec; exact H2|].
    split; [|split; [lia|discriminate]]. intros _. rewrite (negate_value d _ Hd H1), H3. change (-8)%Z with (- (8))%Z. rewrite p10_inv, p10_nonneg by lia. change (10 ^ 8)%Z with 100000000%Z. field.
  - rewrite (simple_negative n) by lia. cbn [negb]. replace (n =? 0)%Z with false by (symmetry; apply Z.eqb_neq; lia). replace (n =? 1)%Z with false by (symmetry; apply Z.eqb_neq; lia). replace (n =? 2)%Z with false by (symmetry; apply Z.eqb_neq; lia). replace (n =? 4)%Z with false by (symmetry; apply Z.eqb_neq; lia).
    replace (n <? 0)%Z with true by (symmetry; apply Z.ltb_lt; lia). replace (n <=? -2147483647)%Z with false by (symmetry; apply Z.leb_gt; lia). cbv zeta. rewrite Zmod_even. destruct (Z.even n) eqn:E.
    + change (0 =? 0)%Z with true. cbv iota. eexists. split; [reflexivity|]. destruct (zero_ok d Hd) as (F & P & V). split; [exact F|]. split; [exact P|]. split; [lia|]. split; [intros; exact V|discriminate].
    + change (1 =? 0)%Z with false. cbv iota. destruct C as [C|C]; [|discriminate]. assert (O : Z.odd n = true) by (rewrite <- Z.negb_even, E; reflexivity). apply Z.odd_spec in O. destruct O as [h Eh].
      destruct (negative_near d Hd D bs b (Z.to_nat (- h)) Hb ltac:(lia)) as (B & B1 & F & P & R). replace (2 * Z.of_nat (Z.to_nat (- h)))%Z with (- n + 1)%Z in B1, F, P, R by lia. rewrite B1. cbn [bind].
      eexists. split; [reflexivity|]. split; [exact F|]. split; [exact P|]. split; [lia|]. split; [discriminate|]. intros _. replace (1 - n)%Z with (- n + 1)%Z by ring. replace (Z.to_nat (- n + 1)) with (2 * Z.to_nat (- h))%nat by lia. exact R.
Qed.
Print Assumptions C77_negative_partial.

Example C77_negative_hypotheses_met : exists pi b, const_pi 101 = Ok pi /\ is_bernoulli b /\ b (Z.to_nat (1 - -3)) = - / 30.
Proof.
  destruct bernoulli_exists as [b Hb]. assert (V : valid_digits 101) by (split; lia). destruct (C60_constants_partial 101 _ _ V ltac:(lia) (is_pi 101 ltac:(lia))) as (pi & P & _). exists pi, b. split; [exact P|]. split; [exact Hb|]. exact (bern_4 b Hb).
Qed.

(** C77 fails for the two smallest integers: the sum -n + 1 overflows. *)
Theorem C77_zeta_refuted :
  forall d pi fact_series bern_series zeta_general large,
  zeta_int d fact_series bern_series zeta_general large pi (-2147483648) = UB /\ zeta_int d fact_series bern_series zeta_general large pi (-2147483647) = UB.
Proof. intros. split; unfold zeta_int; rewrite simple_negative by lia; reflexivity. Qed.
Print Assumptions C77_zeta_refuted.
