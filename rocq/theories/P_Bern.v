(** * C45, C63: Bernoulli numbers *)

From Coq Require Import ZArith List Bool Arith Reals Lra Lia.
From Verif Require Import Model Spec SpecBern SpecGen Limbs Value AddProofs Decide AddExtra MulCor ModelDiv ModelStr PowExtra LdexpProofs ModelTables TabProofs ExpReal SeriesFloat ExpFloat
  ModelFact TabBern ModelBern BernReal BernFloat BernTab BernWrong.
Import ListNotations.
Open Scope R_scope.

Lemma num_length : Z.of_nat (List.length A000367) = 1001%Z.
Proof. vm_compute. reflexivity. Qed.
Lemma den_length : Z.of_nat (List.length A002445) = 1001%Z.
Proof. vm_compute. reflexivity. Qed.

(** C45, the tables: the entries for B(0), B(2), ..., B(200) are the numerator
    and the denominator in lowest terms; they are read exactly if they fit into
    the precision.  Missing: the entries from B(202) on. *)
Theorem C45_tables_partial :
  forall d b i, valid_digits d -> is_bernoulli b -> (i <= 100)%nat ->
  exists num den x y, table_get d A000367 (Z.of_nat i) = Ok x /\ table_get d A002445 (Z.of_nat i) = Ok y /\
  finite d x /\ finite d y /\
  b (2 * i)%nat = IZR num / IZR den /\ (0 < den)%Z /\ Z.gcd num den = 1%Z /\
  Rabs (value x - IZR num) <= powerRZ 10 (- (d + 17)) * Rabs (IZR num) /\
  Rabs (value y - IZR den) <= powerRZ 10 (- (d + 17)) * Rabs (IZR den) /\
  ((Z.abs num < 10 ^ (d + 18))%Z -> value x = IZR num) /\ ((den < 10 ^ (d + 18))%Z -> value y = IZR den).
Proof.
  intros d b i Hd Hb Hi. destruct (table_check_ok b 100 A000367 A002445 i Hb tables_checked Hi) as (x & y & X1 & X2 & X3 & X4 & X5 & X6 & _ & X7).
  destruct (read_plain d x Hd X3) as (p & P1 & P2 & _ & P3 & _ & P4). destruct (read_plain d y Hd X4) as (q & Q1 & Q2 & _ & Q3 & _ & Q4).
  exists (plain x), (plain y), p, q. unfold table_get. rewrite Nat2Z.id, X1, X2. rewrite (Z.abs_eq (plain y)) in Q4 by lia.
  split; [exact P1|]. split; [exact Q1|]. split; [exact P2|]. split; [exact Q2|]. split; [exact X7|]. split; [exact X6|]. split; [exact X5|]. split; [exact P3|]. split; [exact Q3|]. split; [exact P4|exact Q4].
Qed.
Print Assumptions C45_tables_partial.

(** C45, bernoulli(n): all odd n, and even n up to 200; relative error at most
    10^-digits10 / 5, so the value is exactly 0 for odd n >= 3.  Missing: even n
    from 202 on, and more than 4967 digits. *)
Theorem C45_bernoulli_partial :
  forall d series b n, valid_digits d -> (d <= 4967)%Z -> is_bernoulli b -> (n < 4294967296)%Z ->
  (0 <= n <= 200)%Z \/ ((0 <= n)%Z /\ Z.odd n = true) ->
  exists r, bernoulli d series n = Ok r /\ finite d r /\ full d r /\
  Rabs (value r - b (Z.to_nat n)) <= powerRZ 10 (- d) / 5 * Rabs (b (Z.to_nat n)).
Proof.
  intros d series b n Hd Hd' Hb Hn C. pose proof (p10_pos (- d)) as U. unfold bernoulli. destruct (Z.odd n) eqn:O.
  - rewrite Zmod_odd, O. change (negb (1 =? 0)%Z) with true. cbv iota. eexists. split; [reflexivity|]. destruct (Z.eqb_spec n 1) as [->|N].
    + destruct (of_limbs1 d 50000000 (-8) Hd ltac:(lia) ltac:(reflexivity)) as (H1 & H2 & H3). fold (half d) in H1, H2, H3.
      split; [apply negate_finite; exact H1|]. split; [unfold full in *; rewrite negate_prec; exact H2|]. change (Z.to_nat 1) with 1%nat. rewrite (negate_value d _ Hd H1), H3, (bernoulli_one b Hb).
      change (-8)%Z with (- (8))%Z. rewrite p10_inv, p10_nonneg by lia. change (10 ^ 8)%Z with 100000000%Z.
      replace (- (50000000 * / 100000000) - - / 2) with 0 by field. rewrite Rabs_R0. pose proof (Rabs_pos (- / 2)). nra.
    + destruct (zero_ok d Hd) as (F & P & V). split; [exact F|]. split; [exact P|]. apply Z.odd_spec in O. destruct O as [j ->].
      rewrite V, (bernoulli_odd b _ Hb); [rewrite Rminus_0_r, Rabs_R0; lra|lia|]. rewrite <- Nat.negb_odd. apply negb_false_iff, Nat.odd_spec. exists (Z.to_nat j). lia.
  - destruct C as [C|C]; [|destruct C; discriminate]. rewrite Zmod_odd, O. change (negb (0 =? 0)%Z) with false. cbv iota zeta. rewrite num_length, den_length. change (Z.min 1001 1001) with 1001%Z.
    assert (Ev : Z.even n = true) by (rewrite <- Z.negb_odd, O; reflexivity). apply Z.even_spec in Ev. destruct Ev as [j ->]. rewrite (Z.mul_comm 2 j), Z_div_mult by lia.
    replace (j <? 1001)%Z with true by (symmetry; apply Z.ltb_lt; lia). destruct (table_check_ok b 100 A000367 A002445 (Z.to_nat j) Hb tables_checked ltac:(lia)) as (x & y & X1 & X2 & X3 & X4 & X5 & X6 & X8 & X7).
    unfold table_get. rewrite X1, X2. destruct (quot_read d x y Hd Hd' X3 X4 X6 X8) as (p & q & Q1 & Q2 & Q3 & Q4 & Q5). rewrite Q1, Q2. cbn [bind]. eexists. split; [reflexivity|].
    split; [exact Q3|]. split; [exact Q4|]. replace (Z.to_nat (j * 2)) with (2 * Z.to_nat j)%nat by lia. rewrite X7. exact Q5.
Qed.
Print Assumptions C45_bernoulli_partial.

(** C45 is false at high precision: the tables give only 420 digits of the
    numerators from B(324) on.  From 640 digits on bernoulli(326) is not
    accurate. *)
Theorem C45_bernoulli_refuted :
  forall d series b, valid_digits d -> (640 <= d <= 4967)%Z -> is_bernoulli b ->
  exists r, bernoulli d series 326 = Ok r /\ finite d r /\ powerRZ 10 (- d) * Rabs (b 326%nat) < Rabs (value r - b 326%nat).
Proof.
  intros d series b Hd Hd' Hb. unfold bernoulli. rewrite num_length, den_length. change (326 mod 2)%Z with 0%Z. change (326 / 2)%Z with 163%Z. change (Z.min 1001 1001) with 1001%Z. change (163 <? 1001)%Z with true. change (negb (0 =? 0)%Z) with false. cbv iota zeta.
  unfold table_get. change (Z.to_nat 163) with 163%nat. destruct (wrong_entry_ok A000367 A002445 wrong_entry_checked) as (ea & ec & E1 & E2 & W). rewrite E1, E2.
  destruct (wrong_quot d 11 163 ea ec b Hd Hd' Hb W) as (x & y & X1 & X2 & X3 & X4). rewrite X1, X2. cbn [bind]. eexists. split; [reflexivity|]. split; [exact X3|exact X4].
Qed.
Print Assumptions C45_bernoulli_refuted.

(** C63, bernoulli_table(n) for 1 <= n <= 1000000: the result has n + 1 elements,
    or n + 2 if n is odd, and the element j is B(j) with a relative error of at
    most 10^-digits10 / 5.  Missing: larger n, more than 4967 digits. *)
Theorem C63_bernoulli_table_partial :
  forall d b n, valid_digits d -> (d <= 4967)%Z -> is_bernoulli b -> (1 <= n <= 1000000)%Z ->
  exists bn, bernoulli_table d n = Ok bn /\ Z.of_nat (List.length bn) = (if Z.odd n then n + 2 else n + 1)%Z /\
  forall j x, nth_error bn j = Some x -> finite d x /\ full d x /\
  Rabs (value x - b j) <= powerRZ 10 (- d) / 5 * Rabs (b j).
Proof.
  intros d b n Hd Hd' Hb Hn. destruct (table_ok d b n Hd Hd' Hb Hn) as (bn & B1 & B2 & B3). exists bn. split; [exact B1|]. rewrite Zmod_odd in *.
  split; [destruct (Z.odd n); lia|]. intros j x E. assert (L : (j < List.length bn)%nat) by (apply nth_error_Some; rewrite E; discriminate).
  rewrite <- (nth_error_nth bn j (zero d) E). apply B3. lia.
Qed.
Print Assumptions C63_bernoulli_table_partial.

(** C63 is false for n = 0, and for the largest n, where n + 1 wraps to 0: the
    element [1] of a vector of one element is written. *)
Theorem C63_bernoulli_table_refuted :
  forall d, bernoulli_table d 0 = UB /\ bernoulli_table d 4294967295 = UB.
Proof. intro d. split; reflexivity. Qed.
Print Assumptions C63_bernoulli_table_refuted.

(** The hypotheses are met: the Bernoulli numbers exist, B(4) = -1/30 at 30
    digits. *)
Example C45_bernoulli_hypotheses_met :
  exists b, is_bernoulli b /\ b 4%nat = - / 30 /\
  (exists r, bernoulli 30 (fun _ => UB) 4 = Ok r /\ Rabs (value r - - / 30) <= powerRZ 10 (- (30)) / 150) /\
  (exists r, bernoulli 30 (fun _ => UB) 4000001 = Ok r /\ value r = 0) /\
  exists bn, bernoulli_table 30 99999 = Ok bn /\ Z.of_nat (List.length bn) = 100001%Z.
Proof.
  destruct bernoulli_exists as [b Hb]. exists b. split; [exact Hb|].
  assert (B4 : b 4%nat = - / 30).
  { change 4%nat with (2 * 2)%nat. rewrite (bernoulli_tang b 2 Hb ltac:(lia)), (tang_step 2 2 ltac:(lia)). change (2 - 1)%nat with 1%nat. rewrite (tang_first 2 ltac:(lia)). cbn. field. }
  split; [exact B4|]. split; [|split].
  - destruct (C45_bernoulli_partial 30 (fun _ => UB) b 4 valid_30 ltac:(lia) Hb ltac:(lia) ltac:(left; lia)) as (r & R1 & _ & _ & R2). exists r. split; [exact R1|]. change (Z.to_nat 4) with 4%nat in R2. rewrite B4, Rabs_Ropp, (Rabs_pos_eq (/ 30)) in R2 by lra.
    replace (powerRZ 10 (- (30)) / 150) with (powerRZ 10 (- (30)) / 5 * / 30) by field. exact R2.
  - destruct (C45_bernoulli_partial 30 (fun _ => UB) b 4000001 valid_30 ltac:(lia) Hb ltac:(lia) ltac:(right; split; [lia|reflexivity])) as (r & R1 & _ & _ & R2). exists r. split; [exact R1|].
    assert (Z0 : b (Z.to_nat 4000001) = 0).
    { apply (bernoulli_odd b _ Hb); [lia|]. rewrite <- Nat.negb_odd. apply negb_false_iff, Nat.odd_spec. exists (Z.to_nat 2000000). lia. }
    rewrite Z0, Rabs_R0, Rmult_0_r, Rminus_0_r in R2. pose proof (Rabs_pos (value r)). assert (Rabs (value r) = 0) by lra. destruct (Req_dec (value r) 0) as [E|E]; [exact E|]. apply Rabs_no_R0 in E. contradiction.
  - destruct (C63_bernoulli_table_partial 30 b 99999 valid_30 ltac:(lia) Hb ltac:(lia)) as (bn & B1 & B2 & _). exists bn. split; [exact B1|exact B2].
Qed.

Example C45_tables_hypotheses_met : exists b, is_bernoulli b /\ valid_digits 30 /\ (100 <= 100)%nat.
Proof. destruct bernoulli_exists as [b Hb]. exists b. split; [exact Hb|]. split; [exact valid_30|lia]. Qed.

Example C45_bernoulli_refuted_hypotheses_met : exists b, is_bernoulli b /\ valid_digits 1000 /\ (640 <= 1000 <= 4967)%Z.
Proof. destruct bernoulli_exists as [b Hb]. exists b. split; [exact Hb|]. split; [unfold valid_digits; lia|lia]. Qed.
