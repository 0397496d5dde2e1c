(** * The series of log1p outside of its disc of convergence (proofs only) *)

From Coq Require Import ZArith List Bool Reals Lra Lia Psatz.
From Verif Require Import Model Spec SpecGen Limbs Value CmpProofs AddProofs Decide OrderProofs OrderDec AddExtra MulProofs MulValue MulExtra MulCor
  IntProofs IntPartProofs IntConv MixedProofs IntCor ModelDiv DoubleProofs NewtonProofs InvProofs SqrtProofs ModelPow PowGen PowProofs PowExtra LdexpProofs
  StrAny FloatEval ModelGen ModelElem ElemProofs SeriesFloat ExpReal ExpFloat ExpAcc ConstReal SinReal SinFloat SinStep SinAcc SinTiny HyperFloat AtanSer AtanTop LogSer LogAcc.
Import ListNotations.
Open Scope R_scope.
Ltac Zify.zify_post_hook ::= Z.div_mod_to_equations.
Local Notation p10 := (powerRZ 10).

Section FixedDigits.
Variable d : Z.
Hypothesis Hd : valid_digits d.
Hypothesis Hd' : (d <= 4967)%Z.
Local Notation u := (p10 (- d)).
Local Notation e7 := (/ 10000000).

(** A rising factorial and its factor, for all 9999 steps of the series *)
Definition r_inv (b : R) (n : Z) (pb : ef * ef) : Prop :=
  ok d (n * 8) (fst pb) /\ 0 < value (fst pb) /\ finite d (snd pb) /\ full d (snd pb) /\
  Rabs (value (snd pb) - (b + IZR (n - 1))) <= IZR (n - 1) * / 1000000000000.

Lemma r_inv_start b bf : 0 < b -> ok d 1 bf -> value bf = b -> r_inv b 1 (bf, bf).
Proof.
  intros Hb O V. unfold r_inv. cbn [fst snd]. change (1 - 1)%Z with 0%Z. rewrite V. split; [apply (ok_le d 1); [lia|exact O]|]. split; [exact Hb|]. split; [apply O|]. split; [apply O|].
  replace (b - (b + 0)) with 0 by ring. rewrite Rabs_R0. lra.
Qed.

Lemma r_inv_step b n pb : 1 <= b <= 2 -> (2 <= n <= 10000)%Z -> r_inv b (n - 1) pb ->
  r_inv b n (next_p (mul d) (pre_inc d) pb) /\ rel e7 (value (fst (next_p (mul d) (pre_inc d) pb))) (value (fst pb) * (b + IZR (n - 1))).
Proof.
  intros Hb Hn (B1 & B2 & C1 & C2 & C3). destruct pb as [pb bp]. cbn [fst snd] in *. pose proof (u_small d Hd) as U.
  assert (In : 2 <= IZR n <= 10000) by (split; apply IZR_le; lia). replace (n - 1 - 1)%Z with (n - 2)%Z in C3 by ring.
  assert (In1 : IZR (n - 1) = IZR n - 1) by apply minus_IZR. assert (In2 : IZR (n - 2) = IZR n - 2) by apply minus_IZR. rewrite In2 in C3. apply Rabs_le_inv in C3.
  assert (P5 : p10 5 = 100000) by (rewrite (p10_nonneg 5) by lia; reflexivity).
  assert (Ob : ok d 5 bp) by (apply (ok_of_bounds d); [exact C1|exact C2|]; rewrite p10_inv, P5, Rabs_pos_eq; lra).
  destruct (PowExtra.one_ok d Hd) as (F1 & P1 & V1).
  assert (O1 : ok d 5 (one d)) by (apply (ok_of_bounds d); [exact F1|exact P1|]; rewrite V1, Rabs_R1, p10_inv, P5; lra).
  unfold next_p, pre_inc. cbn [fst snd].
  destruct (ok_add d 5 bp (one d) Hd ltac:(lia) ltac:(lia) Ob O1) as [Oq Eq]. rewrite V1, (p_17 d) in Eq.
  assert (M : Rmax (Rabs (value bp)) (Rabs 1) <= 20001) by (rewrite (Rabs_pos_eq 1), (Rabs_pos_eq (value bp)) by lra; apply Rmax_lub; lra).
  assert (Eq' : Rabs (value (add d bp (one d)) - (value bp + 1)) <= 2 * (u / 100000000000000000) * 20001) by (eapply Rle_trans; [exact Eq|]; apply Rmult_le_compat_l; lra).
  set (bq := add d bp (one d)) in *. clearbody bq. apply Rabs_le_inv in Eq'.
  assert (Vq : Rabs (value bq - (b + (IZR n - 1))) <= (IZR n - 1) * / 1000000000000) by (apply Rabs_le; lra).
  pose proof (Rabs_le_inv _ _ Vq) as Vq'.
  assert (Oq' : ok d 5 bq) by (apply (ok_of_bounds d); [apply Oq|apply Oq|]; rewrite p10_inv, P5, Rabs_pos_eq; lra).
  destruct (ok_rel_mul d Hd Hd' ((n - 1) * 8) 5 pb bq ltac:(lia) ltac:(lia) ltac:(lia) B1 Oq') as [Om Rm].
  assert (Rq : rel (/ 100000000) (value bq) (b + IZR (n - 1))). { unfold rel. rewrite In1, (Rabs_pos_eq (b + (IZR n - 1))) by lra. lra. }
  assert (Rt : rel e7 (value (mul d pb bq)) (value pb * (b + IZR (n - 1)))).
  { eapply rel_le; [|eapply rel_trans; [|exact Rm|eapply rel_mult; [|apply (rel_refl (value pb))|exact Rq]]]; [|lra|lra].
    assert (u / 1000000 * (0 + / 100000000 + 0 * / 100000000) <= / 1000000000 * (0 + / 100000000 + 0 * / 100000000)) by (apply Rmult_le_compat_r; lra). lra. }
  split; [|exact Rt]. split; [|split; [|split; [|split]]]; cbn [fst snd].
  - apply (ok_le d ((n - 1) * 8 + 5 + 1)); [lia|exact Om].
  - unfold rel in Rt. rewrite In1 in Rt. assert (P : 0 < value pb * (b + (IZR n - 1))) by (apply Rmult_lt_0_compat; lra). rewrite (Rabs_pos_eq (value pb * (b + (IZR n - 1)))) in Rt by lra. apply Rabs_le_inv in Rt. lra.
  - apply Oq.
  - apply Oq.
  - rewrite In1. exact Vq.
Qed.

Definition y_inv (m : Z) (n : Z) (xp : ef) : Prop := ok d (n * (m + 10)) xp /\ value xp <> 0.

Lemma y_inv_step m x n xp : (0 <= m <= 100000)%Z -> ok d m x -> value x <> 0 -> (2 <= n <= 10000)%Z -> y_inv m (n - 1) xp ->
  y_inv m n (next_x (mul d) (div_int d) x n xp) /\ rel e7 (value (next_x (mul d) (div_int d) x n xp)) (value xp * value x / IZR n).
Proof.
  intros Hm Ox N Hn [A1 A2]. pose proof (u_small d Hd) as Us. unfold next_x.
  destruct (ok_rel_mul d Hd Hd' ((n - 1) * (m + 10)) m xp x ltac:(nia) ltac:(lia) ltac:(nia) A1 Ox) as [Om Rm].
  assert (W : value xp * value x <> 0) by (apply Rmult_integral_contrapositive; auto). pose proof (Rabs_pos_lt _ W) as W0.
  assert (Nm : value (mul d xp x) <> 0).
  { intro Z. pose proof (rel_bound _ _ _ Rm) as Bd. rewrite Z, Rabs_R0 in Bd. assert (u / 1000000 * Rabs (value xp * value x) <= / 2 * Rabs (value xp * value x)) by (apply Rmult_le_compat_r; lra). lra. }
  destruct (ok_div_int d Hd ((n - 1) * (m + 10) + m + 1) (mul d xp x) n ltac:(nia) Om Nm ltac:(lia)) as (Od & Nd & Rd).
  split; [split; [apply (ok_le d ((n - 1) * (m + 10) + m + 1 + 9)); [nia|exact Od]|exact Nd]|].
  assert (R1 : rel (u / 1000000) (value (mul d xp x) / IZR n) (value xp * value x / IZR n)) by (apply rel_scale; exact Rm).
  eapply rel_le; [|eapply rel_trans; [|exact Rd|exact R1]]; [|lra].
  assert (u / 10 * (u / 1000000) <= / 10 * (u / 1000000)) by (apply Rmult_le_compat_r; lra). lra.
Qed.

(** The value the term of a state stands for *)
Definition X (st : ef * (ef * ef) * (ef * ef) * (ef * ef)) : R := let '(xp, pa, pb, pc) := st in value (fst pa) * value (fst pb) / value (fst pc) * value xp.
Definition term (st : ef * (ef * ef) * (ef * ef) * (ef * ef)) : ef := let '(xp, pa, pb, pc) := st in mul d (div d (mul d (fst pa) (fst pb)) (fst pc)) xp.
Definition next x n (st : ef * (ef * ef) * (ef * ef) * (ef * ef)) :=
  let '(xp, pa, pb, pc) := st in (next_x (mul d) (div_int d) x n xp, next_p (mul d) (pre_inc d) pa, next_p (mul d) (pre_inc d) pb, next_p (mul d) (pre_inc d) pc).
Definition s_inv (m n : Z) (st : ef * (ef * ef) * (ef * ef) * (ef * ef)) : Prop :=
  let '(xp, pa, pb, pc) := st in y_inv m n xp /\ r_inv 1 n pa /\ r_inv 1 n pb /\ r_inv 2 n pc.

Lemma term_ok m n st : (0 <= m <= 100000)%Z -> (1 <= n <= 10000)%Z -> s_inv m n st ->
  ok d (10000 * (m + 40)) (term st) /\ rel e7 (value (term st)) (X st) /\ X st <> 0.
Proof.
  intros Hm Hn I. destruct st as [[[xp pa] pb] pc]. destruct I as ([Y1 Y2] & (A & A' & _) & (B & B' & _) & (C & C' & _)). unfold term, X. pose proof (u_small d Hd) as U.
  destruct (ok_rel_mul d Hd Hd' (n * 8) (n * 8) (fst pa) (fst pb) ltac:(lia) ltac:(lia) ltac:(lia) A B) as [O R].
  assert (Pab : 0 < value (fst pa) * value (fst pb)) by (apply Rmult_lt_0_compat; lra).
  assert (P : 0 < value (mul d (fst pa) (fst pb))).
  { unfold rel in R. rewrite (Rabs_pos_eq (value (fst pa) * value (fst pb))) in R by lra. apply Rabs_le_inv in R.
    assert (u / 1000000 * (value (fst pa) * value (fst pb)) <= / 2 * (value (fst pa) * value (fst pb))) by (apply Rmult_le_compat_r; lra). lra. }
  destruct (ok_div d Hd Hd' (n * 8 + n * 8 + 1) (n * 8) (mul d (fst pa) (fst pb)) (fst pc) ltac:(lia) ltac:(lia) ltac:(lia) O C ltac:(lra) ltac:(lra) ltac:(right; lra)) as (O2 & _ & R2).
  destruct (ok_rel_mul d Hd Hd' (n * 8 + n * 8 + 1 + n * 8 + 1) (n * (m + 10)) _ xp ltac:(lia) ltac:(nia) ltac:(nia) O2 Y1) as [O3 R3].
  split; [apply (ok_le d (n * 8 + n * 8 + 1 + n * 8 + 1 + n * (m + 10) + 1)); [nia|exact O3]|]. split.
  - assert (S1 : rel (u / 1000000) (value (mul d (fst pa) (fst pb)) / value (fst pc)) (value (fst pa) * value (fst pb) / value (fst pc))) by (apply rel_scale; exact R).
    assert (U10 : 0 <= u / 10) by lra. pose proof (rel_trans _ _ _ _ _ U10 R2 S1) as S2.
    assert (S3 : rel (/ 100000000) (value (div d (mul d (fst pa) (fst pb)) (fst pc))) (value (fst pa) * value (fst pb) / value (fst pc))).
    { eapply rel_le; [|exact S2]. assert (u / 10 * (u / 1000000) <= / 10 * (u / 1000000)) by (apply Rmult_le_compat_r; lra). lra. }
    assert (P8 : 0 <= / 100000000) by lra. pose proof (rel_mult _ _ _ _ _ _ P8 S3 (rel_refl (value xp))) as S4.
    assert (U6 : 0 <= u / 1000000) by lra. pose proof (rel_trans _ _ _ _ _ U6 R3 S4) as S5. eapply rel_le; [|exact S5].
    assert (u / 1000000 * (/ 100000000 + 0 + / 100000000 * 0) <= / 1000000 * (/ 100000000 + 0 + / 100000000 * 0)) by (apply Rmult_le_compat_r; lra). lra.
  - apply Rmult_integral_contrapositive. split; [|exact Y2]. assert (0 < value (fst pa) * value (fst pb) / value (fst pc)) by (apply Rdiv_lt_0_compat; lra). lra.
Qed.

Lemma grow m x n st : (0 <= m <= 100000)%Z -> ok d m x -> 1 <= Rabs (value x) -> (2 <= n <= 10000)%Z -> s_inv m (n - 1) st ->
  s_inv m n (next x n st) /\ IZR n * Rabs (X st) * (1 - / 1000000) <= (IZR n + 1) * Rabs (X (next x n st)).
Proof.
  intros Hm Ox Hx Hn I. assert (N : value x <> 0) by (intro Z; rewrite Z, Rabs_R0 in Hx; lra).
  destruct (term_ok m (n - 1) st ltac:(lia) ltac:(lia) I) as (_ & _ & NX).
  destruct st as [[[xp pa] pb] pc]. destruct I as (Y & A & B & C).
  destruct (y_inv_step m x n xp Hm Ox N Hn Y) as [Y' YR]. destruct (r_inv_step 1 n pa ltac:(lra) Hn A) as [A' AR].
  destruct (r_inv_step 1 n pb ltac:(lra) Hn B) as [B' BR]. destruct (r_inv_step 2 n pc ltac:(lra) Hn C) as [C' CR].
  unfold next. split; [split; [exact Y'|split; [exact A'|split; [exact B'|exact C']]]|]. unfold X in *.
  set (xq := next_x _ _ _ _ _) in *. set (qa := next_p _ _ pa) in *. set (qb := next_p _ _ pb) in *. set (qc := next_p _ _ pc) in *. clearbody xq qa qb qc.
  assert (In : 2 <= IZR n <= 10000) by (split; apply IZR_le; lia). rewrite minus_IZR in AR, BR, CR.
  replace (1 + (IZR n - 1)) with (IZR n) in AR, BR by ring. replace (2 + (IZR n - 1)) with (IZR n + 1) in CR by ring.
  destruct C as (_ & C0 & _). destruct C' as (_ & C1 & _).
  assert (P7 : 0 <= e7) by lra. pose proof (rel_mult _ _ _ _ _ _ P7 AR BR) as S1.
  assert (NC : value (fst pc) * (IZR n + 1) <> 0) by (assert (0 < value (fst pc) * (IZR n + 1)) by (apply Rmult_lt_0_compat; lra); lra).
  assert (NC' : value (fst qc) <> 0) by lra. assert (P2 : 0 <= e7 <= / 100) by lra. assert (P1 : 0 <= e7 + e7 + e7 * e7) by lra.
  pose proof (rel_div _ _ _ _ _ _ NC' NC P1 P2 S1 CR) as S2.
  set (k := e7 + e7 + e7 * e7 + 102 / 100 * e7 + (e7 + e7 + e7 * e7) * (102 / 100 * e7)) in *.
  assert (K : 0 <= k <= 4 * e7) by (unfold k; lra).
  pose proof (rel_mult _ _ _ _ _ _ (proj1 K) S2 YR) as S3.
  assert (S4 : rel (/ 1000000) (value (fst qa) * value (fst qb) / value (fst qc) * value xq) (value (fst pa) * value (fst pb) / value (fst pc) * value xp * (value x * (IZR n / (IZR n + 1))))).
  { eapply rel_le; [|replace (value (fst pa) * value (fst pb) / value (fst pc) * value xp * (value x * (IZR n / (IZR n + 1)))) with
      (value (fst pa) * IZR n * (value (fst pb) * IZR n) / (value (fst pc) * (IZR n + 1)) * (value xp * value x / IZR n)); [exact S3|]].
    - assert (k * e7 <= 4 * e7 * e7) by (apply Rmult_le_compat_r; lra). lra.
    - field. repeat split; lra. }
  clear S1 S2 S3 AR BR CR YR. set (V := value (fst qa) * value (fst qb) / value (fst qc) * value xq) in *. set (W := value (fst pa) * value (fst pb) / value (fst pc) * value xp) in *.
  unfold rel in S4. pose proof (Rabs_triang_inv (W * (value x * (IZR n / (IZR n + 1)))) V) as T. rewrite Rabs_minus_sym in T.
  assert (E : Rabs (W * (value x * (IZR n / (IZR n + 1)))) = Rabs W * Rabs (value x) * (IZR n / (IZR n + 1))).
  { rewrite !Rabs_mult. rewrite (Rabs_pos_eq (IZR n / (IZR n + 1))); [ring|]. apply Rlt_le, Rdiv_lt_0_compat; lra. }
  rewrite E in *. pose proof (Rabs_pos W) as PW.
  assert (L : Rabs W * 1 <= Rabs W * Rabs (value x)) by (apply Rmult_le_compat_l; lra). set (Q := Rabs W * Rabs (value x)) in *. clearbody Q.
  assert (L2 : Q * (IZR n / (IZR n + 1)) * (1 - / 1000000) <= Rabs V) by lra.
  apply Rmult_le_compat_l with (r := IZR n + 1) in L2; [|lra].
  replace ((IZR n + 1) * (Q * (IZR n / (IZR n + 1)) * (1 - / 1000000))) with (IZR n * Q * (1 - / 1000000)) in L2 by (field; lra).
  eapply Rle_trans; [|exact L2]. apply Rmult_le_compat_r; [lra|]. apply Rmult_le_compat_l; lra.
Qed.

Lemma diverge m x : (0 <= m <= 100000)%Z -> ok d m x -> 1 <= Rabs (value x) ->
  forall fuel n st sum, (2 <= n)%Z -> (n + Z.of_nat fuel <= 10000)%Z -> s_inv m (n - 1) st -> ok d (10000 * (m + 40) + n * 70000) sum ->
  1 - IZR (n - 1) * / 1000000 <= IZR n * Rabs (X st) -> Rabs (value sum) <= (IZR (n - 1) * IZR n + 1 + / 1000) * Rabs (X st) ->
  series (add d) (small_ef d) (next x) term fuel n st sum = None.
Proof.
  intros Hm Ox Hx. induction fuel as [|f IH]; intros n st sum H1 H2 I Os L B; cbn [series]; [reflexivity|].
  destruct (grow m x n st Hm Ox Hx ltac:(lia) I) as [I' G]. set (st' := next x n st) in *. clearbody st'.
  destruct (term_ok m n st' Hm ltac:(lia) I') as (Ot & Rt & Nx). clear I.
  assert (In : 2 <= IZR n <= 10000) by (split; apply IZR_le; lia). rewrite minus_IZR in L, B.
  pose proof (Rabs_pos_lt _ Nx) as Px. pose proof (Rabs_pos (X st)) as P0. pose proof (u_small d Hd) as U.
  set (a := Rabs (X st)) in *. set (b := Rabs (X st')) in *. set (N := IZR n) in *.
  (* the sum before the addition *)
  assert (B' : Rabs (value sum) <= N * (N + 1) * b).
  { assert (Z1 : ((N - 1) * N + 1 + / 1000) * a <= N * N * (1 - / 1000000) * a).
    { apply Rmult_le_compat_r; [lra|]. assert (N * N <= 10000 * N) by (apply Rmult_le_compat_r; lra). lra. }
    assert (Z2 : N * (N * a * (1 - / 1000000)) <= N * ((N + 1) * b)) by (apply Rmult_le_compat_l; lra). lra. }
  assert (L' : 1 - N * / 1000000 <= (N + 1) * b) by lra.
  assert (Bt : b * (1 - e7) <= Rabs (value (term st')) <= b * (1 + e7)).
  { unfold rel in Rt. fold b in Rt. pose proof (Rabs_triang_inv (X st') (value (term st'))) as T1. rewrite Rabs_minus_sym in T1.
    pose proof (Rabs_triang_inv (value (term st')) (X st')) as T2. fold b in T1, T2. lra. }
  assert (Nt : value (term st') <> 0) by (intro Z; rewrite Z, Rabs_R0 in Bt; lra).
  assert (S : small_ef d (term st') sum = false).
  { unfold small_ef. apply Z.ltb_ge. destruct (tol_bounds d Hd Hd') as [Tl _]. pose proof (order_spec d (term st') Hd (proj1 Ot) Nt) as [_ O2].
    assert (Dl : (12 <= d)%Z) by (destruct Hd; lia).
    destruct (Req_dec (value sum) 0) as [Z|Z].
    - assert (Oz : order sum = 0%Z).
      { apply (proj2 (order_special sum)). apply (finite_zero_iff d sum Hd (proj1 Os)). exact Z. }
      assert (Hb : / 100000 < Rabs (value (term st'))).
      { assert (N * / 1000000 <= / 100) by lra. assert (Y : 99 / 100 <= (N + 1) * b) by lra. assert ((N + 1) * b <= 10001 * b) by (apply Rmult_le_compat_r; lra). lra. }
      assert (C : (-7 <= order (term st'))%Z).
      { apply Z.nlt_ge. intro C. pose proof (p10_le (order (term st') + 1) (- (5)) ltac:(lia)) as Y. p10num H5 5%nat. rewrite H5 in Y. lra. }
      lia.
    - pose proof (order_spec d sum Hd (proj1 Os) Z) as [O3 _].
      assert (C : (order sum < order (term st') + 1 + 9)%Z); [|lia].
      apply Z.nle_gt. intro C. pose proof (p10_le _ _ C) as Y. rewrite p10_add in Y. rewrite (p10_nonneg 9) in Y by lia. change (10 ^ Z.to_nat 9) with (10 ^ 9) in Y.
      assert (Y1 : N * (N + 1) * b <= 100100000 * b). { apply Rmult_le_compat_r; [lra|]. assert (N * N <= 10000 * N) by (apply Rmult_le_compat_r; lra). lra. }
      lra. }
  rewrite S, andb_false_r. replace (n + 1 - 1)%Z with n in IH by lia || idtac.
  destruct (ok_add d (10000 * (m + 40) + n * 70000) sum (term st') Hd ltac:(lia) ltac:(lia) Os ltac:(apply (ok_le d (10000 * (m + 40))); [lia|exact Ot])) as [Oa Ea].
  apply IH; try lia.
  - replace (n + 1 - 1)%Z with n by lia. exact I'.
  - apply (ok_le d (10000 * (m + 40) + n * 70000 + 70000)); [lia|exact Oa].
  - replace (n + 1 - 1)%Z with n by lia. rewrite plus_IZR. exact L'.
  - replace (n + 1 - 1)%Z with n by lia. rewrite plus_IZR. fold N b. rewrite (p_17 d) in Ea.
    assert (M : Rmax (Rabs (value sum)) (Rabs (value (term st'))) <= 100200000 * b).
    { assert (N * N <= 10000 * N) by (apply Rmult_le_compat_r; lra). apply Rmax_lub; [|lra]. eapply Rle_trans; [exact B'|]. apply Rmult_le_compat_r; lra. }
    pose proof (Rabs_triang_inv (value (add d sum (term st'))) (value sum + value (term st'))) as T1. pose proof (Rabs_triang (value sum) (value (term st'))) as T2.
    assert (M2 : 2 * (u / 100000000000000000) * Rmax (Rabs (value sum)) (Rabs (value (term st'))) <= / 1000000000000000000 * (100200000 * b)).
    { apply Rmult_le_compat; [lra| |lra|exact M]. eapply Rle_trans; [apply Rabs_pos|apply Rmax_l]. }
    lra.
Qed.

Lemma log1p_diverges x : finite d x -> full d x -> 1 <= Rabs (value x) <= p10 100000 -> isnan (log1p d x) = true.
Proof.
  intros F P [B1 B2]. assert (Ox : ok d 100000 x).
  { apply (ok_of_bounds d); [exact F|exact P|]. split; [|exact B2]. apply Rle_trans with 1; [|exact B1]. rewrite <- p10_0. apply p10_le. lia. }
  destruct (ok_negate d 100000 x Hd Ox) as [On Vn]. assert (Bn : 1 <= Rabs (value (negate x))) by (rewrite Vn, Rabs_Ropp; exact B1).
  assert (E : h2f1 d (one d) (one d) (two d) (negate x) = value_nan d).
  { unfold h2f1, hyper_2f1, series_from. destruct (one_facts d Hd) as [O1 V1]. destruct (two_facts d Hd) as [O2 V2].
    set (y := negate x) in *. clearbody y. set (st := (y, (one d, one d), (one d, one d), (two d, two d))).
    assert (I : s_inv 100000 1 st).
    { split; [split; [apply (ok_le d 100000); [lia|exact On]|intro Z; rewrite Z, Rabs_R0 in Bn; lra]|]. split; [apply r_inv_start; [lra|assumption|assumption]|]. split; apply r_inv_start; try assumption; lra. }
    destruct (term_ok 100000 1 st ltac:(lia) ltac:(lia) I) as (Ot & Rt & Nx).
    assert (EX : Rabs (X st) = / 2 * Rabs (value y)).
    { unfold X, st. cbn [fst snd]. rewrite V1, V2, Rabs_mult. f_equal. rewrite Rabs_pos_eq; lra. }
    assert (G : exists f, f = Z.to_nat (max_iteration - 2) /\ (2 + Z.of_nat f <= 10000)%Z).
    { eexists. split; [reflexivity|]. rewrite Z2Nat.id; unfold max_iteration; lia. }
    destruct G as (f & <- & G). fold (term st).
    destruct (ok_add d (10000 * (100000 + 40)) (one d) (term st) Hd ltac:(lia) ltac:(lia) ltac:(apply (ok_le d 1); [lia|exact O1]) Ot) as [Oa Ea].
    change (or_nan d (series (add d) (small_ef d) (next y) term f 2 st (add d (one d) (term st))) = value_nan d).
    rewrite (diverge 100000 y); [reflexivity|lia|exact On|exact Bn|lia|lia|exact I| | |].
    - apply (ok_le d (10000 * (100000 + 40) + 70000)); [lia|exact Oa].
    - change (2 - 1)%Z with 1%Z. rewrite EX. lra.
    - change (2 - 1)%Z with 1%Z. pose proof (u_small d Hd) as U. rewrite (p_17 d), V1 in Ea. set (a := Rabs (X st)) in *.
      assert (Bt : Rabs (value (term st)) <= a * (1 + e7)). { unfold rel in Rt. fold a in Rt. pose proof (Rabs_triang_inv (value (term st)) (X st)) as T2. fold a in T2. lra. }
      assert (M : Rmax (Rabs 1) (Rabs (value (term st))) <= 3 * a) by (rewrite Rabs_R1; apply Rmax_lub; lra).
      pose proof (Rabs_triang_inv (value (add d (one d) (term st))) (1 + value (term st))) as T1. pose proof (Rabs_triang 1 (value (term st))) as T2. rewrite Rabs_R1 in T2 at 1.
      assert (M2 : 2 * (u / 100000000000000000) * Rmax (Rabs 1) (Rabs (value (term st))) <= / 1000000000000000000 * (3 * a)).
      { apply Rmult_le_compat; [lra| |lra|exact M]. eapply Rle_trans; [apply Rabs_pos|apply Rmax_l]. }
      lra. }
  unfold log1p, log_at_one. rewrite E. apply (isnan_mul_nan d Hd). apply F.
Qed.

End FixedDigits.
