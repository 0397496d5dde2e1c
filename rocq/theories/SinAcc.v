(** * Accuracy of sine and cosine (proofs only) *)

From Coq Require Import ZArith List Bool Reals Lra Lia Psatz.
From Verif Require Import Model Spec SpecGen Limbs Value CmpProofs AddProofs Decide OrderProofs OrderDec AddExtra MulProofs MulValue MulExtra MulCor
  IntProofs IntPartProofs IntConv MixedProofs IntCor ModelDiv DoubleProofs NewtonProofs InvProofs SqrtProofs ModelPow PowGen PowProofs PowExtra LdexpProofs
  StrAny FloatEval ModelGen ModelElem ElemProofs SeriesFloat ExpReal ExpFloat ExpAcc ConstReal SinReal SinFloat SinStep.
Import ListNotations.
Open Scope R_scope.
Ltac Zify.zify_post_hook ::= Z.div_mod_to_equations.
Local Notation p10 := (powerRZ 10).
Local Notation exp := Rtrigo_def.exp.
Local Notation sin := Rtrigo_def.sin.
Local Notation cos := Rtrigo_def.cos.
Local Notation sqrt := R_sqrt.sqrt.

Lemma pi_bounds : 31414 / 10000 < PI < 31417 / 10000.
Proof.
  pose proof (pi_int_ok 100000000 8 4 ltac:(lia) ltac:(cbn; lia) ltac:(cbn; lia)) as H.
  assert (E : (314158000 <= pi_int 100000000 8 4 <= 314160000)%Z) by (vm_compute; split; discriminate).
  revert H E. generalize (pi_int 100000000 8 4). intros z H E. assert (314158000 <= IZR z <= 314160000) by (split; apply IZR_le; lia).
  cbn [INR] in H. apply Rabs_le_inv in H. lra.
Qed.

Lemma sin_of_delta v : sin v = cos (PI / 2 - v).
Proof. symmetry. apply Rtrigo1.cos_shift. Qed.
Lemma cos_of_delta v : cos v = sin (PI / 2 - v).
Proof. symmetry. apply Rtrigo1.sin_shift. Qed.

Lemma pow39 : 3 ^ 9 = 19683. Proof. lra. Qed.
Lemma pow99 : 9 ^ 9 = 387420489. Proof. lra. Qed.

Section FixedDigits.
Variable d : Z.
Hypothesis Hd : valid_digits d.
Hypothesis Hd' : (d <= 4967)%Z.
Variable env : env.
Local Notation u := (p10 (- d)).
Local Notation pi := (c_pi env).
Local Notation ph := (pi_half d env).
Hypothesis Hpi : close_to d pi PI.

Lemma pi_facts : ok d 1 pi /\ Rabs (value pi - PI) <= u / 100000000 /\ 3141 / 1000 < value pi < 3142 / 1000.
Proof.
  pose proof (u_tiny d Hd) as U. pose proof pi_bounds as B. split; [apply (close_ok d Hd pi PI Hpi); lra|].
  destruct Hpi as (_ & _ & E). rewrite (p_8 d) in E. split; [exact E|]. apply Rabs_le_inv in E. lra.
Qed.

Lemma half_pi_facts : ok d 10 ph /\ Rabs (value ph - PI / 2) <= 158 / 1000 * u /\ 157 / 100 < value ph < 1571 / 1000.
Proof.
  pose proof (u_tiny d Hd) as U. pose proof pi_bounds as B. destruct pi_facts as (O & E & V).
  destruct (ok_div_int d Hd 1 pi 2 ltac:(lia) O ltac:(lra) ltac:(lia)) as (Oh & _ & R). fold ph in Oh, R. change (1 + 9)%Z with 10%Z in Oh.
  split; [exact Oh|]. unfold rel in R. rewrite (Rabs_pos_eq (value pi / 2)) in R by lra. apply Rabs_le_inv in R. apply Rabs_le_inv in E.
  assert (u / 10 * (value pi / 2) <= u / 10 * (1571 / 1000)) by (apply Rmult_le_compat_l; lra).
  split; [apply Rabs_le; lra|]. lra.
Qed.

Lemma small_arg_bound x : finite d x -> value x <> 0 -> small_arg d x = true -> Rabs (value x) <= / 1000000.
Proof.
  intros F N S. unfold small_arg, arg_limit in S. apply Z.ltb_lt in S. destruct (order_spec d x Hd F N) as [_ O].
  apply Rlt_le. eapply Rlt_le_trans; [exact O|]. apply Rle_trans with (p10 (- (6))); [apply p10_le; lia|]. p10num H 6%nat. rewrite H. lra.
Qed.

Lemma quarter_eq x : quarter d x = div_int d (negate (mul d x x)) 4.
Proof. reflexivity. Qed.

Section Reduced.
Variable m : Z.
Variable xx : ef.
Hypothesis Hm : (10 <= m <= 450000)%Z.
Hypothesis Ox : ok d m xx.
Local Notation v := (value xx).
Hypothesis Vx : - / 1000000000 <= v <= 1571 / 1000.
Local Notation delta := (sub d ph xx).

Lemma delta_facts : iszero (sub d xx ph) = false -> ok d (m + 70000) delta /\ value delta <> 0 /\ Rabs (value delta - (PI / 2 - v)) <= 159 / 1000 * u.
Proof.
  intro Z. pose proof (u_tiny d Hd) as U. destruct half_pi_facts as (Oh & Eh & Vh).
  destruct (ok_sub d m ph xx Hd ltac:(lia) ltac:(lia) (ok_le d 10 m ph ltac:(lia) Oh) Ox) as [Os Es].
  destruct (ok_sub d m xx ph Hd ltac:(lia) ltac:(lia) Ox (ok_le d 10 m ph ltac:(lia) Oh)) as [Os' _].
  split; [exact Os|]. split.
  - intro Z1. pose proof (sub_zero_eq d Hd ph xx (proj1 Oh) (proj1 Ox) (proj2 (proj1 Os)) Z1) as E.
    destruct (iszero_isneg_spec d (sub d xx ph) Hd (proj1 Os')) as [Zs _].
    assert (N : value (sub d xx ph) <> 0) by (intro C; apply Zs in C; rewrite C in Z; discriminate).
    destruct (ok_sub d m xx ph Hd ltac:(lia) ltac:(lia) Ox (ok_le d 10 m ph ltac:(lia) Oh)) as [_ Ev].
    apply N. apply (sub_same d xx ph Hd (proj1 Ox) (proj1 Oh) (eq_sym E)).
  - rewrite (p_17 d) in Es. assert (M : Rmax (Rabs (value ph)) (Rabs v) <= 2) by (apply Rmax_lub; apply Rabs_le; lra).
    assert (Es' : Rabs (value delta - (value ph - v)) <= 2 * (u / 100000000000000000) * 2) by (eapply Rle_trans; [exact Es|]; apply Rmult_le_compat_l; lra).
    apply Rabs_le_inv in Es'. apply Rabs_le_inv in Eh. apply Rabs_le. lra.
Qed.

Lemma sin_reduced_ok : let r := sin_reduced d env xx in finite d r /\ full d r /\ Rabs (value r - sin v) <= 25 / 100 * u * Rabs v.
Proof.
  pose proof (u_tiny d Hd) as U. destruct half_pi_facts as (Oh & Eh & Vh). destruct (iszero_isneg_spec d xx Hd (proj1 Ox)) as [Zx _].
  unfold sin_reduced. destruct (iszero xx) eqn:Z.
  { destruct (zero_ok d Hd) as (A & B & C). cbv zeta. split; [exact A|]. split; [exact B|]. rewrite (proj1 Zx eq_refl), C, sin_0, Rminus_0_r, !Rabs_R0. lra. }
  assert (N : v <> 0) by (intro C; apply Zx in C; discriminate).
  destruct (iszero (sub d xx ph)) eqn:Zs.
  { destruct (ok_sub d m xx ph Hd ltac:(lia) ltac:(lia) Ox (ok_le d 10 m ph ltac:(lia) Oh)) as [Os _].
    destruct (iszero_isneg_spec d (sub d xx ph) Hd (proj1 Os)) as [Zq _].
    pose proof (sub_zero_eq d Hd xx ph (proj1 Ox) (proj1 Oh) (proj2 (proj1 Os)) (proj1 Zq Zs)) as E.
    destruct (PowExtra.one_ok d Hd) as (A & B & C). cbv zeta. split; [exact A|]. split; [exact B|]. rewrite C.
    rewrite sin_of_delta. pose proof (cos_diff (PI / 2 - v) 0) as D. rewrite cos_0 in D. eapply Rle_trans; [exact D|].
    replace (0 - (PI / 2 - v)) with (value ph - PI / 2) by lra. replace (0 + (PI / 2 - v)) with (- (value ph - PI / 2)) by lra. rewrite Rabs_Ropp.
    rewrite (Rabs_pos_eq v) by lra. pose proof (Rabs_pos (value ph - PI / 2)). nra. }
  destruct (delta_facts Zs) as (Od & Nd & Ed).
  destruct (small_arg d xx) eqn:Sx.
  { pose proof (small_arg_bound xx (proj1 Ox) N Sx) as Bx.
    destruct (sin_small d Hd Hd' m xx ltac:(lia) Ox N ltac:(lra)) as [A B]. cbv zeta in A, B. rewrite quarter_eq in A, B.
    cbv zeta. split; [apply A|]. split; [apply A|]. pose proof (Rabs_pos v). nra. }
  destruct (small_arg d delta) eqn:Sd.
  { pose proof (small_arg_bound delta (proj1 Od) Nd Sd) as Bd.
    destruct (cos_small d Hd Hd' (m + 70000) delta ltac:(lia) Od Nd ltac:(lra)) as (A & _ & B). rewrite quarter_eq in A, B.
    cbv zeta. split; [apply A|]. split; [apply A|]. rewrite sin_of_delta.
    assert (V1 : 15 / 10 <= v) by (apply Rabs_le_inv in Bd; apply Rabs_le_inv in Ed; pose proof pi_bounds; lra).
    rewrite (Rabs_pos_eq v) by lra. revert V1 B Bd Ed. generalize (value (h0f1 d (half d) (div_int d (negate (mul d delta delta)) 4))) (value delta) (PI / 2 - v). generalize v. intros v' c w y V1 B Bd Ed. clear - V1 B Bd Ed U.
    pose proof (cos_diff y w) as D. assert (W : w * w <= / 1000000000000) by (apply Rabs_le_inv in Bd; nra).
    assert (S : Rabs (w + y) <= 3 / 1000000) by (apply Rabs_le_inv in Bd; apply Rabs_le_inv in Ed; apply Rabs_le; lra).
    assert (D2 : Rabs (w - y) * Rabs (w + y) <= 159 / 1000 * u * (3 / 1000000)) by (apply Rmult_le_compat; try apply Rabs_pos; assumption).
    replace (c - cos y) with ((c - cos w) + (cos w - cos y)) by ring. eapply Rle_trans; [apply Rabs_triang|]. nra. }
  cbv zeta. destruct (order_spec d xx Hd (proj1 Ox) N) as [O1 O2].
  destruct (Z.gtb_spec (order xx) (-4)) as [G|G].
  - assert (Q : / 1000 <= Rabs v). { rewrite <- p10_m3. eapply Rle_trans; [|exact O1]. apply p10_le. lia. }
    assert (V0 : / 1000 <= v) by (unfold Rabs in Q; destruct (Rcase_abs v); lra). rewrite (Rabs_pos_eq v) in * by lra.
    destruct (ok_div_int d Hd m xx 19683 ltac:(lia) Ox N ltac:(lia)) as (Ot & Nt & Rt). set (t := div_int d xx 19683) in *.
    unfold rel in Rt. rewrite (Rabs_pos_eq (v / 19683)) in Rt by lra.
    assert (T : / 20000000 <= value t <= 16 / 10 / 19683) by (apply Rabs_le_inv in Rt; nra).
    destruct (sin_small d Hd Hd' (m + 9) t ltac:(lia) Ot Nt ltac:(rewrite Rabs_pos_eq; lra)) as [A B]. cbv zeta in A, B. rewrite quarter_eq in A, B.
    set (s := mul d t _) in *. rewrite (Rabs_pos_eq (value t)) in B by lra.
    destruct (sin_iter d Hd Hd' 9 (value t) s (12 / 100 * u * value t) ltac:(lra)) as (R1 & R2 & R3).
    + rewrite pow39. lra.
    + apply Rmult_le_pos; lra.
    + rewrite pow39. nra.
    + apply A.
    + apply A.
    + exact B.
    + unfold sin_triple. split; [exact R1|]. split; [exact R2|]. rewrite pow39 in R3. set (w := value (times _ _ _)) in *. clearbody w.
      pose proof (sin_lipschitz (19683 * value t) v) as L.
      assert (E2 : Rabs (19683 * value t - v) <= u / 10 * v) by (apply Rabs_le_inv in Rt; apply Rabs_le; lra).
      replace (w - sin v) with ((w - sin (19683 * value t)) + (sin (19683 * value t) - sin v)) by ring. eapply Rle_trans; [apply Rabs_triang|].
      assert (T2 : 19683 * value t <= v + / 1000 * v) by (apply Rabs_le_inv in E2; nra).
      assert (0 <= u * v) by nra. assert (u * (19683 * value t) <= u * (v + / 1000 * v)) by (apply Rmult_le_compat_l; lra).
      assert (u / 1000000000000000 <= u / 1000000000000 * v) by nra. lra.
  - assert (Q : Rabs v <= / 1000). { rewrite <- p10_m3. left. eapply Rlt_le_trans; [exact O2|]. apply p10_le. lia. }
    destruct (sin_small d Hd Hd' m xx ltac:(lia) Ox N Q) as [A B]. cbv zeta in A, B. rewrite quarter_eq in A, B.
    split; [apply A|]. split; [apply A|]. pose proof (Rabs_pos v). nra.
Qed.

Lemma cos_reduced_ok : let r := cos_reduced d env xx in finite d r /\ full d r /\ Rabs (value r - cos v) <= 6 / 10 * u.
Proof.
  pose proof (u_tiny d Hd) as U. destruct half_pi_facts as (Oh & Eh & Vh). destruct (iszero_isneg_spec d xx Hd (proj1 Ox)) as [Zx _].
  unfold cos_reduced. destruct (iszero xx) eqn:Z.
  { destruct (PowExtra.one_ok d Hd) as (A & B & C). cbv zeta. split; [exact A|]. split; [exact B|]. rewrite (proj1 Zx eq_refl), C, cos_0, Rminus_eq_0, Rabs_R0. lra. }
  assert (N : v <> 0) by (intro C; apply Zx in C; discriminate).
  destruct (iszero (sub d xx ph)) eqn:Zs.
  { destruct (ok_sub d m xx ph Hd ltac:(lia) ltac:(lia) Ox (ok_le d 10 m ph ltac:(lia) Oh)) as [Os _].
    destruct (iszero_isneg_spec d (sub d xx ph) Hd (proj1 Os)) as [Zq _].
    pose proof (sub_zero_eq d Hd xx ph (proj1 Ox) (proj1 Oh) (proj2 (proj1 Os)) (proj1 Zq Zs)) as E.
    destruct (zero_ok d Hd) as (A & B & C). cbv zeta. split; [exact A|]. split; [exact B|]. rewrite C.
    rewrite cos_of_delta. unfold Rminus at 1. rewrite Rplus_0_l, Rabs_Ropp. eapply Rle_trans; [apply sin_le|].
    rewrite Rabs_minus_sym, E. lra. }
  destruct (delta_facts Zs) as (Od & Nd & Ed).
  destruct (small_arg d xx) eqn:Sx.
  { pose proof (small_arg_bound xx (proj1 Ox) N Sx) as Bx.
    destruct (cos_small d Hd Hd' m xx ltac:(lia) Ox N ltac:(lra)) as (A & _ & B). rewrite quarter_eq in A, B.
    cbv zeta. split; [apply A|]. split; [apply A|]. assert (v * v <= 1) by (apply Rabs_le_inv in Bx; nra). nra. }
  destruct (small_arg d delta) eqn:Sd.
  { pose proof (small_arg_bound delta (proj1 Od) Nd Sd) as Bd.
    destruct (sin_small d Hd Hd' (m + 70000) delta ltac:(lia) Od Nd ltac:(lra)) as (A & B). rewrite quarter_eq in A, B. cbv zeta in A, B.
    cbv zeta. split; [apply A|]. split; [apply A|]. rewrite cos_of_delta.
    revert B Bd Ed. generalize (value (mul d delta (h0f1 d (three_half d) (div_int d (negate (mul d delta delta)) 4)))) (value delta) (PI / 2 - v). intros c w y B Bd Ed. clear - B Bd Ed U.
    pose proof (sin_lipschitz w y) as D. replace (c - sin y) with ((c - sin w) + (sin w - sin y)) by ring. eapply Rle_trans; [apply Rabs_triang|]. nra. }
  cbv zeta. destruct (order_spec d xx Hd (proj1 Ox) N) as [O1 O2].
  destruct (Z.gtb_spec (order xx) (-4)) as [G|G].
  - assert (Q : / 1000 <= Rabs v). { rewrite <- p10_m3. eapply Rle_trans; [|exact O1]. apply p10_le. lia. }
    assert (V0 : / 1000 <= v) by (unfold Rabs in Q; destruct (Rcase_abs v); lra). rewrite (Rabs_pos_eq v) in * by lra.
    destruct (ok_div_int d Hd m xx 19683 ltac:(lia) Ox N ltac:(lia)) as (Ot & Nt & Rt). set (t := div_int d xx 19683) in *.
    unfold rel in Rt. rewrite (Rabs_pos_eq (v / 19683)) in Rt by lra.
    assert (T : / 20000000 <= value t <= 15711 / 10000 / 19683) by (apply Rabs_le_inv in Rt; nra).
    destruct (cos_small d Hd Hd' (m + 9) t ltac:(lia) Ot Nt ltac:(rewrite Rabs_pos_eq; lra)) as (A & _ & B). rewrite quarter_eq in A, B.
    set (s := h0f1 d _ _) in *.
    assert (T2 : value t * value t <= 6373 / 1000000000000) by nra.
    assert (B' : Rabs (value s - cos (value t)) <= 10935 / 10000000000000 * u) by (eapply Rle_trans; [exact B|]; apply Rmult_le_compat_r; lra).
    destruct (cos_iter d Hd Hd' 9 (value t) s (10935 / 10000000000000 * u) ltac:(lra)) as (R1 & R2 & R3).
    + rewrite pow39. lra.
    + lra.
    + rewrite pow99. lra.
    + apply A.
    + apply A.
    + exact B'.
    + unfold cos_triple. split; [exact R1|]. split; [exact R2|]. rewrite pow39, pow99 in R3. set (w := value (times _ _ _)) in *. clearbody w.
      pose proof (cos_lipschitz (19683 * value t) v) as L.
      assert (E2 : Rabs (19683 * value t - v) <= u / 10 * v) by (apply Rabs_le_inv in Rt; apply Rabs_le; lra).
      replace (w - cos v) with ((w - cos (19683 * value t)) + (cos (19683 * value t) - cos v)) by ring. eapply Rle_trans; [apply Rabs_triang|].
      assert (u / 10 * v <= u / 10 * (1571 / 1000)) by (apply Rmult_le_compat_l; lra). lra.
  - assert (Q : Rabs v <= / 1000). { rewrite <- p10_m3. left. eapply Rlt_le_trans; [exact O2|]. apply p10_le. lia. }
    destruct (cos_small d Hd Hd' m xx ltac:(lia) Ox N Q) as (A & _ & B). rewrite quarter_eq in A, B.
    split; [apply A|]. split; [apply A|]. assert (v * v <= 1) by (apply Rabs_le_inv in Q; nra). nra.
Qed.

End Reduced.

(** ** Parity of the multiple of pi *)

Lemma lead_two n k : finite d n -> value n = IZR k -> (2 <= k < 100000000)%Z -> (2 <= limb (data n) 0)%Z.
Proof.
  intros F V K. assert (K' : 2 <= IZR k < 100000000) by (split; [apply IZR_le; lia|apply IZR_lt; lia]).
  assert (P8 : p10 8 = 100000000) by (rewrite (p10_nonneg 8) by lia; reflexivity).
  pose proof (exp_between d n 0 8 Hd F ltac:(rewrite V, powerRZ_O, P8, Rabs_pos_eq; lra)) as E. pose proof (exp_mult8 d n (proj1 F)) as E8.
  assert (E0 : Model.exp n = 0%Z) by lia. destruct (Z_lt_le_dec (limb (data n) 0) 2) as [L|L]; [exfalso|exact L].
  pose proof (value_abs_mv d n) as A. rewrite V, E0, Rabs_pos_eq in A by lra. destruct F as [W C]. specialize (A (wf_length _ _ W) (wf_limbs _ _ W)).
  pose proof (Nn_len d n Hd W) as HL. pose proof (Nn_ge7 d Hd) as N7. pose proof (wf_limbs d n W) as Hl.
  pose proof (elem_number_bounds d Hd) as EB. pose proof (ulp_Bp d 0 1 ltac:(lia) ltac:(lia)) as E1. replace (0 + 8 - 8 * 1)%Z with 0%Z in E1 by lia. rewrite powerRZ_O in E1.
  replace (Z.to_nat (elem_number d - 1)) with (Nn d - 1)%nat in E1 by (unfold Nn, N; lia).
  destruct (data n) as [|a t]; [simpl in HL; lia|]. rewrite mv_cons in A. cbn [limb nth] in L. change (nth 0 (a :: t) 0%Z) with a in L. cbn [length] in HL.
  replace (Nn d - 1)%nat with (length t) in E1 by lia. pose proof (mv_bound t (Forall_inv_tail Hl)) as B.
  pose proof (ulp_pos d 0) as UP. assert (X : (a * Bp (length t) + mv t < 2 * Bp (length t))%Z) by nia.
  apply IZR_lt in X. rewrite mult_IZR in X. nra.
Qed.

Lemma div_int_2 n : div_int d n 2 = div_ull d n 2.
Proof. unfold div_int, div_sll. change (2 =? sll_min)%Z with false. cbv iota. change (2 <? 0)%Z with false. cbv iota. rewrite u64_small by lia. reflexivity. Qed.

Lemma half_even n j : finite d n -> full d n -> value n = IZR (2 * j) -> (1 <= j < 50000000)%Z -> value (div_int d n 2) = IZR j.
Proof.
  intros F P V J. assert (J' : 1 <= IZR j < 50000000) by (split; [apply IZR_le; lia|apply IZR_lt; lia]).
  pose proof (lead_two n (2 * j) F V ltac:(lia)) as L. rewrite mult_IZR in V. rewrite div_int_2.
  destruct (div_ull_small d n 2 Hd F P ltac:(lra) ltac:(lia)) as (A & _ & B & C & D). specialize (D L). set (r := div_ull d n 2) in *. clearbody r.
  rewrite V in *. replace (2 * IZR j / 2) with (IZR j) in * by field.
  assert (P8 : p10 8 = 100000000) by (rewrite (p10_nonneg 8) by lia; reflexivity).
  assert (N : value r <> 0) by (intro Z; rewrite Z in B; lra).
  assert (E : (Model.exp r < 8)%Z). { apply (exp_of_bound d r 8 Hd A); [|exact N]. rewrite P8. destruct D as ([D1 _] & _). rewrite (Rabs_pos_eq (IZR j)) in D1 by lra. lra. }
  pose proof (elem_number_bounds d Hd) as EB.
  apply (multiple_cut (ulp d (Model.exp r)) (IZR j) (value r) (j * 10 ^ (8 * (elem_number d - 1) - Model.exp r))); [apply ulp_pos| |exact D].
  rewrite Rabs_pos_eq by lra. rewrite mult_IZR, <- p10_nonneg by lia. unfold ulp. rewrite Rmult_assoc, <- p10_add.
  match goal with |- _ = _ * p10 ?e => replace e with 0%Z by lia end. rewrite powerRZ_O. ring.
Qed.

Lemma odd_flag n k : finite d n -> full d n -> value n = IZR k -> (0 <= k < 100000000)%Z ->
  negb (iszero (decimal_part d (div_int d n 2))) = Z.odd k.
Proof.
  intros F P V K. pose proof (u_tiny d Hd) as U. destruct (iszero_isneg_spec d n Hd F) as [Zn _].
  destruct (Z.eq_dec k 0) as [K0|K0].
  { subst k. assert (Z : iszero n = true) by (apply Zn; exact V). rewrite div_int_2. unfold div_ull.
    assert (N0 : neg n = false) by (apply (wf_zero d n (proj1 F) (proj2 F)); apply iszero_true; [apply F|exact Z]).
    assert (SN : set_neg n false = n) by (revert N0; destruct n; cbn; intros ->; reflexivity). rewrite SN. pose proof F as F'. destruct (finite_flags d _ F') as [Ni Nn]. rewrite Ni, Nn. change (2 =? 0)%Z with false. cbv iota.
    pose proof Z as Z'. rewrite Z'. unfold decimal_part. rewrite (finite_isfinite d _ F'), Z'. cbn [negb].
    destruct (zero_ok d Hd) as (Fz & _ & Vz). destruct (iszero_isneg_spec d (zero d) Hd Fz) as [Zz _]. rewrite (proj2 Zz Vz). reflexivity. }
  assert (K1 : 1 <= IZR k < 100000000) by (split; [apply IZR_le; lia|apply IZR_lt; lia]).
  assert (On : ok d 8 n).
  { apply (ok_of_bounds d); [exact F|exact P|]. rewrite V, Rabs_pos_eq by lra. rewrite p10_inv, (p10_nonneg 8) by lia. change (10 ^ 8)%Z with 100000000%Z. lra. }
  destruct (ok_div_int d Hd 8 n 2 ltac:(lia) On ltac:(lra) ltac:(lia)) as ((Fh & _ & _) & Nh & Rh).
  set (h := div_int d n 2) in *. unfold rel in Rh. rewrite V in Rh. rewrite (Rabs_pos_eq (IZR k / 2)) in Rh by lra.
  assert (Rh' : Rabs (value h - IZR k / 2) <= / 100) by (eapply Rle_trans; [exact Rh|]; nra). apply Rabs_le_inv in Rh'.
  assert (E : (Model.exp h < d - 1)%Z).
  { apply (exp_of_bound d h (d - 1) Hd Fh); [|exact Nh]. rewrite Rabs_pos_eq by lra. apply Rlt_le_trans with (p10 8).
    - rewrite (p10_nonneg 8) by lia. change (10 ^ 8)%Z with 100000000%Z. lra.
    - apply p10_le. destruct Hd. lia. }
  destruct (decimal_part_spec d h Hd Fh E) as [Fp Vp]. destruct (iszero_isneg_spec d (decimal_part d h) Hd Fp) as [Zp _].
  destruct (Z.odd k) eqn:O.
  - assert (Z : iszero (decimal_part d h) = false).
    { destruct (iszero (decimal_part d h)); [|reflexivity]. exfalso. pose proof (proj1 Zp eq_refl) as Q. rewrite Vp in Q.
      assert (Q' : value h = IZR (Ztrunc (value h))) by lra. set (z := Ztrunc (value h)) in *. rewrite Q' in Rh'.
      rewrite Zodd_bool_iff, Zodd_ex_iff in O. destruct O as (j & ->). rewrite plus_IZR, mult_IZR in Rh'.
      assert (B : -1 < IZR (z - j) < 1) by (rewrite minus_IZR; lra). assert (z - j = 0)%Z by (apply one_IZR_lt1 in B || (destruct B; apply lt_IZR in H; apply lt_IZR in H0; lia); assumption).
      replace z with j in Rh' by lia. lra. }
    rewrite Z. reflexivity.
  - assert (Ev : Z.even k = true) by (rewrite <- Z.negb_odd, O; reflexivity). apply Z.even_spec in Ev. destruct Ev as (j & ->).
    assert (Vh : value h = IZR j) by (apply half_even; auto; lia).
    assert (Z : iszero (decimal_part d h) = true) by (apply Zp; rewrite Vp, Vh, Ztrunc_IZR; ring). rewrite Z. reflexivity.
Qed.

(** ** Removing multiples of pi *)

Lemma multiple_ok xx : finite d xx -> full d xx -> value pi < value xx <= 300000000 ->
  let n := integer_part d (div d xx pi) in let r1 := sub d xx (mul d n pi) in
  exists k, (0 <= k)%Z /\ negb (iszero (decimal_part d (div_int d n 2))) = Z.odd k /\ ok d 80000 r1 /\
  Rabs (value r1 - (value xx - IZR k * PI)) <= 102 / 100000000 * value xx * u /\
  - / 10000000000 <= value r1 <= value pi + / 10000000000.
Proof.
  intros F P V n r1. pose proof (u_tiny d Hd) as U. destruct pi_facts as (Opi & Epi & Vpi). set (X := value xx) in *. set (Q := value pi) in *.
  assert (Ox : ok d 9 xx).
  { apply (ok_of_bounds d); [exact F|exact P|]. fold X. rewrite Rabs_pos_eq by lra. rewrite p10_inv, (p10_nonneg 9) by lia. change (10 ^ 9)%Z with 1000000000%Z. lra. }
  assert (Iq : 1 <= X / Q <= 100000000).
  { split; apply Rmult_le_reg_r with Q; try lra; unfold Rdiv; rewrite Rmult_assoc, Rinv_l, Rmult_1_r by lra; lra. }
  destruct (div_accurate d xx pi Hd ltac:(lia) F (proj1 Opi) P (proj1 (proj2 Opi))) as (Fq & Pq & Sq & _ & Eq).
  { apply (ok_in_range d 1); [exact Opi|lia|fold Q; lra]. }
  { fold X Q. unfold in_range. rewrite Rabs_pos_eq by lra. pose proof (p10_le (-2147483590) 0 ltac:(lia)) as Q1. pose proof (p10_le 8 2147483590 ltac:(lia)) as Q2.
    rewrite powerRZ_O in Q1. rewrite (p10_nonneg 8) in Q2 by lia. change (10 ^ 8)%Z with 100000000%Z in Q2. lra. }
  { right. fold X. lra. }
  specialize (Eq Hd'). fold X Q in Eq, Sq. rewrite (p_1 d), (Rabs_pos_eq (X / Q)) in Eq by lra.
  set (q := div d xx pi) in *. apply Rabs_le_inv in Eq.
  assert (Vq : X - u / 10 * X <= value q * Q <= X + u / 10 * X).
  { replace X with (X / Q * Q) by (field; lra). set (w := X / Q) in *. clearbody w. clear - Eq Vpi U. split; nra. }
  assert (Uq : u / 10 * (X / Q) <= u / 10 * 100000000) by (apply Rmult_le_compat_l; lra). assert (q0 : 0 < value q) by lra.
  destruct (Ztrunc_pos (value q) ltac:(lra)) as (K0 & K1 & K2). set (k := Ztrunc (value q)) in *.
  assert (E : (Model.exp q < d - 1)%Z).
  { apply (exp_of_bound d q (d - 1) Hd Fq); [|lra]. rewrite Rabs_pos_eq by lra. apply Rlt_le_trans with (p10 9).
    - rewrite (p10_nonneg 9) by lia. change (10 ^ 9)%Z with 1000000000%Z. lra.
    - apply p10_le. destruct Hd. lia. }
  destruct (integer_part_spec d q Hd Fq E) as (Fn & Vn & _ & Pn). fold n in Fn, Vn, Pn. fold k in Vn. specialize (Pn Pq).
  assert (Kb : IZR k < 96000000) by (apply Rmult_lt_reg_r with Q; [lra|]; apply Rle_lt_trans with (value q * Q); [apply Rmult_le_compat_r; lra|]; assert (u / 10 * X <= u / 10 * 300000000) by (apply Rmult_le_compat_l; lra); lra).
  assert (Kz : (k < 100000000)%Z) by (apply lt_IZR; lra). assert (K00 : 0 <= IZR k) by (apply IZR_le; exact K0).
  exists k. split; [exact K0|]. split; [apply odd_flag; auto|].
  assert (On : ok d 8 n).
  { split; [exact Fn|]. split; [exact Pn|]. rewrite Vn. destruct (Z.eq_dec k 0) as [->|N]; [left; reflexivity|right].
    assert (1 <= IZR k) by (apply IZR_le; lia). rewrite Rabs_pos_eq by lra. rewrite p10_inv, (p10_nonneg 8) by lia. change (10 ^ 8)%Z with 100000000%Z. lra. }
  destruct (ok_rel_mul d Hd Hd' 8 1 n pi ltac:(lia) ltac:(lia) ltac:(lia) On Opi) as [Om Rm]. unfold rel in Rm. rewrite Vn in Rm. fold Q in Rm.
  destruct (ok_sub d 10 xx (mul d n pi) Hd ltac:(lia) ltac:(lia) (ok_le d 9 10 xx ltac:(lia) Ox) (ok_le d (8 + 1 + 1) 10 _ ltac:(lia) Om)) as [Os Es]. fold r1 X in Os, Es.
  split; [apply (ok_le d (10 + 70000)); [lia|exact Os]|].
  rewrite (p_17 d) in Es. set (p := value (mul d n pi)) in *. set (kk := IZR k) in *. set (w := value r1) in *. set (qq := value q) in *.
  clearbody p w qq kk X Q. clear - U Vpi Epi V Vq K1 K2 Rm Es K00 q0.
  assert (KQ : 0 <= kk * Q) by (apply Rmult_le_pos; lra). rewrite (Rabs_pos_eq (kk * Q)) in Rm by lra.
  assert (uX : 0 <= u * X <= / 1000000000000) by nra.
  assert (kk * Q <= qq * Q) by (apply Rmult_le_compat_r; lra). assert (qq * Q < (kk + 1) * Q) by (apply Rmult_lt_compat_r; lra).
  assert (K3 : kk * (3141 / 1000) <= kk * Q) by (apply Rmult_le_compat_l; lra).
  assert (KX : kk * Q <= X + u / 10 * X) by lra. assert (KX' : X - u / 10 * X < kk * Q + Q) by lra.
  assert (Rm' : Rabs (p - kk * Q) <= 1001 / 1000 * (u / 1000000) * X).
  { eapply Rle_trans; [exact Rm|]. replace (1001 / 1000 * (u / 1000000) * X) with (u / 1000000 * (1001 / 1000 * X)) by ring. apply Rmult_le_compat_l; [lra|]. nra. }
  assert (Mx : Rmax (Rabs X) (Rabs p) <= 2 * X).
  { apply Rmax_lub; [rewrite Rabs_pos_eq; lra|]. apply Rabs_le_inv in Rm'. apply Rabs_le. assert (1001 / 1000 * (u / 1000000) * X <= / 1000) by lra. lra. }
  assert (Es' : Rabs (w - (X - p)) <= 2 * (u / 100000000000000000) * (2 * X)) by (eapply Rle_trans; [exact Es|]; apply Rmult_le_compat_l; lra).
  assert (Ep : Rabs (kk * (Q - PI)) <= X / 3 * (u / 100000000)).
  { rewrite Rabs_mult, (Rabs_pos_eq kk) by lra. apply Rmult_le_compat; try lra; apply Rabs_pos. }
  apply Rabs_le_inv in Rm'. apply Rabs_le_inv in Es'. apply Rabs_le_inv in Ep. split; [apply Rabs_le; lra|]. lra.
Qed.
(* the argument of the kernel functions, with its distance from the true one *)
Definition target (refl : bool) (y : R) : R := if refl then PI - y else y.

Lemma reduce_ok xx : ok d 300000 xx -> 0 <= value xx <= 300000000 ->
  exists r k refl, reduce d env xx = (r, Z.odd k, refl) /\ ok d 440000 r /\ - / 1000000000 <= value r <= 1571 / 1000 /\
  ((refl = false /\ k = 0%Z /\ value r = value xx) \/
   (15 / 10 <= value xx /\ Rabs (value r - target refl (value xx - IZR k * PI)) <= (102 / 100000000 * value xx + 2 / 100000000) * u)).
Proof.
  intros Ox V. pose proof (u_tiny d Hd) as U. pose proof pi_bounds as PB. destruct pi_facts as (Opi & Epi & Vpi). destruct half_pi_facts as (Oh & Eh & Vh).
  (* first step *)
  assert (S1 : exists r1 k, (if op_gt xx pi then
      let n_pi := integer_part d (div d xx pi) in (sub d xx (mul d n_pi pi), negb (iszero (decimal_part d (div_int d n_pi 2)))) else (xx, false)) = (r1, Z.odd k) /\
    ok d 300000 r1 /\ - / 10000000000 <= value r1 <= value pi + / 10000000000 /\
    ((k = 0%Z /\ value r1 = value xx) \/ (3 <= value xx /\ Rabs (value r1 - (value xx - IZR k * PI)) <= 102 / 100000000 * value xx * u))).
  { pose proof (proj2 (proj2 (proj2 (proj2 (proj2 (cmp_all_ops d xx pi Hd (proj1 Ox) (proj1 Opi))))))) as G. destruct (op_gt xx pi).
    - pose proof (proj1 G eq_refl) as G'. destruct (multiple_ok xx (proj1 Ox) (proj1 (proj2 Ox)) ltac:(lra)) as (k & K0 & K1 & K2 & K3 & K4). cbv zeta in *.
      exists (sub d xx (mul d (integer_part d (div d xx pi)) pi)), k. split; [f_equal; exact K1|]. split; [apply (ok_le d 80000); [lia|exact K2]|]. split; [exact K4|]. right. split; [lra|exact K3].
    - assert (G' : ~ value xx > value pi) by (intro C; apply G in C; discriminate). exists xx, 0%Z. split; [reflexivity|]. split; [exact Ox|]. split; [lra|]. left. split; reflexivity. }
  destruct S1 as (r1 & k & E1 & O1 & B1 & D1). unfold reduce. cbv zeta in E1 |- *. rewrite E1.
  pose proof (proj2 (proj2 (proj2 (proj2 (proj2 (cmp_all_ops d r1 ph Hd (proj1 O1) (proj1 Oh))))))) as G. destruct (op_gt r1 ph).
  - pose proof (proj1 G eq_refl) as G'. exists (sub d pi r1), k, true. split; [reflexivity|].
    destruct (ok_sub d 300000 pi r1 Hd ltac:(lia) ltac:(lia) (ok_le d 1 300000 pi ltac:(lia) Opi) O1) as [Os Es]. split; [apply (ok_le d (300000 + 70000)); [lia|exact Os]|].
    rewrite (p_17 d) in Es. assert (M : Rmax (Rabs (value pi)) (Rabs (value r1)) <= 4) by (apply Rmax_lub; apply Rabs_le; lra).
    assert (Es' : Rabs (value (sub d pi r1) - (value pi - value r1)) <= 2 * (u / 100000000000000000) * 4) by (eapply Rle_trans; [exact Es|]; apply Rmult_le_compat_l; lra).
    unfold target. revert Es' D1 B1 G' Epi Eh. generalize (value (sub d pi r1)). generalize (value r1) (value pi) (value ph) (value xx) V U PB Vpi Vh. clear. intros r1 Q H X V U PB Vpi Vh r Es D1 B1 G Epi Eh.
    apply Rabs_le_inv in Es. apply Rabs_le_inv in Epi. apply Rabs_le_inv in Eh. split; [lra|]. right.
    destruct D1 as [[-> D1]|[D0 D1]].
    + split; [lra|]. assert (0 <= X * u) by (apply Rmult_le_pos; lra). apply Rabs_le. rewrite Rmult_0_l. lra.
    + split; [lra|]. apply Rabs_le_inv in D1. apply Rabs_le. lra.
  - assert (G' : ~ value r1 > value ph) by (intro C; apply G in C; discriminate).
    exists r1, k, false. split; [reflexivity|]. split; [apply (ok_le d 300000); [lia|exact O1]|]. split; [lra|]. unfold target.
    destruct D1 as [[-> D1]|[D0 D1]]; [left; auto|right]. split; [lra|]. eapply Rle_trans; [exact D1|]. lra.
Qed.

Lemma sin_target refl y : sin (target refl y) = sin y.
Proof. destruct refl; [|reflexivity]. unfold target. rewrite sin_PI_x. reflexivity. Qed.
Lemma cos_target refl y : cos (target refl y) = if refl then - cos y else cos y.
Proof. destruct refl; [|reflexivity]. unfold target. apply Rtrigo_facts.cos_pi_minus. Qed.

Lemma sin_parity X k : sin X = if Z.odd k then - sin (X - IZR k * PI) else sin (X - IZR k * PI).
Proof.
  destruct (Z.odd k) eqn:O.
  - rewrite Zodd_bool_iff, Zodd_ex_iff in O. destruct O as (j & ->). rewrite <- (proj2 (SinReal.sin_shift (X - IZR (2 * j + 1) * PI) j)). f_equal. ring.
  - assert (Ev : Z.even k = true) by (rewrite <- Z.negb_odd, O; reflexivity). apply Z.even_spec in Ev. destruct Ev as (j & ->).
    rewrite <- (proj1 (SinReal.sin_shift (X - IZR (2 * j) * PI) j)). f_equal. ring.
Qed.
Lemma cos_parity X k : cos X = if Z.odd k then - cos (X - IZR k * PI) else cos (X - IZR k * PI).
Proof.
  destruct (Z.odd k) eqn:O.
  - rewrite Zodd_bool_iff, Zodd_ex_iff in O. destruct O as (j & ->). rewrite <- (proj2 (SinReal.cos_shift (X - IZR (2 * j + 1) * PI) j)). f_equal. ring.
  - assert (Ev : Z.even k = true) by (rewrite <- Z.negb_odd, O; reflexivity). apply Z.even_spec in Ev. destruct Ev as (j & ->).
    rewrite <- (proj1 (SinReal.cos_shift (X - IZR (2 * j) * PI) j)). f_equal. ring.
Qed.

Lemma negate_if (b : bool) s : finite d s -> full d s ->
  finite d (if b then negate s else s) /\ full d (if b then negate s else s) /\ value (if b then negate s else s) = if b then - value s else value s.
Proof.
  intros F P. destruct b; [|auto]. split; [apply negate_finite; exact F|]. split; [unfold full in *; rewrite negate_prec; exact P|apply (negate_value d); auto].
Qed.

Lemma sin_accurate x : ok d 300000 x -> Rabs (value x) <= 300000000 ->
  let r := ModelElem.sin d env x in
  finite d r /\ full d r /\ Rabs (value r - sin (value x)) <= (Rmin 1 (Rabs (value x)) / 2 + Rabs (value x) / 500000) * u.
Proof.
  intros O B. pose proof (u_tiny d Hd) as U. unfold ModelElem.sin. rewrite (finite_isfinite d x (proj1 O)). cbn [negb].
  destruct (iszero_isneg_spec d x Hd (proj1 O)) as [_ Ns].
  destruct (negate_if (isneg x) x (proj1 O) (proj1 (proj2 O))) as (F1 & P1 & V1). set (xx := if isneg x then negate x else x) in *.
  assert (A : value xx = Rabs (value x)).
  { rewrite V1. destruct (isneg x) eqn:N; [rewrite Rabs_left; [reflexivity|apply Ns; reflexivity]|]. rewrite Rabs_pos_eq; [reflexivity|]. apply Rnot_lt_le. intro C. apply Ns in C. discriminate. }
  assert (Oxx : ok d 300000 xx).
  { split; [exact F1|]. split; [exact P1|]. rewrite A. destruct O as (_ & _ & M). unfold moderate in *. rewrite Rabs_Rabsolu. destruct M as [->|M]; [left; apply Rabs_R0|right; exact M]. }
  destruct (reduce_ok xx Oxx ltac:(rewrite A; split; [apply Rabs_pos|exact B])) as (r & k & refl & E & Or & Br & D).
  clearbody xx. rewrite E. cbv zeta iota.
  destruct (sin_reduced_ok 440000 r ltac:(lia) Or Br) as (Fs & Ps & Es). cbv zeta in *. set (s := sin_reduced d env r) in *. clearbody s.
  destruct (negate_if (xorb (isneg x) (Z.odd k)) s Fs Ps) as (F2 & P2 & V2). split; [exact F2|]. split; [exact P2|]. rewrite V2.
  (* the error before the sign *)
  set (X := value xx) in *. assert (X0 : 0 <= X) by (rewrite A; apply Rabs_pos). rewrite <- A.
  set (sg := xorb (isneg x) (Z.odd k)).
  assert (T : sin (value x) = if sg then - sin (X - IZR k * PI) else sin (X - IZR k * PI)).
  { assert (sin (value x) = if isneg x then - sin X else sin X).
    { rewrite A. destruct (isneg x) eqn:N.
      - rewrite Rabs_left by (apply Ns; reflexivity). rewrite sin_neg. ring.
      - rewrite Rabs_pos_eq; [reflexivity|]. apply Rnot_lt_le. intro C. apply Ns in C. discriminate. }
    rewrite H, (sin_parity X k). unfold sg. destruct (isneg x), (Z.odd k); cbn [xorb]; ring. }
  rewrite T. clearbody sg X. clear - D Es Br X0 U Hd.
  assert (G : Rabs (value s - sin (X - IZR k * PI)) <= (Rmin 1 X / 2 + X / 500000) * u).
  { destruct D as [(-> & -> & D)|[D1 D2]].
    - rewrite D in *. rewrite Rmult_0_l, Rminus_0_r. eapply Rle_trans; [exact Es|]. rewrite (Rabs_pos_eq X) by lra.
      assert (M : 25 / 100 * X <= Rmin 1 X / 2) by (apply Rmin_case; lra).
      apply Rle_trans with (25 / 100 * X * u); [right; ring|]. apply Rmult_le_compat_r; lra.
    - rewrite Rmin_left by lra. rewrite <- (sin_target refl (X - IZR k * PI)).
      set (y := target refl (X - IZR k * PI)) in *. clearbody y. pose proof (sin_lipschitz (value r) y) as L.
      replace (value s - sin y) with ((value s - sin (value r)) + (sin (value r) - sin y)) by ring. eapply Rle_trans; [apply Rabs_triang|].
      assert (Rr : Rabs (value r) <= 1571 / 1000) by (apply Rabs_le; lra).
      assert (25 / 100 * u * Rabs (value r) <= 25 / 100 * u * (1571 / 1000)) by (apply Rmult_le_compat_l; lra).
      assert (0 <= X * u) by (apply Rmult_le_pos; lra). lra. }
  destruct sg; [|exact G]. replace (- value s - - sin (X - IZR k * PI)) with (- (value s - sin (X - IZR k * PI))) by ring. rewrite Rabs_Ropp. exact G.
Qed.

Lemma cos_accurate x : ok d 300000 x -> Rabs (value x) <= 300000000 ->
  let r := ModelElem.cos d env x in
  finite d r /\ full d r /\ Rabs (value r - cos (value x)) <= (2 / 3 + Rabs (value x) / 500000) * u.
Proof.
  intros O B. pose proof (u_tiny d Hd) as U. unfold ModelElem.cos. rewrite (finite_isfinite d x (proj1 O)). cbn [negb].
  destruct (iszero_isneg_spec d x Hd (proj1 O)) as [_ Ns].
  destruct (negate_if (isneg x) x (proj1 O) (proj1 (proj2 O))) as (F1 & P1 & V1). set (xx := if isneg x then negate x else x) in *.
  assert (A : value xx = Rabs (value x)).
  { rewrite V1. destruct (isneg x) eqn:N; [rewrite Rabs_left; [reflexivity|apply Ns; reflexivity]|]. rewrite Rabs_pos_eq; [reflexivity|]. apply Rnot_lt_le. intro C. apply Ns in C. discriminate. }
  assert (Oxx : ok d 300000 xx).
  { split; [exact F1|]. split; [exact P1|]. rewrite A. destruct O as (_ & _ & M). unfold moderate in *. rewrite Rabs_Rabsolu. destruct M as [->|M]; [left; apply Rabs_R0|right; exact M]. }
  destruct (reduce_ok xx Oxx ltac:(rewrite A; split; [apply Rabs_pos|exact B])) as (r & k & refl & E & Or & Br & D).
  clearbody xx. rewrite E. cbv zeta iota.
  destruct (cos_reduced_ok 440000 r ltac:(lia) Or Br) as (Fs & Ps & Es). cbv zeta in *. set (s := cos_reduced d env r) in *. clearbody s.
  destruct (negate_if (xorb (Z.odd k) refl) s Fs Ps) as (F2 & P2 & V2). split; [exact F2|]. split; [exact P2|]. rewrite V2.
  set (X := value xx) in *. assert (X0 : 0 <= X) by (rewrite A; apply Rabs_pos). rewrite <- A.
  set (sg := xorb (Z.odd k) refl).
  assert (T : cos (value x) = if sg then - cos (target refl (X - IZR k * PI)) else cos (target refl (X - IZR k * PI))).
  { assert (cos (value x) = cos X).
    { rewrite A. unfold Rabs. destruct (Rcase_abs (value x)); [rewrite cos_neg|]; reflexivity. }
    rewrite H, (cos_parity X k), cos_target. unfold sg. destruct refl, (Z.odd k); cbn [xorb]; ring. }
  rewrite T. clearbody sg X. clear - D Es Br X0 U Hd.
  set (y := target refl (X - IZR k * PI)) in *.
  assert (G : Rabs (value s - cos y) <= (2 / 3 + X / 500000) * u).
  { assert (E : Rabs (value r - y) <= (102 / 100000000 * X + 2 / 100000000) * u).
    { destruct D as [(-> & -> & D)|[D1 D2]]; [|exact D2]. unfold y, target. rewrite D, Rmult_0_l, Rminus_0_r, Rminus_eq_0, Rabs_R0. apply Rmult_le_pos; lra. }
    clearbody y. pose proof (cos_lipschitz (value r) y) as L.
    replace (value s - cos y) with ((value s - cos (value r)) + (cos (value r) - cos y)) by ring. eapply Rle_trans; [apply Rabs_triang|].
    assert (0 <= X * u) by (apply Rmult_le_pos; lra). lra. }
  clearbody y. destruct sg; [|exact G]. replace (- value s - - cos y) with (- (value s - cos y)) by ring. rewrite Rabs_Ropp. exact G.
Qed.

End FixedDigits.
