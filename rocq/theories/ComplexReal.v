(** * The class template over the real numbers is Coquelicot's C *)

From Coq Require Import ZArith List Bool Lia Reals Lra Field.
From Coquelicot Require Import Complex.
From Verif Require Import Model SpecGen ModelPow ModelGen PowGen ComplexProofs.
Open Scope R_scope.

(** The complex number an object stands for. *)
Definition toC (z : cx R) : C := (re z, im z).

(** x < 0 *)
Definition rlt0 (x : R) : bool := if Rlt_dec x 0 then true else false.
Definition rtwice (x : R) : R := x * 2.
Definition rhalve (x : R) : R := x / 2.

Local Notation radd := (c_add Rplus).
Local Notation rsub := (c_sub 0 Rminus).
Local Notation rmul := (c_mul Rplus Rminus Rmult rtwice).
Local Notation rdiv := (c_div 0 1 Rplus Rminus Rmult Rdiv Ropp rltabs).
Local Notation rediv := (e_div 0 1 Rplus Rminus Rmult Rinv).
Local Notation rnorm := (c_norm 1 Rplus Rmult Rdiv rltabs).
Local Notation renorm := (e_norm Rplus Rmult).

Lemma toC_eq (z w : cx R) : toC z = toC w -> z = w.
Proof. destruct z as [a b], w as [c d]. unfold toC; cbn. intro E; inversion E; reflexivity. Qed.

Lemma real_twice : forall x, rtwice x = x + x. Proof. intro; unfold rtwice; ring. Qed.

Lemma real_ltabs w : toC w <> 0%C -> (rltabs (re w) (im w) = true -> im w <> 0) /\ (rltabs (re w) (im w) = false -> re w <> 0) /\ renorm w <> 0.
Proof.
  destruct w as [c d]. unfold toC, rltabs, e_norm, RtoC; cbn [re im]. intro N. repeat split.
  - destruct Rlt_dec; [|discriminate]. intros _ ->. rewrite Rabs_R0 in *. pose proof (Rabs_pos c). lra.
  - destruct Rlt_dec as [L|L]; [discriminate|]. intros _ ->. rewrite Rabs_R0 in *.
    destruct (Req_dec d 0) as [->|D]; [apply N; reflexivity|]. apply L. apply Rabs_pos_lt; exact D.
  - intro E. assert (A : c = 0 /\ d = 0) by (split; nra). destruct A as [-> ->]. apply N. reflexivity.
Qed.

Lemma real_arith z w :
  toC (radd z w) = (toC z + toC w)%C /\ toC (rsub false z w) = (toC z - toC w)%C /\ toC (rmul false z w) = (toC z * toC w)%C /\
  toC (rsub true z z) = 0%C /\ toC (rmul true z z) = (toC z * toC z)%C /\ toC (c_neg Ropp z) = (- toC z)%C.
Proof.
  destruct z as [a b], w as [c d]. unfold toC, c_add, c_sub, c_mul, c_neg, rtwice, Cplus, Cminus, Cmult, Copp, RtoC; cbn [re im fst snd].
  repeat apply conj; apply injective_projections; unfold Cplus; cbn [fst snd]; ring.
Qed.

Lemma Cdiv_unique (q z w : C) : w <> 0%C -> (q * w)%C = z -> q = (z / w)%C.
Proof. intros N <-. field. exact N. Qed.

Lemma real_division z w : toC w <> 0%C ->
  toC (rdiv false z w) = (toC z / toC w)%C /\ toC (rediv false z w) = (toC z / toC w)%C /\ toC (rdiv true w w) = (toC w / toC w)%C /\ toC (rediv true w w) = (toC w / toC w)%C.
Proof.
  intro N. destruct (real_ltabs w N) as (A & B & E).
  repeat apply conj; apply Cdiv_unique; auto.
  - rewrite <- (proj1 (proj2 (proj2 (real_arith _ _)))). f_equal. apply (c_div_correct R 0 1 Rplus Rminus Rmult Rdiv Ropp Rinv rtwice rltabs RealField.Rfield); assumption.
  - rewrite <- (proj1 (proj2 (proj2 (real_arith _ _)))). f_equal. apply (e_div_correct R 0 1 Rplus Rminus Rmult Rdiv Ropp Rinv rtwice RealField.Rfield); assumption.
  - unfold toC at 1, c_div; cbn [re im]. change (1, 0) with (RtoC 1). ring.
  - unfold toC at 1, e_div; cbn [re im]. change (1, 0) with (RtoC 1). ring.
Qed.

Lemma real_mixed (u : R) (z : cx R) :
  toC (cr_add Rplus z u) = (toC z + u)%C /\ toC (cr_sub Rminus z u) = (toC z - u)%C /\ toC (cr_mul Rmult z u) = (toC z * u)%C /\
  toC (rc_add Rplus u z) = (u + toC z)%C /\ toC (rc_sub Rminus Ropp u z) = (u - toC z)%C /\ toC (rc_mul Rmult u z) = (u * toC z)%C /\ toC (er_mul Rmult u z) = (u * toC z)%C /\
  (u <> 0 -> toC (cr_div Rdiv z u) = (toC z / u)%C) /\
  (toC z <> 0%C -> toC (rc_div Rplus Rmult Rdiv Ropp rltabs u z) = (u / toC z)%C /\ toC (re_div Rplus Rmult Rdiv Ropp u z) = (u / toC z)%C).
Proof.
  destruct (mixed_correct R 0 1 Rplus Rminus Rmult Rdiv Ropp Rinv rtwice RealField.Rfield z u) as (E1 & E2 & E3 & E4 & E5 & E6 & E7 & E8).
  pose (U := mkcx u 0). fold U in E1, E2, E3, E4, E5, E6, E7, E8. change (RtoC u) with (toC U).
  destruct (real_arith z U) as (P1 & P2 & P3 & _). destruct (real_arith U z) as (Q1 & Q2 & Q3 & _).
  rewrite E1, E2, E3, E4, E5, E6, E7. repeat apply conj; auto.
  - intro N. specialize (E8 N). apply Cdiv_unique; [intro E; apply N; apply (f_equal fst) in E; exact E|].
    rewrite <- (proj1 (proj2 (proj2 (real_arith _ _)))). f_equal. exact E8.
  - intro N. destruct (real_ltabs z N) as (A & B & E).
    destruct (rc_div_correct R 0 1 Rplus Rminus Rmult Rdiv Ropp Rinv rtwice rltabs RealField.Rfield u z E A B) as [X Y].
    split; apply Cdiv_unique; auto; rewrite <- (proj1 (proj2 (proj2 (real_arith _ _)))); f_equal; assumption.
Qed.

Lemma real_norm z : renorm z = Cmod (toC z) * Cmod (toC z) /\ (toC z <> 0%C -> rnorm z = Cmod (toC z) * Cmod (toC z)).
Proof.
  assert (M : renorm z = Cmod (toC z) * Cmod (toC z)).
  { unfold Cmod, toC, e_norm; cbn [fst snd]. rewrite sqrt_sqrt by nra. ring. }
  split; [exact M|]. intro N. rewrite <- M. destruct (real_ltabs z N) as (A & B & E).
  apply (c_norm_correct R 0 1 Rplus Rminus Rmult Rdiv Ropp Rinv rltabs RealField.Rfield); assumption.
Qed.

Lemma real_conj z : toC (c_conj Ropp z) = (Ci * toC z)%C.
Proof. destruct z as [a b]. unfold toC, c_conj, Ci, Cmult; apply injective_projections; cbn [re im fst snd]; ring. Qed.

Lemma real_conj_refuted : exists z, toC (c_conj Ropp z) <> Cconj (toC z).
Proof. exists (mkcx 1 0). unfold toC, c_conj, Cconj; cbn [re im fst snd]. intro E. apply (f_equal fst) in E. cbn in E. lra. Qed.

(** complex square root *)
Lemma real_sqrt z : toC z <> 0%C ->
  forall cabs, cabs z = Cmod (toC z) ->
  let w := c_sqrt Rplus Rdiv Ropp rtwice rhalve sqrt cabs rlt0 z in
  (toC w * toC w)%C = toC z /\ 0 <= Re (toC w).
Proof.
  intros N cabs HM. destruct z as [a b]. unfold c_sqrt. rewrite HM. unfold toC in *; cbn [re im] in *. unfold Cmod; cbn [fst snd].
  set (m := sqrt (a ^ 2 + b ^ 2)).
  assert (Hm : m * m = a * a + b * b) by (unfold m; rewrite sqrt_sqrt by nra; ring).
  assert (Pm : 0 <= m) by apply sqrt_pos.
  assert (Nz : a <> 0 \/ b <> 0). { destruct (Req_dec a 0) as [->|]; auto. destruct (Req_dec b 0) as [->|]; auto. }
  assert (Hn : 0 < m) by (destruct Nz; nra).
  unfold rlt0, rhalve, rtwice.
  set (fr := if (if Rlt_dec a 0 then true else false) then - a else a).
  assert (Hfr : fr = Rabs a). { unfold fr. destruct (Rlt_dec a 0) as [L|L]; [rewrite (Rabs_left a L)|rewrite (Rabs_right a) by lra]; reflexivity. }
  set (s := sqrt ((fr + m) / 2)).
  assert (Ps : 0 < s). { apply sqrt_lt_R0. rewrite Hfr. pose proof (Rabs_pos a). lra. }
  assert (Hs : s * s = (fr + m) / 2). { unfold s. rewrite sqrt_sqrt; [reflexivity|]. rewrite Hfr. pose proof (Rabs_pos a). lra. }
  assert (Hf2 : fr * fr = a * a) by (unfold fr; destruct (Rlt_dec a 0); ring).
  assert (K : (b / (s * 2)) * (b / (s * 2)) = (m - fr) / 2).
  { assert (Ne : s * 2 <> 0) by lra. replace (b / (s * 2) * (b / (s * 2))) with (b * b / (4 * (s * s))) by (field; lra). rewrite Hs.
    replace (b * b) with ((m - fr) * (m + fr)) by (ring_simplify; nra). field. rewrite Hfr. pose proof (Rabs_pos a). lra. }
  unfold fr in Hs, K. unfold fr in s. destruct (Rlt_dec a 0) as [L|L]; fold s in Hs; cbn [re im] in *; unfold Cmult, Re; cbn [fst snd].
  - set (bn := if Rlt_dec b 0 then true else false). fold bn.
    assert (Hb : bn = true /\ b < 0 \/ bn = false /\ 0 <= b) by (unfold bn; destruct (Rlt_dec b 0); [left|right]; split; auto; lra).
    assert (E : (if bn then - b else b) / (s * 2) * ((if bn then - b else b) / (s * 2)) = b / (s * 2) * (b / (s * 2))) by (destruct bn; field; lra).
    split.
    + apply injective_projections; cbn [fst snd].
      * rewrite E, K. replace ((if bn then - s else s) * (if bn then - s else s)) with (s * s) by (destruct bn; ring). rewrite Hs. lra.
      * destruct Hb as [[-> _]|[-> _]]; field; lra.
    + destruct Hb as [[-> H]|[-> H]]; apply Rmult_le_pos; try lra; left; apply Rinv_0_lt_compat; lra.
  - split; [apply injective_projections; cbn [fst snd]; [rewrite K, Hs; lra|field; lra]|lra].
Qed.
